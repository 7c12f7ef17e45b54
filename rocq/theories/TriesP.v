(* How often the frame of a request is sent. *)
From Verif Require Import Lib StreamM FrameM CommandsM RegionM RadioM SmM MacStateM MacTac MacUtilM OpsM MacCmdM MacProcM MacApiM MacRw SpecRegion SpecValid CoreP CaseP RxP SpecHist SpecSend HistP EndP WindowP TxP UplinkP ReadyP DataP AcceptP CtxP DownP ValidP SentP ChoiceP.

Lemma data_count_app l l' : data_count (l ++ l') = data_count l + data_count l'.
Proof. unfold data_count. rewrite filter_app, app_length. lia. Qed.
Lemma data_count_none l : forallb no_tx l = true -> data_count l = 0.
Proof.
  unfold data_count. induction l as [|o l IH]; [reflexivity|]. cbn [forallb filter]. intros H. apply andb_true_iff in H. destruct H as [H1 H2].
  destruct o; try discriminate H1; now apply IH.
Qed.
Lemma data_count_one c m : data_count [transmit_of c m] = (if is_data_frame (frame_of m) then 1 else 0).
Proof. unfold data_count, transmit_of. cbv zeta. cbn [filter sends_data]. change (slice (m_buffer m) 0 (Z.to_nat (m_bufferLen m))) with (frame_of m). destruct (is_data_frame _); reflexivity. Qed.

Lemma step_count c e k m : so (m_op m) (m_state m) = true -> ready c m ->
  let lo := new_out m (fst (step c e k m)) in
  (is_data (m_op m) = false -> data_count lo = 0) /\
  (is_data (m_op m) = true -> data_count lo = tx_count lo /\ (is_data (m_op (fst (step c e k m))) = false -> data_count lo = 0)).
Proof.
  intros S R lo. destruct (step_tx c e k m S) as [N|(l1 & l2 & EL & P1 & P2 & EK & ST & SS & _)].
  - fold lo in N. rewrite (data_count_none _ N), (tx_count_none _ N). auto.
  - fold lo in EL. rewrite EL, !data_count_app, !tx_count_app, (data_count_none _ P1), (data_count_none _ P2), (tx_count_none _ P1), (tx_count_none _ P2), data_count_one.
    change (tx_count [transmit_of c m]) with 1. split.
    + intros ND. destruct (is_data_frame (frame_of m)) eqn:F; [|reflexivity]. pose proof (tx_data c m S R ST F). congruence.
    + intros D. destruct R as (_ & _ & _ & _ & HD & _). destruct (HD D) as (body & rest & B). destruct (frame_data_kind _ _ _ _ B) as (_ & -> & _).
      split; [reflexivity|]. intros ND. destruct SS as [O _]. rewrite O in ND. congruence.
Qed.

Lemma no_begin c e k m m' lo : accepted (step_items c e k m) = 0 -> ~ begins c e k (snd (step c e k m)) m m' lo.
Proof.
  intros A ((cf & port & d & o & -> & _) & ST & _). unfold step_items in A. rewrite accepted_app, accepted_outs in A.
  unfold accepted, count in A. cbn [filter] in A. unfold is_accepted in A. rewrite ST in A. cbn [length] in A. lia.
Qed.

Lemma step_outs c e k m : outs (step_items c e k m) = new_out m (fst (step c e k m)).
Proof. unfold step_items. rewrite outs_app, outs_map. destruct k; reflexivity. Qed.

Lemma accepted_nonneg l : 0 <= accepted l. Proof. unfold accepted, count. lia. Qed.

Lemma items_snoc c h e k m : items c (h ++ [(e, k)]) m = items c h m ++ step_items c e k (run c h m).
Proof.
  revert m. induction h as [|[e' k'] h IH]; intros m; cbn [items run app]; [rewrite app_nil_r; reflexivity|]. rewrite IH, app_assoc. reflexivity.
Qed.

(* without an operation and without a new request nothing is sent *)
Theorem none_sent c h m : in_place c -> so (m_op m) (m_state m) = true -> ready c m -> is_data (m_op m) = false ->
  accepted (items c h m) = 0 -> data_count (outs (items c h m)) = 0 /\ is_data (m_op (run c h m)) = false.
Proof.
  intros IP S R N. induction h as [|[e k] h IH] using rev_ind; intros A; [split; [reflexivity|exact N]|].
  rewrite items_snoc, accepted_app in A. pose proof (accepted_nonneg (items c h m)). pose proof (accepted_nonneg (step_items c e k (run c h m))).
  destruct IH as [D0 N0]; [lia|]. rewrite items_snoc, outs_app, data_count_app, D0, step_outs, run_app. cbn [run].
  destruct (ready_always c h m IP S R) as [S1 R1]. destruct (step_count c e k _ S1 R1) as [C0 _]. rewrite (C0 N0). split; [reflexivity|].
  destruct (is_data (m_op (fst (step c e k (run c h m))))) eqn:D; [|reflexivity]. exfalso.
  destruct (step_send c e k _ S1 R1 D) as [(G & _)|B]; [congruence|]. revert B. apply no_begin. lia.
Qed.

Theorem tries_sent c r a e0 h1 e cf port d o h2 : in_place c -> arg_ok a -> valid_start r (ia_session a) ->
  let k := C_data cf port d o in
  Forall (fun x => power_arg (snd x)) (h1 ++ (e, k) :: h2) ->
  let m1 := run c h1 (MAC_init c r a e0) in let m1' := fst (step c e k m1) in
  starts (IReq k (snd (step c e k m1))) = Some KData ->
  accepted (items c h2 m1') = 0 ->
  1 <= redundancy o (m_ctx m1) <= 15 /\ data_count (outs (items c h2 m1')) <= redundancy o (m_ctx m1) /\
  (is_data (m_op (run c h2 m1')) = true ->
    data_count (outs (items c h2 m1')) = sent_now (run c h2 m1') /\ 0 <= m_trials (run c h2 m1') < redundancy o (m_ctx m1)).
Proof.
  intros IP OK V k PA m1 m1' ST. apply Forall_app in PA. destruct PA as [PA1 PA2].
  destruct (start_facts c r a e0 h1 IP OK V PA1) as (S1 & R1 & VS). fold m1 in S1, R1, VS.
  assert (1 <= redundancy o (m_ctx m1) <= 15) as RB by (apply redundancy_15; destruct VS as (_ & _ & _ & _ & N); lia).
  assert (ready c m1' /\ so (m_op m1') (m_state m1') = true) as [R1' S1'].
  { destruct (ready_always c [(e, k)] m1 IP S1 R1) as [X Y]. split; assumption. }
  assert (is_data (m_op m1') = true /\ m_trials m1' = 0 /\ after_tx (m_state m1') = false /\ tries_allowed m1' = redundancy o (m_ctx m1)) as (D1 & T1 & A1 & TA).
  { assert (is_data (m_op m1') = true) as D1.
    { destruct (step_cases c e k m1) as (x1 & x2 & _ & A & Q2 & _). fold m1' in Q2. destruct Q2 as [[C2 _] _]. rewrite (core_op_eq _ _ C2).
      destruct (act_data_inv _ _ _ _ _ _ _ _ _ A ST) as (tx & f & op & st & _ & _ & _ & _ & _ & _ & _ & CO & C). rewrite (core_op_eq _ _ C), data_filled_op.
      exact (proj1 (compose_op _ _ _ _ _ _ _ _ _ CO)). }
    split; [exact D1|]. destruct (step_send c e k m1 S1 R1 D1) as [(G & _)|((cf' & port' & d' & o' & E & TA) & _ & _ & T & A & _)].
    - exfalso. destruct (step_cases c e k m1) as (x1 & x2 & Q1 & A & _ & _). destruct (act_data_inv _ _ _ _ _ _ _ _ _ A ST) as (tx & f & op & st & _ & O & _).
      destruct Q1 as [[C1 _] _]. rewrite (core_op_eq _ _ C1) in O. rewrite O in G. discriminate G.
    - injection E as _ _ _ <-. auto. }
  set (R := redundancy o (m_ctx m1)) in *.
  enough (forall h, accepted (items c h m1') = 0 ->
    data_count (outs (items c h m1')) <= R /\
    (is_data (m_op (run c h m1')) = true -> data_count (outs (items c h m1')) = sent_now (run c h m1') /\ 0 <= m_trials (run c h m1') < R /\ tries_allowed (run c h m1') = R)) as H.
  { intros A. split; [exact RB|]. destruct (H h2 A) as [H1 H2]. split; [exact H1|]. intros D. destruct (H2 D) as (H3 & H4 & _). auto. }
  induction h as [|[e' k'] h IH] using rev_ind; intros AC.
  - cbn [items outs flat_map run]. unfold sent_now. rewrite T1, A1. change (data_count []) with 0. split; [lia|]. intros _. split; [lia|]. split; [lia|exact TA].
  - rewrite items_snoc, accepted_app in AC. pose proof (accepted_nonneg (items c h m1')). pose proof (accepted_nonneg (step_items c e' k' (run c h m1'))).
    destruct IH as [B0 I0]; [lia|]. rewrite items_snoc, outs_app, data_count_app, step_outs, run_app. cbn [run]. set (m := run c h m1') in *.
    destruct (ready_always c h m1' IP S1' R1') as [S2 R2]. fold m in S2, R2. destruct (step_count c e' k' m S2 R2) as [C0 C1].
    destruct (is_data (m_op (fst (step c e' k' m)))) eqn:D'.
    + destruct (step_send c e' k' m S2 R2 D') as [(G1 & G2 & G3 & G4)|B]; [|exfalso; revert B; apply no_begin; lia].
      destruct (I0 G1) as (I1 & I2 & I3). destruct (C1 G1) as [C2 _]. rewrite C2, I1, <- G4 by lia.
      assert (tries_allowed (fst (step c e' k' m)) = R) as TB by (rewrite (tries_same _ _ G2); exact I3).
      assert (0 <= m_trials (fst (step c e' k' m)) < R) as TC.
      { destruct G3 as [G3|[G3 G5]]; [rewrite G3; exact I2|]. rewrite I3 in G5. split; [|exact G5]. rewrite G3. unfold u32. lia. }
      split; [unfold sent_now; destruct (after_tx (m_state (fst (step c e' k' m)))); lia|]. intros _. auto.
    + split; [|discriminate]. destruct (is_data (m_op m)) eqn:DM; [destruct (C1 eq_refl) as [_ C2]; rewrite (C2 eq_refl)|rewrite (C0 eq_refl)]; lia.
Qed.
Theorem tries_bound c r a e0 h1 e cf port d o h2 : in_place c -> arg_ok a -> valid_start r (ia_session a) ->
  let k := C_data cf port d o in
  Forall (fun x => power_arg (snd x)) (h1 ++ (e, k) :: h2) ->
  let m1 := run c h1 (MAC_init c r a e0) in let m1' := fst (step c e k m1) in
  starts (IReq k (snd (step c e k m1))) = Some KData ->
  accepted (items c h2 m1') = 0 ->
  1 <= redundancy o (m_ctx m1) <= 15 /\ data_count (outs (items c h2 m1')) <= redundancy o (m_ctx m1).
Proof.
  intros IP OK V k PA m1 m1' ST AC. destruct (tries_sent c r a e0 h1 e cf port d o h2 IP OK V PA ST AC) as (A & B & _). split; [exact A|exact B].
Qed.

(* --- an acknowledgement ends the request --- *)
Lemma window_end c e m buf f : in_rx (m_state m) = true -> inputPending m = true -> e_st_rx e = true ->
  receiveFrame c m (rx_buffer e) (rx_len e) = (buf, Some f) -> is_rx_data f = true ->
  let m' := fst (step c e C_process m) in
  m_op m' = OP_NONE /\ forall o, In o (down_end m f) -> In o (new_out m m').
Proof.
  intros R I X RF D. destruct (process_I c e m I) as (m2 & lag & Q & _ & _ & E). cbn [step fst]. rewrite E.
  destruct (quiet_log _ _ Q) as (l1 & L1 & P1). destruct Q as [[C _] ST].
  assert (dispatch c e SME_INTERRUPT lag m2 = rx_packet c e m2) as ->.
  { unfold dispatch. rewrite ST. destruct (m_state m); try discriminate R; unfold processRX; rewrite X; reflexivity. }
  open_def rx_packet. cbv zeta. set (m3 := set_m_rx_snr (e_snr e) _).
  assert (core m3 = core m) as C3. { rewrite <- C. unfold m3, emit, timerClear, set_timer. autorewrite with core. reflexivity. }
  assert (m_log m3 = m_log m ++ l1 ++ [OMode MODE_SLEEP]) as L3.
  { unfold m3, emit, timerClear, set_timer. ms. rewrite L1, <- app_assoc. reflexivity. }
  rewrite (receive_core _ _ _ _ _ C3), RF. unfold is_rx_data in D.
  assert (forall y, (match dn_type f with FT_CONF_DOWN | FT_UNCONF_DOWN => data_received c e buf f m3 | _ => y end) = data_received c e buf f m3) as -> by (intros; destruct (dn_type f); try discriminate D; reflexivity).
  destruct (data_received_frame c e buf f m3) as (s & l0 & C0 & _ & _ & L0 & _).
  assert (down_end m3 f = down_end m f) as DE by (unfold down_end; rewrite (core_op_eq _ _ C3); reflexivity). rewrite DE in L0.
  revert C0 L0. generalize (data_received c e buf f m3). intros x C0 L0.
  pose proof (setNext_quiet e (pushSessionUpdate x)) as Q4. destruct (quiet_log _ _ Q4) as (l4 & L4 & P4). destruct Q4 as [[C4 _] _].
  split; [rewrite (core_op_eq _ _ C4); change (m_op (pushSessionUpdate x)) with (m_op x); rewrite (core_op_eq _ _ C0); reflexivity|].
  assert (m_log (setNextBandEvent e (pushSessionUpdate x)) = m_log m ++ (l1 ++ [OMode MODE_SLEEP]) ++ (l0 ++ down_end m f) ++ [OEvent (EV_SESSION_UPDATED (m_ctx x))] ++ l4) as LL.
  { rewrite L4. unfold pushSessionUpdate, notify, emit. ms. rewrite L0, L3, <- !app_assoc. reflexivity. }
  intros o IN. rewrite (new_out_app _ _ _ LL). apply in_or_app. right. apply in_or_app. left. apply in_or_app. right. exact IN.
Qed.

(* the acknowledgement: nothing more is sent for the request *)
Theorem acked_stops c r a e0 h e buf f h2 : in_place c -> arg_ok a ->
  let m := run c h (MAC_init c r a e0) in let m' := fst (step c e C_process m) in
  m_op m = OP_DATA_CONFIRMED -> in_rx (m_state m) = true -> inputPending m = true -> e_st_rx e = true ->
  receiveFrame c m (rx_buffer e) (rx_len e) = (buf, Some f) -> is_rx_data f = true -> dn_ack f = true ->
  accepted (items c h2 m') = 0 ->
  In (OEvent EV_DATA_COMPLETE) (new_out m m') /\ data_count (new_out m m') = 0 /\ data_count (outs (items c h2 m')) = 0.
Proof.
  intros IP OK m m' O R I X RF D AK AC.
  destruct (ready_always c h (MAC_init c r a e0) IP (init_so c r a e0 []) (ready_init c r a e0 OK)) as [S1 R1]. fold m in S1, R1.
  destruct (ready_always c [(e, C_process)] m IP S1 R1) as [S2 R2]. cbn [run] in S2, R2. fold m' in S2, R2.
  destruct (window_end c e m buf f R I X RF D) as [ON IE]. fold m' in ON, IE.
  split; [apply IE; unfold down_end; rewrite O, AK; left; reflexivity|].
  split. { destruct (step_count c e C_process m S1 R1) as [_ H]. fold m' in H. rewrite O in H. apply (proj2 (H eq_refl)). rewrite ON. reflexivity. }
  apply (none_sent c h2 m' IP S2 R2); [rewrite ON; reflexivity|exact AC].
Qed.

Theorem acked_stops_at c r a e0 h e buf f h2 : in_place c -> arg_ok a ->
  let m := run c h (MAC_init c r a e0) in let m' := fst (step c e C_process m) in
  m_op m = OP_DATA_CONFIRMED -> m_state m = ST_RX1 \/ m_state m = ST_RX2 -> inputPending m = true -> e_st_rx e = true ->
  receiveFrame c m (rx_buffer e) (rx_len e) = (buf, Some f) -> dn_type f = FT_CONF_DOWN \/ dn_type f = FT_UNCONF_DOWN -> dn_ack f = true ->
  accepted (items c h2 m') = 0 ->
  In (OEvent EV_DATA_COMPLETE) (new_out m m') /\ data_count (new_out m m') = 0 /\ data_count (outs (items c h2 m')) = 0.
Proof.
  intros IP OK m m' O ST I X RF D AK AC. apply (acked_stops c r a e0 h e buf f h2); try assumption; fold m.
  - destruct ST as [-> | ->]; reflexivity.
  - unfold is_rx_data. destruct D as [-> | ->]; reflexivity.
Qed.

(* --- the frames of one request --- *)
Lemma transmit_same c m m' : same_send m m' -> transmit_of c m' = transmit_of c m.
Proof.
  intros (_ & F & _ & E1 & _ & E2 & E3 & _ & _ & _ & E4 & E5). unfold transmit_of. cbv zeta.
  change (slice (m_buffer m') 0 (Z.to_nat (m_bufferLen m'))) with (frame_of m'). change (slice (m_buffer m) 0 (Z.to_nat (m_bufferLen m))) with (frame_of m).
  unfold tx_eirp. rewrite F, E1, E2, E3, E4, E5. reflexivity.
Qed.

Theorem all_alike c r a e0 h1 e cf port d o h2 : in_place c -> arg_ok a -> 
  let k := C_data cf port d o in
  let m1 := run c h1 (MAC_init c r a e0) in let m1' := fst (step c e k m1) in
  starts (IReq k (snd (step c e k m1))) = Some KData ->
  accepted (items c h2 m1') = 0 ->
  forall x, In x (outs (items c h2 m1')) -> sends_data x = true -> x = transmit_of c m1'.
Proof.
  intros IP OK k m1 m1' ST.
  destruct (ready_always c (h1 ++ [(e, k)]) (MAC_init c r a e0) IP (init_so c r a e0 []) (ready_init c r a e0 OK)) as [S1 R1].
  rewrite run_app in S1, R1. cbn [run] in S1, R1. fold m1 in S1, R1. fold m1' in S1, R1.
  enough (forall h, accepted (items c h m1') = 0 ->
    (forall x, In x (outs (items c h m1')) -> sends_data x = true -> x = transmit_of c m1') /\ (is_data (m_op (run c h m1')) = true -> same_send m1' (run c h m1'))) as H.
  { intros A. apply H. exact A. }
  induction h as [|[e' k'] h IH] using rev_ind; intros AC.
  - split; [intros x []|]. intros _. apply same_send_refl.
  - rewrite items_snoc, accepted_app in AC. pose proof (accepted_nonneg (items c h m1')). pose proof (accepted_nonneg (step_items c e' k' (run c h m1'))).
    destruct IH as [B0 I0]; [lia|]. rewrite items_snoc, outs_app, step_outs, run_app. cbn [run]. set (m := run c h m1') in *.
    destruct (ready_always c h m1' IP S1 R1) as [S2 R2]. fold m in S2, R2. split.
    + intros x IN F. apply in_app_or in IN. destruct IN as [IN|IN]; [now apply B0|].
      destruct (step_tx c e' k' m S2) as [N|(l1 & l2 & EL & P1 & P2 & EK & ST2 & SS & _)].
      * exfalso. rewrite forallb_forall in N. specialize (N _ IN). destruct x; try discriminate N; discriminate F.
      * rewrite EL in IN. rewrite forallb_forall in P1, P2. apply in_app_or in IN. destruct IN as [IN|IN]; [specialize (P1 _ IN); destruct x; try discriminate P1; discriminate F|].
        apply in_app_or in IN. destruct IN as [[IN|[]]|IN]; [|specialize (P2 _ IN); destruct x; try discriminate P2; discriminate F].
        subst x. apply transmit_same. apply I0. apply (tx_data c m S2 R2 ST2). exact F.
    + intros D. destruct (step_send c e' k' m S2 R2 D) as [(G1 & G2 & _)|B]; [|exfalso; revert B; apply no_begin; lia].
      eapply same_send_trans; [apply I0; exact G1|exact G2].
Qed.

Theorem alike c r a e0 h1 e cf port d o h2 : in_place c -> arg_ok a -> 
  let k := C_data cf port d o in
  let m1 := run c h1 (MAC_init c r a e0) in let m1' := fst (step c e k m1) in
  starts (IReq k (snd (step c e k m1))) = Some KData ->
  accepted (items c h2 m1') = 0 ->
  forall x y, In x (outs (items c h2 m1')) -> sends_data x = true -> In y (outs (items c h2 m1')) -> sends_data y = true -> x = y.
Proof.
  intros IP OK k m1 m1' ST A x y I1 D1 I2 D2. pose proof (all_alike c r a e0 h1 e cf port d o h2 IP OK ST A) as H. 
  rewrite (H x I1 D1), (H y I2 D2). reflexivity.
Qed.
