(* Where the data frames handed to the radio come from. *)
From Verif Require Import Lib StreamM FrameM CommandsM RegionM RadioM SmM MacStateM MacTac MacUtilM OpsM MacCmdM MacProcM MacApiM MacRw CoreP CaseP RxP SpecHist SpecSend HistP EndP TxP UplinkP ReadyP DataP AcceptP CtxP DownP.

(* the same frame, channel, rate and options *)
Definition same_send (m m' : mac) : Prop :=
  m_op m' = m_op m /\ frame_of m' = frame_of m /\ m_bufferLen m' = m_bufferLen m /\
  tx_freq (m_tx m') = tx_freq (m_tx m) /\ tx_chIndex (m_tx m') = tx_chIndex (m_tx m) /\ tx_rate (m_tx m') = tx_rate (m_tx m) /\
  tx_power (m_tx m') = tx_power (m_tx m) /\ tx_counter (m_tx m') = tx_counter (m_tx m) /\
  m_opts m' = m_opts m /\ s_nbTrans (m_ctx m') = s_nbTrans (m_ctx m) /\ s_region (m_ctx m') = s_region (m_ctx m) /\
  s_tx_param (m_ctx m') = s_tx_param (m_ctx m).

Lemma same_send_refl m : same_send m m. Proof. repeat split. Qed.
Lemma same_send_trans a b d : same_send a b -> same_send b d -> same_send a d.
Proof. unfold same_send. intros. intuition congruence. Qed.
Lemma core_send m m' : core m' = core m -> same_send m m'.
Proof.
  intros C. pose proof (core_frame _ _ C) as [F _]. pose proof (core_fields _ _ C) as D. unfold same_core in D.
  destruct D as (O & D1 & D2 & D3 & D4 & D5 & D6 & D7 & D8 & D9 & D10 & D11 & D12 & D13 & D14 & D15 & D16 & D17 & D18 & D19 & T0 & T1 & T2 & T3 & T4).
  unfold same_send. rewrite D7. repeat split; assumption.
Qed.
Lemma quiet_send m m' : quiet m m' -> same_send m m'. Proof. intros [[C _] _]. now apply core_send. Qed.

Lemma retry_send c m : ready c m -> is_data (m_op m) = true -> same_send m (micDataFrame c (next_trial m)).
Proof.
  intros R D. destruct (ready_trial _ _ R) as (_ & _ & _ & _ & HD & _). destruct (HD D) as (body & rest & B).
  pose proof (mic_again _ _ _ _ B) as E. change (m_buffer (next_trial m)) with (m_buffer m) in E.
  unfold same_send, frame_of. rewrite E. repeat split.
Qed.

Lemma tries_same m m' : same_send m m' -> tries_allowed m' = tries_allowed m.
Proof. intros S. unfold tries_allowed. destruct S as (_ & _ & _ & _ & _ & _ & _ & _ & O & N & _). rewrite O, N. reflexivity. Qed.
Lemma land15 x : Z.land x 15 = x mod 16.
Proof. exact (Z.land_ones x 4 ltac:(lia)). Qed.


(* the frame has been sent once more than it has been found unanswered *)
Definition after_tx (s : mac_state) : bool :=
  match s with
  | ST_TX | ST_WAIT_RX1 | ST_START_RADIO_FOR_RX1 | ST_RX1 | ST_WAIT_RX2 | ST_START_RADIO_FOR_RX2 | ST_RX2 | ST_RX2_LOCKOUT => true
  | _ => false
  end.
Definition sent_now (m : mac) : Z := m_trials m + (if after_tx (m_state m) then 1 else 0).
Definition is_tx (o : out) : bool := negb (no_tx o).
Definition tx_count (l : list out) : Z := Z.of_nat (length (filter is_tx l)).
Lemma tx_count_app l l' : tx_count (l ++ l') = tx_count l + tx_count l'.
Proof. unfold tx_count. rewrite filter_app, app_length. lia. Qed.
Lemma tx_count_none l : forallb no_tx l = true -> tx_count l = 0.
Proof.
  unfold tx_count, is_tx. induction l as [|o l IH]; [reflexivity|]. cbn [forallb filter]. intros H. apply andb_true_iff in H. destruct H as [H1 H2].
  rewrite H1. cbn [negb]. now apply IH.
Qed.

Definition goes_on (m m' : mac) (lo : list out) : Prop :=
  is_data (m_op m) = true /\ same_send m m' /\
  (m_trials m' = m_trials m \/ (m_trials m' = u32 (m_trials m + 1) /\ m_trials m' < tries_allowed m)) /\
  (0 <= m_trials m < 4294967295 -> sent_now m' = sent_now m + tx_count lo).
Definition begins (c : cfg) (e : env) (k : call) (r : ret) (m m' : mac) (lo : list out) : Prop :=
  (exists cf port d o, k = C_data cf port d o /\ tries_allowed m' = redundancy o (m_ctx m)) /\ starts (IReq k r) = Some KData /\ m_op m = OP_NONE /\ m_trials m' = 0 /\
  after_tx (m_state m') = false /\ forallb no_tx lo = true.

Lemma core_trials m m' : core m' = core m -> m_trials m' = m_trials m.
Proof. intros C. destruct (core_fields _ _ C) as (_ & _ & _ & _ & _ & _ & _ & _ & _ & _ & _ & T & _). exact T. Qed.

Lemma goes_core m m' lo : is_data (m_op m) = true -> core m' = core m -> forallb no_tx lo = true -> after_tx (m_state m') = after_tx (m_state m) -> goes_on m m' lo.
Proof.
  intros D C N A. split; [exact D|]. split; [now apply core_send|]. pose proof (core_trials _ _ C) as T. split; [auto|].
  intros _. unfold sent_now. rewrite T, A, (tx_count_none _ N). lia.
Qed.

Lemma miss_goes c e m m' lo : miss_case c e m m' -> m_log m' = m_log m ++ lo -> after_tx (m_state m) = true -> ready c m -> is_data (m_op m') = true -> goes_on m m' lo.
Proof.
  intros HM L A R D'. destruct HM as [m2 D ? C S E|m2 D p C S E|m2 O ? C S E|m2 O ? C S E|D O].
  - rewrite E in L. apply same_log_tail in L. subst lo. split; [exact D|].
    split; [eapply same_send_trans; [apply (retry_send c m R D)|now apply core_send]|].
    pose proof (core_trials _ _ C) as T. change (m_trials (micDataFrame c (next_trial m))) with (u32 (m_trials m + 1)) in T.
    split; [right; rewrite T; auto|]. intros B. unfold sent_now. rewrite T, S, A. cbn [after_tx tx_count filter length]. unfold u32. change (tx_count []) with 0. lia.
  - rewrite (core_op_eq _ _ C) in D'. discriminate D'.
  - rewrite (core_op_eq _ _ C) in D'. destruct (fillJoin_fields c e (u16 (m_devNonce m)) (next_trial m)) as (t & buf & len & dn & E1 & _). rewrite E1 in D'.
    change (is_data (m_op m) = true) in D'. rewrite O in D'. discriminate D'.
  - rewrite (core_op_eq _ _ C) in D'. discriminate D'.
  - change (is_data (m_op m) = true) in D'. congruence.
Qed.

Lemma act_send c e m k r m' lo : act c e m k r m' -> m_log m' = m_log m ++ lo -> so (m_op m) (m_state m) = true -> ready c m -> is_data (m_op m') = true ->
  goes_on m m' lo \/ begins c e k r m m' lo.
Proof.
  intros HA L HS R D'. destruct HA.
  - left. apply same_log_tail in L. subst lo. now apply goes_core.
  - left. destruct H as [C (l & E & P)]. rewrite E in L. apply app_tail in L. subst l. rewrite (core_op_eq _ _ C) in D'.
    apply goes_core; [exact D'|exact C|now apply plain_no_tx|]. destruct (m_state m), (m_state m'); try discriminate H0; reflexivity.
  - left. rewrite H2 in L. apply app_tail in L. subst lo. rewrite (core_op_eq _ _ H1) in D'. split; [exact D'|]. split; [now apply core_send|].
    pose proof (core_trials _ _ H1) as T. split; [auto|]. intros _. unfold sent_now. rewrite T, H, H0. cbn [after_tx]. change (tx_count [transmit_of c m]) with 1. lia.
  - rewrite (core_op_eq _ _ H0) in D'. discriminate D'.
  - left. eapply miss_goes; eauto. destruct H as [H|H]; destruct (m_state m); try discriminate H; reflexivity.
  - rewrite (core_op_eq _ _ H1) in D'. discriminate D'.
  - exfalso. rewrite (core_op_eq _ _ H2) in D'. destruct (miss_log _ _ _ _ H1) as (l1 & E1).
    destruct (miss_goes _ _ _ _ _ H1 E1) as (X & _); [destruct (m_state m); try discriminate H; reflexivity|exact R|exact D'|]. rewrite H0 in X. discriminate X.
  - exfalso. destruct (data_received_frame c e buf f m) as (s & l & C & _). cbv zeta in C.
    rewrite (core_op_eq _ _ (push_core _)), (core_op_eq _ _ C) in D'. discriminate D'.
  - exfalso. destruct (join_accepted_frame c buf f m) as (s & l & C & _). cbv zeta in C. rewrite (core_op_eq _ _ (push_core _)), (core_op_eq _ _ C) in D'. discriminate D'.
  - left. subst m'. apply same_log_tail in L. subst lo. change (is_data (m_op m) = true) in D'.
    assert (tx = m_tx m) as -> by (apply H3; intros X; rewrite X in D'; discriminate D'). rewrite <- set_tx_same. now apply goes_core.
  - rewrite (core_op_eq _ _ H0) in D'. discriminate D'.
  - rewrite (core_op_eq _ _ H2) in D'. discriminate D'.
  - rewrite (core_op_eq _ _ H1) in D'. change (is_data (m_op m) = true) in D'. rewrite H in D'. discriminate D'.
  - right. rewrite H7 in L. apply app_tail in L. subst lo. destruct (compose_op _ _ _ _ _ _ _ _ _ H5) as [D ST].
    split.
    { exists cf, port, data, o. split; [reflexivity|]. rewrite (tries_same _ _ (core_send _ _ H6)).
      unfold tries_allowed. change (m_opts (data_filled c f (data_base c o tx op m))) with (opts_of o).
      change (m_ctx (data_filled c f (data_base c o tx op m))) with (sess_data c m).
      assert (s_nbTrans (sess_data c m) = s_nbTrans (m_ctx m)) as -> by (unfold sess_data, clear_single_shot, clearPendingCommand; destruct (is_1_1 (c_l2 c)), (c_txps c); reflexivity).
      unfold redundancy, opts_of. cbv zeta. cbn [do_nbTrans]. rewrite (land15 (do_nbTrans _)). destruct o; cbn [do_nbTrans]; rewrite !Z.gtb_ltb; reflexivity. }
    split; [destruct ST as [-> | ->]; reflexivity|]. split; [exact H|]. split; [rewrite (core_trials _ _ H6); reflexivity|].
    split; [|reflexivity]. rewrite H8. rewrite H in HS. destruct (m_state m); try discriminate HS; reflexivity.
  - rewrite (core_op_eq _ _ H0) in D'. discriminate D'.
  - rewrite (core_op_eq _ _ H0) in D'. pose proof (cancel_op _ _ _ _ HA) as X. unfold forgetNetwork in D'. change (is_data (m_op x) = true) in D'. rewrite X in D'. discriminate D'.
  - left. rewrite (core_op_eq _ _ H2) in D'. change (is_data (m_op m) = true) in D'. split; [exact D'|].
    pose proof (core_send _ _ H2) as CS. pose proof (core_trials _ _ H2) as T. change (m_trials m' = m_trials m) in T.
    destruct H as (r0 & p & a & dd & cc & kk & ->). split; [eapply same_send_trans; [|exact CS]; repeat split|]. split; [auto|].
    intros _. unfold sent_now. rewrite T, H3.
    assert (tx_count lo = 0) as -> by (destruct H4 as [E|E]; rewrite E in L; [apply same_log_tail in L|apply app_tail in L]; subst lo; reflexivity). lia.
Qed.

(* --- the same over one call and over a history --- *)

Lemma sent_quiet m m' : quiet m m' -> sent_now m' = sent_now m.
Proof. intros [[C _] S]. unfold sent_now. rewrite (core_trials _ _ C), S. reflexivity. Qed.

Lemma step_send c e k m : so (m_op m) (m_state m) = true -> ready c m ->
  let m' := fst (step c e k m) in let lo := new_out m m' in
  is_data (m_op m') = true -> goes_on m m' lo \/ begins c e k (snd (step c e k m)) m m' lo.
Proof.
  intros S R m' lo D'. destruct (step_cases c e k m) as (m1 & m2 & Q1 & A & Q2 & E1). fold m' in Q2.
  destruct (quiet_log _ _ Q1) as (l1 & L1 & P1). destruct (quiet_log _ _ Q2) as (l2 & L2 & P2). destruct (act_log _ _ _ _ _ _ A) as (la & LA).
  assert (lo = l1 ++ la ++ l2) as ->.
  { unfold lo. apply new_out_app. rewrite L2, LA, L1, <- !app_assoc. reflexivity. }
  pose proof (sent_quiet _ _ Q1) as N1. pose proof (sent_quiet _ _ Q2) as N2. pose proof (quiet_send _ _ Q1) as S1. pose proof (quiet_send _ _ Q2) as S2.
  pose proof Q1 as [[C1 _] ST1]. pose proof Q2 as [[C2 _] ST2]. rewrite (core_op_eq _ _ C2) in D'.
  pose proof (core_trials _ _ C1) as T1. pose proof (core_trials _ _ C2) as T2.
  apply plain_no_tx in P1. apply plain_no_tx in P2.
  destruct (act_send _ _ _ _ _ _ _ A LA (quiet_so _ _ Q1 S) (ready_quiet _ _ _ Q1 R) D') as [(G1 & G2 & G3 & G4)|(B1 & B2 & B3 & B4 & B5 & B6)].
  - left. rewrite (core_op_eq _ _ C1) in G1. split; [exact G1|]. split; [exact (same_send_trans _ _ _ (same_send_trans _ _ _ S1 G2) S2)|].
    rewrite T2. rewrite T1 in G3, G4. rewrite (tries_same _ _ S1) in G3. split; [exact G3|].
    intros B. rewrite N2, (G4 B), N1, !tx_count_app, (tx_count_none _ P1), (tx_count_none _ P2). lia.
  - right. split; [rewrite (core_ctx _ _ C1), <- (tries_same _ _ S2) in B1; exact B1|]. split; [exact B2|]. split; [rewrite <- (core_op_eq _ _ C1); exact B3|]. split; [rewrite T2; exact B4|].
    split; [rewrite ST2; exact B5|]. rewrite !forallb_app, P1, P2, B6. reflexivity.
Qed.


(* the operation in progress is that of the request (e, k), the last call but
   those in h2, which was sent as often as lo says *)
Definition sending (c : cfg) (m0 : mac) (h1 : history) (e : env) (k : call) (h2 : history) : Prop :=
  let m1 := run c h1 m0 in let m1' := fst (step c e k m1) in let m := run c h2 m1' in
  (exists cf port d o, k = C_data cf port d o /\ tries_allowed m1' = redundancy o (m_ctx m1)) /\ starts (IReq k (snd (step c e k m1))) = Some KData /\ m_op m1 = OP_NONE /\ same_send m1' m /\
  is_data (m_op m1') = true /\
  sent_now m = tx_count (outs (items c h2 m1')) /\ 0 <= m_trials m < tries_allowed m1' /\
  forallb no_tx (new_out m1 m1') = true.

Lemma tries_pos m : 1 <= tries_allowed m.
Proof. unfold tries_allowed. destruct (_ >? 0) eqn:A; [lia|]. destruct (s_nbTrans _ >? 0) eqn:B; lia. Qed.

Lemma redundancy_15 o s : s_nbTrans s <= 15 -> 1 <= redundancy o s <= 15.
Proof.
  intros H. unfold redundancy. cbv zeta. destruct (0 <? _) eqn:A; [destruct o; lia|]. destruct (0 <? s_nbTrans s) eqn:B; lia.
Qed.

Theorem sending_always c m0 h : in_place c -> so (m_op m0) (m_state m0) = true -> ready c m0 -> is_data (m_op m0) = false ->
  (forall h0 h', h = h0 ++ h' -> s_nbTrans (m_ctx (run c h0 m0)) <= 15) ->
  is_data (m_op (run c h m0)) = true -> exists h1 e k h2, h = h1 ++ (e, k) :: h2 /\ sending c m0 h1 e k h2.
Proof.
  intros IP S0 R0 N0. induction h as [|[e k] h IH] using rev_ind; intros BD D; [cbn [run] in D; congruence|].
  assert (forall h0 h', h = h0 ++ h' -> s_nbTrans (m_ctx (run c h0 m0)) <= 15) as BD' by (intros h0 h' E; apply (BD h0 (h' ++ [(e, k)])); rewrite E, <- app_assoc; reflexivity). specialize (IH BD').
  rewrite run_app in D. cbn [run] in D. set (m := run c h m0) in *.
  destruct (ready_always c h m0 IP S0 R0) as [S R]. fold m in S, R.
  destruct (step_send c e k m S R D) as [(G1 & G2 & G3 & G4)|(B1 & B2 & B3 & B4 & B5 & B6)].
  - destruct (IH G1) as (h1 & e1 & k1 & h2 & E & S1 & S2 & S3 & S4 & S5 & S6 & S7 & S8). exists h1, e1, k1, (h2 ++ [(e, k)]).
    split; [rewrite E, <- app_assoc; reflexivity|]. unfold sending. cbv zeta. rewrite run_app. cbn [run].
    assert (run c h2 (fst (step c e1 k1 (run c h1 m0))) = m) as EM by (unfold m; rewrite E, run_app; reflexivity).
    rewrite EM in *. split; [exact S1|]. split; [exact S2|]. split; [exact S3|]. split; [eapply same_send_trans; eauto|]. split; [exact S5|].
    assert (tries_allowed m = tries_allowed (fst (step c e1 k1 (run c h1 m0)))) as TA by now apply tries_same.
    assert (tries_allowed m <= 15) as TB.
    { destruct S1 as (? & ? & ? & o & _ & X). rewrite TA, X. apply redundancy_15. exact (BD' h1 _ E). }
    assert (items c (h2 ++ [(e, k)]) (fst (step c e1 k1 (run c h1 m0))) = items c h2 (fst (step c e1 k1 (run c h1 m0))) ++ step_items c e k m) as IT.
    { rewrite <- EM. clear. revert e1 k1. generalize (run c h1 m0). intros x e1 k1. generalize (fst (step c e1 k1 x)). clear.
      induction h2 as [|[e' k'] h2 IH]; intros x; cbn [items run app]; [rewrite app_nil_r; reflexivity|]. rewrite IH, app_assoc. reflexivity. }
    rewrite IT, outs_app, tx_count_app, <- S6. split; [|split; [|exact S8]].
    + rewrite G4 by lia. f_equal. unfold step_items. rewrite outs_app, outs_map. destruct k; reflexivity.
    + destruct G3 as [G3|[G3 G5]]; [rewrite G3; exact S7|]. rewrite TA in G5. split; [rewrite G3; unfold u32; lia|exact G5].
  - exists h, e, k, []. split; [reflexivity|]. unfold sending. cbv zeta. cbn [run items outs flat_map]. fold m.
    split; [exact B1|]. split; [exact B2|]. split; [exact B3|]. split; [apply same_send_refl|]. split; [exact D|].
    split; [unfold sent_now; rewrite B4, B5; reflexivity|]. split; [rewrite B4; pose proof (tries_pos (fst (step c e k m))); lia|exact B6].
Qed.

(* what one call hands to the radio *)
Lemma step_tx c e k m : so (m_op m) (m_state m) = true ->
  let m' := fst (step c e k m) in let lo := new_out m m' in
  forallb no_tx lo = true \/
  exists l1 l2, lo = l1 ++ [transmit_of c m] ++ l2 /\ forallb no_tx l1 = true /\ forallb no_tx l2 = true /\
    k = C_process /\ m_state m = ST_START_RADIO_FOR_TX /\ same_send m m' /\ m_trials m' = m_trials m.
Proof.
  intros S m' lo. destruct (step_cases c e k m) as (m1 & m2 & Q1 & A & Q2 & E1). fold m' in Q2.
  destruct (quiet_log _ _ Q1) as (l1 & L1 & P1). destruct (quiet_log _ _ Q2) as (l2 & L2 & P2). destruct (act_log _ _ _ _ _ _ A) as (la & LA).
  assert (lo = l1 ++ la ++ l2) as ->.
  { unfold lo. apply new_out_app. rewrite L2, LA, L1, <- !app_assoc. reflexivity. }
  apply plain_no_tx in P1. apply plain_no_tx in P2.
  destruct (act_tx _ _ _ _ _ _ _ A LA) as [N|(EK & ST & _ & C & ->)]; [left; rewrite !forallb_app, P1, P2, N; reflexivity|].
  pose proof Q1 as [[C1 _] ST1]. pose proof Q2 as [[C2 _] _].
  right. exists l1, l2. assert (transmit_of c m1 = transmit_of c m) as ->.
  { pose proof (core_send _ _ C1) as (_ & F & _ & T1 & _ & T2 & T3 & _ & _ & _ & RG & TP). unfold transmit_of. cbv zeta. rewrite T1, T2, T3.
    rewrite (core_ctx _ _ C1). unfold frame_of in F. rewrite F. reflexivity. }
  split; [reflexivity|]. split; [exact P1|]. split; [exact P2|]. split; [exact EK|]. split; [congruence|]. split.
  - apply (same_send_trans _ m1); [now apply core_send|]. apply (same_send_trans _ m2); now apply core_send.
  - rewrite (core_trials _ _ C2), (core_trials _ _ C), (core_trials _ _ C1). reflexivity.
Qed.

Lemma no_tx_in l f bw sf p fr : forallb no_tx l = true -> ~ In (OTransmit f bw sf p fr) l.
Proof. intros H I. apply (proj1 (forallb_forall _ _) H) in I. discriminate I. Qed.

Lemma run_split_log c h m0 o : In o (m_log (run c h m0)) -> In o (m_log m0) \/
  exists h0 e k h2, h = h0 ++ (e, k) :: h2 /\ In o (new_out (run c h0 m0) (fst (step c e k (run c h0 m0)))).
Proof.
  induction h as [|[e k] h IH] using rev_ind; intros I; [auto|]. rewrite run_app in I. cbn [run] in I. set (m := run c h m0) in *.
  destruct (step_cases c e k m) as (m1 & m2 & Q1 & A & Q2 & E1).
  destruct (quiet_log _ _ Q1) as (l1 & L1 & P1). destruct (quiet_log _ _ Q2) as (l2 & L2 & P2). destruct (act_log _ _ _ _ _ _ A) as (la & LA).
  assert (m_log (fst (step c e k m)) = m_log m ++ l1 ++ la ++ l2) as E by (rewrite L2, LA, L1, <- !app_assoc; reflexivity).
  rewrite E in I. apply in_app_or in I. destruct I as [I|I].
  - destruct (IH I) as [H|(h0 & e' & k' & h2 & -> & X)]; [auto|]. right. exists h0, e', k', (h2 ++ [(e, k)]). split; [rewrite <- app_assoc; reflexivity|exact X].
  - right. exists h, e, k, []. split; [reflexivity|]. fold m. rewrite (new_out_app _ _ _ E). exact I.
Qed.

(* the state in which a data frame is sent *)
Lemma tx_data c m : so (m_op m) (m_state m) = true -> ready c m -> m_state m = ST_START_RADIO_FOR_TX -> is_data_frame (frame_of m) = true -> is_data (m_op m) = true.
Proof.
  intros S R T F. rewrite T in S. destruct (m_op m) eqn:O; try discriminate S; try reflexivity.
  destruct R as (_ & J & D & _ & _ & HJ). destruct (HJ O) as (n & mic & rest & B). destruct (frame_join_kind _ _ _ _ _ J D B) as (K & _).
  unfold is_data_frame in F. unfold is_join_frame in K. destruct (frame_of m) as [|b bs]; [discriminate|]. destruct b; try discriminate.
Qed.

Theorem data_sent c m0 h f bw sf p fr : in_place c -> so (m_op m0) (m_state m0) = true -> ready c m0 -> is_data (m_op m0) = false ->
  (forall h0 h', h = h0 ++ h' -> s_nbTrans (m_ctx (run c h0 m0)) <= 15) ->
  m_log m0 = [] -> In (OTransmit f bw sf p fr) (m_log (run c h m0)) -> is_data_frame fr = true ->
  exists h1 e k h2 e' h3, h = h1 ++ (e, k) :: h2 ++ (e', C_process) :: h3 /\ sending c m0 h1 e k h2 /\
    OTransmit f bw sf p fr = transmit_of c (run c h2 (fst (step c e k (run c h1 m0)))).
Proof.
  intros IP S0 R0 N0 BD L0 I F. destruct (run_split_log _ _ _ _ I) as [X|(h0 & e' & k' & h3 & E & X)]; [rewrite L0 in X; destruct X|].
  destruct (ready_always c h0 m0 IP S0 R0) as [S R]. set (m := run c h0 m0) in *.
  destruct (step_tx c e' k' m S) as [N|(l1 & l2 & EL & P1 & P2 & EK & ST & SS & _)]; [now apply no_tx_in in X|].
  rewrite EL in X. apply in_app_or in X. destruct X as [X|X]; [now apply no_tx_in in X|]. apply in_app_or in X. destruct X as [[X|[]]|X]; [|now apply no_tx_in in X].
  assert (fr = frame_of m) as EF by (unfold transmit_of in X; cbv zeta in X; unfold frame_of; congruence).
  rewrite EF in F. pose proof (tx_data c m S R ST F) as D.
  destruct (fun B => sending_always c m0 h0 IP S0 R0 N0 B D) as (h1 & e & k & h2 & E0 & SD).
  { intros x x' EX. apply (BD x (x' ++ (e', k') :: h3)). rewrite E, EX, <- app_assoc. reflexivity. }
  exists h1, e, k, h2, e', h3. split; [rewrite E, E0, EK, <- app_assoc; reflexivity|]. split; [exact SD|].
  assert (m = run c h2 (fst (step c e k (run c h1 m0)))) as <- by (unfold m; rewrite E0, run_app; reflexivity). symmetry. exact X.
Qed.
