(* When the device asks the network for an answer (C81). *)
From Verif Require Import Lib StreamM FrameM CommandsM RegionM RadioM SmM MacStateM MacTac MacUtilM OpsM MacCmdM MacProcM MacApiM MacRw CoreP CaseP RxP SpecHist SpecSend HistP EndP WindowP TxP UplinkP ReadyP DataP DownP AcceptP SpecBack BackP SpecAck AckFrameP.
From Verif Require TriesP.

Definition asked_of (m : mac) : dials * bool := (dials_of m, m_adrAckReq m).
Definition now_due (d : dials) : bool := d_on d && (d_count d <? 255) && (d_limit d <=? d_count d).
Definition pstep (min : Z) (p : dials * bool) : dials * bool := (bstep min (fst p), now_due (fst p)).

Lemma adapt_asked c m : asked_of (fst (adaptRate c m)) = pstep (MIN_RATE (c_noSF12 c)) (asked_of m).
Proof.
  unfold pstep, asked_of. cbn [fst]. rewrite adapt_dials. f_equal. unfold now_due.
  assert (dials_of m = mkDials (s_adr (m_ctx m)) (s_adr_ack_limit (m_ctx m)) (s_adr_ack_delay (m_ctx m)) (s_power (m_ctx m)) (s_rate (m_ctx m)) (s_chMask (m_ctx m)) (m_adrAckCounter m)) as -> by reflexivity.
  cbn [d_on d_limit d_count]. open_def adaptRate. cbv zeta.
  change (m_ctx (set_m_adrAckReq false m)) with (m_ctx m). change (m_adrAckCounter (set_m_adrAckReq false m)) with (m_adrAckCounter m).
  destruct (s_adr (m_ctx m)) eqn:A; [|cbn [fst]; ms; reflexivity].
  destruct (m_adrAckCounter m <? 255); [|cbn [fst]; ms; reflexivity]. cbn [andb].
  replace (s_adr_ack_limit (m_ctx m) <=? m_adrAckCounter m) with (m_adrAckCounter m >=? s_adr_ack_limit (m_ctx m)) by lia.
  destruct (m_adrAckCounter m >=? s_adr_ack_limit (m_ctx m)); cbn [andb]; [|cbn [fst]; ms; reflexivity].
  destruct (_ && _); [|cbn [fst]; ms; reflexivity].
  destruct (s_power (m_ctx m) =? 0) eqn:P; [|cbn [fst]; unfold on_ctx; ms; cbn; reflexivity].
  destruct (s_rate (m_ctx m) >? _); cbn [fst]; unfold on_ctx; ms; cbn; reflexivity.
Qed.

Lemma core_asked m m' : core m' = core m -> asked_of m' = asked_of m.
Proof. intros C. apply core_fields in C. unfold same_core in C. decompose [and] C. unfold asked_of, dials_of. congruence. Qed.

(* what one step does *)
Definition asks (c : cfg) (m m' : mac) (lo : list out) : Prop :=
  asked_of m' = Nat.iter (length (filter is_done lo)) (pstep (MIN_RATE (c_noSF12 c))) (asked_of m).

Lemma miss_asks c e m m' lo : miss_case c e m m' -> m_log m' = m_log m ++ lo -> asks c m m' lo.
Proof.
  intros HM L. unfold asks. destruct HM as [m2 D ? C S E|m2 D p C S E|m2 O ? C S E|m2 O ? C S E|D O].
  - rewrite E in L. apply same_log_tail in L. subst lo. cbn [filter length Nat.iter]. rewrite (core_asked _ _ C).
    unfold micDataFrame, next_trial. cbv zeta. unfold asked_of, dials_of. ms. reflexivity.
  - rewrite E in L. apply app_tail in L. subst lo. rewrite filter_app, app_length.
    assert (length (filter is_done (if snd p then [OEvent (EV_SESSION_UPDATED (m_ctx (fst p)))] else [])) = 0%nat) as -> by (destruct (snd p); reflexivity).
    assert (length (filter is_done [OEvent (data_done (m_op m))]) = 1%nat) as -> by (destruct (m_op m); reflexivity).
    cbn [Nat.add Nat.iter]. rewrite (core_asked _ _ C). change (asked_of (set_m_op OP_NONE (fst p))) with (asked_of (fst p)). unfold p.
    rewrite adapt_asked. reflexivity.
  - rewrite E in L. apply app_tail in L. subst lo. cbn [filter is_done length Nat.iter]. rewrite (core_asked _ _ C).
    destruct (fillJoin_fields c e (u16 (m_devNonce m)) (next_trial m)) as (t & buf & len & dn & E1 & _). rewrite E1. reflexivity.
  - rewrite E in L. apply app_tail in L. subst lo. cbn [filter is_done length Nat.iter]. rewrite (core_asked _ _ C). reflexivity.
  - change (m_log (next_trial m)) with (m_log m) in L. apply same_log_tail in L. subst lo. reflexivity.
Qed.

Lemma act_asks c e m k r m' lo : act c e m k r m' -> m_log m' = m_log m ++ lo -> leaves_settings k = true ->
  (forall buf f, k = C_process -> receiveFrame c m (rx_buffer e) (rx_len e) = (buf, Some f) -> in_rx (m_state m) = true -> False) -> asks c m m' lo.
Proof.
  intros HA L LS N. destruct HA.
  - apply same_log_tail in L. subst. reflexivity.
  - destruct H as [C (l & E & P)]. rewrite E in L. apply app_tail in L. subst l. unfold asks. rewrite (plain_done _ P). exact (core_asked _ _ C).
  - rewrite H2 in L. apply app_tail in L. subst lo. exact (core_asked _ _ H1).
  - rewrite H2 in L. apply app_tail in L. subst lo. exact (core_asked _ _ H0).
  - eapply miss_asks; eauto.
  - rewrite H3 in L. apply app_tail in L. subst lo. exact (core_asked _ _ H1).
  - destruct (miss_log _ _ _ _ H1) as (l1 & E1). rewrite H4, E1, <- app_assoc in L. apply app_tail in L. subst lo.
    unfold asks. rewrite (core_asked _ _ H2), filter_app, app_length. cbn [filter is_done length]. rewrite Nat.add_0_r. exact (miss_asks _ _ _ _ _ H1 E1).
  - exfalso. eapply N; eauto.
  - exfalso. eapply N; eauto.
  - subst m'. apply same_log_tail in L. subst lo. reflexivity.
  - rewrite H1 in L. apply same_log_tail in L. subst lo. exact (core_asked _ _ H0).
  - discriminate LS.
  - discriminate LS.
  - rewrite H7 in L. apply app_tail in L. subst lo. unfold asks. cbn [filter is_done length Nat.iter]. rewrite (core_asked _ _ H6).
    assert (m_ctx (data_filled c f (data_base c o tx op m)) = sess_data c m) as CX by apply filled_ctx.
    assert (m_adrAckCounter (data_filled c f (data_base c o tx op m)) = m_adrAckCounter m) as CN.
    { unfold data_filled. cbv zeta. unfold micDataFrame. cbv zeta. ms. reflexivity. }
    assert (m_adrAckReq (data_filled c f (data_base c o tx op m)) = m_adrAckReq m) as RQ.
    { unfold data_filled. cbv zeta. unfold micDataFrame. cbv zeta. ms. reflexivity. }
    unfold asked_of, dials_of. rewrite CX, CN, RQ. unfold sess_data, clear_single_shot. cbv zeta. destruct (is_1_1 _), (c_txps c); reflexivity.
  - rewrite H2 in L. apply app_tail in L. subst lo. unfold asks. rewrite filter_app, app_length.
    replace (length (filter is_done _)) with 0%nat by (destruct (m_state m); reflexivity). replace (length (filter is_done _)) with 0%nat by (destruct (m_op m); reflexivity).
    exact (core_asked _ _ H0).
  - discriminate LS.
  - destruct k; try discriminate LS; contradiction.
Qed.

Lemma error_asks c e m : exists lo, m_log (handleRadioError c e m) = m_log m ++ lo /\ asks c m (handleRadioError c e m) lo.
Proof.
  open_def handleRadioError. set (x := timerClear WAITB (timerClear WAITA (inputDisarm m))). cbv zeta.
  assert (asked_of x = asked_of m /\ m_log x = m_log m) as (XD & XL) by (split; reflexivity). clearbody x. unfold asks. rewrite <- XD, <- XL.
  destruct (m_op x) eqn:O.
  3: { pose proof (missing_cases c e x) as HM. destruct (miss_log _ _ _ _ HM) as (lo & L). pose proof (miss_asks _ _ _ _ _ HM L) as B. clear HM.
       revert L B. generalize (downlinkMissing c e x). intros y L B. exists (lo ++ [OMode MODE_RESET]).
       split; [m_unf; unfold emit; ms; rewrite L, app_assoc; reflexivity|]. rewrite filter_app, app_length. cbn [filter is_done length]. rewrite Nat.add_0_r. exact B. }
  all: exists ([OEvent EV_OP_ERROR; OMode MODE_RESET]); split; [m_unf; unfold emit; ms; rewrite <- ?app_assoc; reflexivity|reflexivity].
Qed.

Lemma quiet_asks c a b x y lo : quiet a b -> quiet x y -> m_log x = m_log b ++ lo -> asks c b x lo -> asks c a y (new_out a y).
Proof.
  intros [[C1 (l1 & E1 & P1)] _] [[C2 (l2 & E2 & P2)] _] L B. rewrite (new_out_app a y (l1 ++ lo ++ l2)) by (rewrite E2, L, E1, <- !app_assoc; reflexivity).
  unfold asks in *. rewrite !filter_app, (plain_done _ P1), (plain_done _ P2), app_nil_r. cbn [List.app]. rewrite (core_asked _ _ C2), B, (core_asked _ _ C1). reflexivity.
Qed.

Lemma step_asks c e k m : leaves_settings k = true ->
  (k = C_process -> listening (m_state m) = true -> e_st_rx e = true -> snd (receiveFrame c m (rx_buffer e) (rx_len e)) = None) ->
  asks c m (fst (step c e k m)) (new_out m (fst (step c e k m))).
Proof.
  intros LS N.
  assert (exists m1 m2, quiet m m1 /\ quiet m2 (fst (step c e k m)) /\ exists lo, m_log m2 = m_log m1 ++ lo /\ asks c m1 m2 lo) as (m1 & m2 & Q1 & Q2 & lo & L2 & B);
    [|exact (quiet_asks _ _ _ _ _ _ Q1 Q2 L2 B)].
  destruct (e_st_rx e) eqn:RX.
  - destruct (step_cases c e k m) as (m1 & m2 & Q1 & HA & Q2 & _). exists m1, m2. split; [exact Q1|]. split; [exact Q2|].
    destruct (act_log _ _ _ _ _ _ HA) as (lo & L). exists lo. split; [exact L|]. eapply act_asks; [exact HA|exact L|exact LS|].
    intros buf f K R X. specialize (N K). destruct Q1 as [[C1 _] S1]. rewrite S1 in X. rewrite (receive_core _ _ _ _ _ C1) in R.
    rewrite R in N. cbn [snd] in N. assert (listening (m_state m) = true) as LI by (destruct (m_state m); try discriminate X; reflexivity). specialize (N LI eq_refl). discriminate N.
  - destruct k; try discriminate LS;
    try (match goal with |- context [step ?c ?e ?k ?m] => destruct (step_cases c e k m) as (m1 & m2 & Q1 & HA & Q2 & _) end; exists m1, m2; split; [exact Q1|]; split; [exact Q2|];
      destruct (act_log _ _ _ _ _ _ HA) as (lo & L); exists lo; split; [exact L|]; eapply act_asks; [exact HA|exact L|exact LS|intros; discriminate]).
    clear N. cbn [step fst snd]. destruct (process_cases c e m) as (m1 & m2 & Q1 & HC & Q2).
    destruct HC as [|m2 HM HA|m2 S1 S2 HC HL|S|S|S|S|S R].
    + exists m1, m1. split; [exact Q1|]. split; [exact Q2|]. exists []. rewrite app_nil_r. split; reflexivity.
    + exists m1, m2. split; [exact Q1|]. split; [exact Q2|]. destruct HM as [C (l & E & P)]. exists l. split; [exact E|]. unfold asks. rewrite (plain_done _ P). exact (core_asked _ _ C).
    + exists m1, m2. split; [exact Q1|]. split; [exact Q2|]. eexists. split; [exact HL|]. exact (core_asked _ _ HC).
    + exists m1, (processEntropy e SME_TIMER_A m1). split; [exact Q1|]. split; [exact Q2|]. pose proof (entropy_done_act c e m1 S) as HA.
      destruct (act_log _ _ _ _ _ _ HA) as (lo & L). exists lo. split; [exact L|]. eapply act_asks; [exact HA|exact L|reflexivity|]. intros buf f _ _ X. rewrite S in X. discriminate X.
    + exists m1, (downlinkMissing c e m1). split; [exact Q1|]. split; [exact Q2|]. pose proof (missing_cases c e m1) as HM.
      destruct (miss_log _ _ _ _ HM) as (lo & L). exists lo. split; [exact L|]. eapply miss_asks; eauto.
    + exists (registerTime m1), (handleRadioError c e (registerTime m1)). split; [eapply quiet_trans; [exact Q1|apply registerTime_quiet]|]. split; [exact Q2|]. apply error_asks.
    + exists m1, (handleRadioError c e m1). split; [exact Q1|]. split; [exact Q2|]. apply error_asks.
    + congruence.
Qed.

Lemma run_asks c h : forall m, silent c h m ->
  asked_of (run c h m) = Nat.iter (length (filter is_done (outs (items c h m)))) (pstep (MIN_RATE (c_noSF12 c))) (asked_of m).
Proof.
  induction h as [|[e k] h IH]; intros m S; [reflexivity|]. cbn [silent] in S. destruct S as (L & N & S).
  cbn [run items]. rewrite (IH _ S), (step_asks c e k m L N).
  assert (forall l1 l2, outs (l1 ++ l2) = outs l1 ++ outs l2) as OA by (intros; apply flat_map_app).
  rewrite OA, filter_app, app_length, iter_add. f_equal.
  rewrite TriesP.step_outs. reflexivity.
Qed.


Lemma piter min n d b : Nat.iter n (pstep min) (d, b) = (Nat.iter n (bstep min) d, match n with O => b | S n => now_due (Nat.iter n (bstep min) d) end).
Proof. induction n as [|n IH]; [reflexivity|]. change (Nat.iter (S n) (pstep min) (d, b)) with (pstep min (Nat.iter n (pstep min) (d, b))). rewrite IH. reflexivity. Qed.

Theorem asked c h m : silent c h m -> let min := MIN_RATE (c_noSF12 c) in let d := dials_of m in starts_fresh min d -> m_adrAckReq m = false ->
  let n := finished (outs (items c h m)) in
  Z.min (steps_due (d_limit d) (d_delay d) (n - 1)) (steps_possible (d_limit d) (d_delay d)) < steps_needed min d ->
  m_adrAckReq (run c h m) = (d_limit d <? n) && (n <=? 255).
Proof.
  intros S. cbv zeta. intros (H1 & H2 & H3 & H4 & H5 & H6) Q. unfold finished.
  pose proof (run_asks c h m S) as R. unfold asked_of in R. rewrite piter in R. apply (f_equal snd) in R. cbn [snd] in R. rewrite R.
  set (n := length (filter is_done (outs (items c h m)))). clearbody n. clear R. destruct n as [|n]; intros G; [rewrite Q; lia|].
  destruct (iter_state (MIN_RATE (c_noSF12 c)) (dials_of m) n H1 H2 H3 H4 H5 H6) as [(F & C & K & A)|[B G']].
  - unfold now_due. destruct F as (F1 & F2 & F3). rewrite F1, F2, H1, C. lia.
  - exfalso. replace (Z.of_nat (Datatypes.S n) - 1) with (Z.of_nat n) in G by lia. lia.
Qed.

(* a downlink starts the count again *)
Lemma core_asked_eq m m' : core m' = core m -> m_adrAckReq m' = m_adrAckReq m /\ m_adrAckCounter m' = m_adrAckCounter m.
Proof. intros C. apply core_fields in C. unfold same_core in C. decompose [and] C. split; congruence. Qed.
Theorem heard_fresh c e m buf f : in_rx (m_state m) = true -> inputPending m = true -> e_st_rx e = true ->
  receiveFrame c m (rx_buffer e) (rx_len e) = (buf, Some f) -> is_rx_data f = true ->
  let m' := fst (step c e C_process m) in m_adrAckReq m' = false /\ m_adrAckCounter m' = 0.
Proof.
  intros R I X RF D. cbv zeta. destruct (process_I c e m I) as (m2 & lag & Q & _ & _ & E). cbn [step fst]. rewrite E.
  destruct Q as [[C _] ST].
  assert (dispatch c e SME_INTERRUPT lag m2 = rx_packet c e m2) as ->.
  { unfold dispatch. rewrite ST. destruct (m_state m); try discriminate R; unfold processRX; rewrite X; reflexivity. }
  open_def rx_packet. cbv zeta. set (m3 := set_m_rx_snr (e_snr e) _).
  assert (core m3 = core m) as C3. { rewrite <- C. unfold m3, emit, timerClear, set_timer. autorewrite with core. reflexivity. }
  rewrite (receive_core _ _ _ _ _ C3), RF. unfold is_rx_data in D.
  assert (forall y, (match dn_type f with FT_CONF_DOWN | FT_UNCONF_DOWN => data_received c e buf f m3 | _ => y end) = data_received c e buf f m3) as -> by (intros; destruct (dn_type f); try discriminate D; reflexivity).
  destruct (data_received_frame c e buf f m3) as (s & l0 & C0 & _).
  revert C0. generalize (data_received c e buf f m3). intros x C0. clear -C0.
  pose proof (setNext_quiet e (pushSessionUpdate x)) as [[C4 _] _].
  destruct (core_asked_eq _ _ C4) as [A1 A2]. destruct (core_asked_eq _ _ C0) as [B1 B2].
  split; [rewrite A1; change (m_adrAckReq (pushSessionUpdate x)) with (m_adrAckReq x)|rewrite A2; change (m_adrAckCounter (pushSessionUpdate x)) with (m_adrAckCounter x)]; [rewrite B1|rewrite B2]; reflexivity.
Qed.

(* the bit in the frames sent for the next request *)
Theorem asked_sent c r a e0 h1 h2 e cf port d o h3 : in_place c -> arg_ok a ->
  let m0 := run c h1 (MAC_init c r a e0) in let min := MIN_RATE (c_noSF12 c) in let v := dials_of m0 in
  silent c h2 m0 -> starts_fresh min v -> m_adrAckReq m0 = false ->
  let n := finished (outs (items c h2 m0)) in
  Z.min (steps_due (d_limit v) (d_delay v) (n - 1)) (steps_possible (d_limit v) (d_delay v)) < steps_needed min v ->
  let k := C_data cf port d o in let m1 := run c h2 m0 in let m1' := fst (step c e k m1) in
  starts (IReq k (snd (step c e k m1))) = Some KData -> accepted (items c h3 m1') = 0 ->
  forall f bw sf p fr, In (OTransmit f bw sf p fr) (outs (items c h3 m1')) -> is_data_frame fr = true ->
    asks_ack fr = (d_limit v <? n) && (n <=? 255).
Proof.
  intros IP OK m0 min v S F Q n N k m1 m1' ST AC f bw sf p fr IN D.
  assert (m1 = run c (h1 ++ h2) (MAC_init c r a e0)) as E1 by (unfold m1, m0; symmetry; apply run_app).
  assert (m_adrAckReq m1 = (d_limit v <? n) && (n <=? 255)) as <- by exact (asked c h2 m0 S F Q N).
  clear N Q F S. clearbody n v. unfold m1' in *. clear m1'. clearbody m1. subst m1.
  exact (proj1 (proj2 (flags_sent c r a e0 (h1 ++ h2) e cf port d o h3 IP OK ST AC f bw sf p fr IN D))).
Qed.
