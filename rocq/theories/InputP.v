(* Radio interrupts (C40). *)
From Verif Require Import Lib FrameM CommandsM RegionM RadioM SmM MacStateM MacTac MacUtilM OpsM MacCmdM MacProcM MacApiM MacRw
  CoreP CaseP RxP ExecP SpecHist HistP EndP TxP StuckP WindowP SpecInput Scenario AcceptP.

Definition no_start (o : out) : bool := negb (radio_start o).

(* inputs untouched, radio not started *)
Definition calm (m m' : mac) : Prop := m_inputs m' = m_inputs m /\ logs no_start m m'.

Lemma calm_refl m : calm m m. Proof. split; [reflexivity|apply logs_refl]. Qed.
Lemma calm_trans a b c : calm a b -> calm b c -> calm a c.
Proof. intros [A1 A2] [B1 B2]. split; [congruence|eapply logs_trans; eauto]. Qed.
Lemma calm_same m m' : m_inputs m' = m_inputs m -> m_log m' = m_log m -> calm m m'.
Proof. intros A B. split; [exact A|now apply logs_same]. Qed.
Lemma calm_one m m' o : m_inputs m' = m_inputs m -> m_log m' = m_log m ++ [o] -> no_start o = true -> calm m m'.
Proof. intros A B C. split; [exact A|eapply logs_one; eauto]. Qed.
Lemma calm_ends m x y : m_inputs y = m_inputs x -> m_log y = m_log x -> calm m x -> calm m y.
Proof. intros A B H. eapply calm_trans; [exact H|now apply calm_same]. Qed.
Lemma calm_notify m x ev : calm m x -> calm m (notify ev x).
Proof. intros H. eapply calm_trans; [exact H|]. apply (calm_one _ _ (OEvent ev)); reflexivity. Qed.

Lemma registerTime_calm m : calm m (registerTime m).
Proof.
  unfold registerTime. cbv zeta.
  assert (forall x y i v, calm x y -> calm x (band_set i v y)) as Hc by (intros x y i v; apply calm_ends; reflexivity).
  destruct (getBand _ _); destruct (m_op m); try (destruct (_ >? _)); repeat (first [apply calm_refl | apply Hc]).
Qed.

Lemma processBands_calm e m : calm m (fst (processBands e m)).
Proof.
  unfold processBands. destruct (mt_parked _); [apply calm_refl|]. destruct (elapsed _ _). cbv zeta. destruct (_ && _); cbn [fst].
  - apply (calm_one _ _ (OEvent EV_CHANNEL_READY)); reflexivity.
  - now apply calm_same.
Qed.
Lemma setNext_calm e m : calm m (setNextBandEvent e m).
Proof. unfold setNextBandEvent. cbv zeta. destruct (_ <? _); now apply calm_same. Qed.
Lemma timerCheck_calm e i m : calm m (fst (timerCheck e i m)).
Proof. unfold timerCheck. cbv zeta. destruct (tm_armed _); [destruct (_ <? _)|]; cbn [fst]; try apply calm_refl. now apply calm_same. Qed.

Lemma missing_calm c e m : calm m (downlinkMissing c e m).
Proof.
  open_def downlinkMissing. cbv zeta. change (set_m_trials (u32 (m_trials m + 1)) m) with (next_trial m).
  assert (calm m (next_trial m)) as N by now apply calm_same.
  assert (forall ev, calm m (let (m0, changed) := adaptRate c (next_trial m) in complete ev (if changed then pushSessionUpdate m0 else m0))) as HD.
  { intros ev. pose proof (adaptRate_fields c (next_trial m)) as H. cbv zeta in H. destruct (adaptRate c (next_trial m)) as [m0 ch].
    destruct H as (s & n & b & E & _). cbn [fst] in E.
    assert (calm m m0) as H0 by (rewrite E; eapply calm_ends; [| |exact N]; reflexivity). clear E.
    unfold complete. eapply calm_ends; [reflexivity|reflexivity|]. apply calm_notify. destruct ch; [|exact H0]. now apply calm_notify. }
  destruct (m_op (next_trial m)); try exact N.
  - destruct (_ <=? _).
    + destruct (fillJoin_fields c e (u16 (m_devNonce (next_trial m))) (next_trial m)) as (t & buf & len & dn & E & _).
      assert (calm m (fillJoinBuffer c e (u16 (m_devNonce (next_trial m))) (next_trial m))) as HF by (rewrite E; eapply calm_ends; [| |exact N]; reflexivity).
      clear E. revert HF. generalize (fillJoinBuffer c e (u16 (m_devNonce (next_trial m))) (next_trial m)). intros x HF.
      eapply calm_ends; [reflexivity|reflexivity|]. apply calm_notify. eapply calm_ends; [| |exact HF]; reflexivity.
    + unfold complete. eapply calm_ends; [reflexivity|reflexivity|]. now apply calm_notify.
  - destruct (_ && _); [|apply HD]. eapply calm_ends; [| |exact N]; reflexivity.
  - destruct (_ && _); [|apply HD]. eapply calm_ends; [| |exact N]; reflexivity.
Qed.

Lemma do_command_calm c e d last m0 m st : calm m0 m -> calm m0 (fst (do_command c e d last m st)).
Proof.
  intros H. destruct d; cbn [do_command fst] in *; try (now apply calm_notify); try exact H;
  try (eapply calm_ends; [| |exact H]; reflexivity).
  1: { destruct (do_linkADR _ _ _ _ _ _ _ _) as [s st']. eapply calm_ends; [| |exact H]; reflexivity. }
  all: try (destruct (isDynamic _); [|exact H]); cbv zeta; cbn [fst]; try exact H;
       try (eapply calm_ends; [| |exact H]; reflexivity).
  all: try (destruct (device_time _ _ _ _ _); now apply calm_notify).
  all: repeat match goal with |- context [if ?b then _ else _] => destruct b end; try exact H;
       try (eapply calm_ends; [| |exact H]; reflexivity).
  all: repeat match goal with |- context [let (_,_) := ?b in _] => destruct b end; try exact H;
       try (eapply calm_ends; [| |exact H]; reflexivity).
Qed.

Lemma commands_calm c e l m : calm m (processCommands c e l m).
Proof.
  apply (processCommands_inv c e (calm m)).
  - intros. now apply do_command_calm.
  - now apply calm_same.
  - intros m' H. eapply calm_ends; [| |exact H]; reflexivity.
Qed.

Lemma data_calm c e buf f m : calm m (data_received c e buf f m).
Proof.
  open_def data_received. cbv zeta.
  set (m1 := set_m_adrAckReq false _).
  assert (calm m m1) as H1 by now apply calm_same. clearbody m1.
  set (m2 := match dn_opts f with Some off => _ | None => m1 end).
  assert (calm m m2) as H2 by (unfold m2; destruct (dn_opts f); [eapply calm_trans; [exact H1|apply commands_calm]|exact H1]). clearbody m2. clear H1 m1.
  set (m3 := match dn_data f with Some off => _ | None => m2 end).
  assert (calm m m3) as H3.
  { unfold m3. destruct (dn_data f); [|exact H2]. destruct (_ =? 0); [eapply calm_trans; [exact H2|apply commands_calm]|now apply calm_notify]. }
  clearbody m3. clear H2 m2.
  eapply calm_ends; [reflexivity|reflexivity|]. destruct (m_op m3); try exact H3; now apply calm_notify.
Qed.

Lemma keys_calm c m : calm m (deriveKeys c m).
Proof. destruct (deriveKeys_sm c m) as (sm & E). rewrite E. now apply calm_same. Qed.

Lemma join_calm c buf f m : calm m (join_accepted c buf f m).
Proof.
  open_def join_accepted. cbv zeta.
  match goal with |- calm m (notify ?v (set_m_op _ (set_m_state _ (set_m_day _ (band_set _ _ (set_m_joinNonce _ (deriveKeys c (set_m_ctx ?s m)))))))) =>
    generalize v; intros ev; generalize s; intros s0 end.
  apply calm_notify. eapply calm_ends; [| |eapply calm_trans; [|apply (keys_calm c (set_m_ctx s0 m))]]; [reflexivity|reflexivity|now apply calm_same].
Qed.

Lemma tx_done_calm c e lag m : calm m (tx_done c e lag m).
Proof.
  open_def tx_done. cbv zeta.
  destruct (window _ _ _ _) as [sym1 marg1]. destruct (window _ _ _ _) as [sym2 marg2].
  apply (calm_one _ _ (OMode MODE_HOLD)); [| |reflexivity].
  - unfold emit. ms. destruct (_ <=? _); [destruct (_ <=? _)|]; reflexivity.
  - unfold emit. ms. f_equal. destruct (_ <=? _); [destruct (_ <=? _)|]; reflexivity.
Qed.

Lemma rx_timeout_calm e m : calm m (rx_timeout e m).
Proof. unfold rx_timeout. destruct (m_state m); eapply calm_one; reflexivity. Qed.

Lemma rx_packet_calm c e m : calm m (rx_packet c e m).
Proof.
  open_def rx_packet. cbv zeta. set (m1 := set_m_rx_snr _ _).
  assert (calm m m1) as H1 by (eapply calm_one; reflexivity). clearbody m1.
  destruct (receiveFrame c m1 (rx_buffer e) (rx_len e)) as [buf [f|]].
  - apply calm_notify. eapply calm_trans; [exact H1|]. destruct (dn_type f); first [apply data_calm|apply join_calm].
  - eapply calm_trans; [exact H1|apply missing_calm].
Qed.

(* as calm, but the interrupt is disarmed *)
Definition disarmed (m m' : mac) : Prop :=
  m_inputs m' = mkInput false (in_state (m_inputs m)) (in_time (m_inputs m)) /\ logs no_start m m'.

Lemma error_disarmed c e m : disarmed m (handleRadioError c e m).
Proof.
  open_def handleRadioError. cbv zeta. set (m1 := timerClear WAITB _).
  assert (disarmed m m1) as [D1 D2] by (split; [reflexivity|now apply logs_same]). clearbody m1.
  set (m2 := match m_op m1 with OP_JOINING => _ | _ => _ end).
  assert (calm m1 m2) as [C1 C2]. { unfold m2. destruct (m_op m1); try apply missing_calm; eapply calm_one; reflexivity. }
  clearbody m2. split; [change (m_inputs m2 = mkInput false (in_state (m_inputs m)) (in_time (m_inputs m))); congruence|].
  eapply logs_trans; [exact D2|]. eapply logs_trans; [exact C2|]. apply (logs_one _ _ _ (OMode MODE_RESET)); reflexivity.
Qed.

Lemma error_state c e m : m_state (handleRadioError c e m) = ST_RADIO_RESET.
Proof. reflexivity. Qed.

Lemma missing_radio c e m : radio_on (m_state m) = false -> radio_on (m_state (downlinkMissing c e m)) = false.
Proof.
  intros H. destruct (missing_cases c e m) as [m2 D ? C S E|m2 D p C S E|m2 O ? C S E|m2 O ? C S E|D O]; try (rewrite S; reflexivity). exact H.
Qed.

(* what one event does to the interrupt *)
Inductive input_case (m m' : mac) : Prop :=
| ic_calm : calm m m' -> (in_armed (m_inputs m') = true -> radio_on (m_state m) = true -> radio_on (m_state m') = true) -> input_case m m'
| ic_off : disarmed m m' -> input_case m m'
| ic_on : m_inputs m' = mkInput true false (in_time (m_inputs m)) -> radio_on (m_state m') = true ->
    (exists l, m_log m' = m_log m ++ l /\ existsb radio_start l = true) -> input_case m m'.

Lemma calm_unarmed m m' : in_armed (m_inputs m) = false -> calm m m' -> disarmed m m'.
Proof. intros A [C1 C2]. split; [|exact C2]. rewrite C1. destruct (m_inputs m). cbn in *. subst. reflexivity. Qed.

Lemma dispatch_interrupt c e lag m : in_armed (m_inputs m) = false -> in_state (m_inputs m) = false -> disarmed m (dispatch c e SME_INTERRUPT lag m).
Proof.
  intros A I. assert (disarmed m m) as R by (apply calm_unarmed; [exact A|apply calm_refl]).
  unfold dispatch. destruct (m_state m) eqn:S; try exact R; cbv [processRadioReset processRadioBoot processWait processStartRadioForEntropy processEntropy processStartRadioForTX processStartRadioForRX1 processStartRadioForRX2 processRX2Lockout]; try exact R.
  - apply calm_unarmed; [exact A|]. eapply calm_one; reflexivity.
  - apply calm_unarmed; [exact A|]. unfold processWaitOTAA. destruct (_ =? 0); [now apply calm_same|apply calm_refl].
  - unfold processTX. pose proof (registerTime_calm m) as C. destruct (e_st_tx e).
    + apply calm_unarmed; [exact A|]. eapply calm_trans; [exact C|apply tx_done_calm].
    + destruct (error_disarmed c e (registerTime m)) as [D1 D2]. destruct C as [C1 C2]. split; [rewrite D1, C1; reflexivity|eapply logs_trans; eauto].
  - unfold processRX. destruct (e_st_rx e); [apply calm_unarmed; [exact A|apply rx_packet_calm]|].
    destruct (e_st_timeout e); [apply calm_unarmed; [exact A|apply rx_timeout_calm]|]. apply error_disarmed.
  - unfold processRX. destruct (e_st_rx e); [apply calm_unarmed; [exact A|apply rx_packet_calm]|].
    destruct (e_st_timeout e); [apply calm_unarmed; [exact A|apply rx_timeout_calm]|]. apply error_disarmed.
Qed.

Lemma dispatch_other c e ev lag m : ev <> SME_INTERRUPT -> input_case m (dispatch c e ev lag m).
Proof.
  intros NI. assert (input_case m m) as R by (apply ic_calm; [apply calm_refl|auto]).
  unfold dispatch. destruct (m_state m) eqn:S; try exact R.
  - apply ic_calm; [eapply calm_one; reflexivity|]. rewrite S. discriminate.
  - destruct ev; try exact R. apply ic_calm; [eapply calm_one; reflexivity|]. rewrite S. discriminate.
  - destruct ev; try exact R. cbv [processRadioBoot]. change (m_op (emit (OMode MODE_SLEEP) m)) with (m_op m).
    apply ic_calm; [|rewrite S; discriminate]. destruct (m_op m); apply (calm_one _ _ (OMode MODE_SLEEP)); reflexivity.
  - destruct ev; try exact R; (apply ic_calm; [|rewrite S; discriminate]; cbv [processWait]; rewrite S; eapply calm_one; reflexivity).
  - destruct ev; try exact R. apply ic_calm; [eapply calm_one; reflexivity|]. rewrite S. discriminate.
  - destruct ev; try exact R. apply ic_calm; [|rewrite S; discriminate]. cbv [processEntropy]. apply calm_notify. eapply calm_one; reflexivity.
  - apply ic_calm; [|rewrite S; discriminate]. unfold processWaitOTAA. destruct (_ =? 0); [now apply calm_same|apply calm_refl].
  - destruct ev; try exact R; (apply ic_calm; [|rewrite S; discriminate]; cbv [processWait]; rewrite S; eapply calm_one; reflexivity).
  - destruct ev; try exact R. apply ic_on; [reflexivity|reflexivity|]. eexists [_]. split; reflexivity.
  - unfold processTX. destruct ev; try exact R; [|congruence]. pose proof (registerTime_calm m) as C. destruct (error_disarmed c e (registerTime m)) as [D1 D2]. destruct C as [C1 C2].
    apply ic_off. split; [rewrite D1, C1; reflexivity|eapply logs_trans; eauto].
  - destruct ev; try exact R; (apply ic_calm; [|rewrite S; discriminate]; cbv [processWait]; rewrite S; eapply calm_one; reflexivity).
  - destruct ev; try exact R. apply ic_on; [reflexivity|reflexivity|]. eexists [_]. split; reflexivity.
  - unfold processRX. destruct ev; try exact R; [|congruence]. apply ic_off. apply error_disarmed.
  - destruct ev; try exact R; (apply ic_calm; [|rewrite S; discriminate]; cbv [processWait]; rewrite S; eapply calm_one; reflexivity).
  - destruct ev; try exact R. apply ic_on; [reflexivity|reflexivity|]. eexists [_]. split; reflexivity.
  - unfold processRX. destruct ev; try exact R; [|congruence]. apply ic_off. apply error_disarmed.
  - destruct ev; try exact R. apply ic_calm; [apply missing_calm|]. rewrite S. discriminate.
Qed.

(* --- one call --- *)

Lemma log_new P m m' : logs P m m' -> forallb P (new_out m m') = true.
Proof. intros (l & E & H). rewrite (new_out_app _ _ _ E). exact H. Qed.
Lemma not_started m m' : logs no_start m m' -> existsb radio_start (new_out m m') = false.
Proof.
  intros H. apply log_new in H. apply not_true_iff_false. rewrite existsb_exists. intros (o & I & S).
  apply (proj1 (forallb_forall _ _) H) in I. unfold no_start in I. now rewrite S in I.
Qed.
Lemma log_grows P m m' : logs P m m' -> exists l, m_log m' = m_log m ++ l.
Proof. intros (l & E & _). eauto. Qed.

Lemma started_wide a b b' d : logs no_start a b -> (exists l, m_log b' = m_log b ++ l /\ existsb radio_start l = true) -> logs no_start b' d ->
  exists l, m_log d = m_log a ++ l /\ existsb radio_start l = true.
Proof.
  intros (l1 & E1 & _) (l2 & E2 & H) (l3 & E3 & _). exists (l1 ++ l2 ++ l3). split; [rewrite E3, E2, E1, !app_assoc; reflexivity|].
  rewrite !existsb_app, H. now rewrite orb_true_r.
Qed.

Theorem process_signalled c e m : inputPending m = true ->
  m_inputs (MAC_process c e m) = mkInput false false (in_time (m_inputs m)) /\ starts_radio c e C_process m = false.
Proof.
  intros I. unfold starts_radio. cbn [step fst]. unfold MAC_process. pose proof (processBands_calm e m) as [B1 B2].
  destruct (processBands e m) as [m1 rd]. cbn [fst] in *.
  unfold next_event, inputCheck. rewrite B1. unfold inputPending in I. rewrite I.
  set (m2 := set_m_inputs _ m1). set (lag := timerDelta _ _).
  destruct (dispatch_interrupt c e lag m2 eq_refl eq_refl) as [D1 D2].
  destruct (setNext_calm e (dispatch c e SME_INTERRUPT lag m2)) as [E1 E2].
  split; [rewrite E1, D1; reflexivity|]. apply not_started. eapply logs_trans; [exact B2|]. eapply logs_trans; [|exact E2]. exact D2.
Qed.

Lemma process_unsignalled c e m : inputPending m = false -> input_case m (MAC_process c e m).
Proof.
  intros I. unfold MAC_process. pose proof (processBands_calm e m) as B. pose proof (processBands_quiet e m) as Q.
  destruct (processBands e m) as [m1 rd]. cbn [fst] in *.
  assert (forall m2 ev lag, ev <> SME_INTERRUPT -> calm m m2 -> m_state m2 = m_state m ->
    input_case m (setNextBandEvent e (match ev with SME_NONE => m2 | _ => dispatch c e ev lag m2 end))) as K.
  { intros m2 ev lag NI CA ST. set (m3 := match ev with SME_NONE => _ | _ => _ end).
    assert (input_case m2 m3) as IC by (unfold m3; destruct ev; try (apply dispatch_other; exact NI); apply ic_calm; [apply calm_refl|auto]).
    assert (m_state (setNextBandEvent e m3) = m_state m3) as SS by (apply band_event_state).
    destruct CA as [CA1 CA2]. destruct (setNext_calm e m3) as [E1 E2]. destruct IC as [[C1 C2] R|[C1 C2]|C1 C2 C3].
    - apply ic_calm; [split; [congruence|eapply logs_trans; [exact CA2|eapply logs_trans; eauto]]|]. rewrite SS, E1. rewrite ST in R. exact R.
    - apply ic_off. split; [rewrite E1, C1, CA1; reflexivity|eapply logs_trans; [exact CA2|eapply logs_trans; eauto]].
    - apply ic_on; [rewrite E1, C1, CA1; reflexivity|rewrite SS; exact C2|].
      eapply started_wide; [exact CA2|exact C3|exact E2]. }
  unfold next_event, inputCheck. rewrite (proj1 B). unfold inputPending in I. rewrite I.
  pose proof (timerCheck_calm e WAITA m1) as T1. pose proof (timerCheck_quiet e WAITA m1) as Q1. destruct (timerCheck e WAITA m1) as [m2 [lag|]]; cbn [fst] in *.
  { apply (K m2 SME_TIMER_A lag); [discriminate|eapply calm_trans; eauto|]. destruct Q, Q1. congruence. }
  pose proof (timerCheck_calm e WAITB m2) as T2. pose proof (timerCheck_quiet e WAITB m2) as Q2. destruct (timerCheck e WAITB m2) as [m3 [lag|]]; cbn [fst] in *.
  { apply (K m3 SME_TIMER_B lag); [discriminate|eapply calm_trans; [eapply calm_trans|]; eauto|]. destruct Q, Q1, Q2. congruence. }
  apply (K m3 (if rd then SME_BAND else SME_NONE) 0); [destruct rd; discriminate|eapply calm_trans; [eapply calm_trans|]; eauto|]. destruct Q, Q1, Q2. congruence.
Qed.

(* --- histories --- *)

Definition on_air (m : mac) : Prop := in_armed (m_inputs m) = true -> radio_on (m_state m) = true.

Definition unsettled (m m' : mac) : Prop :=
  in_state (m_inputs m') = in_state (m_inputs m) /\ in_time (m_inputs m') = in_time (m_inputs m) /\
  (in_armed (m_inputs m') = true -> in_armed (m_inputs m) = true) /\ on_air m' /\ existsb radio_start (new_out m m') = false.

Lemma calm_unsettled m m' : on_air m -> calm m m' -> (m_state m' = m_state m \/ m_state m = ST_IDLE) -> unsettled m m'.
Proof.
  intros J [C1 C2] S. unfold unsettled, on_air in *. rewrite C1. repeat split; auto; [|now apply not_started].
  intros A. specialize (J A). destruct S as [->|S]; [exact J|]. rewrite S in J. discriminate.
Qed.
Lemma disarmed_unsettled m m' : disarmed m m' -> unsettled m m'.
Proof. intros [C1 C2]. unfold unsettled, on_air. rewrite C1. cbn. repeat split; try discriminate. now apply not_started. Qed.

Lemma cancel_input m : on_air m -> disarmed m (MAC_cancel m) \/ calm m (MAC_cancel m) /\ m_state (MAC_cancel m) = m_state m.
Proof.
  intros J. unfold MAC_cancel. cbv zeta. change (m_state (set_m_op OP_NONE m)) with (m_state m).
  destruct (match m_state m with ST_INIT | ST_RADIO_RESET | ST_RADIO_BOOT => true | _ => false end) eqn:R.
  - right. set (x := match m_state m with ST_INIT => _ | _ => _ end).
    assert (x = set_m_op OP_NONE m) as -> by (unfold x; destruct (m_state m); try discriminate; reflexivity).
    change (m_state (set_m_op OP_NONE m)) with (m_state m).
    assert (match m_state m with ST_TX => registerTime (set_m_op OP_NONE m) | _ => set_m_op OP_NONE m end = set_m_op OP_NONE m) as -> by (destruct (m_state m); try discriminate; reflexivity).
    destruct (m_op m); split; try reflexivity; try (now apply calm_same); apply calm_notify; now apply calm_same.
  - left. set (x := match m_state m with ST_INIT => _ | _ => _ end).
    set (y := emit (OMode MODE_RESET) (set_m_state ST_RADIO_RESET (inputDisarm (timerClear WAITB (timerClear WAITA (set_m_op OP_NONE m)))))).
    assert (x = y) as -> by (unfold x; destruct (m_state m); try discriminate; reflexivity).
    change (m_state y) with ST_RADIO_RESET. cbv iota.
    assert (disarmed m y) as [D1 D2] by (split; [reflexivity|apply (logs_one _ _ _ (OMode MODE_RESET)); reflexivity]). clearbody y.
    destruct (m_op m); (split; [exact D1|]); try exact D2; (eapply logs_trans; [exact D2|]; apply (logs_one _ _ _ (OEvent EV_OP_CANCELLED)); reflexivity).
Qed.

Lemma forgetNetwork_calm c m : calm m (forgetNetwork c m).
Proof. now apply calm_same. Qed.

Lemma mic_calm c m : m_inputs (micDataFrame c m) = m_inputs m /\ m_log (micDataFrame c m) = m_log m /\ m_state (micDataFrame c m) = m_state m.
Proof. repeat split. Qed.

Lemma started_calm m y e (st : status) : calm m y -> m_state y = m_state m ->
  let p := (match m_state y with ST_IDLE => timerSet e WAITA 0 (set_m_state ST_WAIT_TX y) | _ => y end, st) in
  calm m (fst p) /\ (m_state (fst p) = m_state m \/ m_state m = ST_IDLE).
Proof.
  intros H1 H2. cbv zeta. cbn [fst]. rewrite <- H2. destruct (m_state y) eqn:S; split;
  first [exact H1|right; reflexivity|left; exact S|left; reflexivity|apply (calm_ends m y); [reflexivity|reflexivity|exact H1]].
Qed.

Lemma data_start_calm c e cf p d o m : calm m (fst (MAC_data c e cf p d o m)) /\
  (m_state (fst (MAC_data c e cf p d o m)) = m_state m \/ m_state m = ST_IDLE).
Proof.
  open_def MAC_data. destruct (negb _); [split; [apply calm_refl|auto]|].
  destruct (m_op m); try (split; [apply calm_refl|auto]).
  destruct (_ && _); [|split; [apply calm_refl|auto]]. destruct (_ =? 0); [|split; [apply calm_refl|auto]]. cbv zeta. fold (sel_start c m).
  destruct (selectChannel _ _ _ _ _) as [tx [|]]; [|split; [now apply calm_same|auto]].
  destruct (_ <=? _); [|split; [now apply calm_same|auto]].
  destruct (compose _ _ _ _ _ _) as [[f op] st].
  match goal with |- context [prepareData c ?y f ?d ?n] => assert (m_inputs y = m_inputs m /\ m_log y = m_log m /\ m_state y = m_state m) as (E1 & E2 & E3) by (repeat split; reflexivity);
    revert E1 E2 E3; generalize y; intros x E1 E2 E3 end.
  destruct (prepareData _ _ _ _ _) as [buf n]. apply started_calm.
  - apply calm_notify. destruct (mic_calm c (set_m_bufferLen n (set_m_buffer buf x))) as (M1 & M2 & _). apply calm_same; [rewrite M1; exact E1|rewrite M2; exact E2].
  - exact E3.
Qed.

Lemma otaa_start_calm c e m : calm m (fst (MAC_otaa c e m)) /\ (m_state (fst (MAC_otaa c e m)) = m_state m \/ m_state m = ST_IDLE).
Proof.
  open_def MAC_otaa. cbv zeta. destruct (s_joined _); [split; [apply calm_refl|auto]|].
  destruct (m_op m); try (split; [apply calm_refl|auto]). destruct (_ <=? _); [|split; [apply calm_refl|auto]].
  set (m1 := if is_1_1 _ then _ else _).
  assert (calm m m1 /\ m_state m1 = m_state m) as [H1 H2] by (unfold m1; destruct (is_1_1 _); split; try reflexivity; now apply calm_same). clearbody m1.
  destruct (fillJoin_fields c e (u16 (m_devNonce m1)) m1) as (t & buf & len & dn & E & _).
  assert (calm m (fillJoinBuffer c e (u16 (m_devNonce m1)) m1) /\ m_state (fillJoinBuffer c e (u16 (m_devNonce m1)) m1) = m_state m) as [H3 H4]
    by (rewrite E; split; [eapply calm_ends; [| |exact H1]; reflexivity|exact H2]).
  clear E. revert H3 H4. generalize (fillJoinBuffer c e (u16 (m_devNonce m1)) m1). intros x H3 H4.
  match goal with |- calm m (fst (match m_state ?x with _ => _ end, _)) /\ _ => set (y := x); assert (calm m y /\ m_state y = m_state m) as [H5 H6] end.
  { split; [|exact H4]. eapply calm_ends; [reflexivity|reflexivity|]. apply calm_notify. eapply calm_ends; [| |exact H3]; reflexivity. }
  clearbody y. cbn [fst]. rewrite <- H6. clear H6. destruct (m_state y) eqn:S; split; first [exact H5|right; reflexivity|left; exact S|left; reflexivity|apply (calm_ends m y); [reflexivity|reflexivity|exact H5]].
Qed.

(* calls other than process and radioEvent *)
Lemma request_input c e k m : is_process k = false -> is_signal k = false -> on_air m -> unsettled m (fst (step c e k m)).
Proof.
  intros NP NS J. destruct k; try discriminate; cbn [step st_ret bool_ret fst snd].
  - apply calm_unsettled; auto; unfold MAC_entropy; destruct (m_op m); cbn [fst]; auto; try apply calm_refl;
    change (m_state (set_m_op OP_ENTROPY m)) with (m_state m); destruct (m_state m) eqn:S; first [right; reflexivity|left; exact S|now apply calm_same].
  - destruct (otaa_start_calm c e m). now apply calm_unsettled.
  - apply calm_unsettled; auto; unfold MAC_abp; (destruct (s_joined _); [first [apply calm_refl|auto]|]); destruct (m_op m); cbn [fst]; auto; try apply calm_refl; now apply calm_same.
  - destruct (data_start_calm c e confirmed port data opts m). now apply calm_unsettled.
  - destruct (cancel_input m J) as [D|[C S]]; [now apply disarmed_unsettled|apply calm_unsettled; auto].
  - unfold MAC_forget. cbv zeta. set (x := MAC_cancel m).
    assert (disarmed m x \/ calm m x /\ m_state x = m_state m) as H by exact (cancel_input m J). clearbody x.
    set (y := if s_joined _ then _ else _).
    assert (calm x y /\ m_state y = m_state x) as [Y1 Y2]. { unfold y. destruct (s_joined _); [|split; [apply calm_refl|reflexivity]]. split; [|reflexivity]. apply calm_notify. now apply calm_same. }
    clearbody y. destruct H as [[D1 D2]|[C S]].
    + apply disarmed_unsettled. destruct Y1 as [Y1 Y3]. split; [congruence|eapply logs_trans; eauto].
    + apply calm_unsettled; auto; [eapply calm_trans; eauto|left; congruence].
  - apply calm_unsettled; auto; unfold MAC_setRate; destruct (rateSettingIsValid _ _); cbn [fst]; auto; try apply calm_refl; apply calm_notify; now apply calm_same.
  - apply calm_unsettled; auto; unfold MAC_setPower; destruct (validateTXPower _ _); cbn [fst]; auto; try apply calm_refl; apply calm_notify; now apply calm_same.
  - apply calm_unsettled; auto. apply calm_notify; now apply calm_same.
  - apply calm_unsettled; auto. apply calm_notify; now apply calm_same.
  - apply calm_unsettled; auto; unfold MAC_addChannel; destruct (setChannel _ _ _ _ _); cbn [fst]; auto; now apply calm_same.
  - apply calm_unsettled; auto; unfold MAC_maskChannel; destruct (maskChannel _ _ _); cbn [fst]; auto; now apply calm_same.
  - apply calm_unsettled; auto; unfold MAC_unmaskChannel; destruct (unmaskChannel _ _ _); cbn [fst]; auto; now apply calm_same.
Qed.

(* --- where a pending interrupt comes from --- *)

Definition armed_since (c : cfg) (h : history) (m0 : mac) : Prop :=
  exists h1 e h2, h = h1 ++ (e, C_process) :: h2 /\
    starts_radio c e C_process (run c h1 m0) = true /\ undisturbed c h2 (run c (h1 ++ [(e, C_process)]) m0) = true.

Definition signalled_since (c : cfg) (h : history) (m0 : mac) (t : Z) : Prop :=
  exists h1 e h2 e' h3, h = h1 ++ (e, C_process) :: h2 ++ (e', C_radioEvent t) :: h3 /\
    starts_radio c e C_process (run c h1 m0) = true /\ undisturbed c h2 (run c (h1 ++ [(e, C_process)]) m0) = true /\
    forallb (fun x => negb (is_process (snd x))) h3 = true.

Lemma run_snoc c h e k m : run c (h ++ [(e, k)]) m = fst (step c e k (run c h m)).
Proof. revert m. induction h as [|[e' k'] h IH]; intros m; cbn [List.app run]; auto. Qed.
Lemma undisturbed_snoc c h e k : forall m, undisturbed c (h ++ [(e, k)]) m = undisturbed c h m && (negb (is_signal k) && negb (starts_radio c e k (run c h m))).
Proof.
  induction h as [|[e' k'] h IH]; intros m; cbn [List.app undisturbed run].
  - rewrite andb_true_r. reflexivity.
  - rewrite IH, <- !andb_assoc. reflexivity.
Qed.

Definition input_inv (c : cfg) (h : history) (m0 : mac) : Prop :=
  let m := run c h m0 in
  on_air m /\ (in_armed (m_inputs m) = true -> in_state (m_inputs m) = false -> armed_since c h m0) /\
  (in_state (m_inputs m) = true -> signalled_since c h m0 (in_time (m_inputs m))).

Lemma armed_more c h e k m0 : is_signal k = false -> starts_radio c e k (run c h m0) = false -> armed_since c h m0 -> armed_since c (h ++ [(e, k)]) m0.
Proof.
  intros NS ST (h1 & e1 & h2 & E & S & U). exists h1, e1, (h2 ++ [(e, k)]). split; [rewrite E, <- app_assoc; reflexivity|]. split; [exact S|].
  rewrite undisturbed_snoc, U, NS. cbn [negb andb].
  assert (run c h2 (run c (h1 ++ [(e1, C_process)]) m0) = run c h m0) as ->.
  { subst h. clear. revert m0. induction h1 as [|[e' k'] h IH]; intros m; cbn [List.app run]; auto. }
  rewrite ST. reflexivity.
Qed.
Lemma signalled_more c h e k m0 t : is_process k = false -> signalled_since c h m0 t -> signalled_since c (h ++ [(e, k)]) m0 t.
Proof.
  intros NP (h1 & e1 & h2 & e2 & h3 & E & S & U & F). exists h1, e1, h2, e2, (h3 ++ [(e, k)]).
  split; [rewrite E, <- app_assoc; cbn [List.app]; rewrite <- app_assoc; reflexivity|]. split; [exact S|]. split; [exact U|].
  rewrite forallb_app, F. cbn. rewrite NP. reflexivity.
Qed.

Theorem input_origin c m0 h : m_inputs m0 = mkInput false false (in_time (m_inputs m0)) -> input_inv c h m0.
Proof.
  intros I0. induction h as [|[e k] h IH] using rev_ind.
  - unfold input_inv, on_air. cbn [run]. rewrite I0. cbn. repeat split; discriminate.
  - destruct IH as (J & A & S). unfold input_inv in *. rewrite run_snoc. set (m := run c h m0) in *.
    destruct (is_process k) eqn:KP.
    { destruct k; try discriminate. cbn [step fst]. destruct (in_state (m_inputs m)) eqn:IS.
      - destruct (process_signalled c e m IS) as [E _]. unfold on_air. rewrite E. cbn. repeat split; discriminate.
      - destruct (process_unsignalled c e m IS) as [[C1 C2] R|[C1 C2]|C1 C2 C3].
        + split; [|split].
          * unfold on_air. intros X. apply R; [exact X|]. apply J. congruence.
          * rewrite C1. intros X _. apply armed_more; auto. unfold starts_radio. cbn [step fst]. now apply not_started.
          * rewrite C1, IS. discriminate.
        + unfold on_air. rewrite C1, IS. cbn. repeat split; discriminate.
        + split; [|split].
          * intros _. exact C2.
          * intros _ _. exists h, e, []. split; [reflexivity|]. split; [|reflexivity]. fold m. unfold starts_radio. cbn [step fst].
            destruct C3 as (l & E & X). rewrite (new_out_app _ _ _ E). exact X.
          * rewrite C1. discriminate. }
    destruct (is_signal k) eqn:KS.
    { destruct k; try discriminate. cbn [step fst]. unfold inputSignal. destruct (in_state (m_inputs m)) eqn:IS; cbn [negb andb].
      - split; [exact J|]. rewrite IS. split; [discriminate|]. intros _. apply signalled_more; auto.
      - destruct (in_armed (m_inputs m)) eqn:IA.
        + split; [intros _; exact (J IA)|]. cbn [m_inputs set_m_inputs in_state in_armed in_time]. split; [discriminate|]. intros _.
          destruct (A eq_refl eq_refl) as (h1 & e1 & h2 & E & X & U). exists h1, e1, h2, e, []. split; [rewrite E, <- app_assoc; reflexivity|]. auto.
        + split; [exact J|]. rewrite IA, IS. split; discriminate. }
    destruct (request_input c e k m KP KS J) as (U1 & U2 & U3 & U4 & U5). split; [exact U4|]. rewrite U1, U2. split.
    + intros X Y. apply armed_more; auto.
    + intros X. apply signalled_more; auto.
Qed.

Lemma init_inputs c r a e : m_inputs (MAC_init c r a e) = mkInput false false 0.
Proof.
  unfold MAC_init. cbv zeta. change (m_inputs (restoreSession c r (ia_session a) (initSession c r (mac_zero a))) = mkInput false false 0).
  unfold restoreSession. destruct (ia_session a) as [s|]; [|reflexivity]. destruct (_ && _); [|reflexivity].
  destruct (keys_calm c (set_m_ctx s (initSession c r (mac_zero a)))) as [E _]. rewrite E. reflexivity.
Qed.

(* --- what the radio reports is looked at only then --- *)

Section Says.
  Variables (c : cfg) (e : env) (tx rx to : bool) (w : bytes) (rssi snr : Z).
  Let d := radio_says tx rx to w rssi snr e.
  Lemma s_timerSet i t m : timerSet d i t m = timerSet e i t m. Proof. reflexivity. Qed.
  Lemma s_join n m : fillJoinBuffer c d n m = fillJoinBuffer c e n m.
  Proof.
    cbv delta [fillJoinBuffer] beta. change (e_rand d) with (e_rand e). cbv zeta.
    match goal with |- context [prepareJoinRequest ?a ?b ?c ?d ?e] => destruct (prepareJoinRequest a b c d e) as [buf len] end. reflexivity.
  Qed.
  Lemma s_missing m : downlinkMissing c d m = downlinkMissing c e m.
  Proof.
    cbv delta [downlinkMissing] beta. change (e_rand d) with (e_rand e). cbv zeta.
    match goal with |- context [adaptRate ?a ?b] => destruct (adaptRate a b) as [m1 ch] end.
    rewrite !s_join, !s_timerSet. reflexivity.
  Qed.
  Lemma s_error m : handleRadioError c d m = handleRadioError c e m.
  Proof. cbv delta [handleRadioError] beta. cbv zeta. rewrite !s_missing, !s_timerSet. reflexivity. Qed.
  Lemma s_starttx ev m : processStartRadioForTX c d ev m = processStartRadioForTX c e ev m.
  Proof. cbv delta [processStartRadioForTX] beta. change (timerSet d) with (timerSet e). reflexivity. Qed.
  Lemma s_lockout ev m : processRX2Lockout c d ev m = processRX2Lockout c e ev m.
  Proof. cbv delta [processRX2Lockout] beta. rewrite s_missing. reflexivity. Qed.
  Lemma s_tx ev lag m : ev <> SME_INTERRUPT -> processTX c d ev lag m = processTX c e ev lag m.
  Proof. intros N. cbv delta [processTX] beta. rewrite !s_error. destruct ev; congruence. Qed.
  Lemma s_rx ev m : ev <> SME_INTERRUPT -> processRX c d ev m = processRX c e ev m.
  Proof. intros N. cbv delta [processRX] beta. rewrite !s_error. destruct ev; congruence. Qed.

  Lemma s_dispatch ev lag m : ev <> SME_INTERRUPT \/ radio_on (m_state m) = false -> dispatch c d ev lag m = dispatch c e ev lag m.
  Proof.
    intros N. unfold dispatch. rewrite s_starttx, s_lockout. destruct (m_state m); cbn [radio_on] in N;
    lazymatch goal with
    | |- processTX _ _ _ _ _ = _ => apply s_tx; destruct N; congruence
    | |- processRX _ _ _ _ = _ => apply s_rx; destruct N; congruence
    | |- _ => reflexivity
    end.
  Qed.

  Theorem unheard_radio m : inputPending m && radio_on (m_state m) = false -> MAC_process c d m = MAC_process c e m.
  Proof.
    intros NP. unfold MAC_process. change (processBands d m) with (processBands e m).
    pose proof (processBands_quiet e m) as Q. pose proof (processBands_calm e m) as [B _]. destruct (processBands e m) as [m1 rd]. cbn [fst] in *.
    change (next_event d m1 rd) with (next_event e m1 rd). pose proof (next_event_quiet e m1 rd) as Q1.
    destruct (next_event e m1 rd) as [[m2 ev] lag] eqn:NE. cbn [fst] in Q1.
    assert (ev <> SME_INTERRUPT \/ radio_on (m_state m2) = false) as N.
    { destruct (inputPending m) eqn:IP.
      - right. rewrite (proj2 Q1), (proj2 Q). exact NP.
      - left. clear - NE IP B. unfold next_event, inputCheck in NE. unfold inputPending in IP. rewrite B, IP in NE.
        destruct (timerCheck e WAITA m1) as [x [?|]]; [congruence|]. destruct (timerCheck e WAITB x) as [y [?|]]; [congruence|]. destruct rd; congruence. }
    rewrite (s_dispatch ev lag m2 N). reflexivity.
  Qed.
End Says.

(* --- what a pending interrupt does --- *)

Lemma tx_done_at c e lag m : m_ticks_at_tx (tx_done c e lag m) = u32 (e_now e - lag).
Proof.
  open_def tx_done. cbv zeta. destruct (window _ _ _ _) as [sym1 marg1]. destruct (window _ _ _ _) as [sym2 marg2].
  unfold emit. ms. destruct (_ <=? _); [destruct (_ <=? _)|]; reflexivity.
Qed.

Lemma setNext_at e m : m_ticks_at_tx (setNextBandEvent e m) = m_ticks_at_tx m.
Proof. unfold setNextBandEvent. cbv zeta. destruct (_ <? _); reflexivity. Qed.

Lemma process_I2 c e m : inputPending m = true ->
  exists m2, quiet m m2 /\ MAC_process c e m = setNextBandEvent e (dispatch c e SME_INTERRUPT (timerDelta (in_time (m_inputs m)) (e_now e)) m2).
Proof.
  intros I. unfold MAC_process. pose proof (processBands_calm e m) as [B _]. pose proof (processBands_quiet e m) as Q1. destruct (processBands e m) as [m1 rd]. cbn [fst] in *.
  unfold next_event. pose proof (inputCheck_quiet e m1) as Q2. unfold inputCheck in *. rewrite B in *. unfold inputPending in I. rewrite I in *. cbn [fst] in Q2.
  eexists. split; [eapply quiet_trans; [exact Q1|exact Q2]|reflexivity].
Qed.

Theorem tx_delivered c e m : inputPending m = true -> m_state m = ST_TX ->
  let m' := MAC_process c e m in
  if e_st_tx e then (m_state m' = ST_WAIT_RX1 \/ m_state m' = ST_WAIT_RX2) /\ m_ticks_at_tx m' = u32 (e_now e - timerDelta (in_time (m_inputs m)) (e_now e))
  else m_state m' = ST_RADIO_RESET.
Proof.
  intros I S. cbv zeta. destruct (process_I2 c e m I) as (m2 & Q & ->). rewrite setNext_at, (proj1 (band_event_state _ _)).
  unfold dispatch. rewrite (proj2 Q), S. unfold processTX. destruct (e_st_tx e); [|apply error_state].
  split; [apply tx_done_state|apply tx_done_at].
Qed.

Lemma packet_state c e m : so (m_op m) (m_state m) = true -> in_rx (m_state m) = true ->
  m_state (rx_packet c e m) = ST_IDLE \/ m_state (rx_packet c e m) = ST_WAIT_TX \/ m_state (rx_packet c e m) = ST_WAIT_OTAA.
Proof.
  intros SO R. destruct (so_rx _ _ SO (or_intror (or_introl R))) as [D|D];
  open_def rx_packet; cbv zeta; set (m1 := set_m_rx_snr _ _);
  assert (m_op m1 = m_op m) as E by reflexivity; clearbody m1;
  (destruct (receiveFrame c m1 (rx_buffer e) (rx_len e)) as [buf [f|]]; [left; destruct (dn_type f); reflexivity|]);
  (destruct (missing_cases c e m1) as [m2 ? ? ? X ?|m2 ? p ? X ?|m2 ? ? ? X ?|m2 ? ? ? X ?|X Y]; try (rewrite X; auto)); rewrite E in *; [rewrite D in X; discriminate|congruence].
Qed.

Theorem rx_delivered c e m : inputPending m = true -> in_rx (m_state m) = true -> so (m_op m) (m_state m) = true ->
  let m' := MAC_process c e m in
  if e_st_rx e then m_state m' = ST_IDLE \/ m_state m' = ST_WAIT_TX \/ m_state m' = ST_WAIT_OTAA
  else if e_st_timeout e then m_state m' = match m_state m with ST_RX2 => ST_RX2_LOCKOUT | _ => ST_WAIT_RX2 end
  else m_state m' = ST_RADIO_RESET.
Proof.
  intros I R SO. cbv zeta. destruct (process_I2 c e m I) as (m2 & Q & ->). rewrite (proj1 (band_event_state _ _)).
  assert (m_op m2 = m_op m) as O by (apply core_op_eq, Q). destruct Q as [_ S2]. rewrite <- S2 in *. rewrite <- O in SO. clear O S2.
  assert (dispatch c e SME_INTERRUPT (timerDelta (in_time (m_inputs m)) (e_now e)) m2 = processRX c e SME_INTERRUPT m2) as -> by (unfold dispatch; destruct (m_state m2); try discriminate; reflexivity).
  unfold processRX. destruct (e_st_rx e); [now apply packet_state|]. destruct (e_st_timeout e); [|apply error_state].
  unfold rx_timeout. destruct (m_state m2); try discriminate; reflexivity.
Qed.

(* --- as stated in the Properties file --- *)

Lemma signal_off c e t m : in_armed (m_inputs m) = false -> fst (step c e (C_radioEvent t) m) = m.
Proof. intros A. cbn [step fst]. unfold inputSignal. rewrite A, andb_false_r. reflexivity. Qed.
Lemma signal_on c e t m : in_armed (m_inputs m) = true ->
  let m' := fst (step c e (C_radioEvent t) m) in
  in_state (m_inputs m') = true /\ in_time (m_inputs m') = (if in_state (m_inputs m) then in_time (m_inputs m) else t).
Proof. intros A. cbv zeta. cbn [step fst]. unfold inputSignal. rewrite A, andb_true_r. destruct (in_state (m_inputs m)) eqn:S; cbn [negb]; auto. Qed.

Lemma init_origin c r a e0 h : input_inv c h (MAC_init c r a e0).
Proof. apply input_origin. rewrite init_inputs. reflexivity. Qed.
Lemma pending_fresh c r a e0 h :
  let m0 := MAC_init c r a e0 in
  let m := run c h m0 in
  in_state (m_inputs m) = true ->
  exists h1 e h2 e' h3, h = h1 ++ (e, C_process) :: h2 ++ (e', C_radioEvent (in_time (m_inputs m))) :: h3 /\
    starts_radio c e C_process (run c h1 m0) = true /\ undisturbed c h2 (run c (h1 ++ [(e, C_process)]) m0) = true /\
    forallb (fun x => negb (is_process (snd x))) h3 = true.
Proof. intros m0 m. exact (proj2 (proj2 (init_origin c r a e0 h))). Qed.
Lemma armed_on_air c r a e0 h : let m := run c h (MAC_init c r a e0) in in_armed (m_inputs m) = true -> radio_on (m_state m) = true.
Proof. exact (proj1 (init_origin c r a e0 h)). Qed.
Lemma never_otherwise c e m tx rx to w rssi snr : inputPending m && radio_on (m_state m) = false ->
  step c (radio_says tx rx to w rssi snr e) C_process m = step c e C_process m.
Proof. intros H. cbn [step]. rewrite unheard_radio by exact H. reflexivity. Qed.
Lemma once c e m : inputPending m = true ->
  let m' := fst (step c e C_process m) in
  inputPending m' = false /\ in_armed (m_inputs m') = false /\ starts_radio c e C_process m = false.
Proof. intros I. cbv zeta. destruct (process_signalled c e m I) as [E S]. cbn [step fst]. unfold inputPending. rewrite E. auto. Qed.

Lemma end_of_transmission c r a e0 h e :
  let m := run c h (MAC_init c r a e0) in
  let m' := fst (step c e C_process m) in
  let t := in_time (m_inputs m) in
  inputPending m = true -> m_state m = ST_TX -> 0 <= t < 2 ^ 32 -> 0 <= e_now e < 2 ^ 32 ->
  if e_st_tx e then (m_state m' = ST_WAIT_RX1 \/ m_state m' = ST_WAIT_RX2) /\
                    m_ticks_at_tx m' = (if t <=? e_now e then t else (t + 1) mod 2 ^ 32)
  else m_state m' = ST_RADIO_RESET.
Proof.
  intros m m' t I S T N. pose proof (tx_delivered c e m I S) as H. cbv zeta in H. unfold m'. cbn [step fst]. fold t in H.
  destruct (e_st_tx e); [|exact H]. destruct H as [H1 H2]. split; [exact H1|]. rewrite H2. unfold timerDelta, u32, UINT32_MAX in *.
  change (2 ^ 32) with 4294967296 in *. destruct (t <=? e_now e) eqn:L; lia.
Qed.

Lemma reception c r a e0 h e :
  let m := run c h (MAC_init c r a e0) in
  let m' := fst (step c e C_process m) in
  inputPending m = true -> in_rx (m_state m) = true ->
  if e_st_rx e then m_state m' = ST_IDLE \/ m_state m' = ST_WAIT_TX \/ m_state m' = ST_WAIT_OTAA
  else if e_st_timeout e then m_state m' = match m_state m with ST_RX2 => ST_RX2_LOCKOUT | _ => ST_WAIT_RX2 end
  else m_state m' = ST_RADIO_RESET.
Proof. intros m m' I R. exact (rx_delivered c e m I R (init_so c r a e0 h)). Qed.

(* a transmission that ends just before the counter wraps *)
Definition h_wrap : history :=
  [P 4294967000; P 4294967010; P 4294967030] ++ h_join_tx 4294967030 ++ [(at_t 4294967290, C_radioEvent 4294967290)].
Lemma late_by_one : exists e0 h e,
  let m := run (toy_cfg L2_1_0_4) h (MAC_init (toy_cfg L2_1_0_4) EU_863_870 (arg0 None) e0) in
  inputPending m = true /\ m_state m = ST_TX /\ e_st_tx e = true /\ e_now e = 5 /\
  in_time (m_inputs m) = 4294967290 /\ m_ticks_at_tx (fst (step (toy_cfg L2_1_0_4) e C_process m)) = 4294967291.
Proof. exists (at_t 4294967000), h_wrap, (tx_at 5). vm_compute. repeat split. Qed.
