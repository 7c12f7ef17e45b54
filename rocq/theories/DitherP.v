(* Join requests wait a random time. *)
From Verif Require ExecP.
From Verif Require Import Lib DataP IntP FrameM CommandsM RegionM RadioM SmM MacStateM MacTac MacUtilM OpsM MacCmdM MacProcM MacApiM MacRw CoreP CaseP RxP SpecHist SpecTime SpecWait SpecValid SpecSend HistP EndP TxP TimeP StuckP ValidP SentP ReadyP TriesP AcceptP TimersP SpecInput InputP SpecEnds EndsP SpecRetry RetryP SpecDither.

Definition closed (m : mac) : Prop := receiving (m_state m) = false -> runs WAITB m = false.

Lemma missing_B c e m : is_three m -> runs WAITB (downlinkMissing c e m) = runs WAITB m.
Proof.
  intros L. open_def downlinkMissing. cbv zeta. change (set_m_trials (u32 (m_trials m + 1)) m) with (next_trial m).
  assert (forall v x s, is_three x -> runs WAITB x = runs WAITB m -> runs WAITB (set_m_state s (timerSet e WAITA v x)) = runs WAITB m) as HR.
  { intros v x s X E. rewrite r_state, set_runs by now apply three_A. exact E. }
  assert (forall v x s, is_three x -> runs WAITB x = runs WAITB m -> runs WAITB (timerSet e WAITA v (set_m_state s x)) = runs WAITB m) as HR2.
  { intros v x s X E. rewrite set_runs by now apply three_A. exact E. }
  assert (forall ev, runs WAITB (let (m0, changed) := adaptRate c (next_trial m) in complete ev (if changed then pushSessionUpdate m0 else m0)) = runs WAITB m) as HD.
  { intros ev. pose proof (adaptRate_fields c (next_trial m)) as (s & n & b & E & _). destruct (adaptRate c (next_trial m)) as [m0 ch]. cbn [fst] in E. subst m0. destruct ch; reflexivity. }
  destruct (m_op (next_trial m)); try reflexivity.
  - destruct (_ <=? _); [|reflexivity].
    destruct (fillJoin_fields c e (u16 (m_devNonce (next_trial m))) (next_trial m)) as (t & buf & len & dn & E & _).
    assert (m_timers (fillJoinBuffer c e (u16 (m_devNonce (next_trial m))) (next_trial m)) = m_timers m) as HF by (rewrite E; reflexivity).
    clear E. revert HF. generalize (fillJoinBuffer c e (u16 (m_devNonce (next_trial m))) (next_trial m)). intros x HF.
    apply HR2; [unfold is_three; ms; rewrite <- L, <- HF; reflexivity|]. apply runs_timers. exact HF.
  - destruct (_ && _); [|apply HD]. apply HR; [exact L|reflexivity].
  - destruct (_ && _); [|apply HD]. apply HR; [exact L|reflexivity].
Qed.

Lemma error_B c e m : is_three m -> runs WAITB (handleRadioError c e m) = false.
Proof.
  intros L. pose proof (error_tl c e m) as [T _]. revert T. open_def handleRadioError. cbv zeta.
  set (x := timerClear WAITB _). assert (is_three x) as X by (unfold x, is_three, timerClear, set_timer, inputDisarm; ms; rewrite !upd_length; exact L).
  assert (runs WAITB x = false) as B by (unfold x; rewrite clear_runs; reflexivity). clearbody x.
  set (m2 := match m_op x with OP_JOINING => _ | _ => _ end). intros T.
  assert (runs WAITB m2 = false) as B2 by (unfold m2; destruct (m_op x); try exact B; rewrite missing_B by exact X; exact B).
  clearbody m2. unfold timerSet in T. rewrite set_timers in T.
  rewrite set_runs; [exact B2|]. unfold is_three in L. rewrite T, L. cbv. lia.
Qed.

(* a received frame leaves the timers alone *)
Definition st (m m' : mac) : Prop := m_timers m' = m_timers m.
Ltac ss H := first [exact H|unfold st in *; rewrite <- H; reflexivity].
Lemma do_command_st c e d last m0 m x : st m0 m -> st m0 (fst (do_command c e d last m x)).
Proof.
  intros H. destruct d; cbn [do_command fst] in *; try (ss H).
  1: { destruct (do_linkADR _ _ _ _ _ _ _ _) as [s st']. ss H. }
  all: try (destruct (isDynamic _); [|exact H]); cbv zeta; cbn [fst]; try (ss H).
  all: try (destruct (device_time _ _ _ _ _); ss H).
  all: repeat match goal with |- context [if ?b then _ else _] => destruct b end; try (ss H).
  all: repeat match goal with |- context [let (_,_) := ?b in _] => destruct b end; try (ss H).
Qed.
Lemma commands_st c e l m : st m (processCommands c e l m).
Proof. apply (ExecP.processCommands_inv c e (st m)); [intros; now apply do_command_st|reflexivity|intros m' H; ss H]. Qed.
Lemma st_trans a b c : st a b -> st b c -> st a c. Proof. unfold st. congruence. Qed.
Lemma data_st c e buf f m : st m (data_received c e buf f m).
Proof.
  open_def data_received. cbv zeta.
  set (m1 := set_m_adrAckReq false _). assert (st m m1) as H1 by reflexivity. clearbody m1.
  set (m2 := match dn_opts f with Some off => _ | None => m1 end).
  assert (st m m2) as H2 by (unfold m2; destruct (dn_opts f); [eapply st_trans; [exact H1|apply commands_st]|exact H1]). clearbody m2. clear H1 m1.
  set (m3 := match dn_data f with Some off => _ | None => m2 end).
  assert (st m m3) as H3.
  { unfold m3. destruct (dn_data f); [|exact H2]. destruct (_ =? 0); [eapply st_trans; [exact H2|apply commands_st]|ss H2]. }
  clearbody m3. clear H2 m2. destruct (m_op m3); ss H3.
Qed.
Lemma join_st c buf f m : st m (join_accepted c buf f m).
Proof.
  open_def join_accepted. cbv zeta.
  match goal with |- st m (notify ?v (set_m_op _ (set_m_state _ (set_m_day _ (band_set _ _ (set_m_joinNonce _ (deriveKeys c (set_m_ctx ?s m)))))))) =>
    generalize v; intros ev; generalize s; intros s0 end.
  destruct (deriveKeys_sm c (set_m_ctx s0 m)) as (sm & E). rewrite E. reflexivity.
Qed.

Lemma packet_B c e m : is_three m -> runs WAITB (rx_packet c e m) = false.
Proof.
  intros L. open_def rx_packet. cbv zeta.
  set (m1 := set_m_rx_snr _ _). assert (is_three m1) as L1. { unfold m1, is_three, emit, timerClear, set_timer. ms. rewrite !upd_length. exact L. }
  assert (runs WAITB m1 = false) as RB.
  { unfold m1. rewrite (runs_timers WAITB (timerClear WAITB (timerClear WAITA m))) by reflexivity. rewrite clear_runs. reflexivity. }
  clearbody m1. destruct (receiveFrame c m1 (rx_buffer e) (rx_len e)) as [buf [f|]]; [|rewrite missing_B by exact L1; exact RB].
  assert (forall y, st m1 y -> runs WAITB (pushSessionUpdate y) = false) as H by (intros y Y; change (runs WAITB y = false); rewrite (runs_timers _ _ _ Y); exact RB).
  destruct (dn_type f); apply H; first [apply data_st|apply join_st].
Qed.

Lemma dispatch_closed c e ev lag m : is_three m -> closed m -> closed (dispatch c e ev lag m).
Proof.
  intros L LK. unfold dispatch.
  assert (forall y, receiving (m_state y) = true -> closed y) as NL by (intros y H X; congruence).
  assert (closed (handleRadioError c e m)) as HE by (intros _; now apply error_B).
  assert (forall x, is_three x -> runs WAITB x = false -> closed (downlinkMissing c e x)) as HM by (intros x X K _; now rewrite missing_B).
  assert (closed (rx_packet c e m)) as HP by (intros _; now apply packet_B).
  pose proof LK as LK0. revert LK0. unfold closed at 1. destruct (m_state m) eqn:E; cbn [receiving]; intros LK0; try specialize (LK0 eq_refl);
    cbv [processInit processRadioReset processRadioBoot processWait processStartRadioForEntropy processEntropy processWaitOTAA
         processStartRadioForTX processTX processStartRadioForRX1 processStartRadioForRX2 processRX processRX2Lockout]; try exact LK.
  - intros _. rs. exact LK0.
  - destruct ev; try exact LK. intros _. rs. exact LK0.
  - destruct ev; try exact LK. cbv zeta. change (m_op (emit (OMode MODE_SLEEP) m)) with (m_op m). destruct (m_op m); intros _; rs; exact LK0.
  - rewrite E. destruct ev; try exact LK; intros _; rs; first [reflexivity|exact LK0].
  - destruct ev; try exact LK; intros _; rs; exact LK0.
  - destruct ev; try exact LK; intros _; exact LK0.
  - destruct (_ =? 0); [intros _; rs; exact LK0|exact LK].
  - rewrite E. destruct ev; try exact LK; intros _; rs; exact LK0.
  - destruct ev; try exact LK; intros _; rs; exact LK0.
  - assert (closed (handleRadioError c e (registerTime m))) as HR.
    { intros _. apply error_B. unfold is_three in *. rewrite (proj1 (registerTime_tl m)). exact L. }
    destruct ev; try exact LK; [exact HR|]. destruct (e_st_tx e); [|exact HR]. apply NL.
    destruct (proj2 (tx_done_core c e lag (registerTime m))) as [H|H]; rewrite H; reflexivity.
  - rewrite E. destruct ev; try exact LK; apply NL; reflexivity.
  - destruct ev; try exact LK; apply NL; reflexivity.
  - destruct ev; try exact LK; [exact HE|]. destruct (e_st_rx e); [exact HP|]. destruct (e_st_timeout e); [|exact HE].
    unfold rx_timeout. rewrite E. apply NL. reflexivity.
  - rewrite E. destruct ev; try exact LK; apply NL; reflexivity.
  - destruct ev; try exact LK; apply NL; reflexivity.
  - destruct ev; try exact LK; [exact HE|]. destruct (e_st_rx e); [exact HP|]. destruct (e_st_timeout e); [|exact HE].
    unfold rx_timeout. rewrite E. cbv zeta. intros _. rs. reflexivity.
  - destruct ev; try exact LK. now apply HM.
Qed.

(* --- calls --- *)

Lemma api_closed_idle c e k m : k <> C_process -> not_stop k -> m_state m = ST_IDLE -> is_three m ->
  runs WAITB (fst (step c e k m)) = runs WAITB m.
Proof.
  intros NP [N1 N2] S L.
  assert (forall v x s, is_three x -> runs WAITB x = runs WAITB m -> runs WAITB (timerSet e WAITA v (set_m_state s x)) = runs WAITB m) as HR.
  { intros v x s X E. rewrite set_runs by now apply three_A. exact E. }
  destruct k; try congruence; cbn [step]; unfold st_ret, bool_ret; cbn [fst].
  - unfold MAC_entropy. destruct (m_op m); try reflexivity. cbv zeta. ms. rewrite S. cbn [fst]. apply HR; [exact L|reflexivity].
  - open_def MAC_otaa. destruct (s_joined (m_ctx m)); [reflexivity|]. destruct (m_op m); try reflexivity.
    destruct (m_devNonce m <=? 65535); [|reflexivity]. cbv zeta. cbn [fst].
    match goal with |- context [fillJoinBuffer c e ?n ?x] =>
      assert (m_timers x = m_timers m /\ m_state x = m_state m) as [E1 E2] by (destruct (is_1_1 (c_l2 c)); split; reflexivity);
      destruct (fillJoin_fields c e n x) as (t & buf & len & dn & -> & _); revert E1 E2; generalize x end.
    intros x E1 E2. unfold emit, notify, on_tx. ms. rewrite E2, S. apply HR; [unfold is_three; ms; rewrite E1; exact L|]. apply runs_timers. exact E1.
  - unfold MAC_abp. destruct (s_joined (m_ctx m)); [reflexivity|]. destruct (m_op m); reflexivity.
  - open_def MAC_data. destruct (negb _); [reflexivity|]. destruct (m_op m); try reflexivity.
    destruct (_ && _); [|reflexivity]. destruct (band_global m =? 0); [|reflexivity]. cbv zeta. fold (sel_start c m).
    destruct (selectChannel _ _ _ _ _) as [tx fd]. destruct fd; [|reflexivity].
    destruct (_ <=? _); [|reflexivity]. destruct (compose _ _ _ _ _ _) as [[f op] sta].
    match goal with |- context [prepareData c ?y f ?d ?n] => assert (m_timers y = m_timers m /\ m_state y = m_state m) as [E1 E2] by (split; reflexivity);
      revert E1 E2; generalize y; intros x E1 E2 end.
    destruct (prepareData _ _ _ _ _) as [buf n]. unfold micDataFrame. cbv zeta. cbn [fst].
    match goal with |- context [match m_state ?z with _ => _ end] => assert (m_state z = m_state x) as E3 by reflexivity; assert (m_timers z = m_timers x) as E4 by reflexivity; revert E3 E4; generalize z; intros z' E3 E4 end.
    rewrite E3, E2, S. apply HR; [unfold is_three; rewrite E4, E1; exact L|]. apply runs_timers. congruence.
  - unfold MAC_setRate. destruct (rateSettingIsValid _ _); reflexivity.
  - unfold MAC_setPower. destruct (validateTXPower _ _); reflexivity.
  - reflexivity.
  - reflexivity.
  - unfold MAC_addChannel. destruct (setChannel _ _ _ _ _). reflexivity.
  - unfold MAC_maskChannel. destruct (maskChannel _ _ _). reflexivity.
  - unfold MAC_unmaskChannel. destruct (unmaskChannel _ _ _). reflexivity.
  - unfold inputSignal. destruct (_ && _); reflexivity.
Qed.

Lemma cancel_idle m : m_state m = ST_IDLE -> runs WAITB (MAC_cancel m) = false.
Proof.
  intros I. unfold MAC_cancel. cbv zeta. change (m_state (set_m_op OP_NONE m)) with (m_state m). rewrite I.
  match goal with |- context [match m_state ?z with _ => _ end] => assert (m_state z = ST_RADIO_RESET) as -> by reflexivity end.
  set (x := match m_op m with OP_NONE => _ | _ => _ end).
  assert (m_timers x = m_timers (timerClear WAITB (timerClear WAITA (set_m_op OP_NONE m)))) as E by (unfold x; destruct (m_op m); reflexivity).
  rewrite (runs_timers _ _ _ E), clear_runs. reflexivity.
Qed.
Lemma forget_timers c m : m_timers (MAC_forget c m) = m_timers (MAC_cancel m).
Proof. unfold MAC_forget. cbv zeta. destruct (s_joined _); reflexivity. Qed.

Lemma step_closed c e k m : settled m -> closed m -> closed (fst (step c e k m)).
Proof.
  intros [L S G] LK.
  assert (k = C_process \/ k <> C_process) as [->|NP] by (destruct k; first [now left|right; discriminate]).
  - cbn [step fst]. unfold MAC_process.
    pose proof (processBands_quiet e m) as BQ. destruct (bands_fields e m) as (BT & _ & _ & _). cbv zeta in BT.
    destruct (processBands e m) as [m1 rd]. cbn [fst snd] in *.
    pose proof (event_cases e m1 rd) as EC. destruct (next_event e m1 rd) as [[m2 ev] lag]. cbn [fst snd] in *.
    destruct EC as [Q2 B2 T2 A2 C2 A2' R2].
    assert (quiet m m2) as Q by (eapply quiet_trans; eauto). destruct Q as [[QC _] QS].
    assert (closed m2) as LK2.
    { unfold closed in *. rewrite QS. intros E. specialize (LK E). rewrite C2, (runs_timers _ m m1 BT), LK. destruct ev; reflexivity. }
    assert (is_three m2) as L2 by (unfold is_three in *; congruence).
    assert (closed (match ev with SME_NONE => m2 | _ => dispatch c e ev lag m2 end)) as H
      by (destruct ev; first [exact LK2|now apply dispatch_closed]).
    revert H. generalize (match ev with SME_NONE => m2 | _ => dispatch c e ev lag m2 end). intros y H.
    unfold closed. destruct (band_event_state e y) as (-> & _). intros X. unfold runs. rewrite setNext_A by discriminate. exact (H X).
  - assert (m_state m = ST_IDLE \/ m_state m <> ST_IDLE) as [I|I] by (destruct (m_state m); first [now left|right; discriminate]).
    + assert (runs WAITB m = false) as B by (apply LK; rewrite I; reflexivity). intros _.
      assert (not_stop k \/ k = C_cancel \/ k = C_forget) as [NS|[-> | ->]] by (destruct k; first [left; split; discriminate|auto]).
      * rewrite api_closed_idle by assumption. exact B.
      * cbn [step fst]. now apply cancel_idle.
      * cbn [step fst]. rewrite (runs_timers _ _ _ (forget_timers c m)). now apply cancel_idle.
    + destruct (api_timers c e k m NP I) as [[T E]|(_ & E & _ & AB)]; cbv zeta in *.
      * unfold closed. rewrite E, (runs_timers _ m _ T). exact LK.
      * intros _. exact AB.
Qed.

Lemma init_B c r a e0 : runs WAITB (MAC_init c r a e0) = false.
Proof.
  destruct (init_tl c r a e0) as [L _]. cbv zeta in L. revert L. open_def MAC_init. cbv zeta. intros L.
  rewrite set_runs; [|unfold timerSet in L; rewrite set_timers in L; rewrite L; cbv; lia].
  cbn [Nat.eqb WAITA WAITB].
  match goal with |- runs WAITB ?x = false => assert (m_timers x = m_timers (mac_zero a)) as E end.
  { unfold restoreSession, initSession, band_set. cbv zeta. destruct (ia_session a) as [s|]; [destruct (_ && _)|]; try reflexivity.
    match goal with |- context [deriveKeys c ?y] => destruct (deriveKeys_sm c y) as (sm & ->) end. reflexivity. }
  rewrite (runs_timers _ _ _ E). reflexivity.
Qed.

Lemma closed_always c r a e0 h : 0 < ia_tps a -> closed (run c h (MAC_init c r a e0)).
Proof.
  intros P. induction h as [|[e k] h IH] using rev_ind.
  - intros _. apply init_B.
  - rewrite run_app. cbn [run]. apply step_closed; [now apply settled_always|exact IH].
Qed.

(* --- the setting --- *)

Lemma core_dither m m' : core m' = core m -> m_otaaDither m' = m_otaaDither m.
Proof. intros C. apply (f_equal m_otaaDither) in C. exact C. Qed.
Lemma miss_dither c e m m' : miss_case c e m m' -> m_otaaDither m' = m_otaaDither m.
Proof.
  intros H. destruct H; try (apply core_dither in H1; rewrite H1; try reflexivity).
  - pose proof (adaptRate_fields c (next_trial m)) as (s & n & b & E & _). subst p. rewrite E in H0. apply core_dither in H0. rewrite H0. reflexivity.
  - destruct (fillJoin_fields c e (u16 (m_devNonce m)) (next_trial m)) as (t & buf & len & dn & E & _). rewrite E. reflexivity.
  - reflexivity.
Qed.

Lemma push_dither x : m_otaaDither (pushSessionUpdate x) = m_otaaDither x. Proof. reflexivity. Qed.
Lemma down_dither o s p b n m : m_otaaDither (set_m_op o (set_m_ctx s (set_m_fPending p (set_m_adrAckReq b (set_m_adrAckCounter n m))))) = m_otaaDither m.
Proof. reflexivity. Qed.
Lemma joined_dither o j l s m : m_otaaDither (set_m_op o (set_m_joinNonce j (set_m_sm l (set_m_ctx s m)))) = m_otaaDither m.
Proof. reflexivity. Qed.
Lemma filled_dither c f x : m_otaaDither (data_filled c f x) = m_otaaDither x.
Proof. reflexivity. Qed.
Lemma base_dither c o tx op m : m_otaaDither (data_base c o tx op m) = m_otaaDither m.
Proof. reflexivity. Qed.
Lemma forget_dither c x : m_otaaDither (forgetNetwork c x) = m_otaaDither x.
Proof. reflexivity. Qed.
Lemma act_dither c e m k r m' : act c e m k r m' -> m_otaaDither m' = m_otaaDither m.
Proof.
  intros H. induction H.
  - reflexivity.
  - destruct H as [C _]. now apply core_dither.
  - now apply core_dither.
  - apply core_dither in H0. exact H0.
  - now apply (miss_dither c e).
  - apply core_dither in H1. exact H1.
  - apply core_dither in H2. rewrite H2. now apply (miss_dither c e).
  - destruct (data_received_frame c e buf f m) as (s & l & C & _). apply core_dither in C. rewrite push_dither, C. apply down_dither.
  - destruct (join_accepted_frame c buf f m) as (s & l & C & _). apply core_dither in C. rewrite push_dither, C. apply joined_dither.
  - subst m'. reflexivity.
  - apply core_dither in H0. exact H0.
  - apply core_dither in H2. rewrite H2. unfold x.
    match goal with |- context [fillJoinBuffer c e ?n ?y] => destruct (fillJoin_fields c e n y) as (t & buf & len & dn & -> & _) end. reflexivity.
  - apply core_dither in H1. exact H1.
  - apply core_dither in H6. rewrite H6, filled_dither. apply base_dither.
  - apply core_dither in H0. exact H0.
  - apply core_dither in H1. rewrite H1, forget_dither. exact IHact.
  - apply core_dither in H2. exact H2.
Qed.
Lemma step_dither c e k m : m_otaaDither (fst (step c e k m)) = m_otaaDither m.
Proof.
  destruct (step_cases c e k m) as (m1 & m2 & [[C1 _] _] & A & [[C2 _] _] & _).
  rewrite (core_dither _ _ C2), (act_dither _ _ _ _ _ _ A). now apply core_dither.
Qed.
Lemma init_dither c r a e0 : m_otaaDither (MAC_init c r a e0) = ia_otaaDither a.
Proof.
  open_def MAC_init. cbv zeta. unfold restoreSession, initSession, band_set. cbv zeta. destruct (ia_session a) as [s|]; [destruct (_ && _)|]; try reflexivity.
  match goal with |- context [deriveKeys c ?y] => destruct (deriveKeys_sm c y) as (sm & ->) end. reflexivity.
Qed.
Lemma always_dither c r a e0 h : m_otaaDither (run c h (MAC_init c r a e0)) = ia_otaaDither a.
Proof.
  induction h as [|[e k] h IH] using rev_ind; [apply init_dither|]. rewrite run_app. cbn [run]. now rewrite step_dither.
Qed.

(* --- the wait --- *)

Lemma wait_otaa c e m : settled m -> on_air m -> closed m -> m_state m = ST_WAIT_OTAA ->
  let m' := MAC_process c e m in
  (draws e m -> m_state m' = ST_WAIT_TX) /\
  (m_state m' = ST_WAIT_TX -> draws e m /\ m_op m' = m_op m /\
    get_timer m' WAITA = mkTimer (u32 (e_now e + dither (m_tps m) (m_otaaDither m) (e_rand e RND_OTAA))) true /\
    runs WAITB m' = false /\ in_state (m_inputs m') = false /\ in_armed (m_inputs m') = false) /\
  (m_state m' = ST_WAIT_TX \/ m_state m' = ST_WAIT_OTAA).
Proof.
  intros [L S G] AIR LK WO. cbv zeta. pose proof (process_unpending c e m) as PU. pose proof (process_air c e m AIR) as PA.
  unfold on_air in PA. unfold inputPending in PU.
  assert (m_state (MAC_process c e m) = ST_WAIT_TX -> in_armed (m_inputs (MAC_process c e m)) = false) as AO
    by (intros W; rewrite W in PA; destruct (in_armed _); [discriminate PA; reflexivity|reflexivity]).
  clear PA. revert PU AO. unfold draws, event_at, MAC_process.
  pose proof (processBands_quiet e m) as BQ. destruct (bands_fields e m) as (BT & _ & _ & _). cbv zeta in BT.
  destruct (processBands e m) as [m1 rd]. cbn [fst snd] in *.
  pose proof (event_cases e m1 rd) as EC. destruct (next_event e m1 rd) as [[m2 ev] lag]. cbn [fst snd] in *.
  destruct EC as [Q2 B2 T2 A2 C2 A2' R2].
  assert (quiet m m2) as Q by (eapply quiet_trans; eauto). destruct Q as [[QC _] QS].
  assert (m_op m2 = m_op m /\ m_tps m2 = m_tps m /\ m_otaaDither m2 = m_otaaDither m) as (O2 & P2 & N2)
    by (split; [now apply core_op_eq|split; [now apply core_tps|now apply core_dither]]).
  assert (runs WAITB m2 = false) as RB.
  { unfold closed in LK. rewrite WO in LK. specialize (LK eq_refl). rewrite C2, (runs_timers _ m m1 BT), LK. destruct ev; reflexivity. }
  assert (is_three m2) as L2 by (unfold is_three in *; congruence).
  assert (m_state m2 = ST_WAIT_OTAA) as S2 by congruence.
  assert (band_global m2 = band_global m1) as BG by (unfold band_global; rewrite B2; reflexivity).
  assert (ev <> SME_NONE -> match ev with SME_NONE => m2 | _ => dispatch c e ev lag m2 end = processWaitOTAA e m2) as ED
    by (intros NE; destruct ev; try congruence; unfold dispatch; rewrite S2; reflexivity).
  assert (ev = SME_NONE \/ ev <> SME_NONE) as [->|NE] by (destruct ev; first [now left|right; discriminate]).
  - destruct (band_event_state e m2) as (E1 & E2 & _). rewrite E1, S2. intros _ _. split; [intros (_ & X & _); congruence|]. split; [discriminate|auto].
  - rewrite (ED NE). clear ED. unfold processWaitOTAA. destruct (band_global m2 =? 0) eqn:Z.
    + set (d := if m_otaaDither m2 >? 0 then _ else _). set (y := set_m_state ST_WAIT_TX _).
      destruct (band_event_state e y) as (E1 & E2 & _). rewrite E1. intros PU AO. split; [reflexivity|]. split; [|left; reflexivity]. intros _.
      split; [split; [exact WO|split; [exact NE|lia]]|]. split; [rewrite E2; exact O2|].
      split; [|split; [|split; [exact PU|now apply AO]]].
      * rewrite setNext_A by discriminate. unfold y. change (get_timer (set_m_state ST_WAIT_TX (timerSet e WAITA d m2)) WAITA) with (get_timer (timerSet e WAITA d m2) WAITA).
        rewrite timer_set by now apply three_A. f_equal. f_equal. f_equal. unfold dither, dither_divisor, d. rewrite N2, P2, Z.gtb_ltb.
        unfold mask31. destruct (0 <? _); [|reflexivity]. reflexivity.
      * unfold runs. rewrite setNext_A by discriminate. fold (runs WAITB y). unfold y. rs. exact RB.
    + destruct (band_event_state e m2) as (E1 & E2 & _). rewrite E1, S2. intros _ _. split; [intros (_ & _ & X); rewrite BG in Z; lia|]. split; [discriminate|auto].
Qed.

Theorem join_waits c r a e0 h e n : 0 < ia_tps a ->
  let m := run c h (MAC_init c r a e0) in let m' := MAC_process c e m in
  m_state m = ST_WAIT_OTAA -> e_now e = u32 n ->
  (m_state m' = ST_WAIT_TX <-> draws e m) /\ (~ draws e m -> m_state m' = ST_WAIT_OTAA) /\
  (draws e m -> m_op m' = OP_JOINING /\ waits (n + dither (ia_tps a) (ia_otaaDither a) (e_rand e RND_OTAA)) m').
Proof.
  intros P m m' WO N.
  pose proof (settled_always c r a e0 h P) as SE. pose proof (closed_always c r a e0 h P) as CL. pose proof (armed_on_air c r a e0 h) as AIR.
  pose proof (always_tl c r a e0 h P) as (_ & _ & TP). pose proof (always_dither c r a e0 h) as OD. cbv zeta in *. fold m in SE, CL, AIR, TP, OD.
  destruct (wait_otaa c e m SE AIR CL WO) as (A & B & C). cbv zeta in A, B, C. fold m' in A, B, C.
  split; [split; [intros H; now apply B|exact A]|]. split; [intros H; destruct C as [C|C]; [destruct H; now apply B|exact C]|].
  intros D. pose proof (A D) as W. destruct (B W) as (_ & O & T & RB & I1 & I2). split.
  - rewrite O. destruct SE as [_ S _]. rewrite WO in S. destruct (m_op m); try discriminate S; reflexivity.
  - constructor; auto. rewrite T, TP, OD, N. f_equal. unfold u32. apply Zplus_mod_idemp_l.
Qed.

Lemma push_state x : m_state (pushSessionUpdate x) = m_state x. Proof. reflexivity. Qed.
Lemma filled_op c f o tx op m : m_op (data_filled c f (data_base c o tx op m)) = op. Proof. reflexivity. Qed.
Lemma forget_op c x : m_op (forgetNetwork c x) = m_op x. Proof. reflexivity. Qed.
Lemma mic_op c x : m_op (micDataFrame c x) = m_op x. Proof. reflexivity. Qed.
Lemma act_cancel c e m k r x : act c e m k r x -> k = C_cancel -> r = RVoid -> m_op x = OP_NONE.
Proof.
  intros H K R. destruct H; try discriminate K; try discriminate R.
  - exfalso. subst k. destruct H as [H|(t & H)]; discriminate H.
  - rewrite (core_op_eq _ _ H0). reflexivity.
  - exfalso. subst k. exact H1.
Qed.
Lemma act_only c e m k r m' : act c e m k r m' -> m_op m' = OP_JOINING -> m_state m' = ST_WAIT_TX ->
  m_state m = ST_WAIT_TX \/ (k = C_process /\ m_state m = ST_WAIT_OTAA).
Proof.
  intros H. destruct H; intros O W.
  - now left.
  - destruct H as [C _]. rewrite (core_op_eq _ _ C) in O. rewrite W, O in H0. right. split; [reflexivity|]. destruct (m_state m); try discriminate H0; reflexivity.
  - congruence.
  - congruence.
  - exfalso. destruct H0; try congruence.
    + rewrite (core_op_eq _ _ H2) in O. rewrite mic_op in O. change (m_op (next_trial m)) with (m_op m) in O. rewrite O in H0. discriminate H0.
    + apply H1. exact O.
  - congruence.
  - congruence.
  - exfalso. destruct (data_received_frame c e buf f m) as (s & l & _ & _ & E & _). cbv zeta in E. rewrite push_state, E in W. discriminate W.
  - exfalso. destruct (join_accepted_frame c buf f m) as (s & l & _ & _ & E & _). cbv zeta in E. rewrite push_state, E in W. discriminate W.
  - subst m'. now left.
  - rewrite (core_op_eq _ _ H0) in O. discriminate O.
  - left. rewrite W in H4. unfold start_state in H4. destruct (m_state m); try discriminate H4; reflexivity.
  - left. congruence.
  - exfalso. rewrite (core_op_eq _ _ H6) in O. destruct (compose_op _ _ _ _ _ _ _ _ _ H5) as [D _].
    rewrite filled_op in O. rewrite O in D. discriminate D.
  - rewrite (core_op_eq _ _ H0) in O. discriminate O.
  - exfalso. rewrite (core_op_eq _ _ H1) in O. rewrite forget_op in O. pose proof (act_cancel _ _ _ _ _ _ H eq_refl eq_refl). congruence.
  - left. congruence.
Qed.

Theorem only_after_wait c r a e0 h e k : 0 < ia_tps a ->
  let m := run c h (MAC_init c r a e0) in let m' := fst (step c e k m) in
  m_op m' = OP_JOINING -> m_state m' = ST_WAIT_TX -> m_state m = ST_WAIT_TX \/ (k = C_process /\ draws e m).
Proof.
  intros P m m' O W.
  destruct (step_cases c e k m) as (m1 & m2 & [_ S1] & A & [[C2 _] S2] & _). fold m' in C2, S2.
  rewrite (core_op_eq _ _ C2) in O. rewrite S2 in W.
  destruct (act_only _ _ _ _ _ _ A O W) as [H|[-> H]]; rewrite S1 in H; [now left|right]. split; [reflexivity|].
  pose proof (settled_always c r a e0 h P) as SE. pose proof (closed_always c r a e0 h P) as CL. pose proof (armed_on_air c r a e0 h) as AIR. cbv zeta in AIR.
  destruct (wait_otaa c e m SE AIR CL H) as (_ & B & _). cbv zeta in B. apply B. change (MAC_process c e m) with m'. congruence.
Qed.

Lemma dither_range tps d x : 0 < tps -> 0 < d -> tps * d <= 2 ^ 31 -> dither tps d x = x mod (tps * d) /\ 0 <= dither tps d x < tps * d.
Proof.
  intros A B C. unfold dither, dither_divisor, u32. assert (0 < tps * d) by nia. rewrite (Z.mod_small (tps * d)) by lia.
  assert (0 <? d = true) as -> by lia. pose proof (Z.mod_pos_bound x (tps * d) H). rewrite (Z.mod_small (x mod (tps * d))) by lia. auto.
Qed.
Lemma dither_spread tps d : 0 < tps -> 0 <= d -> tps * d <= 2 ^ 31 ->
  (forall x, 0 <= dither tps d x /\ (dither tps d x < tps * d \/ (d = 0 /\ dither tps d x = 0))) /\
  (forall w, 0 <= w < tps * d -> dither tps d w = w).
Proof.
  intros A B C. assert (d = 0 \/ 0 < d) as [->|D] by lia.
  - split; [intros x; unfold dither; change (0 <? 0) with false; cbv iota; lia|lia].
  - split.
    + intros x. destruct (dither_range tps d x A D C) as [_ H]. lia.
    + intros w W. destruct (dither_range tps d w A D C) as [-> _]. apply Z.mod_small. lia.
Qed.
Lemma divisor_ok tps d : 0 < tps -> 0 < d -> tps * d < 2 ^ 32 -> dither_divisor tps d = tps * d /\ dither_divisor tps d <> 0.
Proof. intros A B C. unfold dither_divisor, u32. assert (0 < tps * d) by nia. rewrite Z.mod_small by lia. lia. Qed.

Theorem join_not_before c r a e0 h e n h' : 0 < ia_tps a ->
  let m := run c h (MAC_init c r a e0) in let m' := MAC_process c e m in
  let w := dither (ia_tps a) (ia_otaaDither a) (e_rand e RND_OTAA) in
  e_now e = u32 n -> draws e m -> during n (n + w) h' ->
  0 <= w < 2 ^ 31 /\ m_state (run c h' m') = ST_WAIT_TX /\ forallb no_tx (new_out m' (run c h' m')) = true /\
  forall e2 n2, e_now e2 = u32 n2 -> 0 <= n2 - (n + w) < 2 ^ 31 - 1 ->
    m_state (MAC_process c e2 (run c h' m')) = ST_START_RADIO_FOR_TX.
Proof.
  intros P m m' w N D F. pose proof D as (WO & _).
  destruct (join_waits c r a e0 h e n P WO N) as (_ & _ & H). destruct (H D) as [_ W]. fold m m' w in W. clear H.
  assert (0 <= w < 2 ^ 31) as R.
  { unfold w, dither. destruct (0 <? _); [apply Z.mod_pos_bound; lia|lia]. }
  destruct (retry_not_before c n w h' m' W R F) as (A & B & C). repeat split; auto; try lia.
  intros e2 n2 N2 D2. now apply C with (n := n2).
Qed.
