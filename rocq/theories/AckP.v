(* The acknowledgement owed to the network. *)
From Verif Require Import Lib StreamM FrameM CommandsM RegionM RadioM SmM MacStateM MacTac MacUtilM OpsM MacCmdM MacProcM MacApiM MacRw
  CoreP CaseP RxP ExecP SpecHist HistP EndP TxP UplinkP DataP DownP SpecEffect SpecAck.

Definition ak (m m' : mac) : Prop := m_pendingACK m' = m_pendingACK m.
Lemma ak_refl m : ak m m. Proof. reflexivity. Qed.
Lemma ak_trans a b c : ak a b -> ak b c -> ak a c.
Proof. unfold ak. congruence. Qed.
Ltac hs := reflexivity.
Ltac he H := exact H.
Lemma ak_same m m' : m_pendingACK m' = m_pendingACK m -> ak m m'. Proof. intros H. exact H. Qed.
Lemma ak_ends m x y : m_pendingACK y = m_pendingACK x -> ak m x -> ak m y. Proof. unfold ak. congruence. Qed.
Lemma ak_notify m x ev : ak m x -> ak m (notify ev x). Proof. intros H. exact H. Qed.

Lemma registerTime_ak m : ak m (registerTime m).
Proof.
  unfold registerTime. cbv zeta. apply ak_same; destruct (getBand _ _), (m_op m); try (destruct (_ >? _)); reflexivity.
Qed.
Lemma timerCheck_ak e i m : ak m (fst (timerCheck e i m)).
Proof. unfold timerCheck. cbv zeta. destruct (tm_armed _); [destruct (_ <? _)|]; cbn [fst]; try apply ak_refl. hs. Qed.

Lemma missing_ak c e m : ak m (downlinkMissing c e m).
Proof.
  open_def downlinkMissing. cbv zeta. change (set_m_trials (u32 (m_trials m + 1)) m) with (next_trial m).
  assert (ak m (next_trial m)) as N by hs.
  assert (forall ev, ak m (let (m0, changed) := adaptRate c (next_trial m) in complete ev (if changed then pushSessionUpdate m0 else m0))) as HD.
  { intros ev. pose proof (adaptRate_fields c (next_trial m)) as H. cbv zeta in H. destruct (adaptRate c (next_trial m)) as [m0 ch].
    destruct H as (s & n & b & E & _). cbn [fst] in E.
    assert (ak m m0) as H0 by (rewrite E; he N). clear E.
    unfold complete. eapply ak_ends; [reflexivity|]. apply ak_notify. destruct ch; [|exact H0]. now apply ak_notify. }
  destruct (m_op (next_trial m)); try exact N.
  - destruct (_ <=? _).
    + destruct (fillJoin_fields c e (u16 (m_devNonce (next_trial m))) (next_trial m)) as (t & buf & len & dn & E & _).
      assert (ak m (fillJoinBuffer c e (u16 (m_devNonce (next_trial m))) (next_trial m))) as HF by (rewrite E; he N).
      clear E. revert HF. generalize (fillJoinBuffer c e (u16 (m_devNonce (next_trial m))) (next_trial m)). intros x HF.
      he HF.
    + unfold complete. eapply ak_ends; [reflexivity|]. now apply ak_notify.
  - destruct (_ && _); [|apply HD]. he N.
  - destruct (_ && _); [|apply HD]. he N.
Qed.

Lemma do_command_ak c e d last m0 m st : ak m0 m -> ak m0 (fst (do_command c e d last m st)).
Proof.
  intros H. destruct d; cbn [do_command fst] in *; try (now apply ak_notify); try exact H; try (he H).
  1: { destruct (do_linkADR _ _ _ _ _ _ _ _) as [s st']. he H. }
  all: try (destruct (isDynamic _); [|exact H]); cbv zeta; cbn [fst]; try exact H; try (he H).
  all: try (destruct (device_time _ _ _ _ _); now apply ak_notify).
  all: repeat match goal with |- context [if ?b then _ else _] => destruct b end; try exact H; try (he H).
  all: repeat match goal with |- context [let (_,_) := ?b in _] => destruct b end; try exact H; try (he H).
Qed.
Lemma commands_ak c e l m : ak m (processCommands c e l m).
Proof. apply (processCommands_inv c e (ak m)); [intros; now apply do_command_ak|hs|intros m' H; he H]. Qed.

Lemma data_ak c e buf f m : m_pendingACK (data_received c e buf f m) = confirmed_frame f.
Proof.
  open_def data_received. cbv zeta.
  set (m1 := set_m_adrAckReq false _). assert (m_pendingACK m1 = confirmed_frame f) as H1 by reflexivity. clearbody m1. rewrite <- H1. clear H1. clear m.
  match goal with |- m_pendingACK ?y = _ => change (ak m1 y) end.
  set (m2 := match dn_opts f with Some off => _ | None => m1 end).
  assert (ak m1 m2) as H2 by (unfold m2; destruct (dn_opts f); [apply commands_ak|apply ak_refl]). clearbody m2.
  set (m3 := match dn_data f with Some off => _ | None => m2 end).
  assert (ak m1 m3) as H3.
  { unfold m3. destruct (dn_data f); [|exact H2]. destruct (_ =? 0); [eapply ak_trans; [exact H2|apply commands_ak]|now apply ak_notify]. }
  clearbody m3. clear H2 m2.
  eapply ak_ends; [reflexivity|]. destruct (m_op m3); try exact H3; now apply ak_notify.
Qed.
Lemma keys_ak c m : ak m (deriveKeys c m).
Proof. destruct (deriveKeys_sm c m) as (sm & E). rewrite E. hs. Qed.
Lemma join_ak c buf f m : ak m (join_accepted c buf f m).
Proof.
  open_def join_accepted. cbv zeta.
  match goal with |- ak m (notify ?v (set_m_op _ (set_m_state _ (set_m_day _ (band_set _ _ (set_m_joinNonce _ (deriveKeys c (set_m_ctx ?s m)))))))) =>
    generalize v; intros ev; generalize s; intros s0 end.
  apply ak_notify. match goal with |- ak m (set_m_op _ (set_m_state _ ?y)) => apply (ak_ends m y); [reflexivity|] end.
  apply (ak_ends m (deriveKeys c (set_m_ctx s0 m))); [reflexivity|].
  eapply ak_trans; [|apply (keys_ak c (set_m_ctx s0 m))]. hs.
Qed.
Lemma tx_done_ak c e lag m : m_pendingACK (tx_done c e lag m) = false.
Proof.
  open_def tx_done. cbv zeta. destruct (window _ _ _ _) as [sym1 marg1]. destruct (window _ _ _ _) as [sym2 marg2].
  unfold emit; ms; (destruct (_ <=? _); [destruct (_ <=? _)|]; reflexivity).
Qed.
Lemma rx_timeout_ak e m : ak m (rx_timeout e m).
Proof. unfold rx_timeout. destruct (m_state m); hs. Qed.
Lemma rx_packet_ak c e m : m_pendingACK (rx_packet c e m) =
  match snd (receiveFrame c m (rx_buffer e) (rx_len e)) with
  | Some f => if data_frame f then confirmed_frame f else m_pendingACK m
  | None => m_pendingACK m
  end.
Proof.
  open_def rx_packet. cbv zeta. set (m1 := set_m_rx_snr _ _). assert (ak m m1) as H1 by hs.
  assert (core m1 = core m) as C by (unfold m1, emit, timerClear, set_timer; autorewrite with core; reflexivity). clearbody m1.
  rewrite <- (receive_core _ _ _ _ _ C). unfold ak in H1. rewrite <- H1.
  destruct (receiveFrame c m1 (rx_buffer e) (rx_len e)) as [buf [f|]]; cbn [snd].
  - change (m_pendingACK (pushSessionUpdate ?y)) with (m_pendingACK y). unfold data_frame. destruct (dn_type f) eqn:T; first [apply data_ak|apply join_ak].
  - apply missing_ak.
Qed.
Lemma error_ak c e m : ak m (handleRadioError c e m).
Proof.
  open_def handleRadioError. cbv zeta. set (m1 := timerClear WAITB _). assert (ak m m1) as H1 by hs. clearbody m1.
  set (m2 := match m_op m1 with OP_JOINING => _ | _ => _ end).
  assert (ak m1 m2) as H2. { unfold m2. destruct (m_op m1); try apply missing_ak; hs. }
  clearbody m2. eapply ak_trans; [exact H1|]. he H2.
Qed.

Lemma dispatch_ak c e ev lag m : m_pendingACK (dispatch c e ev lag m) = if match ev with SME_INTERRUPT => true | _ => false end then owed_after c e C_process (set_m_inputs (mkInput true true 0) m) (m_pendingACK m) else m_pendingACK m.
Proof.
  unfold owed_after. change (inputPending (set_m_inputs (mkInput true true 0) m)) with true. cbn [negb]. change (m_state (set_m_inputs (mkInput true true 0) m)) with (m_state m).
  assert (receiveFrame c (set_m_inputs (mkInput true true 0) m) (rx_buffer e) (rx_len e) = receiveFrame c m (rx_buffer e) (rx_len e)) as -> by (apply receive_core; autorewrite with core; reflexivity).
  assert (ak m m) as R by apply ak_refl. unfold dispatch. destruct (m_state m) eqn:S; try (destruct ev; reflexivity);
  cbv [processInit processRadioReset processRadioBoot processWait processStartRadioForEntropy processEntropy processStartRadioForTX processStartRadioForRX1 processStartRadioForRX2 processRX2Lockout];
  rewrite ?S; try (destruct ev; reflexivity).
  - destruct ev; try reflexivity. change (m_op (emit (OMode MODE_SLEEP) m)) with (m_op m). destruct (m_op m); reflexivity.
  - unfold processWaitOTAA. destruct (_ =? 0); destruct ev; reflexivity.
  - unfold processTX. pose proof (registerTime_ak m) as C. destruct ev; try reflexivity; [exact (ak_trans _ _ _ C (error_ak c e (registerTime m)))|].
    destruct (e_st_tx e); [apply tx_done_ak|exact (ak_trans _ _ _ C (error_ak c e (registerTime m)))].
  - unfold processRX. destruct ev; try reflexivity; [apply error_ak|]. destruct (e_st_rx e); [apply rx_packet_ak|].
    destruct (e_st_timeout e); [apply rx_timeout_ak|apply error_ak].
  - unfold processRX. destruct ev; try reflexivity; [apply error_ak|]. destruct (e_st_rx e); [apply rx_packet_ak|].
    destruct (e_st_timeout e); [apply rx_timeout_ak|apply error_ak].
  - destruct ev; try reflexivity. apply missing_ak.
Qed.

Lemma next_event_ak e m rd : ak m (fst (fst (next_event e m rd))).
Proof.
  unfold next_event, inputCheck. destruct (in_state (m_inputs m)); [hs|].
  pose proof (timerCheck_ak e WAITA m) as T1. destruct (timerCheck e WAITA m) as [m2 [lag|]]; cbn [fst] in *; [exact T1|].
  pose proof (timerCheck_ak e WAITB m2) as T2. destruct (timerCheck e WAITB m2) as [m3 [lag|]]; cbn [fst] in *; eapply ak_trans; eauto.
Qed.

Lemma bands_ak e m : ak m (fst (processBands e m)).
Proof. unfold processBands. destruct (mt_parked _); [reflexivity|]. destruct (elapsed _ _). cbv zeta. destruct (_ && _); reflexivity. Qed.
Lemma next_kind e m rd : let '(_, ev, _) := next_event e m rd in match ev with SME_INTERRUPT => true | _ => false end = inputPending m.
Proof.
  unfold next_event, inputCheck, inputPending. destruct (in_state (m_inputs m)) eqn:I; [reflexivity|].
  destruct (timerCheck e WAITA m) as [m2 [lag|]]; [reflexivity|]. destruct (timerCheck e WAITB m2) as [m3 [lag|]]; [reflexivity|]. destruct rd; reflexivity.
Qed.
Lemma next_event_state e m rd : core (fst (fst (next_event e m rd))) = core m /\ m_state (fst (fst (next_event e m rd))) = m_state m.
Proof.
  unfold next_event, inputCheck. destruct (in_state (m_inputs m)); [split; [cbn [fst]; autorewrite with core; reflexivity|reflexivity]|].
  assert (forall i x, core (fst (timerCheck e i x)) = core x /\ m_state (fst (timerCheck e i x)) = m_state x) as T.
  { intros i x. unfold timerCheck. cbv zeta. destruct (tm_armed _); [destruct (_ <? _)|]; split; cbn [fst]; unfold set_timer; autorewrite with core; reflexivity. }
  pose proof (T WAITA m) as T1. destruct (timerCheck e WAITA m) as [m2 [lag|]]; cbn [fst] in *; [exact T1|].
  pose proof (T WAITB m2) as T2. destruct (timerCheck e WAITB m2) as [m3 [lag|]]; cbn [fst] in *; destruct T1, T2; split; congruence.
Qed.
Lemma owed_core c e m m' b : core m' = core m -> m_state m' = m_state m -> inputPending m' = inputPending m -> owed_after c e C_process m' b = owed_after c e C_process m b.
Proof. intros C S I. unfold owed_after. rewrite (receive_core _ _ _ _ _ C), S, I. reflexivity. Qed.
Lemma process_ak c e m : m_pendingACK (MAC_process c e m) = owed_after c e C_process m (m_pendingACK m).
Proof.
  unfold MAC_process. pose proof (bands_ak e m) as B. destruct (processBands_quiet e m) as [[BC _] BS].
  assert (inputPending (fst (processBands e m)) = inputPending m) as BI.
  { unfold processBands. destruct (mt_parked _); [reflexivity|]. destruct (elapsed _ _). cbv zeta. destruct (_ && _); reflexivity. }
  destruct (processBands e m) as [m1 rd]. cbn [fst] in *.
  pose proof (next_event_ak e m1 rd) as N. pose proof (next_kind e m1 rd) as K. destruct (next_event_state e m1 rd) as [NC NS].
  destruct (next_event e m1 rd) as [[m2 ev] lag]. cbn [fst] in *.
  assert (forall x, m_pendingACK (setNextBandEvent e x) = m_pendingACK x) as SN by (intros x; unfold setNextBandEvent; cbv zeta; destruct (_ <? _); reflexivity).
  rewrite SN. clear SN. unfold ak in *. rewrite <- B, <- N.
  rewrite BI in K.
  assert (m_pendingACK match ev with SME_NONE => m2 | _ => dispatch c e ev lag m2 end = if inputPending m then owed_after c e C_process (set_m_inputs (mkInput true true 0) m2) (m_pendingACK m2) else m_pendingACK m2) as E.
  { rewrite <- K. destruct ev; try exact (dispatch_ak c e _ lag m2); reflexivity. }
  rewrite E. destruct (inputPending m) eqn:IP.
  - apply owed_core; [autorewrite with core; congruence|change (m_state (set_m_inputs (mkInput true true 0) m2)) with (m_state m2); congruence|rewrite IP; reflexivity].
  - unfold owed_after. rewrite IP. reflexivity.
Qed.

(* --- the other calls --- *)

Lemma cancel_ak m : ak m (MAC_cancel m).
Proof.
  unfold MAC_cancel. cbv zeta. change (m_state (set_m_op OP_NONE m)) with (m_state m).
  set (x := match m_state m with ST_INIT => _ | _ => _ end).
  assert (ak m x) as H by (unfold x; destruct (m_state m); hs). clearbody x.
  set (y := match m_state x with ST_TX => _ | _ => _ end).
  assert (ak m y) as H' by (unfold y; destruct (m_state x); try exact H; eapply ak_trans; [exact H|apply registerTime_ak]). clearbody y.
  destruct (m_op m); try exact H'; now apply ak_notify.
Qed.
Lemma data_start_ak c e cf p d o m : ak m (fst (MAC_data c e cf p d o m)).
Proof.
  open_def MAC_data. destruct (negb _); [apply ak_refl|].
  destruct (m_op m); try apply ak_refl.
  destruct (_ && _); [|apply ak_refl]. destruct (_ =? 0); [|apply ak_refl]. cbv zeta. fold (sel_start c m).
  destruct (selectChannel _ _ _ _ _) as [tx [|]]; [|hs].
  destruct (_ <=? _); [|hs].
  destruct (compose _ _ _ _ _ _) as [[f op] st].
  match goal with |- context [prepareData c ?y f ?d ?n] => assert (ak m y) as H by hs; revert H; generalize y; intros x H end.
  destruct (prepareData _ _ _ _ _) as [buf n]. cbn [fst].
  match goal with |- ak m (match m_state ?z with _ => _ end) => set (y := z) end. assert (ak m y) as H' by (he H). clearbody y. destruct (m_state y); try exact H'; he H'.
Qed.
Lemma otaa_ak c e m : ak m (fst (MAC_otaa c e m)).
Proof.
  open_def MAC_otaa. cbv zeta. destruct (s_joined _); [apply ak_refl|].
  destruct (m_op m); try apply ak_refl. destruct (_ <=? _); [|apply ak_refl].
  set (m1 := if is_1_1 _ then _ else _). assert (ak m m1) as H1 by (unfold m1; destruct (is_1_1 _); reflexivity). clearbody m1.
  destruct (fillJoin_fields c e (u16 (m_devNonce m1)) m1) as (t & buf & len & dn & E & _).
  assert (ak m (fillJoinBuffer c e (u16 (m_devNonce m1)) m1)) as H3 by (rewrite E; he H1).
  clear E. revert H3. generalize (fillJoinBuffer c e (u16 (m_devNonce m1)) m1). intros x H3.
  cbn [fst]. match goal with |- ak m (match m_state ?x with _ => _ end) => set (y := x); assert (ak m y) as H5 end.
  { eapply ak_ends; [|exact H3]; reflexivity. }
  clearbody y. destruct (m_state y); try exact H5; he H5.
Qed.
Lemma request_ak c e k m : k <> C_process -> k <> C_forget -> ak m (fst (step c e k m)).
Proof.
  intros NP NF. destruct k; try congruence; cbn [step st_ret bool_ret fst snd].
  - unfold MAC_entropy. destruct (m_op m); cbn [fst]; try apply ak_refl. change (m_state (set_m_op OP_ENTROPY m)) with (m_state m). destruct (m_state m); hs.
  - apply otaa_ak.
  - unfold MAC_abp. destruct (s_joined _); [apply ak_refl|]. destruct (m_op m); cbn [fst]; try apply ak_refl.
    hs.
  - apply data_start_ak.
  - apply cancel_ak.
  - unfold MAC_setRate. destruct (rateSettingIsValid _ _); cbn [fst]; [hs|apply ak_refl].
  - unfold MAC_setPower. destruct (validateTXPower _ _); cbn [fst]; [hs|apply ak_refl].
  - hs.
  - hs.
  - unfold MAC_addChannel. destruct (setChannel _ _ _ _ _); hs.
  - unfold MAC_maskChannel. destruct (maskChannel _ _ _); hs.
  - unfold MAC_unmaskChannel. destruct (unmaskChannel _ _ _); hs.
  - unfold inputSignal. destruct (_ && _); [hs|apply ak_refl].
Qed.
Lemma cancel_ctx m : m_ctx (MAC_cancel m) = m_ctx m.
Proof.
  rewrite cancel_eq. assert (m_ctx (cancel_mid m) = m_ctx m) as H by (unfold cancel_mid; destruct (resets _); reflexivity).
  destruct (m_op m); rewrite <- H; reflexivity.
Qed.
Lemma step_ak c e k m : m_pendingACK (fst (step c e k m)) = owed_after c e k m (m_pendingACK m).
Proof.
  destruct k; try (apply request_ak; discriminate); cbn [step st_ret bool_ret fst snd].
  - apply process_ak.
  - unfold MAC_forget. cbv zeta. rewrite cancel_ctx. unfold owed_after. destruct (s_joined _); [reflexivity|apply cancel_ak].
Qed.
Lemma run_ak c h : forall m, m_pendingACK (run c h m) = owed c h m (m_pendingACK m).
Proof. induction h as [|[e k] h IH]; intros m; [reflexivity|]. cbn [run owed]. rewrite IH, step_ak. reflexivity. Qed.
Lemma init_ak c r a e0 : m_pendingACK (MAC_init c r a e0) = false.
Proof.
  open_def MAC_init. cbv zeta. set (m0 := initSession c r (mac_zero a)). assert (m_pendingACK m0 = false) as E0 by reflexivity. clearbody m0.
  assert (m_pendingACK (restoreSession c r (ia_session a) m0) = false) as E.
  { unfold restoreSession. destruct (ia_session a) as [s|]; [|exact E0]. destruct (_ && _); [|exact E0].
    destruct (deriveKeys_sm c (set_m_ctx s m0)) as (l & E). rewrite E. exact E0. }
  exact E.
Qed.
