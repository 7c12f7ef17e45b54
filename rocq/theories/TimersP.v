(* There are always three timers, and the day counter is never longer than a
   day. *)
From Verif Require Import Lib FrameM CommandsM RegionM RadioM SmM MacStateM MacTac MacUtilM OpsM MacCmdM MacProcM MacApiM MacRw
  CoreP CaseP RxP ExecP SpecHist HistP StuckP SpecTime TimeP SpecWait SpecChan SpecRegion SpecValid ValidP AcceptP ChoiceP SpecWake.

From Verif Require BandP.

Definition tl (m m' : mac) : Prop := length (m_timers m') = length (m_timers m) /\ (0 <= m_day m <= one_day -> 0 <= m_day m' <= one_day).
Lemma tl_refl m : tl m m. Proof. split; auto. Qed.
Lemma tl_trans a b c : tl a b -> tl b c -> tl a c.
Proof. intros [A1 A2] [B1 B2]. split; [congruence|]. auto. Qed.
Lemma tl_same m m' : length (m_timers m') = length (m_timers m) -> m_day m' = m_day m -> tl m m'.
Proof. intros A B. split; [exact A|]. now rewrite B. Qed.
Lemma tl_ends m x y : length (m_timers y) = length (m_timers x) -> m_day y = m_day x -> tl m x -> tl m y.
Proof. intros A B H. eapply tl_trans; [exact H|now apply tl_same]. Qed.
Lemma set_timers i t m : length (m_timers (set_timer i t m)) = length (m_timers m).
Proof. unfold set_timer. ms. apply upd_length. Qed.
Ltac tlen := repeat match goal with y := _ : mac |- context [?z] => constr_eq y z; unfold y end; unfold timerSet, timerAppend, timerClear, set_timer, inputArm, inputDisarm, inputSignal, emit, notify in *; cbv zeta; ms; rewrite ?upd_length; reflexivity.
Ltac hs := apply tl_same; [tlen|reflexivity].
Ltac he H := eapply tl_ends; [| |exact H]; [tlen|reflexivity].
Lemma tl_notify m x ev : tl m x -> tl m (notify ev x).
Proof. intros H. eapply tl_ends; [reflexivity|reflexivity|exact H]. Qed.
Lemma tl_set m x i v : tl m x -> (in_range (m_band x) -> 0 <= v <= UINT32_MAX /\ ((i < BAND_GLOBAL)%nat -> nth i (m_band x) 0 <= v)) -> tl m (band_set i v x).
Proof. intros H _. eapply tl_ends; [reflexivity|reflexivity|exact H]. Qed.
Lemma tl_day m x v : tl m x -> 0 <= v <= one_day -> tl m (set_m_day v x).
Proof. intros H V. eapply tl_trans; [exact H|]. split; [reflexivity|]. auto. Qed.
Lemma registerTime_tl m : tl m (registerTime m).
Proof.
  unfold registerTime. cbv zeta. apply tl_same; destruct (getBand _ _), (m_op m); try (destruct (_ >? _)); reflexivity.
Qed.
Lemma timerCheck_tl e i m : tl m (fst (timerCheck e i m)).
Proof. unfold timerCheck. cbv zeta. destruct (tm_armed _); [destruct (_ <? _)|]; cbn [fst]; try apply tl_refl. hs. Qed.

Lemma missing_tl c e m : tl m (downlinkMissing c e m).
Proof.
  open_def downlinkMissing. cbv zeta. change (set_m_trials (u32 (m_trials m + 1)) m) with (next_trial m).
  assert (tl m (next_trial m)) as N by hs.
  assert (forall ev, tl m (let (m0, changed) := adaptRate c (next_trial m) in complete ev (if changed then pushSessionUpdate m0 else m0))) as HD.
  { intros ev. pose proof (adaptRate_fields c (next_trial m)) as H. cbv zeta in H. destruct (adaptRate c (next_trial m)) as [m0 ch].
    destruct H as (s & n & b & E & _). cbn [fst] in E.
    assert (tl m m0) as H0 by (rewrite E; he N). clear E.
    unfold complete. eapply tl_ends; [reflexivity|reflexivity|]. apply tl_notify. destruct ch; [|exact H0]. now apply tl_notify. }
  destruct (m_op (next_trial m)); try exact N.
  - destruct (_ <=? _).
    + destruct (fillJoin_fields c e (u16 (m_devNonce (next_trial m))) (next_trial m)) as (t & buf & len & dn & E & _).
      assert (tl m (fillJoinBuffer c e (u16 (m_devNonce (next_trial m))) (next_trial m))) as HF by (rewrite E; he N).
      clear E. revert HF. generalize (fillJoinBuffer c e (u16 (m_devNonce (next_trial m))) (next_trial m)). intros x HF.
      he HF.
    + unfold complete. eapply tl_ends; [reflexivity|reflexivity|]. now apply tl_notify.
  - destruct (_ && _); [|apply HD]. he N.
  - destruct (_ && _); [|apply HD]. he N.
Qed.

Lemma do_command_tl c e d last m0 m st : tl m0 m -> tl m0 (fst (do_command c e d last m st)).
Proof.
  intros H. destruct d; cbn [do_command fst] in *; try (now apply tl_notify); try exact H; try (he H).
  1: { destruct (do_linkADR _ _ _ _ _ _ _ _) as [s st']. he H. }
  all: try (destruct (isDynamic _); [|exact H]); cbv zeta; cbn [fst]; try exact H; try (he H).
  all: try (destruct (device_time _ _ _ _ _); now apply tl_notify).
  all: repeat match goal with |- context [if ?b then _ else _] => destruct b end; try exact H; try (he H).
  all: repeat match goal with |- context [let (_,_) := ?b in _] => destruct b end; try exact H; try (he H).
Qed.
Lemma commands_tl c e l m : tl m (processCommands c e l m).
Proof. apply (processCommands_inv c e (tl m)); [intros; now apply do_command_tl|hs|intros m' H; he H]. Qed.

Lemma data_tl c e buf f m : tl m (data_received c e buf f m).
Proof.
  open_def data_received. cbv zeta.
  set (m1 := set_m_adrAckReq false _). assert (tl m m1) as H1 by hs. clearbody m1.
  set (m2 := match dn_opts f with Some off => _ | None => m1 end).
  assert (tl m m2) as H2 by (unfold m2; destruct (dn_opts f); [eapply tl_trans; [exact H1|apply commands_tl]|exact H1]). clearbody m2. clear H1 m1.
  set (m3 := match dn_data f with Some off => _ | None => m2 end).
  assert (tl m m3) as H3.
  { unfold m3. destruct (dn_data f); [|exact H2]. destruct (_ =? 0); [eapply tl_trans; [exact H2|apply commands_tl]|now apply tl_notify]. }
  clearbody m3. clear H2 m2.
  eapply tl_ends; [reflexivity|reflexivity|]. destruct (m_op m3); try exact H3; now apply tl_notify.
Qed.
Lemma keys_tl c m : tl m (deriveKeys c m).
Proof. destruct (deriveKeys_sm c m) as (sm & E). rewrite E. hs. Qed.
Lemma join_tl c buf f m : tl m (join_accepted c buf f m).
Proof.
  open_def join_accepted. cbv zeta.
  match goal with |- tl m (notify ?v (set_m_op _ (set_m_state _ (set_m_day _ (band_set _ _ (set_m_joinNonce _ (deriveKeys c (set_m_ctx ?s m)))))))) =>
    generalize v; intros ev; generalize s; intros s0 end.
  apply tl_notify. match goal with |- tl m (set_m_op _ (set_m_state _ ?y)) => apply (tl_ends m y); [reflexivity|reflexivity|] end.
  apply tl_day; [|unfold one_day; lia]. apply (tl_ends m (deriveKeys c (set_m_ctx s0 m))); [reflexivity|reflexivity|].
  eapply tl_trans; [|apply (keys_tl c (set_m_ctx s0 m))]. hs.
Qed.
Lemma tx_done_tl c e lag m : tl m (tx_done c e lag m).
Proof.
  open_def tx_done. cbv zeta. destruct (window _ _ _ _) as [sym1 marg1]. destruct (window _ _ _ _) as [sym2 marg2].
  apply tl_same; unfold emit; ms; (destruct (_ <=? _); [destruct (_ <=? _)|]; first [reflexivity|tlen]).
Qed.
Lemma rx_timeout_tl e m : tl m (rx_timeout e m).
Proof. unfold rx_timeout. destruct (m_state m); hs. Qed.
Lemma rx_packet_tl c e m : tl m (rx_packet c e m).
Proof.
  open_def rx_packet. cbv zeta. set (m1 := set_m_rx_snr _ _). assert (tl m m1) as H1 by hs. clearbody m1.
  destruct (receiveFrame c m1 (rx_buffer e) (rx_len e)) as [buf [f|]].
  - apply tl_notify. eapply tl_trans; [exact H1|]. destruct (dn_type f); first [apply data_tl|apply join_tl].
  - eapply tl_trans; [exact H1|apply missing_tl].
Qed.
Lemma error_tl c e m : tl m (handleRadioError c e m).
Proof.
  open_def handleRadioError. cbv zeta. set (m1 := timerClear WAITB _). assert (tl m m1) as H1 by hs. clearbody m1.
  set (m2 := match m_op m1 with OP_JOINING => _ | _ => _ end).
  assert (tl m1 m2) as H2. { unfold m2. destruct (m_op m1); try apply missing_tl; hs. }
  clearbody m2. eapply tl_trans; [exact H1|]. he H2.
Qed.

Lemma dispatch_tl c e ev lag m : tl m (dispatch c e ev lag m).
Proof.
  assert (tl m m) as R by apply tl_refl. unfold dispatch. destruct (m_state m) eqn:S; try exact R;
  cbv [processInit processRadioReset processRadioBoot processWait processStartRadioForEntropy processEntropy processStartRadioForTX processStartRadioForRX1 processStartRadioForRX2 processRX2Lockout];
  rewrite ?S; try (destruct ev; try exact R; hs); try hs.
  - destruct ev; try exact R. change (m_op (emit (OMode MODE_SLEEP) m)) with (m_op m). destruct (m_op m); hs.
  - unfold processWaitOTAA. destruct (_ =? 0); [hs|exact R].
  - unfold processTX. pose proof (registerTime_tl m) as C. destruct ev; try exact R; [eapply tl_trans; [exact C|apply error_tl]|].
    eapply tl_trans; [exact C|]. destruct (e_st_tx e); [apply tx_done_tl|apply error_tl].
  - unfold processRX. destruct ev; try exact R; [apply error_tl|]. destruct (e_st_rx e); [apply rx_packet_tl|].
    destruct (e_st_timeout e); [apply rx_timeout_tl|apply error_tl].
  - unfold processRX. destruct ev; try exact R; [apply error_tl|]. destruct (e_st_rx e); [apply rx_packet_tl|].
    destruct (e_st_timeout e); [apply rx_timeout_tl|apply error_tl].
  - destruct ev; try exact R. apply missing_tl.
Qed.

Lemma next_event_tl e m rd : tl m (fst (fst (next_event e m rd))).
Proof.
  unfold next_event, inputCheck. destruct (in_state (m_inputs m)); [hs|].
  pose proof (timerCheck_tl e WAITA m) as T1. destruct (timerCheck e WAITA m) as [m2 [lag|]]; cbn [fst] in *; [exact T1|].
  pose proof (timerCheck_tl e WAITB m2) as T2. destruct (timerCheck e WAITB m2) as [m3 [lag|]]; cbn [fst] in *; eapply tl_trans; eauto.
Qed.

(* process: the update, something that holds, the next event *)
Lemma process_tl c e m : exists m3, tl (fst (processBands e m)) m3 /\ MAC_process c e m = setNextBandEvent e m3.
Proof.
  unfold MAC_process. destruct (processBands e m) as [m1 rd]. cbn [fst].
  pose proof (next_event_tl e m1 rd) as N. destruct (next_event e m1 rd) as [[m2 ev] lag]. cbn [fst] in N.
  exists (match ev with SME_NONE => m2 | _ => dispatch c e ev lag m2 end). split; [|reflexivity].
  eapply tl_trans; [exact N|]. destruct ev; try apply dispatch_tl. apply tl_refl.
Qed.

(* --- the other calls --- *)

Lemma cancel_tl m : tl m (MAC_cancel m).
Proof.
  unfold MAC_cancel. cbv zeta. change (m_state (set_m_op OP_NONE m)) with (m_state m).
  set (x := match m_state m with ST_INIT => _ | _ => _ end).
  assert (tl m x) as H by (unfold x; destruct (m_state m); hs). clearbody x.
  set (y := match m_state x with ST_TX => _ | _ => _ end).
  assert (tl m y) as H' by (unfold y; destruct (m_state x); try exact H; eapply tl_trans; [exact H|apply registerTime_tl]). clearbody y.
  destruct (m_op m); try exact H'; now apply tl_notify.
Qed.
Lemma data_start_tl c e cf p d o m : tl m (fst (MAC_data c e cf p d o m)).
Proof.
  open_def MAC_data. destruct (negb _); [apply tl_refl|].
  destruct (m_op m); try apply tl_refl.
  destruct (_ && _); [|apply tl_refl]. destruct (_ =? 0); [|apply tl_refl]. cbv zeta. fold (sel_start c m).
  destruct (selectChannel _ _ _ _ _) as [tx [|]]; [|hs].
  destruct (_ <=? _); [|hs].
  destruct (compose _ _ _ _ _ _) as [[f op] st].
  match goal with |- context [prepareData c ?y f ?d ?n] => assert (tl m y) as H by hs; revert H; generalize y; intros x H end.
  destruct (prepareData _ _ _ _ _) as [buf n]. cbn [fst].
  match goal with |- tl m (match m_state ?z with _ => _ end) => set (y := z) end. assert (tl m y) as H' by (he H). clearbody y. destruct (m_state y); try exact H'; he H'.
Qed.
Lemma otaa_tl c e m : tl m (fst (MAC_otaa c e m)).
Proof.
  open_def MAC_otaa. cbv zeta. destruct (s_joined _); [apply tl_refl|].
  destruct (m_op m); try apply tl_refl. destruct (_ <=? _); [|apply tl_refl].
  set (m1 := if is_1_1 _ then _ else _). assert (tl m m1) as H1 by (unfold m1; split; [destruct (is_1_1 _); reflexivity|intros _; destruct (is_1_1 _); unfold one_day; split; discriminate]). clearbody m1.
  destruct (fillJoin_fields c e (u16 (m_devNonce m1)) m1) as (t & buf & len & dn & E & _).
  assert (tl m (fillJoinBuffer c e (u16 (m_devNonce m1)) m1)) as H3 by (rewrite E; he H1).
  clear E. revert H3. generalize (fillJoinBuffer c e (u16 (m_devNonce m1)) m1). intros x H3.
  cbn [fst]. match goal with |- tl m (match m_state ?x with _ => _ end) => set (y := x); assert (tl m y) as H5 end.
  { eapply tl_ends; [| |exact H3]; reflexivity. }
  clearbody y. destruct (m_state y); try exact H5; he H5.
Qed.
Lemma request_tl c e k m : k <> C_process -> tl m (fst (step c e k m)).
Proof.
  intros NP. destruct k; try congruence; cbn [step st_ret bool_ret fst snd].
  - unfold MAC_entropy. destruct (m_op m); cbn [fst]; try apply tl_refl. change (m_state (set_m_op OP_ENTROPY m)) with (m_state m). destruct (m_state m); hs.
  - apply otaa_tl.
  - unfold MAC_abp. destruct (s_joined _); [apply tl_refl|]. destruct (m_op m); cbn [fst]; try apply tl_refl.
    apply tl_day; [hs|unfold one_day; lia].
  - apply data_start_tl.
  - apply cancel_tl.
  - unfold MAC_forget. cbv zeta. pose proof (cancel_tl m) as H. destruct (s_joined _); [|exact H]. apply tl_notify.
    eapply tl_ends; [| |exact H]; reflexivity.
  - unfold MAC_setRate. destruct (rateSettingIsValid _ _); cbn [fst]; [hs|apply tl_refl].
  - unfold MAC_setPower. destruct (validateTXPower _ _); cbn [fst]; [hs|apply tl_refl].
  - hs.
  - hs.
  - unfold MAC_addChannel. destruct (setChannel _ _ _ _ _); hs.
  - unfold MAC_maskChannel. destruct (maskChannel _ _ _); hs.
  - unfold MAC_unmaskChannel. destruct (unmaskChannel _ _ _); hs.
  - unfold inputSignal. destruct (_ && _); [hs|apply tl_refl].
Qed.


(* from the start *)
Lemma elapsed_nonneg m t : 0 < m_tps m -> 0 <= fst (elapsed m t).
Proof. intros P. unfold elapsed. cbv zeta. cbn [fst]. unfold u32. apply Z.mod_pos_bound. reflexivity. Qed.
Lemma bands_tl e m : 0 < m_tps m -> tl m (fst (processBands e m)).
Proof.
  intros P. split; [apply f_equal, (proj1 (bands_fields e m))|]. intros D. unfold processBands. destruct (mt_parked _); [exact D|].
  pose proof (elapsed_nonneg m (e_now e) P) as N. destruct (elapsed m (e_now e)) as [u r]. cbn [fst] in N. cbv zeta.
  assert (0 <= fst (updateDownCounter (m_day m) u) <= one_day) as U by (unfold one_day in *; unfold updateDownCounter; destruct (_ >? _); [destruct (_ <=? _) eqn:E|]; cbn [fst]; lia).
  destruct (_ && _); exact U.
Qed.
Lemma setNext_tl e m : tl m (setNextBandEvent e m).
Proof. unfold setNextBandEvent. cbv zeta. destruct (_ <? _); hs. Qed.
Lemma step_tl c e k m : 0 < m_tps m -> tl m (fst (step c e k m)).
Proof.
  intros P. assert (k = C_process \/ k <> C_process) as [->|NP] by (destruct k; first [now left|right; discriminate]).
  - cbn [step fst]. destruct (process_tl c e m) as (m3 & H & E). rewrite E. eapply tl_trans; [now apply bands_tl|]. eapply tl_trans; [exact H|apply setNext_tl].
  - now apply request_tl.
Qed.
Lemma step_tps c e k m : m_tps (fst (step c e k m)) = m_tps m.
Proof.
  assert (k = C_process \/ k <> C_process) as [->|NP] by (destruct k; first [now left|right; discriminate]).
  - cbn [step fst]. destruct (BandP.process_held c e m) as (m3 & (_ & H & _) & E). rewrite E.
    assert (m_tps (setNextBandEvent e m3) = m_tps m3) as -> by (unfold setNextBandEvent; cbv zeta; destruct (_ <? _); reflexivity).
    rewrite H. unfold processBands. destruct (mt_parked _); [reflexivity|]. destruct (elapsed _ _). cbv zeta. destruct (_ && _); reflexivity.
  - now destruct (BandP.request_held c e k m NP) as (_ & H & _).
Qed.
Lemma run_tl c h : forall m, 0 < m_tps m -> tl m (run c h m) /\ m_tps (run c h m) = m_tps m.
Proof.
  induction h as [|[e k] h IH]; intros m P; [split; [apply tl_refl|reflexivity]|]. cbn [run].
  pose proof (step_tps c e k m) as T. destruct (IH (fst (step c e k m)) ltac:(lia)) as [A B]. split; [|congruence].
  eapply tl_trans; [now apply step_tl|exact A].
Qed.
Lemma init_tl c r a e0 : let m := MAC_init c r a e0 in length (m_timers m) = 3%nat /\ m_day m = 0 /\ m_tps m = ia_tps a.
Proof.
  cbv zeta. open_def MAC_init. cbv zeta. set (m0 := restoreSession c r (ia_session a) _).
  assert (length (m_timers m0) = 3%nat /\ m_day m0 = 0 /\ m_tps m0 = ia_tps a) as (E1 & E2 & E3).
  { unfold m0, restoreSession. destruct (ia_session a) as [s|]; [|auto]. destruct (_ && _); [|auto].
    destruct (deriveKeys_sm c (set_m_ctx s (initSession c r (mac_zero a)))) as (sm & ->). auto. }
  clearbody m0. rewrite <- E1, <- E2, <- E3. split; [unfold setNextBandEvent; cbv zeta|split]; try reflexivity.
  all: try tlen.
Qed.
Theorem always_tl c r a e0 h : 0 < ia_tps a -> let m := run c h (MAC_init c r a e0) in
  length (m_timers m) = 3%nat /\ 0 <= m_day m <= one_day /\ m_tps m = ia_tps a.
Proof.
  intros P. cbv zeta. destruct (init_tl c r a e0) as (A & B & C). destruct (run_tl c h (MAC_init c r a e0) ltac:(lia)) as [[H1 H2] H3].
  split; [congruence|]. split; [apply H2; rewrite B; unfold one_day; lia|congruence].
Qed.
