(* When a request is transmitted again. *)
From Verif Require Import Lib DataP IntP FrameM CommandsM RegionM RadioM SmM MacStateM MacTac MacUtilM OpsM MacCmdM MacProcM MacApiM MacRw CoreP CaseP RxP SpecHist SpecTime SpecWait SpecValid SpecSend HistP EndP TxP TimeP StuckP ValidP SentP ReadyP TriesP AcceptP TimersP SpecInput InputP SpecEnds EndsP SpecRetry.
From Verif Require EffectP.

Lemma process_unpending c e m : inputPending (MAC_process c e m) = false.
Proof.
  unfold inputPending. destruct (in_state (m_inputs m)) eqn:IS.
  - destruct (process_signalled c e m IS) as [E _]. rewrite E. reflexivity.
  - destruct (process_unsignalled c e m IS) as [[C1 C2] R|[C1 C2]|C1 C2 C3].
    + congruence.
    + rewrite C1. exact IS.
    + rewrite C1. reflexivity.
Qed.

Lemma back_off_eq op tps n : 0 <= n -> mask31 (match op with OP_DATA_CONFIRMED => u32 (Z.shiftl tps n) | _ => 0 end) = back_off op tps n.
Proof.
  intros N. unfold mask31, back_off. destruct op; try reflexivity. rewrite Z.shiftl_mul_pow2 by exact N. unfold u32.
  generalize (tps * 2 ^ n). intros x. change (2 ^ 31) with 2147483648. lia.
Qed.

Lemma timer_set e i v m : (i < length (m_timers m))%nat -> get_timer (timerSet e i v m) i = mkTimer (u32 (e_now e + mask31 v)) true.
Proof.
  intros L. unfold get_timer, timerSet, set_timer. ms. rewrite nth_upd, Nat.eqb_refl. apply Nat.ltb_lt in L. rewrite L. reflexivity.
Qed.
Lemma timer_get i m m' : m_timers m' = m_timers m -> get_timer m' i = get_timer m i.
Proof. intros E. unfold get_timer. now rewrite E. Qed.

(* the frame is to be sent again *)
Record again (e : env) (m m' : mac) : Prop := {
  ag_data : is_data (m_op m) = true;
  ag_op : m_op m' = m_op m;
  ag_trials : m_trials m' = u32 (m_trials m + 1);
  ag_timer : get_timer m' WAITA = mkTimer (u32 (e_now e + back_off (m_op m) (m_tps m) (m_trials m'))) true;
  ag_other : runs WAITB m' = runs WAITB m }.

Lemma retry_again c e v m : is_three m -> is_data (m_op m) = true ->
  v = match m_op m with OP_DATA_CONFIRMED => u32 (Z.shiftl (m_tps m) (u32 (m_trials m + 1))) | _ => 0 end ->
  again e m (set_m_state ST_WAIT_TX (timerSet e WAITA v (micDataFrame c (next_trial m)))).
Proof.
  intros L D ->. set (x := micDataFrame c (next_trial m)).
  assert (m_op x = m_op m /\ m_trials x = u32 (m_trials m + 1) /\ m_timers x = m_timers m) as (O & T & TM) by (unfold x; repeat split).
  clearbody x. assert (is_three x) as X by (unfold is_three; rewrite TM; exact L).
  set (v := match m_op m with OP_DATA_CONFIRMED => _ | _ => _ end). constructor.
  - exact D.
  - exact O.
  - exact T.
  - rewrite (timer_get WAITA (timerSet e WAITA v x)) by reflexivity. rewrite timer_set by now apply three_A.
    change (m_trials (set_m_state ST_WAIT_TX (timerSet e WAITA v x))) with (m_trials x). rewrite T. unfold v.
    rewrite back_off_eq by (unfold u32; lia). reflexivity.
  - rewrite r_state, set_runs by now apply three_A. cbn [Nat.eqb WAITA WAITB]. now apply runs_timers.
Qed.

Lemma missing_again c e m : is_three m -> is_data (m_op m) = true \/ m_op m = OP_JOINING ->
  m_state (downlinkMissing c e m) = ST_WAIT_TX -> again e m (downlinkMissing c e m).
Proof.
  intros L K. open_def downlinkMissing. cbv zeta. change (set_m_trials (u32 (m_trials m + 1)) m) with (next_trial m).
  assert (m_op (next_trial m) = m_op m) as -> by reflexivity.
  assert (forall ev, m_state (let (m0, changed) := adaptRate c (next_trial m) in complete ev (if changed then pushSessionUpdate m0 else m0)) = ST_IDLE) as HD
    by (intros ev; destruct (adaptRate c (next_trial m)) as [m0 ch]; reflexivity).
  pose proof (fun v => retry_again c e v m L) as RA. revert HD RA.
  destruct (m_op m) eqn:O; try (destruct K as [K|K]; discriminate K); intros HD RA.
  - destruct (_ <=? _); [|intros H; discriminate H].
    generalize (fillJoinBuffer c e (u16 (m_devNonce (next_trial m))) (next_trial m)). intros x H. discriminate H.
  - destruct (_ && _); [|rewrite HD; discriminate]. intros _. apply RA; reflexivity.
  - destruct (_ && _); [|rewrite HD; discriminate]. intros _. apply RA; reflexivity.
Qed.

Definition locked (m : mac) : Prop := m_state m = ST_RX2_LOCKOUT -> runs WAITB m = false.

Lemma packet_again c e m : is_three m -> is_data (m_op m) = true \/ m_op m = OP_JOINING ->
  m_state (rx_packet c e m) = ST_WAIT_TX ->
  exists x, again e x (rx_packet c e m) /\ runs WAITB x = false /\ m_op x = m_op m /\ m_tps x = m_tps m /\ m_trials x = m_trials m.
Proof.
  intros L K. open_def rx_packet. cbv zeta.
  set (m1 := set_m_rx_snr _ _). assert (is_three m1) as L1. { unfold m1, is_three, emit, timerClear, set_timer. ms. rewrite !upd_length. exact L. }
  assert (m_op m1 = m_op m /\ m_tps m1 = m_tps m /\ m_trials m1 = m_trials m) as (O & T & N) by (repeat split).
  assert (runs WAITB m1 = false) as RB.
  { unfold m1. rewrite (runs_timers WAITB (timerClear WAITB (timerClear WAITA m))) by reflexivity. rewrite clear_runs. reflexivity. }
  clearbody m1.
  destruct (receiveFrame c m1 (rx_buffer e) (rx_len e)) as [buf [f|]].
  - intros H. exfalso. revert H. destruct (dn_type f); discriminate.
  - intros H. rewrite <- O in K. exists m1. split; [exact (missing_again c e m1 L1 K H)|]. auto.
Qed.

Lemma core_tps m m' : core m' = core m -> m_tps m' = m_tps m.
Proof. intros C. apply (f_equal m_tps) in C. exact C. Qed.

Lemma setNext_A e m i : i <> TBAND -> get_timer (setNextBandEvent e m) i = get_timer m i.
Proof.
  intros N. unfold setNextBandEvent. cbv zeta. destruct (_ <? _); unfold get_timer, timerSet, timerClear, set_timer; ms; rewrite nth_upd;
    destruct (Nat.eqb_spec i TBAND); try congruence; reflexivity.
Qed.

Lemma dispatch_again c e ev lag m : is_three m -> so (m_op m) (m_state m) = true -> locked m -> listened (m_state m) = true ->
  m_state (dispatch c e ev lag m) = ST_WAIT_TX ->
  exists x, again e x (dispatch c e ev lag m) /\ runs WAITB x = false /\ m_op x = m_op m /\ m_tps x = m_tps m /\ m_trials x = m_trials m.
Proof.
  intros L S LK. unfold dispatch, locked in *.
  assert (listened (m_state m) = true -> is_data (m_op m) = true \/ m_op m = OP_JOINING) as K
    by (destruct (m_state m), (m_op m); try discriminate; auto).
  assert (forall H : m_state (handleRadioError c e m) = ST_WAIT_TX, False) as NE by (intros H; rewrite error_state in H; discriminate H).
  revert K LK. destruct (m_state m) eqn:E; intros K LK G; try discriminate G; specialize (K eq_refl).
  - unfold processRX. destruct ev; try (rewrite E; discriminate); try (intros H; now destruct (NE H)).
    destruct (e_st_rx e); [now apply packet_again|]. destruct (e_st_timeout e); [|intros H; now destruct (NE H)].
    unfold rx_timeout. rewrite E. intros H. discriminate H.
  - unfold processRX. destruct ev; try (rewrite E; discriminate); try (intros H; now destruct (NE H)).
    destruct (e_st_rx e); [now apply packet_again|]. destruct (e_st_timeout e); [|intros H; now destruct (NE H)].
    unfold rx_timeout. rewrite E. intros H. discriminate H.
  - unfold processRX2Lockout. destruct ev; try (rewrite E; discriminate).
    intros H. exists m. split; [now apply missing_again|]. auto.
Qed.

Theorem process_again c e m : settled m -> on_air m -> locked m -> listened (m_state m) = true ->
  let m' := MAC_process c e m in m_state m' = ST_WAIT_TX ->
  is_data (m_op m) = true /\ m_op m' = m_op m /\ m_trials m' = u32 (m_trials m + 1) /\
  get_timer m' WAITA = mkTimer (u32 (e_now e + back_off (m_op m) (m_tps m) (m_trials m'))) true /\
  runs WAITB m' = false /\ in_state (m_inputs m') = false /\ in_armed (m_inputs m') = false.
Proof.
  intros [L S G] AIR LK LI. cbv zeta. pose proof (process_unpending c e m) as PU. pose proof (process_air c e m AIR) as PA.
  intros W. unfold on_air in PA. rewrite W in PA.
  assert (in_armed (m_inputs (MAC_process c e m)) = false) as AO by (destruct (in_armed _); [discriminate PA; reflexivity|reflexivity]).
  clear PA. unfold inputPending in PU. revert PU W AO. unfold MAC_process.
  pose proof (processBands_quiet e m) as BQ. destruct (bands_fields e m) as (BT & _ & _ & _). cbv zeta in BT.
  destruct (processBands e m) as [m1 rd]. cbn [fst snd] in *.
  pose proof (event_cases e m1 rd) as EC. destruct (next_event e m1 rd) as [[m2 ev] lag]. cbn [fst snd] in *.
  destruct EC as [Q2 B2 T2 A2 C2 A2' R2].
  assert (quiet m m2) as Q by (eapply quiet_trans; eauto). destruct Q as [[QC _] QS].
  assert (m_op m2 = m_op m /\ m_tps m2 = m_tps m /\ m_trials m2 = m_trials m) as (O2 & P2 & N2)
    by (split; [now apply core_op_eq|split; [now apply core_tps|now apply core_trials]]).
  assert (locked m2) as LK2.
  { unfold locked in *. rewrite QS. intros E. specialize (LK E). rewrite C2, (runs_timers _ m m1 BT), LK. destruct ev; reflexivity. }
  assert (is_three m2) as L2 by (unfold is_three in *; congruence).
  assert (so (m_op m2) (m_state m2) = true) as S2 by (rewrite O2, QS; exact S).
  set (y := match ev with SME_NONE => m2 | _ => dispatch c e ev lag m2 end).
  destruct (band_event_state e y) as (E1 & E2 & _).
  assert (m_trials (setNextBandEvent e y) = m_trials y) as E3 by (apply core_trials; apply setNext_quiet).
  pose proof (setNext_A e y WAITA ltac:(discriminate)) as E4.
  assert (runs WAITB (setNextBandEvent e y) = runs WAITB y) as E5 by (unfold runs; rewrite setNext_A by discriminate; reflexivity).
  revert E1 E2 E3 E4 E5. generalize (setNextBandEvent e y). intros z E1 E2 E3 E4 E5 PU W AO.
  assert (exists x, again e x y /\ runs WAITB x = false /\ m_op x = m_op m2 /\ m_tps x = m_tps m2 /\ m_trials x = m_trials m2) as (x & A & X1 & X2 & X3 & X4).
  { rewrite E1 in W. revert W. unfold y. assert (ev = SME_NONE \/ ev <> SME_NONE) as [->|NE] by (destruct ev; first [now left|right; discriminate]).
    - rewrite QS. intros W. rewrite W in LI. discriminate LI.
    - assert ((match ev with SME_NONE => m2 | _ => dispatch c e ev lag m2 end) = dispatch c e ev lag m2) as -> by (destruct ev; congruence).
      apply dispatch_again; auto. rewrite QS. exact LI. }
  destruct A as [D O T TM OB]. split; [congruence|]. split; [congruence|]. split; [congruence|]. split; [|split; [congruence|auto]].
  rewrite E4, TM, E3, X2, X3, O2, P2. reflexivity.
Qed.

(* --- the timer of the second window is off in the lock-out --- *)

Lemma dispatch_locked c e ev lag m : is_three m -> so (m_op m) (m_state m) = true -> locked m -> locked (dispatch c e ev lag m).
Proof.
  intros L S LK. unfold dispatch.
  assert (forall y, m_state y <> ST_RX2_LOCKOUT -> locked y) as NL by (intros y H X; congruence).
  assert (locked (handleRadioError c e m)) as HE by (apply NL; rewrite error_state; discriminate).
  assert (forall x, is_three x -> is_data (m_op x) = true \/ m_op x = OP_JOINING -> locked (downlinkMissing c e x)) as HM.
  { intros x X K. apply NL. destruct (missing_runs c e x X K) as [H|[[H|H] _]]; cbv zeta in H; rewrite H; discriminate. }
  assert (is_data (m_op m) = true \/ m_op m = OP_JOINING -> locked (rx_packet c e m)) as HP.
  { intros K. open_def rx_packet. cbv zeta.
    set (m1 := set_m_rx_snr _ _). assert (is_three m1) as L1. { unfold m1, is_three, emit, timerClear, set_timer. ms. rewrite !upd_length. exact L. }
    assert (m_op m1 = m_op m) as O by reflexivity. clearbody m1.
    destruct (receiveFrame c m1 (rx_buffer e) (rx_len e)) as [buf [f|]].
    - apply NL. destruct (dn_type f); discriminate.
    - apply HM; [exact L1|]. now rewrite O. }
  pose proof LK as LK0. revert LK0. unfold locked at 1. destruct (m_state m) eqn:E; intros LK0;
    try (assert (is_data (m_op m) = true \/ m_op m = OP_JOINING) as K by (destruct (m_op m); try discriminate S; auto));
    cbv [processInit processRadioReset processRadioBoot processWait processStartRadioForEntropy processEntropy processWaitOTAA
         processStartRadioForTX processTX processStartRadioForRX1 processStartRadioForRX2 processRX processRX2Lockout];
    try (apply NL; rewrite E; discriminate); try exact LK.
  - apply NL. discriminate.
  - destruct ev; try exact LK. apply NL. discriminate.
  - destruct ev; try exact LK. cbv zeta. change (m_op (emit (OMode MODE_SLEEP) m)) with (m_op m). destruct (m_op m); apply NL; discriminate.
  - rewrite E. destruct ev; try exact LK; apply NL; discriminate.
  - destruct ev; try exact LK; apply NL; discriminate.
  - destruct ev; try exact LK; apply NL; discriminate.
  - destruct (_ =? 0); [apply NL; discriminate|exact LK].
  - rewrite E. destruct ev; try exact LK; apply NL; discriminate.
  - destruct ev; try exact LK; apply NL; discriminate.
  - assert (locked (handleRadioError c e (registerTime m))) as HR by (apply NL; rewrite error_state; discriminate).
    destruct ev; try exact LK; [exact HR|]. destruct (e_st_tx e); [|exact HR]. apply NL.
    destruct (proj2 (tx_done_core c e lag (registerTime m))) as [H|H]; rewrite H; discriminate.
  - rewrite E. destruct ev; try exact LK; apply NL; discriminate.
  - destruct ev; try exact LK; apply NL; discriminate.
  - destruct ev; try exact LK; [exact HE|]. destruct (e_st_rx e); [now apply HP|]. destruct (e_st_timeout e); [|exact HE].
    unfold rx_timeout. rewrite E. apply NL. discriminate.
  - rewrite E. destruct ev; try exact LK; apply NL; discriminate.
  - destruct ev; try exact LK; apply NL; discriminate.
  - destruct ev; try exact LK; [exact HE|]. destruct (e_st_rx e); [now apply HP|]. destruct (e_st_timeout e); [|exact HE].
    unfold rx_timeout. rewrite E. cbv zeta. intros _. rs. reflexivity.
  - destruct ev; try exact LK. now apply HM.
Qed.

Lemma step_locked c e k m : settled m -> locked m -> locked (fst (step c e k m)).
Proof.
  intros [L S G] LK. assert (forall y, m_state y <> ST_RX2_LOCKOUT -> locked y) as NL by (intros y H X; congruence).
  assert (k = C_process \/ k <> C_process) as [->|NP] by (destruct k; first [now left|right; discriminate]).
  - cbn [step fst]. unfold MAC_process.
    pose proof (processBands_quiet e m) as BQ. destruct (bands_fields e m) as (BT & _ & _ & _). cbv zeta in BT.
    destruct (processBands e m) as [m1 rd]. cbn [fst snd] in *.
    pose proof (event_cases e m1 rd) as EC. destruct (next_event e m1 rd) as [[m2 ev] lag]. cbn [fst snd] in *.
    destruct EC as [Q2 B2 T2 A2 C2 A2' R2].
    assert (quiet m m2) as Q by (eapply quiet_trans; eauto). destruct Q as [[QC _] QS].
    assert (locked m2) as LK2.
    { unfold locked in *. rewrite QS. intros E. specialize (LK E). rewrite C2, (runs_timers _ m m1 BT), LK. destruct ev; reflexivity. }
    assert (is_three m2) as L2 by (unfold is_three in *; congruence).
    assert (so (m_op m2) (m_state m2) = true) as S2 by (rewrite (core_op_eq _ _ QC), QS; exact S).
    assert (locked (match ev with SME_NONE => m2 | _ => dispatch c e ev lag m2 end)) as H
      by (destruct ev; first [exact LK2|now apply dispatch_locked]).
    revert H. generalize (match ev with SME_NONE => m2 | _ => dispatch c e ev lag m2 end). intros y H.
    unfold locked. destruct (band_event_state e y) as (-> & _). intros X. unfold runs. rewrite setNext_A by discriminate. exact (H X).
  - assert (m_state m = ST_IDLE \/ m_state m <> ST_IDLE) as [I|I] by (destruct (m_state m); first [now left|right; discriminate]).
    + assert (m_state (MAC_cancel m) = ST_RADIO_RESET) as HC.
      { unfold MAC_cancel. cbv zeta. change (m_state (set_m_op OP_NONE m)) with (m_state m). rewrite I. destruct (m_op m); reflexivity. }
      assert (not_stop k \/ k = C_cancel \/ k = C_forget) as [NS|[-> | ->]] by (destruct k; first [left; split; discriminate|auto]).
      * apply NL. destruct (api_idle c e k m NP NS I L) as [E|[[E|[E|E]] _]]; cbv zeta in *; rewrite E; discriminate.
      * cbn [step fst]. apply NL. rewrite HC. discriminate.
      * cbn [step fst]. apply NL. assert (m_state (MAC_forget c m) = m_state (MAC_cancel m)) as -> by (unfold MAC_forget; cbv zeta; destruct (s_joined _); reflexivity).
        rewrite HC. discriminate.
    + destruct (api_timers c e k m NP I) as [[T E]|(_ & E & _)]; cbv zeta in *.
      * unfold locked. rewrite E, (runs_timers _ m _ T). exact LK.
      * apply NL. rewrite E. discriminate.
Qed.

Lemma locked_always c r a e0 h : 0 < ia_tps a -> locked (run c h (MAC_init c r a e0)).
Proof.
  intros P. induction h as [|[e k] h IH] using rev_ind.
  - cbn [run]. destruct (init_facts c r a e0) as (_ & S & _). cbv zeta in S. intros X. congruence.
  - rewrite run_app. cbn [run]. apply step_locked; [now apply settled_always|exact IH].
Qed.

(* --- nothing is sent while waiting --- *)

Lemma step_no_tx c e k m : m_state m <> ST_START_RADIO_FOR_TX -> forallb no_tx (new_out m (fst (step c e k m))) = true.
Proof.
  intros N. destruct (step_cases c e k m) as (m1 & m2 & Q1 & A & Q2 & _).
  destruct (quiet_log _ _ Q1) as (l1 & L1 & P1). destruct (quiet_log _ _ Q2) as (l2 & L2 & P2). destruct (act_log _ _ _ _ _ _ A) as (la & LA).
  assert (m_log (fst (step c e k m)) = m_log m ++ (l1 ++ la ++ l2)) as E by (rewrite L2, LA, L1, !app_assoc; reflexivity).
  rewrite (new_out_app _ _ _ E), !forallb_app, (plain_no_tx _ P1), (plain_no_tx _ P2), andb_true_r. cbn [andb].
  destruct (act_tx _ _ _ _ _ _ _ A LA) as [H|(_ & H & _)]; [exact H|]. destruct Q1 as [_ Q1]. congruence.
Qed.

Lemma check_early e i t n m : get_timer m i = mkTimer (u32 t) true -> e_now e = u32 n -> 0 < t - n <= 2 ^ 31 - 1 -> timerCheck e i m = (m, None).
Proof.
  intros T N D. unfold timerCheck. rewrite T. cbn [tm_armed tm_time]. cbv zeta. rewrite N.
  assert (timerDelta (u32 t) (u32 n) <? INT32_MAX = false) as ->; [|reflexivity].
  unfold timerDelta, UINT32_MAX, INT32_MAX. change (2 ^ 31) with 2147483648 in D. destruct (u32 t <=? u32 n) eqn:C; unfold u32 in *; lia.
Qed.
Lemma check_late e i t n m : get_timer m i = mkTimer (u32 t) true -> e_now e = u32 n -> 0 <= n - t < 2 ^ 31 - 1 ->
  exists d, timerCheck e i m = (set_timer i (mkTimer (u32 t) false) m, Some d).
Proof.
  intros T N D. unfold timerCheck. rewrite T. cbn [tm_armed tm_time]. cbv zeta. rewrite N.
  assert (timerDelta (u32 t) (u32 n) <? INT32_MAX = true) as ->; [|eexists; reflexivity].
  unfold timerDelta, UINT32_MAX, INT32_MAX. change (2 ^ 31) with 2147483648 in D. destruct (u32 t <=? u32 n) eqn:C; unfold u32 in *; lia.
Qed.

Lemma waits_process c e t n m : waits t m -> e_now e = u32 n -> 0 < t - n <= 2 ^ 31 - 1 -> waits t (MAC_process c e m) /\ m_op (MAC_process c e m) = m_op m.
Proof.
  intros [S T O [I1 I2]] N D. unfold MAC_process. pose proof (processBands_calm e m) as [BI _].
  destruct (bands_fields e m) as (BT & BS & BO & _). cbv zeta in *.
  destruct (processBands e m) as [m1 rd]. cbn [fst] in *. unfold next_event, inputCheck. rewrite BI, I1.
  assert (get_timer m1 WAITA = mkTimer (u32 t) true) as T1 by (rewrite (timer_get _ m m1 BT); exact T).
  rewrite (check_early e WAITA t n m1 T1 N D), check_off by (change (runs WAITB m1 = false); rewrite (runs_timers _ m m1 BT); exact O).
  assert ((match (if rd then SME_BAND else SME_NONE) with SME_NONE => m1 | _ => dispatch c e (if rd then SME_BAND else SME_NONE) 0 m1 end) = m1) as H.
  { destruct rd; [|reflexivity]. unfold dispatch. rewrite BS, S. reflexivity. }
  assert (waits t (setNextBandEvent e m1) /\ m_op (setNextBandEvent e m1) = m_op m) as W.
  { destruct (band_event_state e m1) as (E1 & E2 & _). split; [|congruence]. constructor.
    - congruence.
    - rewrite setNext_A by discriminate. exact T1.
    - unfold runs. rewrite setNext_A by discriminate. change (runs WAITB m1 = false). rewrite (runs_timers _ m m1 BT). exact O.
    - destruct (setNext_calm e m1) as [-> _]. rewrite BI. auto. }
  destruct rd; cbv beta iota in H |- *; [rewrite H|]; exact W.
Qed.

Lemma waits_api c e k t m : k <> C_process -> not_stop k -> waits t m -> waits t (fst (step c e k m)).
Proof.
  intros NP NS [S T O [I1 I2]]. assert (m_state m <> ST_IDLE) as NI by congruence.
  destruct (api_timers c e k m NP NI) as [[TM E]|([X|X] & _)]; cbv zeta in *; [|now destruct NS|now destruct NS].
  constructor.
  - congruence.
  - rewrite (timer_get _ m _ TM). exact T.
  - rewrite (runs_timers _ m _ TM). exact O.
  - destruct (is_signal k) eqn:KS.
    + destruct k; try discriminate KS. rewrite signal_off by exact I2. auto.
    + assert (is_process k = false) as KP by (destruct k; try reflexivity; congruence).
      assert (on_air m) as AIR by (intros H; congruence).
      destruct (request_input c e k m KP KS AIR) as (U1 & _ & U3 & _). split; [congruence|].
      apply not_true_iff_false. intros AR. specialize (U3 AR). congruence.
Qed.

Theorem waits_until c t0 t h : forall m, waits t m -> t - t0 <= 2 ^ 31 - 1 -> during t0 t h ->
  waits t (run c h m) /\ forallb no_tx (new_out m (run c h m)) = true.
Proof.
  intros m W D. revert m W. induction h as [|[e k] h IH]; intros m W F.
  - split; [exact W|]. cbn [run]. rewrite (new_out_app m m []) by (now rewrite app_nil_r). reflexivity.
  - inversion F as [|x l [(n & R & N) NS] F']; subst. cbn [fst snd] in *. cbn [run].
    assert (waits t (fst (step c e k m))) as W'.
    { assert (k = C_process \/ k <> C_process) as [->|NP] by (destruct k; first [now left|right; discriminate]).
      - cbn [step fst]. apply (waits_process c e t n m W N). lia.
      - now apply waits_api. }
    destruct (IH _ W' F') as [H1 H2]. split; [exact H1|].
    assert (m_state m <> ST_START_RADIO_FOR_TX) as NT by (rewrite (wt_state _ _ W); discriminate).
    pose proof (step_no_tx c e k m NT) as H3. destruct (EffectP.step_log_grows c e k m) as (l1 & L1). pose proof (run_log c h (fst (step c e k m))) as L2.
    rewrite (new_out_app _ _ _ L1) in H3. rewrite (new_out_app _ _ _ L2) in H2.
    rewrite L1, <- app_assoc in L2. rewrite (new_out_app _ _ _ L2), forallb_app, H3. exact H2.
Qed.

Theorem waits_over c t n e m : waits t m -> e_now e = u32 n -> 0 <= n - t < 2 ^ 31 - 1 ->
  m_state (MAC_process c e m) = ST_START_RADIO_FOR_TX /\ m_op (MAC_process c e m) = m_op m /\ In (OMode MODE_TX) (new_out m (MAC_process c e m)).
Proof.
  intros [S T O [I1 I2]] N D. unfold MAC_process. pose proof (processBands_calm e m) as [BI _].
  destruct (bands_fields e m) as (BT & BS & BO & l & BL & _). cbv zeta in *.
  destruct (processBands e m) as [m1 rd]. cbn [fst] in *. unfold next_event, inputCheck. rewrite BI, I1.
  assert (get_timer m1 WAITA = mkTimer (u32 t) true) as T1 by (rewrite (timer_get _ m m1 BT); exact T).
  destruct (check_late e WAITA t n m1 T1 N D) as (d & ->). cbv beta iota zeta.
  set (m2 := set_timer WAITA _ m1). assert (m_state m2 = ST_WAIT_TX /\ m_op m2 = m_op m /\ m_log m2 = m_log m ++ l) as (S2 & O2 & L2) by (split; [|split]; [rewrite <- S; exact BS|exact BO|exact BL]).
  clearbody m2. unfold dispatch. rewrite S2. unfold processWait. rewrite S2. cbv zeta.
  match goal with |- context [setNextBandEvent e ?y] => destruct (band_event_state e y) as (-> & -> & E3);
    assert (m_log y = m_log m ++ (l ++ [OMode MODE_TX])) as E4 by (rewrite app_assoc, <- L2; reflexivity) end.
  rewrite E4 in E3. rewrite (new_out_app _ _ _ E3). split; [reflexivity|]. split; [exact O2|]. apply in_or_app. right. left. reflexivity.
Qed.

(* --- the wait before each repetition --- *)

Theorem retry_waits c r a e0 h1 e cf port d o h2 e' n : in_place c -> arg_ok a -> valid_start r (ia_session a) -> 0 < ia_tps a ->
  let k := C_data cf port d o in
  Forall (fun x => power_arg (snd x)) (h1 ++ (e, k) :: h2) ->
  let m1 := run c h1 (MAC_init c r a e0) in let m1' := fst (step c e k m1) in
  starts (IReq k (snd (step c e k m1))) = Some KData -> accepted (items c h2 m1') = 0 ->
  let m := run c h2 m1' in let m' := fst (step c e' C_process m) in
  let sent := data_count (outs (items c h2 m1')) in
  listened (m_state m) = true -> m_state m' = ST_WAIT_TX -> e_now e' = u32 n ->
  1 <= sent < redundancy o (m_ctx m1) /\ redundancy o (m_ctx m1) <= 15 /\ is_data (m_op m) = true /\ m_op m' = m_op m /\
  waits (n + back_off (m_op m) (ia_tps a) sent) m'.
Proof.
  intros IP OK V P k PA m1 m1' ST AC m m' sent LI W N.
  assert (m = run c (h1 ++ (e, k) :: h2) (MAC_init c r a e0)) as EM by (rewrite run_app; reflexivity).
  pose proof (settled_always c r a e0 (h1 ++ (e, k) :: h2) P) as SE. pose proof (locked_always c r a e0 (h1 ++ (e, k) :: h2) P) as LK.
  pose proof (armed_on_air c r a e0 (h1 ++ (e, k) :: h2)) as AIR. pose proof (always_tl c r a e0 (h1 ++ (e, k) :: h2) P) as (_ & _ & TP). cbv zeta in *.
  rewrite <- EM in *.
  destruct (process_again c e' m SE AIR LK LI W) as (D & O' & T' & TM & RB & I1 & I2). fold m' in O', T', TM, RB, I1, I2.
  change (MAC_process c e' m) with m' in *.
  destruct (tries_sent c r a e0 h1 e cf port d o h2 IP OK V PA ST AC) as (RD & _ & H). specialize (H D). destruct H as [H1 H2].
  fold m sent in H1. change (sent = sent_now m) in H1. change (0 <= m_trials m < redundancy o (m_ctx m1)) in H2. change (1 <= redundancy o (m_ctx m1) <= 15) in RD.
  assert (after_tx (m_state m) = true) as AT by (destruct (m_state m); try discriminate LI; reflexivity).
  assert (m_trials m' = sent) as TS.
  { rewrite T', H1. unfold sent_now. rewrite AT. unfold u32. apply Z.mod_small. lia. }
  assert (m_trials m' < redundancy o (m_ctx m1)) as LT.
  { assert (Forall (fun x => power_arg (snd x)) (h1 ++ (e, k) :: (h2 ++ [(e', C_process)]))) as PA'.
    { change ((e, k) :: (h2 ++ [(e', C_process)])) with (((e, k) :: h2) ++ [(e', C_process)]). rewrite app_assoc. apply Forall_app. split; [exact PA|]. constructor; [exact I|constructor]. }
    assert (accepted (items c (h2 ++ [(e', C_process)]) m1') = 0) as AC'.
    { rewrite items_snoc, accepted_app, AC. unfold step_items. rewrite accepted_app, accepted_outs. reflexivity. }
    destruct (tries_sent c r a e0 h1 e cf port d o _ IP OK V PA' ST AC') as (_ & _ & H).
    assert (run c (h2 ++ [(e', C_process)]) m1' = m') as ER by (rewrite run_app; reflexivity).
    fold k m1 m1' in H. rewrite ER in H. assert (is_data (m_op m') = true) as D' by (rewrite O'; exact D). apply (H D'). }
  split; [unfold sent_now in H1; rewrite AT in H1; lia|]. split; [lia|]. split; [exact D|]. split; [exact O'|]. constructor; auto.
  rewrite TM, TS, TP, N. f_equal. unfold u32. generalize (back_off (m_op m) (ia_tps a) sent). intros x. lia.
Qed.

Lemma back_off_range op tps n : 0 <= back_off op tps n < 2 ^ 31.
Proof. unfold back_off. destruct op; try lia; apply Z.mod_pos_bound; lia. Qed.

Theorem retry_not_before c t0 w h m : waits (t0 + w) m -> 0 <= w < 2 ^ 31 -> during t0 (t0 + w) h ->
  m_state (run c h m) = ST_WAIT_TX /\ forallb no_tx (new_out m (run c h m)) = true /\
  forall e n, e_now e = u32 n -> 0 <= n - (t0 + w) < 2 ^ 31 - 1 ->
    m_state (MAC_process c e (run c h m)) = ST_START_RADIO_FOR_TX /\ In (OMode MODE_TX) (new_out (run c h m) (MAC_process c e (run c h m))).
Proof.
  intros W R F. destruct (waits_until c t0 (t0 + w) h m W ltac:(lia) F) as [H1 H2]. split; [apply (wt_state _ _ H1)|]. split; [exact H2|].
  intros e n N D. destruct (waits_over c (t0 + w) n e _ H1 N D) as (A & _ & B). auto.
Qed.

Theorem back_off_seconds tps n : 0 < tps -> 0 <= n -> tps * 2 ^ n < 2 ^ 31 -> back_off OP_DATA_CONFIRMED tps n = tps * 2 ^ n.
Proof. intros P N L. unfold back_off. apply Z.mod_small. split; [|exact L]. assert (0 < 2 ^ n) by (apply Z.pow_pos_nonneg; lia). nia. Qed.

Theorem back_off_always tps n : 0 < tps <= 131071 -> 1 <= n <= 14 -> back_off OP_DATA_CONFIRMED tps n = tps * 2 ^ n.
Proof.
  intros P N. apply back_off_seconds; [lia|lia|]. assert (2 ^ n <= 2 ^ 14) by (apply Z.pow_le_mono_r; lia). change (2 ^ 14) with 16384 in *. change (2 ^ 31) with 2147483648. nia.
Qed.
