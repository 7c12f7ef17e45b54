(* The second receive window. *)
From Verif Require Import Lib FrameM CommandsM RegionM RadioM SmM MacStateM MacTac MacUtilM OpsM MacCmdM MacProcM MacApiM MacRw CoreP CaseP RxP SpecHist SpecTime HistP EndP TxP TimeP StuckP.

Definition ticking (D : Z) (m : mac) (i : nat) : Prop := get_timer m i = mkTimer (clock D) true.

Lemma check_due e i D T m : ticking D m i -> e_now e = clock T -> D <= T < D + 2 ^ 31 - 1 ->
  exists lag, timerCheck e i m = (set_timer i (mkTimer (clock D) false) m, Some lag) /\ 0 <= lag <= T - D.
Proof.
  intros G N R. pose proof (timer_check D T i e m G N ltac:(lia)) as H. unfold ticking in G. unfold timerCheck in *. cbv zeta in *. rewrite G in *. cbn [tm_armed tm_time] in *.
  destruct (_ <? INT32_MAX); cbn [snd] in H; [|lia]. eexists. split; [reflexivity|].
  assert (0 <= timerDelta (clock D) (e_now e)) by (unfold timerDelta; destruct (_ <=? _) eqn:E; [lia|apply u32_range]).
  destruct (wraps D T); lia.
Qed.
Lemma check_early e i D T m : ticking D m i -> e_now e = clock T -> D - 2 ^ 31 < T < D -> timerCheck e i m = (m, None).
Proof.
  intros G N R. pose proof (timer_check D T i e m G N ltac:(lia)) as H. unfold ticking in G. unfold timerCheck in *. cbv zeta in *. rewrite G in *. cbn [tm_armed tm_time] in *.
  destruct (_ <? INT32_MAX); cbn [snd] in H; [lia|reflexivity].
Qed.

(* timer A idle or not due yet *)
Definition not_due (T : Z) (m : mac) (i : nat) : Prop := armed i m = false \/ exists D, ticking D m i /\ D - 2 ^ 31 < T < D.
Lemma check_not_due e i T m : not_due T m i -> e_now e = clock T -> timerCheck e i m = (m, None).
Proof. intros [A|(D & G & R)] N; [now apply check_off|eapply check_early; eauto]. Qed.

Lemma ticking_timers D m m' i : m_timers m' = m_timers m -> ticking D m i -> ticking D m' i.
Proof. unfold ticking, get_timer. now intros ->. Qed.
Lemma not_due_timers T m m' i : m_timers m' = m_timers m -> not_due T m i -> not_due T m' i.
Proof. intros E [A|(D & G & R)]; [left; rewrite (armed_timers _ _ _ E); exact A|right; exists D; split; [eapply ticking_timers; eauto|exact R]]. Qed.

(* timer B due, nothing else to do *)
Lemma bands_symbols e m : m_rx2_symbols (fst (processBands e m)) = m_rx2_symbols m.
Proof.
  unfold processBands. destruct (mt_parked _); [auto|]. destruct (elapsed _ _). cbv zeta. destruct (_ && _); auto.
Qed.

Lemma process_B c e D T m : inputPending m = false -> not_due T m WAITA -> ticking D m WAITB -> e_now e = clock T ->
  D <= T < D + 2 ^ 31 - 1 ->
  exists m2 lag, quiet m m2 /\ (m_inputs m2 = m_inputs m /\ m_rx2_symbols m2 = m_rx2_symbols m) /\
    m_timers m2 = upd (m_timers m) WAITB (mkTimer (clock D) false) /\ 0 <= lag <= T - D /\
    MAC_process c e m = setNextBandEvent e (dispatch c e SME_TIMER_B lag m2).
Proof.
  intros I A G N R. unfold MAC_process. pose proof (bands_symbols e m) as Y1. destruct (bands_fields e m) as (T1 & _ & _ & _). destruct (bands_inputs e m) as [I1 _].
  pose proof (processBands_quiet e m) as Q1. cbv zeta in *. destruct (processBands e m) as [m1 rd]. cbn [fst] in *.
  unfold next_event, inputCheck. rewrite I1. unfold inputPending in I. rewrite I.
  rewrite (check_not_due e WAITA T m1); [|eapply not_due_timers; eauto|exact N].
  pose proof (timerCheck_quiet e WAITB m1) as Q2.
  destruct (check_due e WAITB D T m1) as (lag & E & HL); [eapply ticking_timers; eauto|exact N|exact R|]. rewrite E in *. cbn [fst] in Q2.
  eexists _, lag. split; [eapply quiet_trans; [exact Q1|exact Q2]|]. split; [split; [exact I1|exact Y1]|]. split; [|split; [exact HL|reflexivity]].
  unfold set_timer. ms. rewrite T1. reflexivity.
Qed.

(* an interrupt *)
Lemma process_I c e m : inputPending m = true ->
  exists m2 lag, quiet m m2 /\ m_inputs m2 = mkInput false false (in_time (m_inputs m)) /\ m_timers m2 = m_timers m /\
    MAC_process c e m = setNextBandEvent e (dispatch c e SME_INTERRUPT lag m2).
Proof.
  intros I. unfold MAC_process. destruct (bands_fields e m) as (T1 & _ & _ & _). destruct (bands_inputs e m) as [I1 _].
  pose proof (processBands_quiet e m) as Q1. cbv zeta in *. destruct (processBands e m) as [m1 rd]. cbn [fst] in *.
  unfold next_event. pose proof (inputCheck_quiet e m1) as Q2. unfold inputCheck in *. rewrite I1 in *. unfold inputPending in I. rewrite I in *. cbn [fst] in Q2.
  eexists _, _. split; [eapply quiet_trans; [exact Q1|exact Q2]|]. split; [reflexivity|]. split; [exact T1|reflexivity].
Qed.

(* the first window swallows the timer of the second *)
Theorem window_lost c e1 t e2 D T m : m_state m = ST_RX1 -> m_inputs m = mkInput true false (in_time (m_inputs m)) ->
  not_due T m WAITA -> ticking D m WAITB -> (WAITB < length (m_timers m))%nat ->
  e_now e1 = clock T -> D <= T < D + 2 ^ 31 - 1 -> e_st_rx e2 = false -> e_st_timeout e2 = true ->
  let m' := run c [(e1, C_process); (e2, C_radioEvent t); (e2, C_process)] m in
  dead m' /\ m_state m' = ST_WAIT_RX2 /\ m_op m' = m_op m.
Proof.
  intros S I A G L N R X1 X2. cbv zeta. cbn [run step fst].
  assert (inputPending m = false) as IP by (unfold inputPending; rewrite I; reflexivity).
  destruct (process_B c e1 D T m IP A G N R) as (m2 & lag & Q & [I2 Y2] & T2 & _ & ->). destruct (quiet_tps _ _ Q) as (_ & O2 & S2).
  assert (dispatch c e1 SME_TIMER_B lag m2 = m2) as -> by (unfold dispatch; rewrite S2, S; reflexivity).
  set (m3 := setNextBandEvent e1 m2). destruct (band_event_state e1 m2) as (S3 & O3 & _). destruct (band_event_inputs e1 m2) as (I3 & _ & _).
  assert (armed WAITB m3 = false) as B3.
  { unfold m3. rewrite band_timer_armed by discriminate. unfold armed, get_timer. rewrite T2, nth_upd, Nat.eqb_refl.
    destruct (Nat.ltb_spec WAITB (length (m_timers m))); [reflexivity|lia]. }
  fold m3 in S3, O3, I3. clearbody m3.
  assert (inputSignal t m3 = set_m_inputs (mkInput true true t) m3) as -> by (unfold inputSignal; rewrite I3, I2, I; reflexivity).
  set (m4 := set_m_inputs (mkInput true true t) m3).
  destruct (process_I c e2 m4) as (m5 & lag5 & Q5 & _ & T5 & ->); [reflexivity|]. destruct (quiet_tps _ _ Q5) as (_ & O5 & S5).
  assert (m_state m5 = ST_RX1) as SS by (rewrite S5; unfold m4; ms; congruence).
  assert (armed WAITB m5 = false) as B5 by (rewrite (armed_timers _ _ _ T5); exact B3).
  assert (dispatch c e2 SME_INTERRUPT lag5 m5 = set_m_state ST_WAIT_RX2 (timerClear WAITA (emit (OMode MODE_HOLD) m5))) as ->.
  { unfold dispatch. rewrite SS. unfold processRX. rewrite X1, X2. unfold rx_timeout. rewrite SS. reflexivity. }
  set (m6 := set_m_state _ _). destruct (band_event_state e2 m6) as (S7 & O7 & _).
  assert (m_state m6 = ST_WAIT_RX2) as S6 by reflexivity.
  assert (m_op m6 = m_op m) as O6 by (change (m_op m5 = m_op m); rewrite O5; change (m_op m3 = m_op m); congruence).
  split; [|rewrite S7, O7; auto]. split; [right; congruence|]. rewrite !band_timer_armed by discriminate.
  assert (m_timers m6 = m_timers (timerClear WAITA m5)) as T6 by reflexivity.
  rewrite !(armed_timers _ _ _ T6), !clear_armed. auto.
Qed.

Lemma wait_range lag x : 0 <= lag -> 0 <= x -> 0 <= (if lag >? x then 0 else x - lag) <= x.
Proof. intros. destruct (lag >? x) eqn:E; lia. Qed.

(* otherwise the second window opens when its timer is due *)
Theorem window_opens c e1 e2 D T1 T2 m : m_state m = ST_WAIT_RX2 -> inputPending m = false ->
  armed WAITA m = false -> ticking D m WAITB -> (WAITB < length (m_timers m))%nat ->
  e_now e1 = clock T1 -> e_now e2 = clock T2 -> D <= T1 < D + 2 ^ 31 - 1 ->
  D + msToTicks m (c_xtal c) <= T2 < D + 2 ^ 31 - 1 -> msToTicks m (c_xtal c) < 2 ^ 31 ->
  let m' := run c [(e1, C_process); (e2, C_process)] m in
  let r := s_region (m_ctx m) in let rate := s_rx2DataRate (m_ctx m) in
  m_state m' = ST_RX2 /\ exists l, m_log m' = m_log m ++ l /\
    In (OReceive (s_rx2Freq (m_ctx m)) (rate_bw r rate) (rate_sf r rate) (m_rx2_symbols m) (u8 (rate_mtu r rate + Frame_phyOverhead))) l.
Proof.
  intros S I A G L N1 N2 R1 R2 X. cbv zeta. cbn [run step fst].
  destruct (process_B c e1 D T1 m I (or_introl A) G N1 R1) as (m2 & lag & Q & [I2 Y2] & TT & HL & ->). destruct (quiet_tps _ _ Q) as (P2 & O2 & S2).
  assert (m_state m2 = ST_WAIT_RX2) as S2' by congruence.
  assert (m_ctx m2 = m_ctx m) as C2 by (destruct Q as [[C _] _]; apply core_fields in C; apply C).
  set (w := if lag >? msToTicks m2 (c_xtal c) then 0 else msToTicks m2 (c_xtal c) - lag).
  assert (dispatch c e1 SME_TIMER_B lag m2 = timerAppend WAITB w (emit (OMode MODE_RX) (set_m_state ST_START_RADIO_FOR_RX2 m2))) as ->.
  { unfold dispatch. rewrite S2'. unfold processWait. rewrite S2'. reflexivity. }
  assert (msToTicks m2 (c_xtal c) = msToTicks m (c_xtal c)) as M2 by (unfold msToTicks; rewrite P2; reflexivity).
  set (m3 := timerAppend _ _ _).
  assert (0 <= msToTicks m (c_xtal c)) as M0 by (unfold msToTicks; apply u32_range).
  assert (0 <= w <= msToTicks m (c_xtal c)) as W by (unfold w; rewrite M2; apply wait_range; [lia|exact M0]).
  assert (ticking (D + w) m3 WAITB) as G3.
  { unfold m3, ticking, timerAppend, set_timer, get_timer, emit. ms. rewrite nth_upd, Nat.eqb_refl, TT, upd_length.
    destruct (Nat.ltb_spec WAITB (length (m_timers m))); [|lia]. cbn [andb]. rewrite nth_upd, Nat.eqb_refl.
    destruct (Nat.ltb_spec WAITB (length (m_timers m))); [|lia]. cbn [andb tm_time]. f_equal.
    unfold clock, mask31, u32. change (2 ^ 32) with 4294967296 in *. change (2 ^ 31) with 2147483648 in *. lia. }
  assert (armed WAITA m3 = false) as A3.
  { unfold m3, armed, timerAppend, set_timer, get_timer, emit. ms. rewrite nth_upd. change (WAITA =? WAITB)%nat with false. cbn [andb].
    rewrite TT, nth_upd. change (WAITA =? WAITB)%nat with false. cbn [andb]. exact A. }
  assert (m_state m3 = ST_START_RADIO_FOR_RX2 /\ inputPending m3 = false /\ m_ctx m3 = m_ctx m /\ m_rx2_symbols m3 = m_rx2_symbols m /\
    m_log m3 = m_log m2 ++ [OMode MODE_RX]) as (S3 & I3 & C3 & Y3 & L3).
  { split; [reflexivity|]. split; [change (inputPending m2 = false); unfold inputPending; rewrite I2; exact I|]. split; [exact C2|]. split; [exact Y2|reflexivity]. }
  assert (length (m_timers m3) = length (m_timers m)) as LT by (unfold m3, timerAppend, set_timer; ms; rewrite upd_length; unfold emit; ms; rewrite TT, upd_length; reflexivity).
  clearbody m3. clear TT.
  set (m4 := setNextBandEvent e1 m3). destruct (band_event_state e1 m3) as (S4 & _ & L4). destruct (band_event_inputs e1 m3) as (I4 & _ & LT4).
  assert (armed WAITA m4 = false) as A4 by (unfold m4; rewrite band_timer_armed by discriminate; exact A3).
  assert (ticking (D + w) m4 WAITB) as G4 by (unfold ticking, m4; rewrite band_event_timers by discriminate; exact G3).
  assert (m_ctx m4 = m_ctx m /\ m_rx2_symbols m4 = m_rx2_symbols m) as [C4 Y4]
    by (unfold m4, setNextBandEvent; cbv zeta; destruct (_ <? _); split; assumption).
  fold m4 in S4, L4, I4, LT4. clearbody m4.
  assert (inputPending m4 = false) as IP4 by (unfold inputPending in *; rewrite I4; exact I3).
  destruct (process_B c e2 (D + w) T2 m4 IP4 (or_introl A4) G4 N2 ltac:(lia)) as (m5 & lag5 & Q5 & [I5 Y5] & TT5 & _ & ->).
  destruct (quiet_tps _ _ Q5) as (P5 & O5 & S5).
  assert (m_state m5 = ST_START_RADIO_FOR_RX2) as S5' by congruence.
  assert (m_ctx m5 = m_ctx m) as C5 by (destruct Q5 as [[C _] _]; apply core_fields in C; rewrite <- C4; apply C).
  destruct (quiet_log _ _ Q5) as (l5 & L5 & _). destruct (quiet_log _ _ Q) as (l2 & L2 & _).
  set (m6 := dispatch c e2 SME_TIMER_B lag5 m5). destruct (band_event_state e2 m6) as (S7 & _ & L7). rewrite S7, L7.
  unfold m6, dispatch. rewrite S5'. unfold processStartRadioForRX2. cbv zeta. split; [reflexivity|].
  exists (l2 ++ [OMode MODE_RX] ++ l5 ++ [OReceive (s_rx2Freq (m_ctx m)) (rate_bw (s_region (m_ctx m)) (s_rx2DataRate (m_ctx m)))
    (rate_sf (s_region (m_ctx m)) (s_rx2DataRate (m_ctx m))) (m_rx2_symbols m) (u8 (rate_mtu (s_region (m_ctx m)) (s_rx2DataRate (m_ctx m)) + Frame_phyOverhead))]).
  split; [|apply in_or_app; right; apply in_or_app; right; apply in_or_app; right; left; reflexivity].
  m_unf. unfold emit. ms. rewrite C5, Y5, Y4, L5, L4, L3, L2, <- !app_assoc. reflexivity.
Qed.
