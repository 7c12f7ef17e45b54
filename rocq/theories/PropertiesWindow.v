(* Final statements: when the receive windows open (C35, C51, C52, C53). *)
From Verif Require Import Lib FrameM CommandsM RegionM RadioM MacStateM MacTac MacUtilM MacProcM MacApiM Scenario
  SpecTime SpecHist SpecWindow StuckP WindowP OpenP.

Definition w_cfg : cfg := toy_cfg L2_1_0_4.
Definition w_init : mac := MAC_init w_cfg EU_863_870 (arg0 None) (at_t 0).
(* a join request is on the air; its end is signalled at 1500 *)
Definition w_end : mac := run w_cfg (h_boot ++ h_join_tx 30 ++ [(at_t 1500, C_radioEvent 1500)]) w_init.
Lemma served m e T0 T : inputPending m = true -> m_state m = ST_TX -> e_st_tx e = true -> in_time (m_inputs m) = clock T0 -> e_now e = clock T ->
  T0 <= T < T0 + 2 ^ 29 -> end_served m e T0 T.
Proof. unfold end_served. auto 10. Qed.
Lemma w_end_served T : 1500 <= T < 4000000 -> end_served w_end (tx_at T) 1500 T.
Proof.
  intros R. apply served; [vm_compute; reflexivity|vm_compute; reflexivity|reflexivity|vm_compute; reflexivity| |change (2 ^ 29) with 536870912; lia].
  change (T = clock T). unfold clock. change (2 ^ 32) with 4294967296. lia.
Qed.
Lemma w_end_sane : sane w_cfg w_end.
Proof. vm_compute. repeat split; congruence. Qed.
Lemma w_end_computable : computable w_end.
Proof. vm_compute. auto. Qed.

(* --- C35 ------------------------------------------------------------------------- *)

(* The timers for the two windows, for every latency up to 2^29 ticks.  A
   window the MAC is too late for is left out (the first) or started at once
   (the second). *)
Theorem C35_windows_partial c e m T0 T : end_served m e T0 T -> sane c m -> computable m -> length (m_timers m) = 3%nat ->
  let A := first_timer c m (seen_end T0 T) in let B := second_timer c m (seen_end T0 T) in
  let m' := fst (step c e C_process m) in
  (T <= A -> T <= B -> m_state m' = ST_WAIT_RX1 /\ ticking A m' WAITA /\ ticking B m' WAITB) /\
  (A < T -> m_state m' = ST_WAIT_RX2 /\ tm_armed (get_timer m' WAITA) = false) /\
  (A < T -> T <= B -> ticking B m' WAITB) /\
  (B < T -> m_state m' = ST_WAIT_RX2 /\ tm_armed (get_timer m' WAITA) = false /\ ticking T m' WAITB) /\
  m_rx1_symbols m' = listen_for m (first_delay m) (rx1_rate m) /\
  m_rx2_symbols m' = listen_for m (first_delay m + 1) (rx2_rate m).
Proof. exact (windows_planned c e m T0 T). Qed.
(* served at once, ten ticks late, too late for the first window, and too late
   for both *)
Example C35_windows_ex : end_served w_end (tx_at 1510) 1500 1510 /\ sane w_cfg w_end /\ computable w_end /\ length (m_timers w_end) = 3%nat /\
  first_timer w_cfg w_end 1500 = 6474 /\ second_timer w_cfg w_end 1500 = 7427 /\
  get_timer (fst (step w_cfg (tx_at 1510) C_process w_end)) WAITA = mkTimer 6474 true /\
  get_timer (fst (step w_cfg (tx_at 7000) C_process w_end)) WAITB = mkTimer 7427 true /\
  get_timer (fst (step w_cfg (tx_at 8000) C_process w_end)) WAITB = mkTimer 8000 true.
Proof. split; [apply w_end_served; lia|]. split; [exact w_end_sane|]. split; [exact w_end_computable|]. vm_compute. repeat split. Qed.
Print Assumptions C35_windows_partial.

(* The middle of the margins, which is where a window is meant to begin, comes
   exactly one second later for the second window. *)
Theorem C35_one_second_apart c m Te :
  second_timer c m Te + lead_at m (first_delay m + 1) (rx2_rate m) = first_timer c m Te + lead_at m (first_delay m) (rx1_rate m) + m_tps m.
Proof. exact (one_second_apart c m Te). Qed.
Example C35_one_second_apart_ex : second_timer w_cfg w_end 1500 + 48 = first_timer w_cfg w_end 1500 + 1 + 1000.
Proof. vm_compute. reflexivity. Qed.
Print Assumptions C35_one_second_apart.

(* The timers themselves are not one second apart if the margins differ. *)
Theorem C35_timers_one_second_refuted : exists e T0 T, end_served w_end e T0 T /\
  exists A B, let m' := fst (step w_cfg e C_process w_end) in
  get_timer m' WAITA = mkTimer A true /\ get_timer m' WAITB = mkTimer B true /\ B <> A + m_tps w_end.
Proof.
  exists (tx_at 1500), 1500, 1500. split; [apply w_end_served; lia|]. exists 6474, 7427. vm_compute. repeat split. discriminate.
Qed.
Print Assumptions C35_timers_one_second_refuted.

(* If the tick counter wraps before the end is served, both timers are one tick
   late. *)
Definition w_wrap : mac := run w_cfg ([P 4294967000; P 4294967010; P 4294967030] ++ h_join_tx 4294967030 ++ [(at_t 4294967290, C_radioEvent 4294967290)])
  (MAC_init w_cfg EU_863_870 (arg0 None) (at_t 4294967000)).
Theorem C35_wrap_refuted : exists e T0 T, end_served w_wrap e T0 T /\ sane w_cfg w_wrap /\ computable w_wrap /\
  exists A, get_timer (fst (step w_cfg e C_process w_wrap)) WAITA = mkTimer A true /\ A = clock (first_timer w_cfg w_wrap T0 + 1).
Proof.
  exists (tx_at 5), 4294967290, 4294967301.
  split; [apply served; [vm_compute; reflexivity|vm_compute; reflexivity|reflexivity|vm_compute; reflexivity|vm_compute; reflexivity|lia]|]. split; [vm_compute; repeat split; congruence|].
  split; [vm_compute; auto|]. eexists. split; vm_compute; reflexivity.
Qed.
Print Assumptions C35_wrap_refuted.

(* --- C51 ------------------------------------------------------------------------- *)

(* When a window timer that was due at D is served, the radio's oscillator is
   started and listening is planned for D plus the start-up time, less the
   time by which the timer was served late, but not before D. *)
Theorem C51_first_window c e D T m : m_state m = ST_WAIT_RX1 -> inputPending m = false -> ticking D m WAITA -> length (m_timers m) = 3%nat ->
  e_now e = clock T -> D <= T < D + 2 ^ 31 - 1 -> 0 <= msToTicks m (c_xtal c) < 2 ^ 31 ->
  let m' := fst (step c e C_process m) in
  m_state m' = ST_START_RADIO_FOR_RX1 /\ inputPending m' = false /\
  ticking (D + Z.max 0 (msToTicks m (c_xtal c) - lateness D T)) m' WAITA.
Proof. exact (fun S I G L => listen_planned c e D T m S I G ltac:(rewrite L; repeat constructor)). Qed.
Theorem C51_second_window c e D T m : m_state m = ST_WAIT_RX2 -> inputPending m = false -> tm_armed (get_timer m WAITA) = false ->
  ticking D m WAITB -> length (m_timers m) = 3%nat ->
  e_now e = clock T -> D <= T < D + 2 ^ 31 - 1 -> 0 <= msToTicks m (c_xtal c) < 2 ^ 31 ->
  let m' := fst (step c e C_process m) in
  m_state m' = ST_START_RADIO_FOR_RX2 /\ inputPending m' = false /\
  ticking (D + Z.max 0 (msToTicks m (c_xtal c) - lateness D T)) m' WAITB.
Proof. exact (fun S I A G L => listen_planned2 c e D T m S I A G ltac:(rewrite L; repeat constructor)). Qed.
Definition w_wait : mac := fst (step w_cfg (tx_at 1510) C_process w_end).
Definition w_wait2 : mac := fst (step w_cfg (tx_at 7000) C_process w_end).
Example C51_windows_ex : m_state w_wait = ST_WAIT_RX1 /\ inputPending w_wait = false /\ ticking 6474 w_wait WAITA /\ length (m_timers w_wait) = 3%nat /\
  msToTicks w_wait (c_xtal w_cfg) = 25 /\ lateness 6474 6479 = 5 /\
  m_state w_wait2 = ST_WAIT_RX2 /\ inputPending w_wait2 = false /\ tm_armed (get_timer w_wait2 WAITA) = false /\ ticking 7427 w_wait2 WAITB.
Proof. vm_compute. repeat split. Qed.
Print Assumptions C51_first_window.
Print Assumptions C51_second_window.

(* So a timer served five ticks late makes the radio listen five ticks early:
   at 6494 instead of 6499. *)
Theorem C51_planned_time_refuted : exists c e m D T, m_state m = ST_WAIT_RX1 /\ inputPending m = false /\ ticking D m WAITA /\ e_now e = clock T /\
  D <= T <= D + msToTicks m (c_xtal c) /\
  exists t, get_timer (fst (step c e C_process m)) WAITA = mkTimer t true /\ t <> clock (D + msToTicks m (c_xtal c)).
Proof.
  exists w_cfg, (at_t 6479), w_wait, 6474, 6479. split; [vm_compute; reflexivity|]. split; [vm_compute; reflexivity|]. split; [vm_compute; reflexivity|].
  split; [reflexivity|]. split; [vm_compute; split; discriminate|]. exists 6494. split; [vm_compute; reflexivity|]. vm_compute. discriminate.
Qed.
Print Assumptions C51_planned_time_refuted.

(* --- C52 ------------------------------------------------------------------------- *)

(* with a delay of 0 the first window is never opened, whatever the latency *)
Theorem C52_no_first_window c e m T0 T : end_served m e T0 T -> sane c m -> computable m -> length (m_timers m) = 3%nat -> first_delay m = 0 ->
  let m' := fst (step c e C_process m) in m_state m' = ST_WAIT_RX2 /\ tm_armed (get_timer m' WAITA) = false.
Proof. exact (no_first_window c e m T0 T). Qed.
(* RXTimingSetupReq with a delay of 0, received after the first data frame;
   the second data frame is sent *)
Definition timing_0 : bytes := [0x60; 0xda; 0x1b; 0x01; 0x26; 0x02; 0; 0; 8; 0; 1; 2; 3; 4].
Definition h_zero : history := h_toy_join ++
  [P 8100; P 3000000; (at_t 3000000, C_data false 1 (Some [1]) None); P 3000000; P 3000025; (tx_at 3001025, C_radioEvent 3001025); (tx_at 3001025, C_process);
   P 3002025; P 3002025] ++ h_rx 3002100 timing_0 ++
  [P 3002100; P 6000000; (at_t 6000000, C_data false 1 (Some [1]) None); P 6000000; P 6000025; (tx_at 6001025, C_radioEvent 6001025)].
Definition w_zero : mac := run w_cfg h_zero w_init.
Lemma w_zero_served : end_served w_zero (tx_at 6001025) 6001025 6001025.
Proof. apply served; [vm_compute; reflexivity|vm_compute; reflexivity|reflexivity|vm_compute; reflexivity|vm_compute; reflexivity|lia]. Qed.
Example C52_no_first_window_ex : end_served w_zero (tx_at 6001025) 6001025 6001025 /\ sane w_cfg w_zero /\ computable w_zero /\ length (m_timers w_zero) = 3%nat /\ first_delay w_zero = 0.
Proof. split; [exact w_zero_served|]. vm_compute. repeat split; congruence. Qed.
Print Assumptions C52_no_first_window.
Theorem C52_one_second_refuted : exists c e m T0, end_served m e T0 T0 /\ m_op m = OP_DATA_UNCONFIRMED /\ s_rx1Delay (m_ctx m) = 0 /\
  m = run c h_zero (MAC_init c EU_863_870 (arg0 None) (at_t 0)) /\
  m_state (fst (step c e C_process m)) = ST_WAIT_RX2.
Proof. exists w_cfg, (tx_at 6001025), w_zero, 6001025. split; [exact w_zero_served|]. split; [vm_compute; reflexivity|]. split; [vm_compute; reflexivity|]. split; [reflexivity|]. vm_compute. reflexivity. Qed.
Print Assumptions C52_one_second_refuted.

(* --- C53 ------------------------------------------------------------------------- *)

(* which parameters make the symbol period, by which extraSymbols divides, zero *)
Theorem C53_zero_iff tps sf b : 7 <= sf <= 12 -> 1000 <= tps <= 1000000 -> (symbolPeriod tps sf b = 0 <-> 2 ^ sf * tps < hz b).
Proof. exact (symbol_zero tps sf b). Qed.
Example C53_zero_ex : symbolPeriod 1000 7 BW_250 = 0 /\ symbolPeriod 1000 7 BW_125 = 1 /\ symbolPeriod 3906 7 BW_500 = 0.
Proof. vm_compute. auto. Qed.
Print Assumptions C53_zero_iff.
(* none, at tick rates from 3907 *)
Theorem C53_no_division_by_zero_partial m : 3907 <= m_tps m <= 1000000 -> computable m.
Proof. exact (always_computable m). Qed.
Example C53_no_division_by_zero_ex : 3907 <= m_tps (set_m_tps 32768 w_end) <= 1000000.
Proof. vm_compute. split; discriminate. Qed.
Print Assumptions C53_no_division_by_zero_partial.
(* at 1000 ticks per second, which LDL_MAC_init allows, a US 902-928 device at
   rate 3 divides by zero when its frame has been sent *)
Definition us_fast : session := set_s_rate 3 (set_s_joined true (m_ctx (MAC_init w_cfg US_902_928 (arg0 None) (at_t 0)))).
Definition h_fast : history := [(at_t 0, C_data false 1 (Some [1;2]) None)] ++ h_boot ++ [P 30; P 55; (tx_at 100, C_radioEvent 100)].
Theorem C53_no_division_by_zero_refuted : exists c r s e T0 h,
  let m := run c h (MAC_init c r (arg0 (Some s)) (at_t 0)) in
  s_rate s = 3 /\ s_region s = r /\ 1000 <= m_tps m <= 1000000 /\ sane c m /\ end_served m e T0 T0 /\
  symbolPeriod (m_tps m) (rate_sf r (rx1_rate m)) (rate_bw r (rx1_rate m)) = 0.
Proof.
  exists w_cfg, US_902_928, us_fast, (tx_at 100), 100, h_fast. cbv zeta. split; [vm_compute; reflexivity|]. split; [vm_compute; reflexivity|].
  split; [vm_compute; split; discriminate|]. split; [vm_compute; repeat split; congruence|].
  split; [apply served; [vm_compute; reflexivity|vm_compute; reflexivity|reflexivity|vm_compute; reflexivity|vm_compute; reflexivity|lia]|]. vm_compute. reflexivity.
Qed.
Print Assumptions C53_no_division_by_zero_refuted.
