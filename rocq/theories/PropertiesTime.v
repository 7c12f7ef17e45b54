(* C20, C21, C22, C42: timers and the off-time clock. *)
From Verif Require Import Lib FrameM RegionM MacStateM MacUtilM MacProcM MacApiM Scenario SpecTime.
From Verif Require TimeP.

(* --- C20 ------------------------------------------------------------------------- *)

(* real times T0 (set) and T (check); the clock shows them modulo 2^32 *)
Theorem C20_timer_deadline : forall T0 e0 i t m,
  (i < length (m_timers m))%nat -> 0 <= t < 2 ^ 31 -> e_now e0 = clock T0 ->
  get_timer (timerSet e0 i t m) i = mkTimer (clock (T0 + t)) true.
Proof. exact TimeP.timer_deadline. Qed.
Print Assumptions C20_timer_deadline.

Theorem C20_timer_fires_iff_due : forall D T i e m,
  get_timer m i = mkTimer (clock D) true -> e_now e = clock T ->
  - 2 ^ 31 < T - D < 2 ^ 31 - 1 ->
  match snd (timerCheck e i m) with
  | Some lag => D <= T /\ lag = T - D - (if wraps D T then 1 else 0)
  | None => T < D
  end.
Proof. exact TimeP.timer_check. Qed.
Print Assumptions C20_timer_fires_iff_due.

(* set 5 ticks before the clock wraps, for 10 ticks *)
Example C20_example :
  let m := timerSet (at_t (2 ^ 32 - 5)) WAITA 10 (MAC_init (toy_cfg L2_1_0_4) EU_863_870 (arg0 None) (at_t 0)) in
  snd (timerCheck (at_t 4) WAITA m) = None /\ snd (timerCheck (at_t 5) WAITA m) = Some 0 /\
  snd (timerCheck (at_t 12) WAITA m) = Some 7.
Proof. vm_compute. auto. Qed.

(* a check 2^31 - 1 ticks late is taken for an early one *)
Theorem C20_late_limit_refuted :
  exists D T i e m, get_timer m i = mkTimer (clock D) true /\ e_now e = clock T /\
    D <= T < D + 2 ^ 31 /\ snd (timerCheck e i m) = None.
Proof.
  exists 0, (2 ^ 31 - 1), WAITA, (at_t (2 ^ 31 - 1)),
    (timerSet (at_t 0) WAITA 0 (MAC_init (toy_cfg L2_1_0_4) EU_863_870 (arg0 None) (at_t 0))).
  vm_compute. repeat split; congruence.
Qed.
Print Assumptions C20_late_limit_refuted.

(* --- C21 ------------------------------------------------------------------------- *)

(* [tie]: a timer exactly half a period away is neither due nor ahead *)
Theorem C21_ticks_until_next_event : forall e m,
  0 <= e_now e < 2 ^ 32 -> Forall timer_ok (m_timers m) ->
  existsb (tie (e_now e)) (m_timers m) = false ->
  let r := MAC_ticksUntilNextEvent e m in
  let pending := inputPending m || existsb (due (e_now e)) (m_timers m) in
  (pending = true -> r = 0) /\
  (pending = false ->
     (existsb tm_armed (m_timers m) = false -> r = UINT32_MAX) /\
     (forall t, In t (m_timers m) -> tm_armed t = true -> r <= ahead (e_now e) (tm_time t)) /\
     (existsb tm_armed (m_timers m) = true ->
        exists x, earliest (e_now e) (m_timers m) x /\ x - 1 <= r <= x)).
Proof. exact TimeP.until_spec. Qed.
Print Assumptions C21_ticks_until_next_event.

Example C21_example :
  let m := timerSet (at_t 100) WAITA 50 (MAC_init (toy_cfg L2_1_0_4) EU_863_870 (arg0 None) (at_t 0)) in
  let m := timerSet (at_t 100) WAITB 20 m in
  MAC_ticksUntilNextEvent (at_t 100) m = 20 /\ MAC_ticksUntilNextEvent (at_t 121) m = 0 /\
  existsb (tie 100) (m_timers m) = false.
Proof. vm_compute. auto. Qed.

(* 0 although nothing is due: one tick before a deadline just past the wrap *)
Theorem C21_zero_when_nothing_due_refuted :
  exists e m, 0 <= e_now e < 2 ^ 32 /\ Forall timer_ok (m_timers m) /\
    existsb (tie (e_now e)) (m_timers m) = false /\
    MAC_ticksUntilNextEvent e m = 0 /\ inputPending m = false /\ existsb (due (e_now e)) (m_timers m) = false.
Proof.
  exists (at_t (2 ^ 32 - 1)),
    (timerSet (at_t (2 ^ 32 - 1)) WAITA 1 (MAC_init (toy_cfg L2_1_0_4) EU_863_870 (arg0 None) (at_t 0))).
  assert (forall l, forallb (fun t => (0 <=? tm_time t) && (tm_time t <? 4294967296)) l = true -> Forall timer_ok l) as H.
  { induction l as [|t l IH]; [constructor|]. cbn [forallb]. intros H. apply andb_prop in H. destruct H as [H1 H2].
    constructor; [unfold timer_ok; lia|now apply IH]. }
  split; [cbn; lia|]. split; [apply H; vm_compute; reflexivity|]. vm_compute. auto.
Qed.
Print Assumptions C21_zero_when_nothing_due_refuted.

(* --- C22 ------------------------------------------------------------------------- *)

(* updates at real times Ts while the off-time clock is running: every counter
   is drained by [total], the elapsed ticks less one for each time the clock
   wrapped, in 1/256 s and rounded down *)
Theorem C22_off_time_clock_partial : forall Ts E m T0,
  tps_ok (m_tps m) -> bands_ok m -> mt_parked (m_time m) = false ->
  mt_ticks (m_time m) = clock T0 -> 0 <= mt_remainder (m_time m) < m_tps m ->
  readings T0 Ts -> (forall T, e_now (E T) = clock T) ->
  let m' := updates Ts E m in
  let Tn := last Ts T0 in
  exists total rem, 0 <= total /\ 0 <= rem < m_tps m /\
    total * m_tps m + rem = 256 * (Tn - T0 - wrap_count T0 Ts) + mt_remainder (m_time m) /\
    m_time m' = mkTime (clock Tn) rem false /\
    m_band m' = map (fun b => drain b total) (m_band m) /\ m_day m' = drain (m_day m) total.
Proof. exact TimeP.updates_spec. Qed.
Print Assumptions C22_off_time_clock_partial.

(* 1000 ticks per second, a counter of 256 units, readings every 300 ticks *)
Definition C22_start (t : Z) : mac :=
  set_m_time (mkTime t 0 false) (band_set BAND_GLOBAL 256 (MAC_init (toy_cfg L2_1_0_4) EU_863_870 (arg0 None) (at_t 0))).

Example C22_example :
  tps_ok (m_tps (C22_start 0)) /\ readings 0 [300; 600; 900; 999; 1000] /\
  band_global (updates [300; 600; 900] at_t (C22_start 0)) = 26 /\
  band_global (updates [300; 600; 900; 999] at_t (C22_start 0)) = 1 /\
  band_global (updates [300; 600; 900; 999; 1000] at_t (C22_start 0)) = 0.
Proof. vm_compute. repeat split; congruence. Qed.

(* the same second across a wrap of the clock is not enough *)
Theorem C22_wrap_loses_a_tick_refuted :
  exists m T0 T, tps_ok (m_tps m) /\ mt_parked (m_time m) = false /\ mt_ticks (m_time m) = clock T0 /\
    mt_remainder (m_time m) = 0 /\ T = T0 + m_tps m /\
    band_global m = 256 /\ band_global (fst (processBands (at_t (clock T)) m)) = 1.
Proof.
  exists (C22_start (2 ^ 32 - 500)), (2 ^ 32 - 500), (2 ^ 32 + 500). vm_compute. repeat split; congruence.
Qed.
Print Assumptions C22_wrap_loses_a_tick_refuted.

(* --- C42 ------------------------------------------------------------------------- *)

(* a successful join request starts a 24 hour count down *)
Theorem C42_join_starts_day : forall c e m m',
  MAC_otaa c e m = (m', STATUS_OK) -> m_day m' = 24 * 3600 * 256.
Proof. exact TimeP.otaa_day. Qed.
Print Assumptions C42_join_starts_day.

(* and while the off-time clock runs, the tier is the one of the time elapsed
   since: [units] is that time in 1/256 s *)
Theorem C42_tier_partial : forall Ts E m T0, m_day m = 24 * 3600 * 256 ->
  tps_ok (m_tps m) -> bands_ok m -> mt_parked (m_time m) = false ->
  mt_ticks (m_time m) = clock T0 -> 0 <= mt_remainder (m_time m) < m_tps m ->
  readings T0 Ts -> (forall T, e_now (E T) = clock T) ->
  exists units rem, 0 <= units /\ 0 <= rem < m_tps m /\
    units * m_tps m + rem = 256 * (last Ts T0 - T0 - wrap_count T0 Ts) + mt_remainder (m_time m) /\
    getOTAAOffTime (updates Ts E m) = join_tier units.
Proof. exact TimeP.tier_after. Qed.
Print Assumptions C42_tier_partial.

(* the tier is the factor by which the air time of a join request is charged *)
Theorem C42_join_off_time : forall m, m_op m = OP_JOINING -> length (m_band m) = 6%nat ->
  0 <= band_global m < 2 ^ 32 -> 0 <= tx_airTime (m_tx m) < 400000 ->
  band_global (registerTime m) =
  Z.min UINT32_MAX (band_global m + tx_airTime (m_tx m) * getOTAAOffTime m).
Proof. exact TimeP.register_join. Qed.
Print Assumptions C42_join_off_time.

(* the first join request, sent T ticks after start *)
Definition first_join (T : Z) : mac :=
  run (toy_cfg L2_1_0_4)
    (h_boot ++ [(at_t T, C_otaa); P T; P T; P T; P (T + 25);
                (tx_at (T + 1500), C_radioEvent (T + 1500)); (tx_at (T + 1500), C_process)])
    (MAC_init (toy_cfg L2_1_0_4) EU_863_870 (arg0 None) (at_t 0)).

Example C42_example : band_global (first_join 100) = 100 * tx_airTime (m_tx (first_join 100)) /\
  tx_airTime (m_tx (first_join 100)) = 15.
Proof. vm_compute. auto. Qed.

(* idle time before the first request counts as if the device had been trying
   to join: after 12 hours the first request is charged at the 24 hour tier *)
Theorem C42_idle_time_counts_refuted :
  exists T, band_global (first_join T) = 10000 * tx_airTime (m_tx (first_join T)) /\
    0 < tx_airTime (m_tx (first_join T)).
Proof. exists 43200000. vm_compute. auto. Qed.
Print Assumptions C42_idle_time_counts_refuted.
