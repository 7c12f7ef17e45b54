(* When the receive windows open (C35). *)
From Verif Require Import Lib FrameM CommandsM RegionM RadioM SmM MacStateM MacTac MacUtilM OpsM MacCmdM MacProcM MacApiM MacRw
  CoreP CaseP RxP SpecHist SpecTime HistP EndP TxP TimeP StuckP WindowP SpecInput InputP SpecWindow.

Lemma rate_sf_range r rate : 7 <= rate_sf r rate <= 12.
Proof.
  unfold rate_sf, convertRate. destruct r;
  (destruct rate as [|p|p]; [cbn; lia| |cbn; lia]; do 4 (try (destruct p as [p|p|])); cbn; lia).
Qed.

Lemma pow_sf sf : 7 <= sf <= 12 -> 128 <= 2 ^ sf <= 4096.
Proof.
  intros H. assert (sf = 7 \/ sf = 8 \/ sf = 9 \/ sf = 10 \/ sf = 11 \/ sf = 12) as K by lia.
  repeat (destruct K as [K|K]; [rewrite K; cbn; lia|]). rewrite K; cbn; lia.
Qed.
Lemma hz_range b : 125000 <= hz b <= 500000. Proof. destruct b; cbn; lia. Qed.

Lemma symbol_spec tps sf b : 1000 <= tps <= 1000000 -> 7 <= sf <= 12 ->
  symbolPeriod tps sf b = symbol_ticks tps sf b /\ 0 <= symbol_ticks tps sf b <= 32768.
Proof.
  intros T S. apply pow_sf in S. unfold symbolPeriod, symbol_ticks. change (bwToNumber b) with (hz b). pose proof (hz_range b) as H.
  assert (0 <= 2 ^ sf * tps <= 4096 * 1000000) as M by nia.
  assert (u32 (2 ^ sf * tps) = 2 ^ sf * tps) as -> by (unfold u32; apply Z.mod_small; lia).
  split; [reflexivity|]. split; [apply Z.div_pos; lia|]. apply Z.div_le_upper_bound; nia.
Qed.

Lemma symbol_fast tps sf b : 3907 <= tps -> 7 <= sf -> 0 < symbol_ticks tps sf b.
Proof.
  intros T S. unfold symbol_ticks. pose proof (hz_range b). assert (2 ^ 7 <= 2 ^ sf) by (apply Z.pow_le_mono_r; lia).
  change (2 ^ 7) with 128 in *. apply Z.div_str_pos. nia.
Qed.

Lemma ceil_spec x y : 0 <= x -> 0 < y -> x / y + (if x mod y >? 0 then 1 else 0) = ceil_div x y.
Proof.
  intros X Y. unfold ceil_div. pose proof (Z.div_mod x y ltac:(lia)) as D. pose proof (Z.mod_pos_bound x y Y) as M.
  set (q := x / y) in *. set (r := x mod y) in *. destruct (r >? 0) eqn:G.
  - assert (0 < r) by lia. apply (Z.div_unique _ _ _ (r - 1)); lia.
  - assert (r = 0) by lia. apply (Z.div_unique _ _ _ (y - 1)); lia.
Qed.
Lemma ceil_bound x y : 0 <= x -> 0 < y -> 0 <= ceil_div x y /\ x <= ceil_div x y * y < x + y.
Proof.
  intros X Y. unfold ceil_div. pose proof (Z.div_mod (x + y - 1) y ltac:(lia)) as D. pose proof (Z.mod_pos_bound (x + y - 1) y Y) as M.
  split; [apply Z.div_pos; lia|]. nia.
Qed.

Lemma ticks_spec m ms : 1000 <= m_tps m <= 1000000 -> 0 <= ms <= 1000 -> msToTicks m ms = ceil_div (ms * m_tps m) 1000 /\ 0 <= ceil_div (ms * m_tps m) 1000 <= 1000001.
Proof.
  intros T M. unfold msToTicks. cbv zeta. assert (0 <= ms * m_tps m <= 1000 * 1000000) as B by nia.
  assert (u32 (ms * m_tps m) = ms * m_tps m) as -> by (unfold u32; apply Z.mod_small; lia).
  rewrite ceil_spec by lia. pose proof (ceil_bound (ms * m_tps m) 1000 ltac:(lia) ltac:(lia)) as [C1 C2].
  split; [|lia]. unfold u32. apply Z.mod_small. lia.
Qed.

(* symbols and ticks of one window, without wrapping *)
Lemma window_spec m err sf b : 1000 <= m_tps m <= 1000000 -> 7 <= sf <= 12 -> 0 <= err < 2 ^ 30 -> 0 < symbol_ticks (m_tps m) sf b ->
  let x := Z.max 3 (ceil_div err (symbol_ticks (m_tps m) sf b)) in
  window (m_tps m) err sf b = (u16 (5 + u16 x), x * symbol_ticks (m_tps m) sf b / 2) /\
  0 <= x * symbol_ticks (m_tps m) sf b / 2 < 2 ^ 30.
Proof.
  intros T S E P x. destruct (symbol_spec (m_tps m) sf b T S) as [SP SR]. unfold window. cbv zeta. rewrite SP.
  set (sp := symbol_ticks (m_tps m) sf b) in *. clearbody sp. change (2 ^ 30) with 1073741824 in *.
  pose proof (ceil_bound err sp ltac:(lia) P) as [C1 C2].
  assert (extraSymbols err sp = ceil_div err sp) as ->.
  { unfold extraSymbols. rewrite ceil_spec by lia. unfold u32. apply Z.mod_small. nia. }
  assert ((if ceil_div err sp <? 3 then 3 else ceil_div err sp) = x) as -> by (unfold x; destruct (_ <? 3) eqn:L; lia).
  assert (0 <= x * sp < 2147483648) as B by (unfold x; destruct (Z.max_spec 3 (ceil_div err sp)) as [[? ->]|[? ->]]; nia).
  clearbody x. split.
  - f_equal. f_equal. unfold u32. apply Z.mod_small. lia.
  - split; [apply Z.div_pos; lia|]. apply Z.div_lt_upper_bound; lia.
Qed.

Lemma timer_clear_armed i m : (i < length (m_timers m))%nat -> tm_armed (get_timer (timerClear i m) i) = false.
Proof. intros L. unfold timerClear. rewrite get_set by exact L. reflexivity. Qed.
Lemma get_other i j t m : i <> j -> get_timer (set_timer j t m) i = get_timer m i.
Proof. intros N. unfold get_timer, set_timer. mred. rewrite nth_upd. destruct (Nat.eqb_spec i j); [congruence|reflexivity]. Qed.

(* the timers set when the transmission ends, [lag] ticks late *)
Lemma tx_done_timers c e lag m T : sane c m -> 0 < symbol_at m (rx1_rate m) -> 0 < symbol_at m (rx2_rate m) ->
  (WAITB < length (m_timers m))%nat -> e_now e = clock T -> 0 <= lag < 2 ^ 29 ->
  let A := first_timer c m (T - lag) in let B := second_timer c m (T - lag) in
  let m' := tx_done c e lag m in
  (T <= A /\ T <= B -> m_state m' = ST_WAIT_RX1 /\ get_timer m' WAITA = mkTimer (clock A) true /\ get_timer m' WAITB = mkTimer (clock B) true) /\
  (A < T <= B -> m_state m' = ST_WAIT_RX2 /\ tm_armed (get_timer m' WAITA) = false /\ get_timer m' WAITB = mkTimer (clock B) true) /\
  (B < T -> m_state m' = ST_WAIT_RX2 /\ tm_armed (get_timer m' WAITA) = false /\ get_timer m' WAITB = mkTimer (clock T) true) /\
  m_rx1_symbols m' = u16 (5 + u16 (extra_symbols m (first_delay m) (rate_sf (s_region (m_ctx m)) (rx1_rate m)) (rate_bw (s_region (m_ctx m)) (rx1_rate m)))) /\
  m_rx2_symbols m' = u16 (5 + u16 (extra_symbols m (first_delay m + 1) (rate_sf (s_region (m_ctx m)) (rx2_rate m)) (rate_bw (s_region (m_ctx m)) (rx2_rate m)))).
Proof.
  intros SN P1 P2 L N LG A B m'. destruct SN as (T1 & A1 & B1 & E1 & V1 & X1 & W1). change (2 ^ 30) with 1073741824 in *. change (2 ^ 29) with 536870912 in *.
  assert (forall secs, 0 <= secs <= first_delay m + 1 -> 0 <= clock_error m secs < 1073741824) as CE by (intros secs HS; unfold clock_error in *; nia).
  pose proof (window_spec m (clock_error m (first_delay m)) (rate_sf (s_region (m_ctx m)) (rx1_rate m)) (rate_bw (s_region (m_ctx m)) (rx1_rate m)) T1 (rate_sf_range _ _) (CE (first_delay m) ltac:(lia)) P1) as [WA WR1].
  pose proof (window_spec m (clock_error m (first_delay m + 1)) (rate_sf (s_region (m_ctx m)) (rx2_rate m)) (rate_bw (s_region (m_ctx m)) (rx2_rate m)) T1 (rate_sf_range _ _) (CE (first_delay m + 1) ltac:(lia)) P2) as [WB WR2].
  fold (extra_symbols m (first_delay m) (rate_sf (s_region (m_ctx m)) (rx1_rate m)) (rate_bw (s_region (m_ctx m)) (rx1_rate m))) in WA, WR1.
  fold (extra_symbols m (first_delay m + 1) (rate_sf (s_region (m_ctx m)) (rx2_rate m)) (rate_bw (s_region (m_ctx m)) (rx2_rate m))) in WB, WR2.
  fold (lead m (first_delay m) (rate_sf (s_region (m_ctx m)) (rx1_rate m)) (rate_bw (s_region (m_ctx m)) (rx1_rate m))) in WA, WR1.
  fold (lead m (first_delay m + 1) (rate_sf (s_region (m_ctx m)) (rx2_rate m)) (rate_bw (s_region (m_ctx m)) (rx2_rate m))) in WB, WR2.
  fold (lead_at m (first_delay m) (rx1_rate m)) in WA, WR1. fold (lead_at m (first_delay m + 1) (rx2_rate m)) in WB, WR2.
  destruct (ticks_spec m (c_xtal c) T1 X1) as [TK TR].
  assert (0 <= first_delay m * m_tps m <= 255000000) as FT by nia.
  unfold m'. open_def tx_done. cbv zeta.
  change (m_advance (set_m_ticks_at_tx (u32 (e_now e - lag)) (set_m_pendingACK false m))) with (m_advance m).
  change (m_op (set_m_pendingACK false m)) with (m_op m). change (m_tx (set_m_ticks_at_tx (u32 (e_now e - lag)) (set_m_pendingACK false m))) with (m_tx m).
  change (m_a (set_m_ticks_at_tx (u32 (e_now e - lag)) (set_m_pendingACK false m))) with (m_a m).
  change (m_b (set_m_ticks_at_tx (u32 (e_now e - lag)) (set_m_pendingACK false m))) with (m_b m).
  change (msToTicks (set_m_ticks_at_tx (u32 (e_now e - lag)) (set_m_pendingACK false m)) (c_xtal c)) with (msToTicks m (c_xtal c)).
  change (match m_op m with OP_JOINING => getJA1Delay (s_region (m_ctx m)) | _ => s_rx1Delay (m_ctx m) end) with (first_delay m).
  fold (rx1_rate m). fold (rx2_rate m). rewrite TK.
  assert (u32 (first_delay m * m_tps m) = first_delay m * m_tps m) as -> by (unfold u32; apply Z.mod_small; lia).
  assert (u32 (u32 (u32 (first_delay m * m_a m) * 2) + m_b m) = clock_error m (first_delay m)) as ->.
  { pose proof (CE (first_delay m) ltac:(lia)) as H. unfold clock_error in *. assert (0 <= first_delay m * m_a m) by nia.
    unfold u32. rewrite (Z.mod_small (first_delay m * m_a m)) by nia. rewrite (Z.mod_small (first_delay m * m_a m * 2)) by nia. rewrite Z.mod_small by nia. lia. }
  rewrite WA.
  assert (forall x, m_a (set_m_rx1_symbols x (set_m_ticks_at_tx (u32 (e_now e - lag)) (set_m_pendingACK false m))) = m_a m) as -> by reflexivity.
  assert (u32 (clock_error m (first_delay m) + u32 (m_a m * 2)) = clock_error m (first_delay m + 1)) as ->.
  { pose proof (CE (first_delay m + 1) ltac:(lia)) as H. unfold clock_error in *. unfold u32. rewrite (Z.mod_small (m_a m * 2)) by nia. rewrite Z.mod_small by nia. lia. }
  rewrite WB.
  set (x1 := extra_symbols m (first_delay m) _ _). set (x2 := extra_symbols m (first_delay m + 1) _ _).
  unfold first_timer, second_timer, prepare in A, B.
  set (l1 := lead_at m (first_delay m) (rx1_rate m)) in *. set (l2 := lead_at m (first_delay m + 1) (rx2_rate m)) in *.
  set (k := ceil_div (c_xtal c * m_tps m) 1000) in *. set (w := first_delay m * m_tps m) in *.
  assert (u32 (u32 (u32 (m_advance m + lag) + k) + l1) = m_advance m + lag + k + l1) as -> by (unfold u32; rewrite (Z.mod_small (m_advance m + lag)) by lia; rewrite (Z.mod_small (m_advance m + lag + k)) by lia; apply Z.mod_small; lia).
  assert (u32 (u32 (u32 (m_advance m + lag) + k) + l2) = m_advance m + lag + k + l2) as -> by (unfold u32; rewrite (Z.mod_small (m_advance m + lag)) by lia; rewrite (Z.mod_small (m_advance m + lag + k)) by lia; apply Z.mod_small; lia).
  assert (u32 (w + m_tps m) = w + m_tps m) as -> by (unfold u32; apply Z.mod_small; lia).
  set (m3 := set_m_rx2_symbols _ _).
  assert (m_timers m3 = m_timers m /\ m_rx1_symbols m3 = u16 (5 + u16 x1) /\ m_rx2_symbols m3 = u16 (5 + u16 x2)) as (M1 & M2 & M3) by (split; [|split]; reflexivity).
  clearbody m3. clear m' WA WB P1 P2.
  assert (A = T + (w - (m_advance m + lag + k + l1))) as EA by (unfold A, w; lia). assert (B = T + (w + m_tps m - (m_advance m + lag + k + l2))) as EB by (unfold B, w; lia).
  clearbody A B w k l1 l2 x1 x2. rewrite <- M1 in L.
  set (Q := w + m_tps m - (m_advance m + lag + k + l2)) in *. set (R := w - (m_advance m + lag + k + l1)) in *.
  assert (WAITA < length (m_timers m3))%nat as LA by (unfold WAITA, WAITB in *; lia).
  assert (WAITA <> WAITB) as NE by discriminate.
  destruct (m_advance m + lag + k + l2 <=? w + m_tps m) eqn:GB.
  - assert (u32 Q = Q /\ 0 <= Q < 2 ^ 31) as [-> QR] by (change (2 ^ 31) with 2147483648; split; [unfold u32; apply Z.mod_small; lia|lia]).
    destruct (m_advance m + lag + k + l1 <=? w) eqn:GA.
    + assert (u32 R = R /\ 0 <= R < 2 ^ 31) as [-> RR] by (change (2 ^ 31) with 2147483648; split; [unfold u32; apply Z.mod_small; lia|lia]).
      split; [intros _|]. 
      { split; [reflexivity|]. split.
        - change (get_timer (timerSet e WAITA R (timerSet e WAITB Q m3)) WAITA = mkTimer (clock A) true). rewrite EA. apply timer_deadline; auto.
          unfold timerSet, set_timer. mred. rewrite upd_length. exact LA.
        - change (get_timer (set_timer WAITA (mkTimer (u32 (e_now e + mask31 R)) true) (timerSet e WAITB Q m3)) WAITB = mkTimer (clock B) true). rewrite get_other by auto. rewrite EB. apply timer_deadline; auto. }
      split; [intros H; exfalso; lia|]. split; [intros H; exfalso; lia|]. split; [exact M2|exact M3].
    + split; [intros H; exfalso; lia|]. split; [intros _|].
      { split; [reflexivity|]. split.
        - change (tm_armed (get_timer (timerClear WAITA (timerSet e WAITB Q m3)) WAITA) = false). apply timer_clear_armed. unfold timerSet, set_timer. mred. rewrite upd_length. exact LA.
        - change (get_timer (set_timer WAITA (mkTimer (tm_time (get_timer (timerSet e WAITB Q m3) WAITA)) false) (timerSet e WAITB Q m3)) WAITB = mkTimer (clock B) true).
          rewrite get_other by auto. rewrite EB. apply timer_deadline; auto. }
      split; [intros H; exfalso; lia|]. split; [exact M2|exact M3].
  - split; [intros H; exfalso; lia|]. split; [intros H; exfalso; lia|]. split; [intros _|].
    { split; [reflexivity|]. split.
      - change (tm_armed (get_timer (set_timer WAITB (mkTimer (u32 (e_now e + mask31 0)) true) (timerClear WAITA m3)) WAITA) = false). rewrite get_other by auto. apply timer_clear_armed. exact LA.
      - change (get_timer (timerSet e WAITB 0 (timerClear WAITA m3)) WAITB = mkTimer (clock T) true). rewrite <- (Z.add_0_r T) at 1. apply timer_deadline; auto; [|change (2 ^ 31) with 2147483648; lia].
        unfold timerClear, set_timer. mred. rewrite upd_length. exact L. }
    split; [exact M2|exact M3].
Qed.

(* --- through LDL_MAC_process --- *)

Lemma spec_core c m m' T : core m' = core m ->
  first_timer c m' T = first_timer c m T /\ second_timer c m' T = second_timer c m T /\
  (sane c m -> sane c m') /\ symbol_at m' (rx1_rate m') = symbol_at m (rx1_rate m) /\ symbol_at m' (rx2_rate m') = symbol_at m (rx2_rate m) /\
  rx1_rate m' = rx1_rate m /\ rx2_rate m' = rx2_rate m /\ first_delay m' = first_delay m /\
  (forall secs sf b, extra_symbols m' secs sf b = extra_symbols m secs sf b) /\ m_ctx m' = m_ctx m.
Proof.
  intros C. apply core_fields in C. unfold same_core in C. decompose [and] C. clear C.
  assert (rx1_rate m' = rx1_rate m) as R1 by (unfold rx1_rate; congruence).
  assert (rx2_rate m' = rx2_rate m) as R2 by (unfold rx2_rate; congruence).
  assert (first_delay m' = first_delay m) as FD. { unfold first_delay. repeat match goal with H : _ m' = _ m |- _ => rewrite H end. reflexivity. }
  assert (forall s, clock_error m' s = clock_error m s) as CE by (intros s; unfold clock_error; congruence).
  assert (forall secs sf b, extra_symbols m' secs sf b = extra_symbols m secs sf b) as EX by (intros; unfold extra_symbols; rewrite CE; congruence).
  assert (forall secs rate, lead_at m' secs rate = lead_at m secs rate) as LE by (intros; unfold lead_at, lead; cbv zeta; rewrite EX; congruence).
  assert (prepare c m' = prepare c m) as PR by (unfold prepare; congruence).
  assert (m_tps m' = m_tps m) as TP by congruence.
  split; [unfold first_timer; rewrite FD, PR, R1, LE, TP; reflexivity|]. split; [unfold second_timer; rewrite FD, PR, R2, LE, TP; reflexivity|].
  split. { unfold sane. rewrite FD, CE. repeat match goal with H : _ m' = _ m |- _ => rewrite H end. auto. }
  split; [unfold symbol_at; cbv zeta; rewrite R1; congruence|]. split; [unfold symbol_at; cbv zeta; rewrite R2; congruence|]. auto.
Qed.

Lemma registerTime_timers m : m_timers (registerTime m) = m_timers m.
Proof.
  unfold registerTime. cbv zeta.
  assert (forall i v y, m_timers (band_set i v y) = m_timers y) as Hc by reflexivity.
  destruct (getBand _ _); destruct (m_op m); try (destruct (_ >? _)); rewrite ?Hc; reflexivity.
Qed.

Lemma setNext_symbols e m : m_rx1_symbols (setNextBandEvent e m) = m_rx1_symbols m /\ m_rx2_symbols (setNextBandEvent e m) = m_rx2_symbols m.
Proof. unfold setNextBandEvent. cbv zeta. destruct (_ <? _); split; reflexivity. Qed.

Lemma process_I3 c e m : inputPending m = true ->
  exists m2, quiet m m2 /\ m_timers m2 = m_timers m /\
    MAC_process c e m = setNextBandEvent e (dispatch c e SME_INTERRUPT (timerDelta (in_time (m_inputs m)) (e_now e)) m2).
Proof.
  intros I. unfold MAC_process. destruct (bands_fields e m) as (T1 & _ & _ & _). pose proof (processBands_calm e m) as [B _]. pose proof (processBands_quiet e m) as Q1.
  cbv zeta in *. destruct (processBands e m) as [m1 rd]. cbn [fst] in *.
  unfold next_event. pose proof (inputCheck_quiet e m1) as Q2. unfold inputCheck in *. rewrite B in *. unfold inputPending in I. rewrite I in *. cbn [fst] in Q2.
  eexists. split; [eapply quiet_trans; [exact Q1|exact Q2]|]. split; [exact T1|reflexivity].
Qed.

Lemma delta_clock T0 T : T0 <= T < T0 + 2 ^ 31 -> timerDelta (clock T0) (clock T) = T - T0 - (if wraps T0 T then 1 else 0).
Proof.
  intros R. rewrite timerDelta_spec by apply clock_range. fold (wraps T0 T). unfold wraps, clock in *. rewrite ?p31, ?p32 in *.
  change (2 ^ 31) with 2147483648 in *. destruct (T mod 4294967296 <? T0 mod 4294967296) eqn:E; lia.
Qed.

Theorem windows_set c e m T0 T : inputPending m = true -> m_state m = ST_TX -> e_st_tx e = true ->
  in_time (m_inputs m) = clock T0 -> e_now e = clock T -> T0 <= T < T0 + 2 ^ 29 ->
  sane c m -> 0 < symbol_at m (rx1_rate m) -> 0 < symbol_at m (rx2_rate m) -> (WAITB < length (m_timers m))%nat ->
  let A := first_timer c m (seen_end T0 T) in let B := second_timer c m (seen_end T0 T) in
  let m' := MAC_process c e m in
  (T <= A /\ T <= B -> m_state m' = ST_WAIT_RX1 /\ get_timer m' WAITA = mkTimer (clock A) true /\ get_timer m' WAITB = mkTimer (clock B) true) /\
  (A < T <= B -> m_state m' = ST_WAIT_RX2 /\ tm_armed (get_timer m' WAITA) = false /\ get_timer m' WAITB = mkTimer (clock B) true) /\
  (B < T -> m_state m' = ST_WAIT_RX2 /\ tm_armed (get_timer m' WAITA) = false /\ get_timer m' WAITB = mkTimer (clock T) true) /\
  m_rx1_symbols m' = u16 (5 + u16 (extra_symbols m (first_delay m) (rate_sf (s_region (m_ctx m)) (rx1_rate m)) (rate_bw (s_region (m_ctx m)) (rx1_rate m)))) /\
  m_rx2_symbols m' = u16 (5 + u16 (extra_symbols m (first_delay m + 1) (rate_sf (s_region (m_ctx m)) (rx2_rate m)) (rate_bw (s_region (m_ctx m)) (rx2_rate m)))).
Proof.
  intros I S ST IT N R SN P1 P2 L. cbv zeta. change (2 ^ 29) with 536870912 in *.
  destruct (process_I3 c e m I) as (m2 & Q & T2 & ->). rewrite IT, N, delta_clock by (change (2 ^ 31) with 2147483648; lia).
  set (lag := T - T0 - _). unfold dispatch. rewrite (proj2 Q), S. unfold processTX. rewrite ST.
  pose proof (registerTime_quiet m2) as Q3. pose proof (registerTime_timers m2) as T3. set (m3 := registerTime m2) in *. clearbody m3.
  assert (core m3 = core m) as C by (destruct Q as [[C1 _] _], Q3 as [[C2 _] _]; congruence).
  assert (m_timers m3 = m_timers m) as TM by congruence.
  destruct (spec_core c m m3 (seen_end T0 T) C) as (E1 & E2 & E3 & E4 & E5 & E6 & E7 & E8 & E9 & E10).
  pose proof (tx_done_timers c e lag m3 T (E3 SN)) as H. rewrite E4, E5, TM in H. specialize (H P1 P2 L N).
  assert (0 <= lag < 2 ^ 29) as LR.
  { change (2 ^ 29) with 536870912. unfold lag. destruct (wraps T0 T) eqn:W; [|lia]. assert (T0 <> T) by (intros ->; unfold wraps in W; lia). lia. }
  specialize (H LR). cbv zeta in H.
  assert (T - lag = seen_end T0 T) as EL by (unfold lag, seen_end; lia). rewrite EL, E1, E2, E6, E7, E8, !E9, E10 in H.
  rewrite !band_event_timers by discriminate. rewrite (proj1 (band_event_state _ _)).
  destruct (setNext_symbols e (tx_done c e lag m3)) as [-> ->]. exact H.
Qed.

(* the windows are one second apart *)
Lemma one_second c m Te : second_timer c m Te + lead_at m (first_delay m + 1) (rx2_rate m) =
  first_timer c m Te + lead_at m (first_delay m) (rx1_rate m) + m_tps m.
Proof. unfold first_timer, second_timer. lia. Qed.

Lemma lead_pos m secs rate : 0 < symbol_at m rate -> 0 < lead_at m secs rate.
Proof.
  intros H. unfold lead_at, lead, symbol_at in *. cbv zeta in *. set (sp := symbol_ticks _ _ _) in *.
  apply Z.div_str_pos. unfold extra_symbols. fold sp. nia.
Qed.

Lemma prepare_pos c m : sane c m -> 0 <= prepare c m.
Proof. intros (T & _ & _ & _ & A & X & _). unfold prepare. destruct (ticks_spec m (c_xtal c) T X). lia. Qed.

(* with a delay of 0 the first window is left out *)
Theorem zero_delay c e m T0 T : inputPending m = true -> m_state m = ST_TX -> e_st_tx e = true ->
  in_time (m_inputs m) = clock T0 -> e_now e = clock T -> T0 <= T < T0 + 2 ^ 29 ->
  sane c m -> 0 < symbol_at m (rx1_rate m) -> 0 < symbol_at m (rx2_rate m) -> (WAITB < length (m_timers m))%nat ->
  first_delay m = 0 -> m_state (MAC_process c e m) = ST_WAIT_RX2 /\ tm_armed (get_timer (MAC_process c e m) WAITA) = false.
Proof.
  intros I S ST IT N R SN P1 P2 L Z0. pose proof (windows_set c e m T0 T I S ST IT N R SN P1 P2 L) as H. cbv zeta in H.
  destruct H as (_ & H1 & H2 & _). pose proof (lead_pos m (first_delay m) _ P1) as LP. pose proof (prepare_pos c m SN) as PP.
  assert (first_timer c m (seen_end T0 T) < T) as AT.
  { unfold first_timer. rewrite Z0 in *. unfold seen_end. destruct (wraps T0 T) eqn:W; [|lia].
    assert (T0 <> T) by (intros ->; unfold wraps in W; lia). lia. }
  destruct (Z.le_gt_cases T (second_timer c m (seen_end T0 T))) as [B|B]; [destruct (H1 (conj AT B)) as (X & Y & _)|destruct (H2 ltac:(lia)) as (X & Y & _)]; auto.
Qed.

(* --- starting to listen --- *)

Lemma process_A2 c e D T m : inputPending m = false -> ticking D m WAITA -> e_now e = clock T -> D <= T < D + 2 ^ 31 - 1 ->
  exists m2, quiet m m2 /\ m_inputs m2 = m_inputs m /\ m_timers m2 = upd (m_timers m) WAITA (mkTimer (clock D) false) /\
    MAC_process c e m = setNextBandEvent e (dispatch c e SME_TIMER_A (T - D - (if wraps D T then 1 else 0)) m2).
Proof.
  intros I G N R. unfold MAC_process. destruct (bands_fields e m) as (T1 & _ & _ & _). destruct (bands_inputs e m) as [I1 _].
  pose proof (processBands_quiet e m) as Q1. cbv zeta in *. destruct (processBands e m) as [m1 rd]. cbn [fst] in *.
  assert (get_timer m1 WAITA = mkTimer (clock D) true) as G1 by (unfold ticking, get_timer in *; rewrite T1; exact G).
  unfold next_event, inputCheck. rewrite I1. unfold inputPending in I. rewrite I.
  pose proof (timer_check D T WAITA e m1 G1 N ltac:(lia)) as H.
  pose proof (timerCheck_quiet e WAITA m1) as Q2.
  unfold timerCheck in *. rewrite G1 in *. cbn [tm_armed tm_time] in *.
  destruct (timerDelta (clock D) (e_now e) <? INT32_MAX) eqn:EL; cbn [fst snd] in *; [|lia]. destruct H as [_ H]. rewrite H.
  eexists. split; [eapply quiet_trans; [exact Q1|exact Q2]|]. split; [exact I1|]. split; [|reflexivity].
  unfold set_timer. ms. rewrite T1. reflexivity.
Qed.

(* the timer of the first window, served [late] ticks after it was due, is set
   to the oscillator's start-up time less [late] *)
Theorem listen_planned c e D T m : m_state m = ST_WAIT_RX1 -> inputPending m = false -> ticking D m WAITA -> (WAITA < length (m_timers m))%nat ->
  e_now e = clock T -> D <= T < D + 2 ^ 31 - 1 -> 0 <= msToTicks m (c_xtal c) < 2 ^ 31 ->
  let late := T - D - (if wraps D T then 1 else 0) in
  let m' := MAC_process c e m in
  m_state m' = ST_START_RADIO_FOR_RX1 /\ inputPending m' = false /\
  ticking (D + Z.max 0 (msToTicks m (c_xtal c) - late)) m' WAITA.
Proof.
  intros S I G L N R K late m'. unfold m'. clear m'.
  destruct (process_A2 c e D T m I G N R) as (m2 & Q & I2 & T2 & ->). fold late. unfold dispatch. rewrite (proj2 Q), S.
  rewrite (proj1 (band_event_state _ _)). unfold inputPending. rewrite (proj1 (band_event_inputs _ _)).
  unfold ticking. rewrite band_event_timers by discriminate.
  assert (msToTicks m2 (c_xtal c) = msToTicks m (c_xtal c)) as EK by (unfold msToTicks; rewrite (proj1 (quiet_tps _ _ Q)); reflexivity).
  unfold processWait. rewrite (proj2 Q), S, EK. set (k := msToTicks m (c_xtal c)) in *. clearbody k.
  split; [reflexivity|]. split; [change (in_state (m_inputs m2) = false); rewrite I2; exact I|].
  unfold timerAppend. rewrite get_set by (change (WAITA < length (m_timers m2))%nat; rewrite T2, upd_length; exact L).
  change (get_timer (emit (OMode MODE_RX) (set_m_state ST_START_RADIO_FOR_RX1 m2)) WAITA) with (get_timer m2 WAITA).
  assert (get_timer m2 WAITA = mkTimer (clock D) false) as -> by (unfold get_timer; rewrite T2, nth_upd, Nat.eqb_refl; replace (WAITA <? length (m_timers m))%nat with true by lia; reflexivity).
  cbn [tm_time]. f_equal. unfold mask31, u32, clock. rewrite ?p31, ?p32 in *. change (2 ^ 31) with 2147483648 in *.
  assert (0 <= late) as LP. { unfold late. destruct (wraps D T) eqn:W; [|lia]. assert (D <> T) by (intros ->; unfold wraps in W; lia). lia. }
  destruct (late >? k) eqn:GL.
  - replace (Z.max 0 (k - late)) with 0 by lia. lia.
  - replace (Z.max 0 (k - late)) with (k - late) by lia. rewrite (Z.mod_small (k - late)) by lia. lia.
Qed.

Lemma process_B3 c e D T m : inputPending m = false -> tm_armed (get_timer m WAITA) = false -> ticking D m WAITB -> e_now e = clock T -> D <= T < D + 2 ^ 31 - 1 ->
  exists m2, quiet m m2 /\ m_inputs m2 = m_inputs m /\ m_timers m2 = upd (m_timers m) WAITB (mkTimer (clock D) false) /\
    MAC_process c e m = setNextBandEvent e (dispatch c e SME_TIMER_B (lateness D T) m2).
Proof.
  intros I A G N R. unfold MAC_process. destruct (bands_fields e m) as (T1 & _ & _ & _). destruct (bands_inputs e m) as [I1 _].
  pose proof (processBands_quiet e m) as Q1. cbv zeta in *. destruct (processBands e m) as [m1 rd]. cbn [fst] in *.
  assert (get_timer m1 WAITB = mkTimer (clock D) true) as G1 by (unfold ticking, get_timer in *; rewrite T1; exact G).
  assert (tm_armed (get_timer m1 WAITA) = false) as A1 by (unfold get_timer in *; rewrite T1; exact A).
  unfold next_event, inputCheck. rewrite I1. unfold inputPending in I. rewrite I.
  assert (timerCheck e WAITA m1 = (m1, None)) as -> by (unfold timerCheck; rewrite A1; reflexivity).
  pose proof (timer_check D T WAITB e m1 G1 N ltac:(lia)) as H.
  pose proof (timerCheck_quiet e WAITB m1) as Q2.
  unfold timerCheck in *. rewrite G1 in *. cbn [tm_armed tm_time] in *.
  destruct (timerDelta (clock D) (e_now e) <? INT32_MAX) eqn:EL; cbn [fst snd] in *; [|lia]. destruct H as [_ H]. rewrite H.
  eexists. split; [eapply quiet_trans; [exact Q1|exact Q2]|]. split; [exact I1|]. split; [|reflexivity].
  unfold set_timer. ms. rewrite T1. reflexivity.
Qed.

Lemma append_at D k late i y : (i < length (m_timers y))%nat -> get_timer y i = mkTimer (clock D) false -> 0 <= k < 2 ^ 31 -> 0 <= late ->
  get_timer (timerAppend i (if late >? k then 0 else k - late) y) i = mkTimer (clock (D + Z.max 0 (k - late))) true.
Proof.
  intros L G K P. unfold timerAppend. rewrite get_set by exact L. rewrite G. cbn [tm_time]. f_equal.
  unfold mask31, u32, clock. rewrite ?p31, ?p32 in *. change (2 ^ 31) with 2147483648 in *.
  destruct (late >? k) eqn:GL.
  - replace (Z.max 0 (k - late)) with 0 by lia. lia.
  - replace (Z.max 0 (k - late)) with (k - late) by lia. rewrite (Z.mod_small (k - late)) by lia. lia.
Qed.

Lemma lateness_pos D T : D <= T -> 0 <= lateness D T.
Proof. intros R. unfold lateness. destruct (wraps D T) eqn:W; [|lia]. assert (D <> T) by (intros ->; unfold wraps in W; lia). lia. Qed.

Theorem listen_planned2 c e D T m : m_state m = ST_WAIT_RX2 -> inputPending m = false -> tm_armed (get_timer m WAITA) = false ->
  ticking D m WAITB -> (WAITB < length (m_timers m))%nat ->
  e_now e = clock T -> D <= T < D + 2 ^ 31 - 1 -> 0 <= msToTicks m (c_xtal c) < 2 ^ 31 ->
  let m' := MAC_process c e m in
  m_state m' = ST_START_RADIO_FOR_RX2 /\ inputPending m' = false /\
  ticking (D + Z.max 0 (msToTicks m (c_xtal c) - lateness D T)) m' WAITB.
Proof.
  intros S I A G L N R K. cbv zeta.
  destruct (process_B3 c e D T m I A G N R) as (m2 & Q & I2 & T2 & ->). pose proof (lateness_pos D T ltac:(lia)) as LP. set (late := lateness D T) in *. clearbody late.
  unfold dispatch. rewrite (proj2 Q), S.
  rewrite (proj1 (band_event_state _ _)). unfold inputPending. rewrite (proj1 (band_event_inputs _ _)).
  unfold ticking. rewrite band_event_timers by discriminate.
  assert (msToTicks m2 (c_xtal c) = msToTicks m (c_xtal c)) as EK by (unfold msToTicks; rewrite (proj1 (quiet_tps _ _ Q)); reflexivity).
  unfold processWait. rewrite (proj2 Q), S, EK. set (k := msToTicks m (c_xtal c)) in *. clearbody k.
  split; [reflexivity|]. split; [change (in_state (m_inputs m2) = false); rewrite I2; exact I|].
  apply append_at; [change (WAITB < length (m_timers m2))%nat; rewrite T2, upd_length; exact L| |exact K|exact LP].
  change (get_timer m2 WAITB = mkTimer (clock D) false). unfold get_timer; rewrite T2, nth_upd, Nat.eqb_refl; replace (WAITB <? length (m_timers m))%nat with true by lia; reflexivity.
Qed.

(* --- the statements --- *)

Lemma listen_u16 m secs rate : u16 (5 + u16 (extra_symbols m secs (rate_sf (s_region (m_ctx m)) rate) (rate_bw (s_region (m_ctx m)) rate))) = listen_for m secs rate.
Proof. unfold listen_for, u16. change (2 ^ 16) with 65536. rewrite Zplus_mod_idemp_r. reflexivity. Qed.

Theorem windows_planned c e m T0 T : end_served m e T0 T -> sane c m -> computable m -> length (m_timers m) = 3%nat ->
  let A := first_timer c m (seen_end T0 T) in let B := second_timer c m (seen_end T0 T) in
  let m' := fst (step c e C_process m) in
  (T <= A -> T <= B -> m_state m' = ST_WAIT_RX1 /\ ticking A m' WAITA /\ ticking B m' WAITB) /\
  (A < T -> m_state m' = ST_WAIT_RX2 /\ tm_armed (get_timer m' WAITA) = false) /\
  (A < T -> T <= B -> ticking B m' WAITB) /\
  (B < T -> m_state m' = ST_WAIT_RX2 /\ tm_armed (get_timer m' WAITA) = false /\ ticking T m' WAITB) /\
  m_rx1_symbols m' = listen_for m (first_delay m) (rx1_rate m) /\
  m_rx2_symbols m' = listen_for m (first_delay m + 1) (rx2_rate m).
Proof.
  intros (I & S & ST & IT & N & R) SN [P1 P2] L. cbv zeta. cbn [step fst].
  assert (WAITB < length (m_timers m))%nat as L' by (rewrite L; repeat constructor).
  pose proof (windows_set c e m T0 T I S ST IT N R SN P1 P2 L') as H. cbv zeta in H. rewrite !listen_u16 in H.
  destruct H as (H1 & H2 & H3 & H4 & H5). unfold ticking. split; [auto|].
  split. { intros AT. destruct (Z.le_gt_cases T (second_timer c m (seen_end T0 T))) as [B|B]; [destruct (H2 (conj AT B)) as (X & Y & _)|destruct (H3 ltac:(lia)) as (X & Y & _)]; auto. }
  split. { intros AT BT. apply H2. auto. }
  split; [exact H3|]. auto.
Qed.

Theorem always_computable m : 3907 <= m_tps m <= 1000000 -> computable m.
Proof. intros T. split; unfold symbol_at; cbv zeta; apply symbol_fast; try apply rate_sf_range; lia. Qed.

Theorem one_second_apart c m Te :
  second_timer c m Te + lead_at m (first_delay m + 1) (rx2_rate m) = first_timer c m Te + lead_at m (first_delay m) (rx1_rate m) + m_tps m.
Proof. apply one_second. Qed.

Theorem no_first_window c e m T0 T : end_served m e T0 T -> sane c m -> computable m -> length (m_timers m) = 3%nat -> first_delay m = 0 ->
  let m' := fst (step c e C_process m) in m_state m' = ST_WAIT_RX2 /\ tm_armed (get_timer m' WAITA) = false.
Proof.
  intros (I & S & ST & IT & N & R) SN [P1 P2] L Z0. cbn [step fst]. cbv zeta.
  assert (WAITB < length (m_timers m))%nat as L' by (rewrite L; repeat constructor).
  exact (zero_delay c e m T0 T I S ST IT N R SN P1 P2 L' Z0).
Qed.

Lemma symbol_zero tps sf b : 7 <= sf <= 12 -> 1000 <= tps <= 1000000 -> (symbolPeriod tps sf b = 0 <-> 2 ^ sf * tps < hz b).
Proof.
  intros F R. destruct (symbol_spec tps sf b) as [-> _]; [assumption..|]. unfold symbol_ticks. pose proof (pow_sf sf F). pose proof (hz_range b).
  split; intros H1.
  - apply Z.div_small_iff in H1; [|lia]. lia.
  - apply Z.div_small. nia.
Qed.
