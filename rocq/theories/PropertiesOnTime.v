(* C90: the receive windows open when they should if the MAC is driven in time. *)
From Verif Require Import Words Lib FrameM CommandsM RegionM RadioM SmM MacStateM MacUtilM MacProcM MacApiM Scenario SpecTime SpecHist SpecInput SpecWindow SpecEnds SpecRetry SpecOnTime PropertiesWindow.
From Verif Require OnTimeP.

(* --- C90 ------------------------------------------------------------------------- *)

(* The end of a transmission is signalled at T0 and served at T.  Whatever is
   called until the timer of the first window is due (other than to stop the
   operation), the radio is told nothing; the first call of LDL_MAC_process
   after it, at T1, starts the oscillator, and again whatever is called until
   L, the first call of it at or after L tells the radio to listen, for as many
   symbols as were planned.  All this before the timer of the second window is
   due, which is left running. *)
Theorem C90_first : forall c r a e0 h e T0 T h1 e1 T1 h2 e2 T2, 0 < ia_tps a ->
  let m := run c h (MAC_init c r a e0) in
  end_served m e T0 T -> sane c m -> computable m ->
  let A := first_timer c m (seen_end T0 T) in let B := second_timer c m (seen_end T0 T) in
  T <= A -> during T A h1 -> e_now e1 = clock T1 -> A <= T1 ->
  let L := listen_at c m A T1 in
  during T1 L h2 -> e_now e2 = clock T2 -> L <= T2 -> T1 <= T2 -> T2 < B ->
  let m4 := run c h2 (MAC_process c e1 (run c h1 (MAC_process c e m))) in let m5 := MAC_process c e2 m4 in
  silent m m4 /\ m_state m5 = ST_RX1 /\ told_to_listen (listen_for m (first_delay m) (rx1_rate m)) (new_out m4 m5) /\
  get_timer m5 WAITB = mkTimer (clock B) true /\ m_rx2_symbols m5 = listen_for m (first_delay m + 1) (rx2_rate m).
Proof. exact OnTimeP.first_on_time. Qed.
Print Assumptions C90_first.
(* a transmission that ended at 1500, served at 1510: listening at 6499, five
   seconds after its end less one tick of margin *)
Example C90_first_ex : let A := first_timer w_cfg w_end (seen_end 1500 1510) in
  end_served w_end (tx_at 1510) 1500 1510 /\ sane w_cfg w_end /\ computable w_end /\
  A = 6474 /\ second_timer w_cfg w_end (seen_end 1500 1510) = 7427 /\ listen_at w_cfg w_end A 6474 = 6499 /\
  during 1510 6474 [P 2000; (at_t 3000, C_setADR false); (at_t 6473, C_process)] /\ during 6474 6499 [P 6498] /\
  m_state (MAC_process w_cfg (at_t 6499) (run w_cfg [P 6498] (MAC_process w_cfg (at_t 6474)
    (run w_cfg [P 2000; (at_t 3000, C_setADR false); (at_t 6473, C_process)] (MAC_process w_cfg (tx_at 1510) w_end))))) = ST_RX1.
Proof.
  cbv zeta. split; [apply w_end_served; lia|]. split; [exact w_end_sane|]. split; [exact w_end_computable|].
  split; [vm_compute; reflexivity|]. split; [vm_compute; reflexivity|]. split; [vm_compute; reflexivity|].
  split; [repeat constructor; try discriminate; [exists 2000|exists 3000|exists 6473]; (split; [lia|reflexivity])|].
  split; [repeat constructor; try discriminate; exists 6498; (split; [lia|reflexivity])|]. vm_compute. reflexivity.
Qed.

(* The first window closes without a frame, which is served at T before the
   timer B of the second window: the same holds for the second window. *)
Theorem C90_second : forall c r a e0 h e T B h1 e1 T1 h2 e2 T2, 1000 <= ia_tps a <= 1000000 -> 0 <= c_xtal c <= 1000 ->
  let m := run c h (MAC_init c r a e0) in
  m_state m = ST_RX1 -> inputPending m = true -> e_st_rx e = false -> e_st_timeout e = true -> e_now e = clock T ->
  get_timer m WAITB = mkTimer (clock B) true -> B - T <= 2 ^ 31 - 1 ->
  during T B h1 -> e_now e1 = clock T1 -> B <= T1 < B + 2 ^ 31 - 1 ->
  let L := listen_at c m B T1 in
  during T1 L h2 -> e_now e2 = clock T2 -> L <= T2 < B + 2 ^ 31 - 1 ->
  let m4 := run c h2 (MAC_process c e1 (run c h1 (MAC_process c e m))) in let m5 := MAC_process c e2 m4 in
  silent m m4 /\ m_state m5 = ST_RX2 /\ told_to_listen (m_rx2_symbols m) (new_out m4 m5).
Proof. exact OnTimeP.second_on_time. Qed.
Print Assumptions C90_second.
Definition h_open : history := h_boot ++ h_join_tx 30 ++ [(at_t 1500, C_radioEvent 1500); (tx_at 1510, C_process); P 6474; P 6499; (timeout_at 6600, C_radioEvent 6600)].
Example C90_second_ex : let m := run w_cfg h_open w_init in
  m_state m = ST_RX1 /\ inputPending m = true /\ get_timer m WAITB = mkTimer 7427 true /\ listen_at w_cfg m 7427 7427 = 7452 /\
  m_state (run w_cfg [(timeout_at 6600, C_process); P 7000; P 7427; P 7451] m) = ST_START_RADIO_FOR_RX2 /\
  m_state (run w_cfg [(timeout_at 6600, C_process); P 7000; P 7427; P 7452] m) = ST_RX2.
Proof. vm_compute. repeat split. Qed.

(* Called at the very time the timer is due, LDL_MAC_process has the radio
   listen from the nominal time of the window less the advance and the lead. *)
Theorem C90_nominal : forall c m Te, 0 <= c_xtal c * m_tps m ->
  listen_at c m (first_timer c m Te) (first_timer c m Te) = Te + first_delay m * m_tps m - m_advance m - lead_at m (first_delay m) (rx1_rate m) /\
  listen_at c m (second_timer c m Te) (second_timer c m Te) = Te + (first_delay m + 1) * m_tps m - m_advance m - lead_at m (first_delay m + 1) (rx2_rate m).
Proof. exact (fun c m Te P => conj (OnTimeP.prompt_first c m Te P) (OnTimeP.prompt_second c m Te P)). Qed.
Print Assumptions C90_nominal.
Example C90_nominal_ex : listen_at w_cfg w_end 6474 6474 = 1500 + 5 * 1000 - 0 - 1 /\ listen_at w_cfg w_end 7427 7427 = 1500 + 6 * 1000 - 0 - 48.
Proof. vm_compute. auto. Qed.

(* Listening from the lead before a nominal time on, for the symbols planned,
   takes in at least five symbols of a frame that begins x ticks off it, for
   every x the clock error allows. *)
Theorem C90_covers : forall m secs rate x, 0 < symbol_at m rate -> 0 <= clock_error m secs -> 2 * Z.abs x <= clock_error m secs ->
  let r := s_region (m_ctx m) in let extra := extra_symbols m secs (rate_sf r rate) (rate_bw r rate) in
  - lead_at m secs rate <= x /\ x + 5 * symbol_at m rate <= (5 + extra) * symbol_at m rate - lead_at m secs rate.
Proof. exact OnTimeP.covers. Qed.
Print Assumptions C90_covers.
Definition w_off : mac := run w_cfg (h_boot ++ h_join_tx 30) (MAC_init w_cfg EU_863_870 (mkInitArg 1000 10 4 0 30 0 0 eui_a eui_b None) (at_t 0)).
Example C90_covers_ex : symbol_at w_off 5 = 1 /\ clock_error w_off 5 = 104 /\ lead_at w_off 5 5 = 52 /\ listen_for w_off 5 5 = 109.
Proof. vm_compute. repeat split. Qed.
