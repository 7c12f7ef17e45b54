(* Final statements: the radio and its interrupts (C40). *)
From Verif Require Import Lib FrameM CommandsM RegionM RadioM MacStateM MacTac MacUtilM MacProcM MacApiM Scenario CoreP HistP AcceptP
  SpecHist SpecInput InputP.

(* --- C40: interrupts --- *)

Definition r_cfg : cfg := toy_cfg L2_1_0_4.
Definition r_init : mac := MAC_init r_cfg EU_863_870 (arg0 None) (at_t 0).
(* a join request is on the air from tick 55 *)
Definition h_air : history := h_boot ++ h_join_tx 30.
(* the interrupt comes at 1500 and again at 1600 *)
Definition h_int : history := h_air ++ [(at_t 1500, C_radioEvent 1500); (at_t 1600, C_radioEvent 1600)].

(* not armed: nothing happens *)
Theorem C40_disarmed_ignored c e t m : in_armed (m_inputs m) = false -> fst (step c e (C_radioEvent t) m) = m.
Proof. exact (signal_off c e t m). Qed.
Example C40_disarmed_ignored_ex : in_armed (m_inputs (run r_cfg h_boot r_init)) = false.
Proof. vm_compute. reflexivity. Qed.
Print Assumptions C40_disarmed_ignored.

(* armed: the time of the first signal is kept *)
Theorem C40_first_signal c e t m : in_armed (m_inputs m) = true ->
  let m' := fst (step c e (C_radioEvent t) m) in
  in_state (m_inputs m') = true /\ in_time (m_inputs m') = (if in_state (m_inputs m) then in_time (m_inputs m) else t).
Proof. exact (signal_on c e t m). Qed.
Example C40_first_signal_ex : in_armed (m_inputs (run r_cfg h_air r_init)) = true /\ in_time (m_inputs (run r_cfg h_int r_init)) = 1500.
Proof. vm_compute. auto. Qed.
Print Assumptions C40_first_signal.

(* A pending interrupt was signalled at the time kept, after the last time the
   radio was started.  No call of LDL_MAC_process has been made since, and no
   interrupt was signalled between the start and that signal. *)
Theorem C40_pending_is_fresh c r a e0 h :
  let m0 := MAC_init c r a e0 in
  let m := run c h m0 in
  in_state (m_inputs m) = true ->
  exists h1 e h2 e' h3, h = h1 ++ (e, C_process) :: h2 ++ (e', C_radioEvent (in_time (m_inputs m))) :: h3 /\
    starts_radio c e C_process (run c h1 m0) = true /\ undisturbed c h2 (run c (h1 ++ [(e, C_process)]) m0) = true /\
    forallb (fun x => negb (is_process (snd x))) h3 = true.
Proof. exact (pending_fresh c r a e0 h). Qed.
Example C40_pending_is_fresh_ex : in_state (m_inputs (run r_cfg h_int r_init)) = true /\ starts_radio r_cfg (at_t 55) C_process (run r_cfg (firstn 6 h_int) r_init) = true.
Proof. vm_compute. auto. Qed.
Print Assumptions C40_pending_is_fresh.

(* It is armed only while the radio is transmitting or listening. *)
Theorem C40_armed_on_air c r a e0 h :
  let m := run c h (MAC_init c r a e0) in in_armed (m_inputs m) = true -> radio_on (m_state m) = true.
Proof. exact (armed_on_air c r a e0 h). Qed.
Example C40_armed_on_air_ex : in_armed (m_inputs (run r_cfg h_air r_init)) = true.
Proof. vm_compute. reflexivity. Qed.
Print Assumptions C40_armed_on_air.

(* What the radio reports makes a difference only when an interrupt is pending
   and the radio is transmitting or listening. *)
Theorem C40_never_otherwise c e m tx rx to w rssi snr :
  inputPending m && radio_on (m_state m) = false ->
  step c (radio_says tx rx to w rssi snr e) C_process m = step c e C_process m.
Proof. exact (never_otherwise c e m tx rx to w rssi snr). Qed.
(* left over by a cancelled transmission *)
Example C40_never_otherwise_ex :
  let m := run r_cfg (h_int ++ [(at_t 1700, C_cancel)]) r_init in
  inputPending m = true /\ m_state m = ST_RADIO_RESET /\ inputPending m && radio_on (m_state m) = false.
Proof. vm_compute. auto. Qed.
Print Assumptions C40_never_otherwise.

(* One call of LDL_MAC_process consumes it: nothing is pending or armed
   afterwards, and the radio has not been started again. *)
Theorem C40_once c e m : inputPending m = true ->
  let m' := fst (step c e C_process m) in
  inputPending m' = false /\ in_armed (m_inputs m') = false /\ starts_radio c e C_process m = false.
Proof. exact (once c e m). Qed.
Example C40_once_ex : inputPending (run r_cfg h_int r_init) = true.
Proof. vm_compute. reflexivity. Qed.
Print Assumptions C40_once.

(* During a transmission: its end is taken to be the time of the first signal,
   as long as the tick counter has not wrapped since. *)
Theorem C40_end_of_transmission c r a e0 h e :
  let m := run c h (MAC_init c r a e0) in
  let m' := fst (step c e C_process m) in
  let t := in_time (m_inputs m) in
  inputPending m = true -> m_state m = ST_TX -> 0 <= t < 2 ^ 32 -> 0 <= e_now e < 2 ^ 32 ->
  if e_st_tx e then (m_state m' = ST_WAIT_RX1 \/ m_state m' = ST_WAIT_RX2) /\
                    m_ticks_at_tx m' = (if t <=? e_now e then t else (t + 1) mod 2 ^ 32)
  else m_state m' = ST_RADIO_RESET.
Proof. exact (end_of_transmission c r a e0 h e). Qed.
Example C40_end_of_transmission_ex :
  let m := run r_cfg h_int r_init in inputPending m = true /\ m_state m = ST_TX /\ m_ticks_at_tx (fst (step r_cfg (tx_at 1700) C_process m)) = 1500.
Proof. vm_compute. auto. Qed.
Print Assumptions C40_end_of_transmission.

(* If it has, the time is one tick late. *)
Theorem C40_time_refuted : exists e0 h e,
  let m := run r_cfg h (MAC_init r_cfg EU_863_870 (arg0 None) e0) in
  inputPending m = true /\ m_state m = ST_TX /\ e_st_tx e = true /\ e_now e = 5 /\
  in_time (m_inputs m) = 4294967290 /\ m_ticks_at_tx (fst (step r_cfg e C_process m)) = 4294967291.
Proof. exact late_by_one. Qed.
Print Assumptions C40_time_refuted.

(* While listening: a frame ends the operation or leads to another
   transmission; a time-out leads to the second window or the end of it; an
   interrupt without cause resets the radio. *)
Theorem C40_reception c r a e0 h e :
  let m := run c h (MAC_init c r a e0) in
  let m' := fst (step c e C_process m) in
  inputPending m = true -> in_rx (m_state m) = true ->
  if e_st_rx e then m_state m' = ST_IDLE \/ m_state m' = ST_WAIT_TX \/ m_state m' = ST_WAIT_OTAA
  else if e_st_timeout e then m_state m' = match m_state m with ST_RX2 => ST_RX2_LOCKOUT | _ => ST_WAIT_RX2 end
  else m_state m' = ST_RADIO_RESET.
Proof. exact (reception c r a e0 h e). Qed.
Example C40_reception_ex :
  let m := run r_cfg (h_boot ++ h_join_tx 30 ++ h_rx1 3000 5 ++ [(at_t 8100, C_radioEvent 8100)]) r_init in
  inputPending m = true /\ in_rx (m_state m) = true.
Proof. vm_compute. auto. Qed.
Print Assumptions C40_reception.
