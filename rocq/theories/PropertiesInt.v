(* Final statements: interrupts within a call of LDL_MAC_process (C85). *)
From Verif Require Import Lib FrameM CommandsM RegionM RadioM MacStateM MacTac MacUtilM MacProcM MacApiM MacIntM Scenario SpecInput SpecInt InputP IntP PropertiesRadio.

Definition none : interrupts := fun _ => None.
Definition one (n : nat) (t : Z) : interrupts := fun k => if Nat.eqb k n then Some t else None.
Definition calm_calls (h : history) : list (env * call * interrupts) := map (fun x => (x, none)) h.
Definition m_air : mac := run_i r_cfg (calm_calls h_air) r_init.

(* Without interrupts the call is the one of the model. *)
Theorem C85_none : forall c e m, process_i c e (fun _ => None) m = MAC_process c e m.
Proof. exact quiet. Qed.
Print Assumptions C85_none.
Example C85_none_ex : m_state m_air = ST_TX /\ in_armed (m_inputs m_air) = true.
Proof. vm_compute. repeat split. Qed.

(* With interrupts at any of the places, in any history. *)
Theorem C85_serial : forall c r a e0 h e w,
  let m := run_i c h (MAC_init c r a e0) in
  serial c e w m \/ overtaken c e w m.
Proof. exact within_always. Qed.
Print Assumptions C85_serial.
(* an interrupt that comes just after the inputs were looked at waits for the
   next call; one that comes just before them is acted on *)
Example C85_serial_ex : inputPending (process_i r_cfg (tx_at 60) (one 2 58) m_air) = true /\ m_state (process_i r_cfg (tx_at 60) (one 2 58) m_air) = ST_TX /\
  inputPending (process_i r_cfg (tx_at 60) (one 1 58) m_air) = false /\ m_state (process_i r_cfg (tx_at 60) (one 1 58) m_air) = ST_WAIT_RX1.
Proof. vm_compute. repeat split. Qed.
(* the radio is overdue: the interrupt comes too late *)
Example C85_overtaken_ex : let m' := process_i r_cfg (tx_at 900000) (one 4 899999) m_air in
  inputPending m' = true /\ m_state m' = ST_RADIO_RESET /\ inputPending (MAC_process r_cfg (tx_at 900000) m_air) = false.
Proof. vm_compute. repeat split. Qed.

(* The flag such an interrupt leaves is taken away by the next call, which is
   due at once and which otherwise only counts the off-time. *)
Theorem C85_leftover : forall c e m, m_state m = ST_RADIO_RESET -> inputPending m = true ->
  MAC_ticksUntilNextEvent e m = 0 /\
  MAC_process c e m = set_m_inputs (mkInput false false (in_time (m_inputs m))) (setNextBandEvent e (fst (processBands e m))).
Proof. exact leftover. Qed.
Print Assumptions C85_leftover.
Theorem C85_leftover_kept : forall e m,
  let m' := setNextBandEvent e (fst (processBands e m)) in
  m_state m' = m_state m /\ m_op m' = m_op m /\ m_ctx m' = m_ctx m /\ (m_log m' = m_log m \/ m_log m' = m_log m ++ [OEvent EV_CHANNEL_READY]) /\
  get_timer m' WAITA = get_timer m WAITA /\ get_timer m' WAITB = get_timer m WAITB.
Proof. exact leftover_kept. Qed.
Print Assumptions C85_leftover_kept.
Example C85_leftover_ex : let m := process_i r_cfg (tx_at 900000) (one 4 899999) m_air in
  m_state m = ST_RADIO_RESET /\ inputPending m = true /\
  m_state (run r_cfg [(at_t 900001, C_process); (at_t 900002, C_process)] m) = ST_RADIO_BOOT.
Proof. vm_compute. repeat split. Qed.
