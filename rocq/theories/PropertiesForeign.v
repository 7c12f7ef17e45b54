(* C91: the second window after a packet in the first. *)
From Verif Require Import Words Lib FrameM CommandsM RegionM RadioM SmM MacStateM MacUtilM OpsM MacProcM MacApiM Scenario SpecHist SpecInput SpecEffect SpecForeign PropertiesMac.
From Verif Require ForeignP.

(* --- C91 ------------------------------------------------------------------------- *)

(* Whatever packet is received in a window, the radio is not told to listen
   again, whatever is called, until it has been told to transmit. *)
Theorem C91_after_packet : forall c r a e0 h e h2, let m := run c h (MAC_init c r a e0) in
  window_open m = true -> inputPending m = true -> e_st_rx e = true ->
  let m' := run c ((e, C_process) :: h2) m in
  transmits (new_out m m') = false -> listens (new_out m m') = false.
Proof. exact ForeignP.packet_ends. Qed.
Print Assumptions C91_after_packet.

(* a message sent after a join, up to the packet in its first window *)
Definition h_msg : history := h_toy_join ++ [P 10000; (at_t 10000, C_data false 1 (Some [1;2;3]) None); P 10000; P 10025] ++ h_rx1 10100 1.
Definition h_packet (d : bytes) : history := h_msg ++ [(rx_at 11110 d, C_radioEvent 11110)].
(* one byte of a proprietary frame *)
Definition junk : bytes := [0xe0].
Definition h_later : history := [P 11500; P 12000; P 12100; P 12125; P 13000; P 20000].
Example C91_after_packet_ex : let m := run cfg4 (h_packet junk) start4 in
  window_open m = true /\ inputPending m = true /\
  let m' := run cfg4 ((rx_at 11110 junk, C_process) :: h_later) m in transmits (new_out m m') = false /\ m_state m' = ST_IDLE.
Proof. vm_compute. repeat split. Qed.

(* LoRaWAN lets the device leave out the second window only if the frame was
   meant for it and its integrity code is right.  Here any packet ends the
   operation: the second window does not open, and the application is told
   that the message is done. *)
Theorem C91_foreign_refuted : exists c r a e0 h e, let m := run c h (MAC_init c r a e0) in
  m_state m = ST_RX1 /\ inputPending m = true /\ e_st_rx e = true /\ e_rx e = [0xe0] /\
  snd (receiveFrame c m (rx_buffer e) (rx_len e)) = None /\
  m_state (MAC_process c e m) = ST_IDLE /\ In (OEvent EV_DATA_COMPLETE) (new_out m (MAC_process c e m)) /\
  forall h2, let m' := run c ((e, C_process) :: h2) m in transmits (new_out m m') = false -> listens (new_out m m') = false.
Proof.
  exists cfg4, EU_863_870, (arg0 None), (at_t 0), (h_packet junk), (rx_at 11110 junk). cbv zeta.
  split; [vm_compute; reflexivity|]. split; [vm_compute; reflexivity|]. split; [reflexivity|]. split; [reflexivity|].
  split; [vm_compute; reflexivity|]. split; [vm_compute; reflexivity|].
  split; [vm_compute; tauto|].
  intros h2. apply C91_after_packet; [vm_compute; reflexivity|vm_compute; reflexivity|reflexivity].
Qed.
Print Assumptions C91_foreign_refuted.
(* with nothing received instead, the second window opens *)
Example C91_empty_ex : let m := run cfg4 (h_msg ++ [(timeout_at 11110, C_radioEvent 11110)]) start4 in
  let m' := run cfg4 ((timeout_at 11110, C_process) :: h_later) m in transmits (new_out m m') = false /\ listens (new_out m m') = true.
Proof. vm_compute. auto. Qed.
