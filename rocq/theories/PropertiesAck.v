(* C80, C81: the control bits of the uplinks. *)
From Verif Require Import Words StreamM Lib FrameM CommandsM RegionM RadioM SmM MacStateM MacUtilM OpsM MacCmdM MacProcM MacApiM Scenario
  SpecHist SpecSend SpecEffect SpecRegion SpecValid SpecBack BackP SpecAck CoreP UplinkP ReadyP PropertiesChan PropertiesEffect PropertiesOnce PropertiesAdr.
From Verif Require AckP AckFrameP AskP.

(* --- C80 ------------------------------------------------------------------------- *)

(* the acknowledgement owed, kept by the MAC as the rules of [owed] say *)
Theorem C80_owed : forall c r a e0 h, m_pendingACK (run c h (MAC_init c r a e0)) = owed c h (MAC_init c r a e0) false.
Proof. exact AckFrameP.owed_always. Qed.
Print Assumptions C80_owed.

(* Every data frame handed to the radio for a request acknowledges if and only
   if an acknowledgement was owed when the request was taken.  ADR is
   announced if it is in use, and the bit kept for class B is clear. *)
Theorem C80_acknowledged : forall c r a e0 h1 e cf port d o h2, in_place c -> arg_ok a ->
  let k := C_data cf port d o in
  let m1 := run c h1 (MAC_init c r a e0) in let m1' := fst (step c e k m1) in
  starts (IReq k (snd (step c e k m1))) = Some KData ->
  accepted (items c h2 m1') = 0 ->
  forall f bw sf p fr, In (OTransmit f bw sf p fr) (outs (items c h2 m1')) -> is_data_frame fr = true ->
    is_ack fr = owed c h1 (MAC_init c r a e0) false /\ asks_ack fr = m_adrAckReq m1 /\ has_adr fr = s_adr (m_ctx m1) /\ bit_four fr = false.
Proof. exact AckFrameP.flags_sent. Qed.
Print Assumptions C80_acknowledged.

(* a confirmed downlink in the first window; the next uplink acknowledges it,
   also when it is repeated, and the one after that does not *)
Definition conf : bytes := [0xa0; 0xda;0x1b;0x01;0x26; 0; 0;0; 1;2;3;4].
Definition h_conf : history := h_toy_join ++ h_up 10000 ++ h_rx1 10100 1 ++ h_rx 11110 conf.
Definition m_conf : mac := run e_cfg h_conf (e_start EU_863_870).
Example C80_example :
  owed e_cfg (h_conf ++ [P 4000000]) (e_start EU_863_870) false = true /\
  starts (IReq (snd (hd (at_t 0, C_process) (skipn 1 (h_msg 4000000)))) (snd (step e_cfg (at_t 4000000) (snd (hd (at_t 0, C_process) (skipn 1 (h_msg 4000000)))) (run e_cfg (h_conf ++ [P 4000000]) (e_start EU_863_870))))) = Some KData /\
  map is_ack (frames (new_out (e_start EU_863_870) m_conf)) = [false; false] /\
  map (skipn 5) (frames (new_out m_conf (run e_cfg (h_alone 4000000 ++ h_alone 8000000) m_conf))) = [[160; 1;0; 1; 1;2;3; 1;2;3;4]; [128; 2;0; 1; 1;2;3; 1;2;3;4]] /\
  map is_ack (frames (new_out m_conf (run e_cfg (h_alone 4000000 ++ h_alone 8000000) m_conf))) = [true; false].
Proof. vm_compute. auto. Qed.
Example C80_unconfirmed_ex :
  owed e_cfg (h_toy_join ++ h_up 10000 ++ h_rx1 10100 1 ++ h_rx 11110 (down [])) (e_start EU_863_870) false = false.
Proof. vm_compute. reflexivity. Qed.

(* --- C81 ------------------------------------------------------------------------- *)

(* a downlink starts the count *)
Theorem C81_starts_again : forall c e m buf f, in_rx (m_state m) = true -> inputPending m = true -> e_st_rx e = true ->
  receiveFrame c m (rx_buffer e) (rx_len e) = (buf, Some f) -> data_frame f = true ->
  let m' := fst (step c e C_process m) in m_adrAckReq m' = false /\ m_adrAckCounter m' = 0.
Proof. exact AskP.heard_fresh. Qed.
Print Assumptions C81_starts_again.

(* After n uplinks without an answer the next asks for one if n is above the
   limit and at most 255, unless the settings have become the most robust
   ones before. *)
Theorem C81_asks_partial : forall c r a e0 h1 h2 e cf port d o h3, in_place c -> arg_ok a ->
  let m0 := run c h1 (MAC_init c r a e0) in let min := MIN_RATE (c_noSF12 c) in let v := dials_of m0 in
  silent c h2 m0 -> starts_fresh min v -> m_adrAckReq m0 = false ->
  let n := finished (outs (items c h2 m0)) in
  Z.min (steps_due (d_limit v) (d_delay v) (n - 1)) (steps_possible (d_limit v) (d_delay v)) < steps_needed min v ->
  let k := C_data cf port d o in let m1 := run c h2 m0 in let m1' := fst (step c e k m1) in
  starts (IReq k (snd (step c e k m1))) = Some KData -> accepted (items c h3 m1') = 0 ->
  forall f bw sf p fr, In (OTransmit f bw sf p fr) (outs (items c h3 m1')) -> is_data_frame fr = true ->
    asks_ack fr = (d_limit v <? n) && (n <=? 255).
Proof. exact AskP.asked_sent. Qed.
Print Assumptions C81_asks_partial.

(* limit 2 and delay 4: the bit of seven uplinks in a row.  LoRaWAN wants it
   from the third on, after two without an answer; it comes with the fourth. *)
Definition us_two : session := set_s_adr_ack_limit 2 (set_s_adr_ack_delay 4 (joined_at US_902_928 1 3)).
Definition m_two : mac := run a_cfg h_boot (a_start US_902_928 us_two).
Fixpoint ups (n : nat) (t : Z) : history := match n with O => [] | S n => up_at t ++ ups n (t + 10000) end.
Example C81_example : silent a_cfg (ups 7 100) m_two /\ starts_fresh 0 (dials_of m_two) /\ m_adrAckReq m_two = false /\
  map asks_ack (frames (new_out m_two (run a_cfg (ups 7 100) m_two))) = [false; false; false; true; true; true; true].
Proof. split; [apply no_packet; vm_compute; reflexivity|]. vm_compute. repeat split; discriminate. Qed.
Theorem C81_late_refuted : exists c h m, silent c h m /\ starts_fresh (MIN_RATE (c_noSF12 c)) (dials_of m) /\ m_adrAckReq m = false /\
  finished (outs (items c h m)) = d_limit (dials_of m) /\ 0 < d_limit (dials_of m) /\ m_adrAckReq (run c h m) = false.
Proof. exists a_cfg, (ups 2 100), m_two. split; [apply no_packet; vm_compute; reflexivity|]. vm_compute. repeat split; discriminate. Qed.
Print Assumptions C81_late_refuted.

(* the device does not go on asking: after 256 uplinks without an answer the
   bit is clear, whatever it sends *)
Definition us_far : mac := a_start US_902_928 (joined_at US_902_928 4 1).
Theorem C81_stops_refuted : exists c m, starts_fresh (MIN_RATE (c_noSF12 c)) (dials_of m) /\ m_adrAckReq m = false /\ d_limit (dials_of m) = 64 /\ d_delay (dials_of m) = 32 /\
  forall h, silent c h m -> 255 < finished (outs (items c h m)) -> m_adrAckReq (run c h m) = false.
Proof.
  exists a_cfg, us_far. split; [vm_compute; repeat split; discriminate|]. split; [vm_compute; reflexivity|]. split; [vm_compute; reflexivity|]. split; [vm_compute; reflexivity|].
  intros h S N. rewrite (AskP.asked a_cfg h us_far S); [|vm_compute; repeat split; discriminate|vm_compute; reflexivity|].
  - apply andb_false_iff. right. apply Z.leb_gt. exact N.
  - apply Z.le_lt_trans with 5; [|vm_compute; reflexivity]. apply Z.le_trans with (steps_possible (d_limit (dials_of us_far)) (d_delay (dials_of us_far))); [apply Z.le_min_r|]. vm_compute. discriminate.
Qed.
Print Assumptions C81_stops_refuted.
(* the end of the count: four uplinks from a count of 253 *)
Example C81_stops_ex : let m := set_m_adrAckReq true (set_m_adrAckCounter 253 (run a_cfg h_boot us_far)) in
  finished (outs (items a_cfg (ups 4 100) m)) = 4 /\
  map asks_ack (frames (new_out m (run a_cfg (ups 4 100) m))) = [true; true; true; false].
Proof. vm_compute. auto. Qed.
