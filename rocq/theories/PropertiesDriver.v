(* Final statements: the radio drivers (C56 to C63). *)
From Verif Require Import Words Lib FrameM RegionM RadioM MacStateM MacUtilM OpsM MacProcM MacApiM Scenario SpecHist ChipM SX127xM SX126xM DriverM SpecModes SpecChip SpecPower.
From Verif Require DriverP PowerP.

(* a history and its calls of the radio *)
Definition d_cfg : cfg := toy_cfg L2_1_0_4.
Definition d_log (h : history) : list out := m_log (run d_cfg h (MAC_init d_cfg EU_863_870 (arg0 None) (at_t 0))).
Definition d_up (t : Z) : history := [(at_t t, C_data false 1 (Some [1;2;3]) None); P t; P (t + 25); (tx_at (t + 100), C_radioEvent (t + 100)); (tx_at (t + 100), C_process); P (t + 1100); P (t + 1100)].
Definition d_unheard (t : Z) : history := [(timeout_at (t + 1150), C_radioEvent (t + 1150)); (timeout_at (t + 1150), C_process);
   P (t + 2100); P (t + 2100); (timeout_at (t + 2150), C_radioEvent (t + 2150)); (timeout_at (t + 2150), C_process); P (t + 9000); P (t + 9000)].
Definition d_joined : history := h_toy_join ++ [P 8100; P 3000000].
Definition h_typical : history := d_joined ++ d_up 3000000 ++ d_unheard 3000000.

(* --- C56 ------------------------------------------------------------------------- *)

(* The mode changes and calls the MAC makes are those both drivers carry out:
   neither reaches LDL_ABORT or a failing check of the mode. *)
Theorem C56_calls_are_accepted c h r a e0 : in_place c -> arg_ok a -> let l := m_log (run c h (MAC_init c r a e0)) in
  (exists d, modes MODE_RESET l = Some d) /\
  (forall v ty xt pa g, calls127 v l (init127 ty xt pa g) <> None) /\
  (forall ok ty xt pa reg volt txen g, calls126 ok l (init126 ty xt pa reg volt txen g) <> None).
Proof. exact (DriverP.accepted c h r a e0). Qed.
Print Assumptions C56_calls_are_accepted.

(* the calls of a join; inr stands for transmit and receive *)
Definition radio_calls (l : list out) : list (radio_mode + unit) :=
  flat_map (fun o => match o with OEvent _ => [] | OMode m => [inl m] | _ => [inr tt] end) l.
Example C56_ex : radio_calls (d_log h_toy_join) =
  [inl MODE_RESET; inl MODE_BOOT; inl MODE_SLEEP; inl MODE_TX; inr tt; inl MODE_HOLD; inl MODE_RX; inr tt; inl MODE_SLEEP].
Proof. vm_compute. reflexivity. Qed.
Example C56_abort_ex : calls127 (fun _ => 0) [OMode MODE_TX] (init127 SX1276 XTAL_CRYSTAL PA_AUTO 0) = None /\
  calls127 (fun _ => 0) [OMode MODE_BOOT; OMode MODE_SLEEP; OMode MODE_TX; OMode MODE_RX] (init127 SX1276 XTAL_CRYSTAL PA_AUTO 0) = None.
Proof. split; vm_compute; reflexivity. Qed.

(* --- C57 ------------------------------------------------------------------------- *)

(* Whatever the history, an SX1272 or SX1276 driven by these calls sends exactly
   the frames of the transmit calls and listens exactly for the receive calls,
   in that order and with the asked frequency, rate, direction and length. *)
Theorem C57_sx127x_does_what_is_asked_partial c h r a e0 : in_place c -> arg_ok a -> let l := m_log (run c h (MAC_init c r a e0)) in Forall (tunable limit7) l ->
  forall v ty xt pa g, of7 ty -> exists ops y s ev, calls127 v l (init127 ty xt pa g) = Some (ops, y) /\
  chip7_ops ty reset7 ops = (s, ev) /\ Forall2 (asked 64 wait7) (filter on_air l) ev.
Proof. exact (DriverP.faithful7 c h r a e0). Qed.
Print Assumptions C57_sx127x_does_what_is_asked_partial.

Definition tunableb (limit : Z) (o : out) : bool :=
  match o with
  | OTransmit freq _ _ _ _ => (0 <=? freq) && (freq <? limit)
  | OReceive freq _ _ t _ => (0 <=? freq) && (freq <? limit) && (0 <=? t)
  | _ => true
  end.
Lemma tunable_all limit l : forallb (tunableb limit) l = true -> Forall (tunable limit) l.
Proof. intros H. apply Forall_forall. intros o I. rewrite forallb_forall in H. specialize (H _ I). destruct o; cbn [tunable tunableb] in *; auto; lia. Qed.
Example C57_ex : let l := d_log h_typical in Forall (tunable limit7) l /\
  match calls127 (fun _ => 0) l (init127 SX1276 XTAL_TCXO PA_BOOST 0) with
  | Some (ops, _) => map (fun ev => match ev with Sent a p => (1, a_hz a, a_sf a, Z.of_nat (length p)) | Listened a n m => (2, a_hz a, a_sf a, n) | _ => (3, 0, 0, 0) end)
      (snd (chip7_ops SX1276 reset7 ops)) = [(1, 125000, 7, 23); (2, 125000, 7, 8); (1, 125000, 7, 16); (2, 125000, 7, 8); (2, 125000, 12, 8)]
  | None => False
  end.
Proof. split; [apply tunable_all|]; vm_compute; reflexivity. Qed.

(* RXParamSetupReq can set the second window to 1677.7215 MHz, which the 24 bit
   frequency register cannot hold: the chip listens at 653.7 MHz *)
Definition d_far : bytes := [0x60; 0xda;0x1b;0x01;0x26; 5; 1;0; 5;0;255;255;255; 1;2;3;4].
Definition h_far : history := d_joined ++ d_up 3000000 ++ h_rx 3001200 d_far ++ [P 3010000; P 4000000] ++ d_up 4000000 ++ d_unheard 4000000.
Definition last_event (l : list radio_event) : radio_event := last l Fsk.
Theorem C57_far_refuted : exists b sf t max, last (filter on_air (d_log h_far)) OReceiveEntropy = OReceive 1677721500 b sf t max /\
  match calls127 (fun _ => 0) (d_log h_far) (init127 SX1276 XTAL_TCXO PA_BOOST 0) with
  | Some (ops, _) => match last_event (snd (chip7_ops SX1276 reset7 ops)) with Listened a _ _ => a_frf a * 32000000 / 33554432 = 653721496 | _ => False end
  | None => False
  end.
Proof. do 4 eexists. split; [vm_compute; reflexivity|vm_compute; reflexivity]. Qed.
Print Assumptions C57_far_refuted.

(* --- C58 ------------------------------------------------------------------------- *)

(* The same for the SX1261, SX1262 and WL55.  The chip may refuse commands: a
   call with a refused command neither sends nor listens, a call without takes
   effect. *)
Theorem C58_sx126x_does_what_is_asked c h r a e0 : in_place c -> arg_ok a -> let l := m_log (run c h (MAC_init c r a e0)) in Forall (tunable limit6) l ->
  forall ok ty xt pa reg volt txen g, exists ops y s ev take, calls126 ok l (init126 ty xt pa reg volt txen g) = Some (ops, y) /\
  chip6_ops reset6 ops = (s, ev) /\ (forall i, (forall n, ok i n = true) -> take i = true) /\ Forall2 (asked 1 wait6) (filter on_air (kept take l)) ev.
Proof. exact (DriverP.faithful6 c h r a e0). Qed.
Print Assumptions C58_sx126x_does_what_is_asked.

Example C58_ex : let l := d_log h_far in Forall (tunable limit6) l /\
  match calls126 (fun _ _ => true) l (init126 SX1262 XTAL_TCXO PA126_AUTO 1 2 1 0) with
  | Some (ops, _) => map (fun ev => match ev with Sent a p => (1, a_hz a, a_sf a, Z.of_nat (length p)) | Listened a n m => (2, a_hz a, a_sf a, n) | _ => (3, 0, 0, 0) end)
      (snd (chip6_ops reset6 ops)) = [(1, 125000, 7, 23); (2, 125000, 7, 8); (1, 125000, 7, 16); (2, 125000, 7, 8); (1, 125000, 7, 18); (2, 125000, 7, 8); (2, 125000, 12, 8)]
  | None => False
  end.
Proof. split; [apply tunable_all|]; vm_compute; reflexivity. Qed.
(* a frame refused by the chip is not sent, the rest goes on *)
Example C58_refused_ex : let l := [OMode MODE_BOOT; OMode MODE_SLEEP; OMode MODE_TX; OTransmit 868100000 BW_125 7 1600 [1;2]; OMode MODE_SLEEP; OMode MODE_TX; OTransmit 868300000 BW_125 7 1600 [3]] in
  match calls126 (fun i n => negb (Nat.eqb i 3 && Nat.eqb n 9)) l (init126 SX1262 XTAL_TCXO PA126_AUTO 1 2 1 0) with
  | Some (ops, _) => map (fun ev => match ev with Sent _ p => p | _ => [] end) (snd (chip6_ops reset6 ops)) = [[3]]
  | None => False
  end.
Proof. vm_compute. reflexivity. Qed.

(* --- C59 ------------------------------------------------------------------------- *)

(* The power of a transmission is not above the requested one less the antenna
   gain, and less than 3 dB below it or below what the amplifier can give; for
   requests the amplifier can go down to, positive or of whole dBm.  In
   hundredths of a dBm; out_power7 is in tenths. *)
Theorem C59_sx127x_power_partial x s freq b sf eirp data : of7 (d7_type x) -> h_lora s = true -> h_mode s <> 0 -> h_reg s 32 = 0 -> h_reg s 33 = 8 ->
  0 <= freq < 1024000000 -> rate_ok b sf -> Z.of_nat (length data) <= 255 -> -32768 <= eirp - d7_gain x <= 32767 ->
  let p := eirp - d7_gain x in let pa := amp7 (d7_pa x) p in
  lowest7 (d7_type x) pa * 100 <= p -> (0 <= p \/ p mod 100 = 0) ->
  let w := out_power7 (d7_type x) (h_reg (fst (chip7_ops (d7_type x) s (transmit127 x freq b sf eirp data)))) in
  10 * w <= p /\ Z.min p (10 * highest7 (d7_type x) pa) - 10 * w < 300.
Proof. exact (PowerP.power_within x s freq b sf eirp data). Qed.
Print Assumptions C59_sx127x_power_partial.

(* the amplifier in use is the one the board is told of before *)
Theorem C59_sx127x_amplifier x s freq b sf eirp data : of7 (d7_type x) -> h_lora s = true -> h_mode s <> 0 -> h_reg s 32 = 0 -> h_reg s 33 = 8 ->
  0 <= freq < 1024000000 -> rate_ok b sf -> Z.of_nat (length data) <= 255 -> -32768 <= eirp - d7_gain x <= 32767 ->
  let boost := is_boost (amp7 (d7_pa x) (eirp - d7_gain x)) in
  hd_error (transmit127 x freq b sf eirp data) = Some (ChipMode (if boost then CHIP_TX_BOOST else CHIP_TX_RFO)) /\
  Z.testbit (h_reg (fst (chip7_ops (d7_type x) s (transmit127 x freq b sf eirp data))) 9) 7 = boost.
Proof. exact (PowerP.amplifier x s freq b sf eirp data). Qed.
Print Assumptions C59_sx127x_amplifier.

Definition awake7 : chip7 := mkChip7 true 1 (upd (fun _ => 0) 33 8) (fun _ => 0).
Definition power_of (ty : radio_type) (pa : pa127) (eirp : Z) : Z :=
  out_power7 ty (h_reg (fst (chip7_ops ty awake7 (transmit127 (mk127 ty MODE_TX XTAL_CRYSTAL pa 0) 868100000 BW_125 7 eirp [1])))).
Example C59_ex : map (power_of SX1272 PA_AUTO) [0; 500; 1400; 1600; 1700; 2000] = [0; 50; 140; 160; 170; 200] /\
  map (power_of SX1276 PA_AUTO) [0; 500; 1400; 1600; 1700; 2000] = [0; 50; 138; 160; 170; 200].
Proof. split; vm_compute; reflexivity. Qed.

(* requests below the range of the amplifier are exceeded, and so are negative
   ones that are not whole *)
Theorem C59_sx127x_power_refuted : 10 * power_of SX1276 PA_RFO (-150) > -150 /\ 10 * power_of SX1276 PA_BOOST 0 > 0.
Proof. split; vm_compute; reflexivity. Qed.
Print Assumptions C59_sx127x_power_refuted.

(* --- C60 ------------------------------------------------------------------------- *)

(* The level the SX126x is told to use is in the range of the amplifier, not
   above the requested power less the antenna gain and less than 1 dB below it. *)
Theorem C60_sx126x_power_partial x freq b sf eirp data : -32768 <= eirp - d6_gain x <= 32767 ->
  let p := eirp - d6_gain x in
  exists w, tx_params (transmit_cmds x freq b sf eirp data) = Some w /\ lowest6 (pa_used x) <= w <= highest6 (pa_used x) /\
  (lowest6 (pa_used x) * 100 <= p -> 0 <= p \/ p mod 100 = 0 -> 100 * w <= p /\ Z.min p (100 * highest6 (pa_used x)) - 100 * w < 100).
Proof. exact (PowerP.tx_params_within x freq b sf eirp data). Qed.
Print Assumptions C60_sx126x_power_partial.

Definition level_of (ty : radio_type) (pa : pa126) (eirp : Z) : option Z :=
  tx_params (transmit_cmds (init126 ty XTAL_CRYSTAL pa 1 2 1 0) 868100000 BW_125 7 eirp [1]).
Example C60_ex : map (level_of SX1262 PA126_AUTO) [-300; 0; 1450; 2200; 3000] = map Some [-3; 0; 14; 22; 22] /\
  map (level_of SX1261 PA126_AUTO) [-300; 0; 1450; 2200; 3000] = map Some [-3; 0; 14; 14; 14].
Proof. split; vm_compute; reflexivity. Qed.

Theorem C60_sx126x_power_refuted : level_of SX1262 PA126_AUTO (-150) = Some (-1) /\ level_of SX1262 PA126_AUTO (-1200) = Some (-9).
Proof. split; vm_compute; reflexivity. Qed.
Print Assumptions C60_sx126x_power_refuted.

(* LDL_SX126X_PA_AUTO of the WL55 takes the high power amplifier at any level *)
Theorem C60_wl55_auto_refuted : forall freq b sf eirp data, In (ChipMode CHIP_TX_BOOST) (transmit_cmds (init126 WL55 XTAL_CRYSTAL PA126_AUTO 1 2 1 0) freq b sf eirp data) /\
  ~ In (ChipMode CHIP_TX_RFO) (transmit_cmds (init126 WL55 XTAL_CRYSTAL PA126_AUTO 1 2 1 0) freq b sf eirp data).
Proof. exact PowerP.wl55_auto. Qed.
Print Assumptions C60_wl55_auto_refuted.

(* --- C61 ------------------------------------------------------------------------- *)

(* SX127x: the signal strength is right, the signal to noise ratio is right when
   it is not negative and 64 dB too high otherwise. *)
Theorem C61_sx127x_signal_partial x nb rssi snr max : of7 (d7_type x) -> 0 <= rssi < 256 -> 0 <= snr < 256 ->
  let m := snd (readBuffer127 x nb rssi snr max) in
  md_rssi m = rssi7 (d7_type x) rssi /\ md_snr m = (if snr <? 128 then snr_of snr else snr / 4).
Proof. exact (PowerP.meta7 x nb rssi snr max). Qed.
Print Assumptions C61_sx127x_signal_partial.

(* SX126x: the signal to noise ratio is right, the signal strength is wrong for
   all but three values. *)
Theorem C61_sx126x_signal_partial ok n ra snr sig max r : 0 <= snr < 256 -> 0 <= sig < 256 ->
  snd (readBuffer126 ok n ra snr sig max) = Some r ->
  md_snr r = snr_of snr /\ (md_rssi r = rssi6 sig <-> sig = 0 \/ sig = 1 \/ sig = 128).
Proof. exact (PowerP.meta6 ok n ra snr sig max r). Qed.
Print Assumptions C61_sx126x_signal_partial.

(* a frame 5 dB below the noise; a frame at -100 dBm *)
Theorem C61_signal_refuted : (forall x nb rssi max, snr_of 0xec = -5 /\ md_snr (snd (readBuffer127 x nb rssi 0xec max)) = 59) /\
  (exists r, snd (readBuffer126 (fun _ => true) 10 200 20 200 255) = Some r /\ rssi6 200 = -100 /\ md_rssi r = -28).
Proof. split; [split; reflexivity|]. eexists. split; [vm_compute; reflexivity|split; vm_compute; reflexivity]. Qed.
Print Assumptions C61_signal_refuted.

Example C61_ex : snd (readBuffer127 (init127 SX1276 XTAL_CRYSTAL PA_AUTO 0) 10 100 20 255) = mkMeta (-57) 5.
Proof. reflexivity. Qed.

(* --- C62 ------------------------------------------------------------------------- *)

(* SX127x: the length read is the length received but not more than the buffer
   has room for, and that many bytes are taken from the FIFO. *)
Theorem C62_sx127x_length x nb rssi snr max : 0 <= nb -> 0 <= max ->
  let '(ops, n, _) := readBuffer127 x nb rssi snr max in
  n = Z.min nb max /\ (n = 0 \/ In (burstRead RegFifo n) ops).
Proof. exact (PowerP.length7 x nb rssi snr max). Qed.
Print Assumptions C62_sx127x_length.
Example C62_sx127x_ex : snd (fst (readBuffer127 (init127 SX1276 XTAL_CRYSTAL PA_AUTO 0) 300 100 20 255)) = 255.
Proof. reflexivity. Qed.

(* SX126x: the same as long as GetPacketStatus is accepted *)
Theorem C62_sx126x_length_partial ok n ra snr sig max : ok 1%nat = true -> 0 <= n -> 0 <= max ->
  let '(len, stored, meta) := readBuffer126 ok n ra snr sig max in
  len <= max /\ (len = 0 \/ stored = Some len /\ meta <> None).
Proof. exact (PowerP.length6 ok n ra snr sig max). Qed.
Print Assumptions C62_sx126x_length_partial.
Example C62_sx126x_ex : readBuffer126 (fun _ => true) 20 0 0 0 255 = (20, Some 20, Some (mkMeta 0 0)).
Proof. reflexivity. Qed.

(* otherwise the length is returned, even beyond the buffer, and nothing is stored *)
Theorem C62_sx126x_length_refuted : readBuffer126 (fun n => negb (Nat.eqb n 1)) 40 0 0 0 32 = (40, None, None).
Proof. reflexivity. Qed.
Print Assumptions C62_sx126x_length_refuted.

(* the interrupt flags, by the bits of the data sheets *)
Theorem C62_sx127x_status f : getStatus127 f = mkStatus (Z.testbit f 3) (Z.testbit f 6) (Z.testbit f 7).
Proof. exact (PowerP.status7 f). Qed.
Print Assumptions C62_sx127x_status.
Theorem C62_sx126x_status hi lo : 0 <= hi < 256 -> 0 <= lo < 256 ->
  getStatus126 true hi lo = mkStatus (Z.testbit lo 0) (Z.testbit lo 1) (Z.testbit hi 1).
Proof. exact (PowerP.status6 hi lo). Qed.
Print Assumptions C62_sx126x_status.
Example C62_status_ex : getStatus127 64 = mkStatus false true false /\ getStatus126 true 2 0 = mkStatus false false true.
Proof. split; reflexivity. Qed.

(* every one of the 32 readings gives one bit of the entropy *)
Theorem C62_sx127x_entropy vs i : length vs = 32%nat -> (i < 32)%nat ->
  Z.testbit (snd (readEntropy127 vs)) (Z.of_nat i) = Z.testbit (nth (31 - i) vs 0) 0.
Proof. exact (PowerP.entropy7_bits vs i). Qed.
Print Assumptions C62_sx127x_entropy.
Example C62_entropy_ex : snd (readEntropy127 (repeat 7 32)) = 4294967295.
Proof. vm_compute. reflexivity. Qed.

(* --- C63 ------------------------------------------------------------------------- *)

(* The image calibration covers every frequency of the four regions. *)
Theorem C63_image_covers r freq : band_of_region r freq -> image_covers (CalibrateImage freq) freq.
Proof. exact (PowerP.image_ok r freq). Qed.
Print Assumptions C63_image_covers.
Example C63_covers_ex : band_of_region EU_863_870 868100000 /\ image_covers (CalibrateImage 868100000) 868100000.
Proof. split; cbn; lia. Qed.

(* It comes before anything else after a cold start and is not dropped before
   the chip accepted it. *)
Theorem C63_image_first x y n l : (n = MODE_RX \/ n = MODE_TX) -> d6_mode x = MODE_SLEEP -> setMode126 x n = Some (l, y) ->
  (forall ok freq b sf eirp data, exists rest, transmit_cmds y freq b sf eirp data = SetPacketType_LORA :: CalibrateImage freq :: rest /\
     (d6_pending (snd (transmit126 ok y freq b sf eirp data)) = false -> ok 0%nat = true /\ ok 1%nat = true)) /\
  (forall ok freq b sf t max, exists rest, receive_cmds y freq b sf t max = ChipMode CHIP_RX :: SetPacketType_LORA :: CalibrateImage freq :: rest /\
     (d6_pending (snd (receive126 ok y freq b sf t max)) = false -> ok 0%nat = true /\ ok 1%nat = true)).
Proof. exact (PowerP.image_first x y n l). Qed.
Print Assumptions C63_image_first.
Example C63_first_ex : exists l y, setMode126 (set_d6_mode MODE_SLEEP (init126 SX1262 XTAL_TCXO PA126_AUTO 1 2 1 0)) MODE_TX = Some (l, y).
Proof. do 2 eexists. reflexivity. Qed.
