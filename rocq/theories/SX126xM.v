(* Model of /repo/src/ldl_sx126x.c (SX1261, SX1262 and WL55 drivers).

   A driver function yields the calls it makes of the chip interface, in order.
   chip_write and chip_read report whether the chip accepted the command: ok n
   is the answer to the n-th of them.  Left out: LDL_ENABLE_RADIO_DEBUG. *)
From Verif Require Import Words RegionM RadioM MacStateM ChipM.

(* ldl_radio.h:138-142 *)
Inductive pa126 := PA126_AUTO | PA126_LP | PA126_HP.

(* the fields of struct ldl_radio (ldl_radio.h:196-243) this driver uses; the
   regulator, voltage and txen settings are the values written to the chip *)
Record sx126x := mk126 {
  d6_type : radio_type;
  d6_mode : radio_mode;
  d6_xtal : xtal;
  d6_pa : pa126;
  d6_regulator : Z;
  d6_voltage : Z;
  d6_txen : Z;
  d6_pending : bool;
  d6_gain : Z
}.
Definition set_d6_mode (m : radio_mode) (x : sx126x) : sx126x :=
  mk126 (d6_type x) m (d6_xtal x) (d6_pa x) (d6_regulator x) (d6_voltage x) (d6_txen x) (d6_pending x) (d6_gain x).
Definition set_d6_pending (b : bool) (x : sx126x) : sx126x :=
  mk126 (d6_type x) (d6_mode x) (d6_xtal x) (d6_pa x) (d6_regulator x) (d6_voltage x) (d6_txen x) b (d6_gain x).

(* ldl_sx126x.c:744-773 init_state *)
Definition init126 (ty : radio_type) (xt : xtal) (pa : pa126) (reg volt txen gain : Z) : sx126x :=
  mk126 ty MODE_RESET xt pa reg volt txen false gain.

(* a command without payload *)
Definition cmd (l : bytes) : chip_op := ChipWrite l [].

(* ldl_sx126x.c:906-914 SetSleep *)
Definition SetSleep (warm : bool) : chip_op := cmd [132; if warm then 4 else 0].
(* ldl_sx126x.c:916-924 SetStandby: STDBY_XOSC is 1 *)
Definition SetStandby_XOSC : chip_op := cmd [128; 1].
(* ldl_sx126x.c:926-936, 938-948: SetTx(0) and SetRx(0) *)
Definition SetTx0 : chip_op := cmd [131; 0; 0; 0].
Definition SetRx0 : chip_op := cmd [130; 0; 0; 0].
(* ldl_sx126x.c:1067-1075 SetRegulatorMode *)
Definition SetRegulatorMode (v : Z) : chip_op := cmd [150; v].
(* ldl_sx126x.c:1077-1085 Calibrate *)
Definition Calibrate (p : Z) : chip_op := cmd [137; Z.land p 127].
(* ldl_sx126x.c:1087-1126 CalibrateImage *)
Definition CalibrateImage (freq : Z) : chip_op :=
  let '(f1, f2) :=
    if freq <? 440000000 then (107, 111)
    else if freq <? 510000000 then (117, 129)
    else if freq <? 787000000 then (193, 197)
    else if freq <? 870000000 then (215, 219)
    else (225, 233) in
  cmd [152; f1; f2].
(* ldl_sx126x.c:1128-1139 SetPaConfig *)
Definition SetPaConfig (duty hp sel : Z) : chip_op := cmd [149; duty; hp; sel; 1].
(* ldl_sx126x.c:1141-1156 SetDioIrqParams with dio2 = dio3 = 0 *)
Definition SetDioIrqParams (irq dio1 : Z) : chip_op :=
  cmd [8; u8 (Z.shiftr irq 8); u8 irq; u8 (Z.shiftr dio1 8); u8 dio1; 0; 0; 0; 0].
(* ldl_sx126x.c:1181-1190 ClearIrqStatus(UINT16_MAX) *)
Definition ClearIrqStatus_all : chip_op := cmd [2; 255; 255].
(* ldl_sx126x.c:1193-1201 SetDIO2AsRfSwitchCtrl *)
Definition SetDIO2AsRfSwitchCtrl (v : Z) : chip_op := cmd [157; v].
(* ldl_sx126x.c:1204-1218 SetDIO3AsTcxoCtrl *)
Definition SetDIO3AsTcxoCtrl (v ms : Z) : chip_op :=
  let ticks := u32 (ms * 64) in
  cmd [151; v; u8 (Z.shiftr ticks 16); u8 (Z.shiftr ticks 8); u8 ticks].
(* ldl_sx126x.c:1220-1233 SetRfFrequency *)
Definition SetRfFrequency (freq : Z) : chip_op :=
  let f := u32 (Z.shiftl freq 25 / 32000000) in
  cmd [134; u8 (Z.shiftr f 24); u8 (Z.shiftr f 16); u8 (Z.shiftr f 8); u8 f].
(* ldl_sx126x.c:1235-1243 SetPacketType: PACKET_TYPE_LORA is 1 *)
Definition SetPacketType_LORA : chip_op := cmd [138; 1].
(* ldl_sx126x.c:1245-1254 SetTxParams: SET_RAMP_200U is 4 *)
Definition SetTxParams (power : Z) : chip_op := cmd [142; u8 power; 4].
(* ldl_sx126x.c:1256-1273 SetModulationParams with LDL_CR_5 = 1 *)
Definition SetModulationParams (b : bw) (sf : Z) : chip_op :=
  cmd [139; u8 sf; match b with BW_125 => 4 | BW_250 => 5 | BW_500 => 6 end; 1; if ldro b sf then 1 else 0].
(* ldl_sx126x.c:1275-1288 SetPacketParams with a preamble of 8 and a variable
   length header *)
Definition SetPacketParams (len : Z) (crc invert : bool) : chip_op :=
  cmd [140; 0; 8; 0; len; if crc then 1 else 0; if invert then 1 else 0].
(* ldl_sx126x.c:1290-1303 SetBufferBaseAddress(0, 0) *)
Definition SetBufferBaseAddress00 : chip_op := cmd [143; 0; 0].
(* ldl_sx126x.c:1305-1313 SetLoRaSymbNumTimeout *)
Definition SetLoRaSymbNumTimeout (n : Z) : chip_op := cmd [160; n].
(* ldl_sx126x.c:1495-1503 WriteBuffer at offset 0 *)
Definition WriteBuffer0 (d : bytes) : chip_op := ChipWrite [14; 0] d.
(* ldl_sx126x.c:1484-1493 ReadBuffer at offset 0 *)
Definition ReadBuffer0 (n : Z) : chip_op := ChipRead [30; 0; 0] n.
(* ldl_sx126x.c:1505-1516 SetSyncWord(0x3444) *)
Definition SetSyncWord : chip_op := cmd [13; 7; 64; 52; 68].

(* the do { ok = ...; if(!ok){ break; } ... } while(false) of lines 503-563,
   579-639, 654-671 and 687-697: the commands that reach the chip (the last one
   may have been refused) and whether all were accepted *)
Fixpoint attempt (ok : nat -> bool) (n : nat) (l : list chip_op) : list chip_op * bool :=
  match l with
  | [] => ([], true)
  | ChipMode m :: l => let '(a, b) := attempt ok n l in (ChipMode m :: a, b)
  | o :: l => if ok n then let '(a, b) := attempt ok (S n) l in (o :: a, b) else ([o], false)
  end.

(* ldl_platform.h:350 LDL_PARAM_XTAL_DELAY *)
Definition XTAL_DELAY := 25.

(* ldl_sx126x.c:410-452: leaving cold sleep *)
Definition cold_start (x : sx126x) : list chip_op :=
  [ChipMode CHIP_STANDBY; SetRegulatorMode (d6_regulator x)] ++
  (match d6_type x with SX1261 | SX1262 => [SetDIO2AsRfSwitchCtrl (d6_txen x)] | _ => [] end) ++
  (match d6_xtal x with
   | XTAL_TCXO => [SetDIO3AsTcxoCtrl (d6_voltage x) (XTAL_DELAY - 4); Calibrate 63]
   | XTAL_CRYSTAL => [SetStandby_XOSC]
   end).

(* ldl_sx126x.c:336-491 LDL_SX126X_setMode; None is LDL_ABORT.  The answers of
   the chip are ignored. *)
Definition setMode126 (x : sx126x) (mode : radio_mode) : option (list chip_op * sx126x) :=
  match mode with
  | MODE_RESET => Some ([ChipMode CHIP_RESET], set_d6_mode mode x)
  | MODE_BOOT =>
      match d6_mode x with
      | MODE_RESET => Some ([ChipMode CHIP_SLEEP], set_d6_mode mode x)
      | _ => None
      end
  | MODE_SLEEP =>
      match d6_mode x with
      | MODE_BOOT => Some ([SetSleep false], set_d6_mode mode x)
      | MODE_SLEEP => Some ([], set_d6_mode mode x)
      | MODE_RX | MODE_TX | MODE_HOLD =>
          Some ([ClearIrqStatus_all; SetSleep false; ChipMode CHIP_SLEEP], set_d6_mode mode x)
      | MODE_RESET => None
      end
  | MODE_RX | MODE_TX =>
      match d6_mode x with
      | MODE_BOOT | MODE_SLEEP => Some (cold_start x, set_d6_pending true (set_d6_mode mode x))
      | MODE_HOLD => Some ([ChipMode CHIP_STANDBY; SetStandby_XOSC], set_d6_mode mode x)
      | _ => None
      end
  | MODE_HOLD =>
      match d6_mode x with
      | MODE_RX | MODE_TX => Some ([ClearIrqStatus_all; SetSleep true], set_d6_mode mode x)
      | _ => None
      end
  end.

(* ldl_sx126x.c:775-904 SetPower: which amplifier.  On the WL55 both branches
   of the test of line 805 choose the high power one. *)
Definition pa_used (x : sx126x) : pa126 :=
  match d6_type x with
  | SX1261 => PA126_LP
  | SX1262 => PA126_HP
  | _ => match d6_pa x with PA126_AUTO => PA126_HP | p => p end
  end.
Definition clamp (lo hi v : Z) : Z := if v >? hi then hi else if v <? lo then lo else v.

(* ldl_sx126x.c:775-904 SetPower; the division rounds towards zero *)
Definition SetPower (x : sx126x) (dbm100 : Z) : list chip_op :=
  let dbm := Z.quot dbm100 100 in
  match pa_used x with
  | PA126_HP =>
      let p := clamp (-9) 22 dbm in
      let '(duty, hp) := if p >? 20 then (4, 7) else if p >? 17 then (3, 5) else if p >? 14 then (2, 3) else (2, 2) in
      [ChipMode CHIP_TX_BOOST; SetPaConfig duty hp 0; SetTxParams p]
  | _ =>
      let p := clamp (-17) 14 dbm in
      [ChipMode CHIP_TX_RFO; SetPaConfig (if p >? 10 then 4 else 1) 0 1; SetTxParams p]
  end.

(* ldl_sx126x.c:493-569 LDL_SX126X_transmit: the commands in order *)
Definition transmit_cmds (x : sx126x) (freq : Z) (b : bw) (sf eirp : Z) (data : bytes) : list chip_op :=
  [SetPacketType_LORA] ++
  (if d6_pending x then [CalibrateImage freq] else []) ++
  SetPower x (s16 (eirp - d6_gain x)) ++
  [SetBufferBaseAddress00; SetRfFrequency freq; WriteBuffer0 data; SetModulationParams b sf;
   SetPacketParams (u8 (Z.of_nat (length data))) true false; SetDioIrqParams 1 1; SetSyncWord; SetTx0].

(* ldl_sx126x.c:571-645 LDL_SX126X_receive: the commands in order *)
Definition symbols126 (t : Z) : Z := if t >? 255 then 255 else u8 t.
Definition receive_cmds (x : sx126x) (freq : Z) (b : bw) (sf timeout max : Z) : list chip_op :=
  [ChipMode CHIP_RX; SetPacketType_LORA] ++
  (if d6_pending x then [CalibrateImage freq] else []) ++
  [SetBufferBaseAddress00; SetRfFrequency freq; SetModulationParams b sf;
   SetPacketParams max false true; SetDioIrqParams 514 514; SetSyncWord;
   SetLoRaSymbNumTimeout (symbols126 timeout); SetRx0].

(* lines 508-514 and 586-592: the image calibration is done once *)
Definition calibrated (ok : nat -> bool) (x : sx126x) : sx126x :=
  set_d6_pending (d6_pending x && negb (ok 0%nat && ok 1%nat)) x.

Definition transmit126 (ok : nat -> bool) (x : sx126x) (freq : Z) (b : bw) (sf eirp : Z) (data : bytes)
    : list chip_op * bool * sx126x :=
  (attempt ok 0 (transmit_cmds x freq b sf eirp data), calibrated ok x).
Definition receive126 (ok : nat -> bool) (x : sx126x) (freq : Z) (b : bw) (sf timeout max : Z)
    : list chip_op * bool * sx126x :=
  (attempt ok 0 (receive_cmds x freq b sf timeout max), calibrated ok x).

(* ldl_sx126x.c:647-679, with GetPacketStatus 1337-1358 LDL_SX126X_readBuffer.  n is the length reported by
   GetRxBufferStatus, st the three bytes of GetPacketStatus.  The result is the
   length returned, the number of bytes placed in the buffer (None: the buffer
   was not written), and the metadata (None: not written). *)
Definition readBuffer126 (ok : nat -> bool) (n rssi_avg snr sig max : Z) : Z * option Z * option metadata :=
  if ok 0%nat then
    if ok 1%nat then
      let meta := mkMeta (s16 (Z.quot (s8 sig) 2)) (s16 (Z.quot (s8 snr) 4)) in
      let size := if n >? max then max else n in
      if ok 2%nat then (size, Some size, Some meta) else (0, None, Some meta)
    else (n, None, None)
  else (0, None, None).

(* ldl_sx126x.c:681-703 LDL_SX126X_receiveEntropy: the commands in order *)
Definition receiveEntropy_cmds : list chip_op :=
  [ChipMode CHIP_RX; SetPacketType_LORA; SetDioIrqParams 0 0; SetRx0].

(* ldl_sx126x.c:705-721 LDL_SX126X_readEntropy: four bytes from REG_RANDOM_NUMBER_GEN_0 (0x0819),
   stored as they come (little endian machines) *)
Definition readEntropy126 (ok : bool) (b0 b1 b2 b3 : Z) : chip_op * Z :=
  (ChipRead [29; 8; 25; 0] 4, if ok then b0 + 256 * (b1 + 256 * (b2 + 256 * b3)) else 0).

(* ldl_sx126x.c:723-739 LDL_SX126X_getStatus, with GetIrqStatus 1158-1179: hi and lo are the bytes read *)
Definition getStatus126 (ok : bool) (hi lo : Z) : radio_status :=
  let irq := Z.lor (u16 (Z.shiftl hi 8)) lo in
  if ok then mkStatus (Z.land irq 1 >? 0) (Z.land irq 2 >? 0) (Z.land irq 512 >? 0)
  else mkStatus false false false.
