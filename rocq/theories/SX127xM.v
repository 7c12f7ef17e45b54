(* Model of /repo/src/ldl_sx127x.c (SX1272 and SX1276 drivers).

   A driver function yields the calls it makes of the chip interface, in order;
   what the chip answers to a read is an argument.  The return values of
   chip_write and chip_read are ignored by this driver, as here.  Left out: the
   register log and the read-backs of LDL_ENABLE_RADIO_DEBUG. *)
From Verif Require Import Words RegionM RadioM MacStateM ChipM.

(* ldl_radio.h:131-135 *)
Inductive pa127 := PA_AUTO | PA_RFO | PA_BOOST.

(* the fields of struct ldl_radio (ldl_radio.h:196-243) this driver uses *)
Record sx127x := mk127 {
  d7_type : radio_type;
  d7_mode : radio_mode;
  d7_xtal : xtal;
  d7_pa : pa127;
  d7_gain : Z
}.

(* ldl_sx127x.c:668-689 init_state: memset leaves the mode 0, which is
   LDL_RADIO_MODE_RESET (ldl_radio.h:82-84) *)
Definition init127 (ty : radio_type) (xt : xtal) (pa : pa127) (gain : Z) : sx127x :=
  mk127 ty MODE_RESET xt pa gain.

(* ldl_sx127x.c:30-139, the registers used *)
Definition RegFifo := 0.
Definition RegOpMode := 1.
Definition RegFrfMsb := 6.
Definition RegFrfMid := 7.
Definition RegFrfLsb := 8.
Definition RegPaConfig := 9.
Definition RegLna := 12.
Definition RegFifoAddrPtr := 13.
Definition RegFifoTxBaseAddr := 14.
Definition RegIrqFlagsMask := 17.
Definition RegIrqFlags := 18.
Definition RegRxNbBytes := 19.
Definition RegPktSnrValue := 25.
Definition RegPktRssiValue := 26.
Definition RegModemConfig1 := 29.
Definition RegModemConfig2 := 30.
Definition RegSymbTimeoutLsb := 31.
Definition RegPayloadLength := 34.
Definition RegPayloadMaxLength := 35.
Definition RegModemConfig3 := 38.
Definition RegRssiWideband := 44.
Definition RegInvertIQ := 51.
Definition RegSyncWord := 57.
Definition RegDioMapping1 := 64.
Definition SX1276RegTcxo := 75.
Definition SX1272RegTcxo := 88.
Definition SX1276RegPaDac := 77.
Definition SX1272RegPaDac := 90.

(* ldl_sx127x.c:1048-1057 writeReg *)
Definition writeReg (r v : Z) : chip_op := ChipWrite [Z.lor r 128] [v].
(* ldl_sx127x.c:1059-1068 burstWrite *)
Definition burstWrite (r : Z) (d : bytes) : chip_op := ChipWrite [Z.lor r 128] d.
(* ldl_sx127x.c:1023-1035 readReg *)
Definition readReg (r : Z) : chip_op := ChipRead [Z.land r 127] 1.
(* ldl_sx127x.c:1037-1046 burstRead *)
Definition burstRead (r n : Z) : chip_op := ChipRead [Z.land r 127] n.

(* ldl_sx127x.c:691-715 setOpSleep, setOpStandby, setOpTX, setOpRXContinuous,
   setOpRXSingle *)
Definition opSleep : list chip_op := [writeReg RegOpMode 128; writeReg RegOpMode 128].
Definition opStandby : list chip_op := [writeReg RegOpMode 129].
Definition opTX : list chip_op := [writeReg RegOpMode 131].
Definition opRXContinuous : list chip_op := [writeReg RegOpMode 133].
Definition opRXSingle : list chip_op := [writeReg RegOpMode 134].

(* ldl_sx127x.c:1070-1108 setXTALReg and setXTAL; v is the value read *)
Definition setXTAL (x : sx127x) (v : Z) : list chip_op :=
  let reg := match d7_type x with SX1272 => SX1272RegTcxo | _ => SX1276RegTcxo end in
  readReg reg ::
  (if Z.land v 16 >? 0
   then match d7_xtal x with XTAL_CRYSTAL => [writeReg reg (u8 (Z.land v (-17)))] | _ => [] end
   else match d7_xtal x with XTAL_TCXO => [writeReg reg (Z.lor v 16)] | _ => [] end).

(* ldl_sx127x.c:229-368 LDL_SX127X_setMode; None is LDL_ABORT.  v is the value
   of the TCXO register. *)
Definition setMode127 (x : sx127x) (v : Z) (mode : radio_mode) : option (list chip_op) :=
  match mode with
  | MODE_RESET => Some [ChipMode CHIP_RESET]
  | MODE_BOOT =>
      match d7_mode x with
      | MODE_RESET => Some [ChipMode CHIP_SLEEP]
      | _ => None
      end
  | MODE_SLEEP =>
      match d7_mode x with
      | MODE_BOOT => Some (opSleep ++ [ChipMode CHIP_SLEEP])
      | MODE_SLEEP => Some []
      | MODE_RX | MODE_TX =>
          Some ([writeReg RegIrqFlags 255; writeReg RegIrqFlagsMask 255; ChipMode CHIP_SLEEP] ++ opSleep)
      | MODE_HOLD => Some (ChipMode CHIP_SLEEP :: opSleep)
      | MODE_RESET => None
      end
  | MODE_RX | MODE_TX =>
      match d7_mode x with
      | MODE_SLEEP =>
          Some (ChipMode CHIP_STANDBY ::
                (match d7_xtal x with XTAL_TCXO => setXTAL x v | _ => [] end) ++ opStandby)
      | MODE_HOLD => Some (match d7_xtal x with XTAL_CRYSTAL => opStandby | _ => [] end)
      | _ => None
      end
  | MODE_HOLD =>
      match d7_mode x with
      | MODE_RX | MODE_TX =>
          Some ([ChipMode CHIP_STANDBY; writeReg RegIrqFlags 255; writeReg RegIrqFlagsMask 255] ++
                (match d7_xtal x with XTAL_CRYSTAL => opSleep | _ => [] end))
      | _ => None
      end
  end.

(* ldl_sx127x.c:718-797 SX1272_setPower and 838-950 SX1276_setPower: the PA
   used, RegPaConfig and RegPaDac for dbm in units of 0.01 dBm *)
Definition pa_of (pa : pa127) (dbm : Z) : pa127 :=
  match pa with
  | PA_AUTO => if dbm <=? 14 then PA_RFO else PA_BOOST
  | p => p
  end.

(* ldl_sx127x.c:738-753 *)
Definition rfo1272 (dbm : Z) : Z :=
  if dbm >=? 14 then 15
  else if dbm >=? -1 then Z.land (u8 dbm + 1) 15
  else 0.
(* ldl_sx127x.c:763-789: RegPaConfig and RegPaDac *)
Definition boost1272 (dbm : Z) : Z * Z :=
  if dbm >=? 20 then (Z.lor 128 15, 135)
  else (Z.lor 128 (if dbm >? 17 then 15 else if dbm <? 2 then 0 else u8 (u8 dbm - 2)), 132).
(* ldl_sx127x.c:868-905 *)
Definition rfo1276 (dbm : Z) : Z :=
  if dbm >=? 14 then 95
  else if dbm =? 13 then 94
  else if dbm >=? -3 then u8 (Z.lor 32 (u8 dbm + 3))
  else 16.
(* ldl_sx127x.c:917-943 *)
Definition boost1276 (dbm : Z) : Z * Z :=
  let pc := Z.lor 128 64 in
  if dbm >=? 20 then (Z.lor pc 15, 135)
  else (Z.lor pc (if dbm >? 17 then 15 else if dbm <? 2 then 64 else u8 (u8 dbm - 2)), 132).

(* ldl_sx127x.c:718-797, 838-950; the division rounds towards zero *)
Definition setPower (x : sx127x) (dbm100 : Z) : list chip_op :=
  let dbm := Z.quot dbm100 100 in
  match d7_type x with
  | SX1272 =>
      match pa_of (d7_pa x) dbm with
      | PA_BOOST =>
          [ChipMode CHIP_TX_BOOST; writeReg RegPaConfig (fst (boost1272 dbm));
           writeReg SX1272RegPaDac (snd (boost1272 dbm))]
      | _ => [ChipMode CHIP_TX_RFO; writeReg RegPaConfig (rfo1272 dbm); writeReg SX1272RegPaDac 132]
      end
  | _ =>
      match pa_of (d7_pa x) dbm with
      | PA_BOOST =>
          [ChipMode CHIP_TX_BOOST; writeReg RegPaConfig (fst (boost1276 dbm));
           writeReg SX1276RegPaDac (snd (boost1276 dbm))]
      | _ => [ChipMode CHIP_TX_RFO; writeReg RegPaConfig (rfo1276 dbm); writeReg SX1276RegPaDac 132]
      end
  end.

(* ldl_sx127x.c:799-835 and 952-996: RegModemConfig1, 2 and 3.  ldro is
   bw = 125 kHz with spreading factor 11 or 12, as in the air time *)
Definition modemConfig (ty : radio_type) (b : bw) (sf : Z) (crc : bool) (timeout : Z) : list chip_op :=
  let sf4 := u8 (Z.shiftl (Z.land (u8 sf) 15) 4) in
  let msb := Z.land (u8 (Z.shiftr timeout 8)) 3 in
  match ty with
  | SX1272 =>
      let bw := match b with BW_125 => 0 | BW_250 => 64 | BW_500 => 128 end in
      [writeReg RegModemConfig1
         (Z.lor (Z.lor (Z.lor bw 8) (if crc then 2 else 0)) (if ldro b sf then 1 else 0));
       writeReg RegModemConfig2 (Z.lor (Z.lor sf4 4) msb)]
  | _ =>
      let bw := match b with BW_125 => 112 | BW_250 => 128 | BW_500 => 144 end in
      [writeReg RegModemConfig1 (Z.lor bw 2);
       writeReg RegModemConfig2 (Z.lor (Z.lor sf4 (if crc then 4 else 0)) msb);
       writeReg RegModemConfig3 (Z.lor (if ldro b sf then 8 else 0) 4)]
  end.

(* ldl_sx127x.c:998-1005 setFreq; uint64_t arithmetic, no overflow for a 32 bit
   frequency *)
Definition setFreq (freq : Z) : list chip_op :=
  let f := u32 (Z.shiftl freq 19 / 32000000) in
  [writeReg RegFrfMsb (u8 (Z.shiftr f 16)); writeReg RegFrfMid (u8 (Z.shiftr f 8));
   writeReg RegFrfLsb (u8 f)].

(* ldl_sx127x.c:370-449 LDL_SX127X_transmit; len is a uint8_t *)
Definition transmit127 (x : sx127x) (freq : Z) (b : bw) (sf eirp : Z) (data : bytes) : list chip_op :=
  setPower x (s16 (eirp - d7_gain x)) ++
  modemConfig (d7_type x) b sf true 0 ++
  [writeReg RegSyncWord 52; writeReg RegInvertIQ 39; writeReg RegDioMapping1 64;
   writeReg RegIrqFlags 255; writeReg RegIrqFlagsMask 247; writeReg RegFifoTxBaseAddr 0;
   writeReg RegFifoAddrPtr 0; writeReg RegPayloadLength (u8 (Z.of_nat (length data)));
   burstWrite RegFifo data] ++
  setFreq freq ++ opTX.

(* ldl_sx127x.c:459-472 *)
Definition symbols127 (t : Z) : Z := if t >? 1023 then 1023 else if t <? 8 then 8 else t.

(* ldl_sx127x.c:451-543 LDL_SX127X_receive *)
Definition receive127 (x : sx127x) (freq : Z) (b : bw) (sf timeout max : Z) : list chip_op :=
  let t := symbols127 timeout in
  ChipMode CHIP_RX :: modemConfig (d7_type x) b sf false t ++
  [writeReg RegSymbTimeoutLsb (u8 t); writeReg RegSyncWord 52; writeReg RegLna 35;
   writeReg RegPayloadMaxLength max; writeReg RegInvertIQ (64 + 39); writeReg RegDioMapping1 0;
   writeReg RegIrqFlags 255; writeReg RegIrqFlagsMask 63; writeReg RegFifoAddrPtr 0] ++
  setFreq freq ++ opRXSingle.

(* ldl_sx127x.c:1007-1021 readFIFO: nb is RegRxNbBytes *)
Definition fifo_size (nb max : Z) : Z := if nb >? max then max else nb.
Definition readFIFO (nb max : Z) : list chip_op :=
  readReg RegRxNbBytes ::
  (if fifo_size nb max >? 0 then [writeReg RegFifoAddrPtr 0; burstRead RegFifo (fifo_size nb max)] else []).

(* ldl_sx127x.c:545-585 LDL_SX127X_readBuffer: calls, length and metadata for
   the values nb, rssi and snr of RegRxNbBytes, RegPktRssiValue and
   RegPktSnrValue *)
Definition readBuffer127 (x : sx127x) (nb rssi snr max : Z) : list chip_op * Z * metadata :=
  (readFIFO nb max ++ [readReg RegPktRssiValue; readReg RegPktSnrValue],
   fifo_size nb max,
   mkMeta (s16 (s16 rssi - match d7_type x with SX1272 => 139 | _ => 157 end)) (Z.quot (s16 snr) 4)).

(* ldl_sx127x.c:587-622 LDL_SX127X_receiveEntropy *)
Definition receiveEntropy127 (x : sx127x) : list chip_op :=
  [ChipMode CHIP_RX; writeReg RegIrqFlags 255; writeReg RegIrqFlagsMask 255] ++
  match d7_type x with
  | SX1272 => [writeReg RegModemConfig1 10; writeReg RegModemConfig2 116]
  | _ => [writeReg RegModemConfig1 114; writeReg RegModemConfig2 112]
  end ++ opRXContinuous.

(* ldl_sx127x.c:637-641: one bit from each of the values of RegRssiWideband *)
Definition entropy_bits (vs : list Z) : Z :=
  fold_left (fun acc v => Z.lor (u32 (Z.shiftl acc 1)) (Z.land v 1)) vs 0.

(* ldl_sx127x.c:624-653 LDL_SX127X_readEntropy: the 32 values are arguments *)
Definition readEntropy127 (vs : list Z) : list chip_op * Z :=
  (repeat (readReg RegRssiWideband) 32 ++ opStandby ++
   [ChipMode CHIP_STANDBY; writeReg RegIrqFlags 255; writeReg RegIrqFlagsMask 255],
   entropy_bits (firstn 32 vs)).

(* ldl_sx127x.c:655-664 LDL_SX127X_getStatus: flags is RegIrqFlags *)
Definition getStatus127 (flags : Z) : radio_status :=
  mkStatus (Z.land flags 8 >? 0) (Z.land flags 64 >? 0) (Z.land flags 128 >? 0).
