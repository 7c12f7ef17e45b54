(* What the radio chips do with the commands they are given, from the Semtech
   SX1272, SX1276 and SX1261/2 data sheets: only what decides which LoRa packets
   are sent and listened for. *)
From Verif Require Import Words RegionM MacStateM ChipM.

(* how a packet is sent or expected: the frequency in units of 32 MHz / 2^25,
   the bandwidth in Hz, the coding rate 4/(4+cr) *)
Record lora_air := mkAir {
  a_frf : Z;
  a_hz : Z;
  a_sf : Z;
  a_cr : Z;
  a_preamble : Z;
  a_explicit : bool;      (* has a header *)
  a_crc : bool;           (* has a payload CRC *)
  a_ldro : bool;          (* low data rate optimisation *)
  a_inverted : bool;      (* I and Q exchanged *)
  a_public : bool         (* the sync word of LoRaWAN *)
}.
Inductive radio_event :=
| Sent (a : lora_air) (payload : bytes)
| Listened (a : lora_air) (symbols max : Z)
| Sampled                 (* receiver on without looking for a packet *)
| Fsk.                    (* transmitter or receiver on, but not in LoRa mode *)

Definition upd (f : Z -> Z) (r v : Z) : Z -> Z := fun q => if q =? r then v else f q.

(* --- SX1272 and SX1276 --- *)

Definition of7 (ty : radio_type) : Prop := ty = SX1272 \/ ty = SX1276.

(* The LongRangeMode bit and the mode of RegOpMode, the other registers, the
   FIFO.  Registers 0x0d to 0x3f are those of the LoRa page. *)
Record chip7 := mkChip7 { h_lora : bool; h_mode : Z; h_reg : Z -> Z; h_fifo : Z -> Z }.

(* after power on and after reset: FSK mode, standby, a preamble of 8 *)
Definition reset7 : chip7 := mkChip7 false 1 (upd (fun _ => 0) 33 8) (fun _ => 0).

(* the fields of RegModemConfig1, 2 and 3, which differ between the chips *)
Definition bw7 (ty : radio_type) (r : Z -> Z) : Z :=
  match ty with
  | SX1272 => match Z.shiftr (r 29) 6 with 0 => 125000 | 1 => 250000 | 2 => 500000 | _ => 0 end
  | _ => match Z.shiftr (r 29) 4 with 7 => 125000 | 8 => 250000 | 9 => 500000 | _ => 0 end
  end.
Definition cr7 (ty : radio_type) (r : Z -> Z) : Z :=
  match ty with SX1272 => Z.land (Z.shiftr (r 29) 3) 7 | _ => Z.land (Z.shiftr (r 29) 1) 7 end.
Definition implicit7 (ty : radio_type) (r : Z -> Z) : bool :=
  match ty with SX1272 => Z.testbit (r 29) 2 | _ => Z.testbit (r 29) 0 end.
Definition crc7 (ty : radio_type) (r : Z -> Z) : bool :=
  match ty with SX1272 => Z.testbit (r 29) 1 | _ => Z.testbit (r 30) 2 end.
Definition ldro7 (ty : radio_type) (r : Z -> Z) : bool :=
  match ty with SX1272 => Z.testbit (r 29) 0 | _ => Z.testbit (r 38) 3 end.
(* RegInvertIQ: bit 6 inverts the receiver; the transmitter is inverted when
   bit 0 is clear *)
Definition air7 (ty : radio_type) (r : Z -> Z) (inv : bool) : lora_air :=
  mkAir (64 * (65536 * r 6 + 256 * r 7 + r 8)) (bw7 ty r) (Z.shiftr (r 30) 4) (cr7 ty r)
    (256 * r 32 + r 33) (negb (implicit7 ty r)) (crc7 ty r) (ldro7 ty r) inv (r 57 =? 52).

(* RegPayloadLength bytes of the FIFO from RegFifoTxBaseAddr *)
Definition payload7 (s : chip7) : bytes :=
  map (fun i => h_fifo s ((h_reg s 14 + Z.of_nat i) mod 256)) (seq 0 (Z.to_nat (h_reg s 34))).
Definition sent7 (ty : radio_type) (s : chip7) : radio_event :=
  Sent (air7 ty (h_reg s) (negb (Z.testbit (h_reg s 51) 0))) (payload7 s).
Definition listened7 (ty : radio_type) (s : chip7) : radio_event :=
  Listened (air7 ty (h_reg s) (Z.testbit (h_reg s 51) 6)) (256 * Z.land (h_reg s 30) 3 + h_reg s 31) (h_reg s 35).

(* one byte written to register r: LongRangeMode can only be changed in sleep
   mode, the FIFO is not accessible in sleep mode, RegFifoAddrPtr follows the
   FIFO *)
Definition write7 (ty : radio_type) (s : chip7) (r v : Z) : chip7 * list radio_event :=
  if r =? 1 then
    let s := mkChip7 (if h_mode s =? 0 then Z.testbit v 7 else h_lora s) (Z.land v 7) (h_reg s) (h_fifo s) in
    (s, match h_mode s with
        | 3 => [if h_lora s then sent7 ty s else Fsk]
        | 6 => [if h_lora s then listened7 ty s else Fsk]
        | 5 => [if h_lora s then Sampled else Fsk]
        | _ => []
        end)
  else if r =? 0 then
    if negb (h_lora s) || (h_mode s =? 0) then (s, [])
    else (mkChip7 (h_lora s) (h_mode s) (upd (h_reg s) 13 ((h_reg s 13 + 1) mod 256)) (upd (h_fifo s) (h_reg s 13) v), [])
  else if (13 <=? r) && (r <=? 63) && negb (h_lora s) then (s, [])
  else (mkChip7 (h_lora s) (h_mode s) (upd (h_reg s) r v) (h_fifo s), []).

(* a burst of bytes goes to consecutive registers, but into the FIFO from
   register 0 *)
Fixpoint burst7 (ty : radio_type) (s : chip7) (r : Z) (d : bytes) : chip7 * list radio_event :=
  match d with
  | [] => (s, [])
  | v :: d =>
      let '(s, a) := write7 ty s r v in
      let '(s, b) := burst7 ty s (if r =? 0 then 0 else r + 1) d in
      (s, a ++ b)
  end.

(* bit 7 of the address byte is set in a write *)
Definition chip7_op (ty : radio_type) (s : chip7) (o : chip_op) : chip7 * list radio_event :=
  match o with
  | ChipMode CHIP_RESET => (reset7, [])
  | ChipWrite [a] d => if Z.testbit a 7 then burst7 ty s (Z.land a 127) d else (s, [])
  | _ => (s, [])
  end.
Fixpoint chip7_ops (ty : radio_type) (s : chip7) (l : list chip_op) : chip7 * list radio_event :=
  match l with
  | [] => (s, [])
  | o :: l =>
      let '(s, a) := chip7_op ty s o in
      let '(s, b) := chip7_ops ty s l in
      (s, a ++ b)
  end.

(* --- SX1261, SX1262 and the radio of the WL55 --- *)

(* the LoRa settings; y_lora: the packet type is LoRa *)
Record chip6 := mkChip6 {
  y_lora : bool;
  y_frf : Z;
  y_mod : Z * Z * Z * Z;               (* spreading factor, bandwidth, coding rate, optimisation *)
  y_pkt : Z * Z * Z * Z * Z;           (* preamble, header type, length, CRC, IQ *)
  y_sync : Z;
  y_base : Z;
  y_symbols : Z;
  y_buffer : Z -> Z
}.
(* after reset, and after a sleep in which the configuration is not kept *)
Definition reset6 : chip6 := mkChip6 false 0 (0, 0, 0, 0) (0, 0, 0, 0, 0) 0 0 0 (fun _ => 0).

Definition air6 (s : chip6) : lora_air :=
  let '(sf, bw, cr, opt) := y_mod s in
  let '(pre, hdr, _, crc, iq) := y_pkt s in
  mkAir (y_frf s) (match bw with 4 => 125000 | 5 => 250000 | 6 => 500000 | _ => 0 end) sf cr pre
    (hdr =? 0) (crc =? 1) (opt =? 1) (iq =? 1) (y_sync s =? 13380).
Definition len6 (s : chip6) : Z := let '(_, _, n, _, _) := y_pkt s in n.
Definition payload6 (s : chip6) : bytes :=
  map (fun i => y_buffer s ((y_base s + Z.of_nat i) mod 256)) (seq 0 (Z.to_nat (len6 s))).

Fixpoint load6 (f : Z -> Z) (a : Z) (d : bytes) : Z -> Z :=
  match d with
  | [] => f
  | v :: d => load6 (upd f (a mod 256) v) (a + 1) d
  end.

(* a command the chip accepts; SetSleep keeps the configuration, but not the
   buffer, when bit 2 is set.  SetModulationParams and SetPacketParams are those
   of LoRa only after SetPacketType. *)
Definition chip6_cmd (s : chip6) (op d : bytes) : chip6 * list radio_event :=
  match op with
  | [132; k] =>
      (if Z.testbit k 2
       then mkChip6 (y_lora s) (y_frf s) (y_mod s) (y_pkt s) (y_sync s) (y_base s) (y_symbols s) (fun _ => 0)
       else reset6, [])
  | [138; k] => (mkChip6 (k =? 1) (y_frf s) (y_mod s) (y_pkt s) (y_sync s) (y_base s) (y_symbols s) (y_buffer s), [])
  | [134; f3; f2; f1; f0] =>
      (mkChip6 (y_lora s) (16777216 * f3 + 65536 * f2 + 256 * f1 + f0) (y_mod s) (y_pkt s) (y_sync s) (y_base s) (y_symbols s) (y_buffer s), [])
  | [139; a; b; c; e] =>
      (mkChip6 (y_lora s) (y_frf s) (if y_lora s then (a, b, c, e) else y_mod s) (y_pkt s) (y_sync s) (y_base s) (y_symbols s) (y_buffer s), [])
  | [140; p1; p0; h; n; c; i] =>
      (mkChip6 (y_lora s) (y_frf s) (y_mod s) (if y_lora s then (256 * p1 + p0, h, n, c, i) else y_pkt s) (y_sync s) (y_base s) (y_symbols s) (y_buffer s), [])
  | [143; t; _] => (mkChip6 (y_lora s) (y_frf s) (y_mod s) (y_pkt s) (y_sync s) t (y_symbols s) (y_buffer s), [])
  | [160; n] => (mkChip6 (y_lora s) (y_frf s) (y_mod s) (y_pkt s) (y_sync s) (y_base s) n (y_buffer s), [])
  | [13; 7; 64; a; b] => (mkChip6 (y_lora s) (y_frf s) (y_mod s) (y_pkt s) (256 * a + b) (y_base s) (y_symbols s) (y_buffer s), [])
  | [14; a] => (mkChip6 (y_lora s) (y_frf s) (y_mod s) (y_pkt s) (y_sync s) (y_base s) (y_symbols s) (load6 (y_buffer s) a d), [])
  | [131; _; _; _] => (s, [if y_lora s then Sent (air6 s) (payload6 s) else Fsk])
  | [130; _; _; _] => (s, [if y_lora s then Listened (air6 s) (y_symbols s) (len6 s) else Fsk])
  | _ => (s, [])
  end.
(* a refused command has no effect *)
Definition chip6_op (s : chip6) (o : chip_op * bool) : chip6 * list radio_event :=
  match o with
  | (ChipMode CHIP_RESET, _) => (reset6, [])
  | (ChipWrite op d, true) => chip6_cmd s op d
  | _ => (s, [])
  end.
Fixpoint chip6_ops (s : chip6) (l : list (chip_op * bool)) : chip6 * list radio_event :=
  match l with
  | [] => (s, [])
  | o :: l =>
      let '(s, a) := chip6_op s o in
      let '(s, b) := chip6_ops s l in
      (s, a ++ b)
  end.

(* --- what LoRaWAN asks for --- *)
Definition hz_of (b : bw) : Z := match b with BW_125 => 125000 | BW_250 => 250000 | BW_500 => 500000 end.
(* on a grid of g units, not above the frequency and less than one step below *)
Definition on_freq (g freq frf : Z) : Prop := frf * 32000000 <= freq * 33554432 < (frf + g) * 32000000.

(* the rates of LoRaWAN: all with symbols of up to 16 ms but SF11 and SF12 at 125 kHz *)
Definition rate_ok (b : bw) (sf : Z) : Prop := 7 <= sf <= 12 /\ ~ (b = BW_250 /\ sf = 12).

(* uplinks: header, CRC, not inverted; downlinks: header, no CRC, inverted.  The
   optimisation is for the rates with symbols longer than 16 ms. *)
Definition air_for (g freq : Z) (b : bw) (sf : Z) (up : bool) (a : lora_air) : Prop :=
  exists frf, on_freq g freq frf /\
  a = mkAir frf (hz_of b) sf 1 8 true up (2 ^ sf * 1000 >? 16 * hz_of b) (negb up) true.

(* the calls that use the antenna and what the chip does then, on a frequency
   grid of g, with the symbols to wait for the packet limited by sy *)
Definition on_air (o : out) : bool := match o with OEvent _ | OMode _ => false | _ => true end.
Definition asked (g : Z) (sy : Z -> Z) (o : out) (ev : radio_event) : Prop :=
  match o with
  | OTransmit freq b sf _ data => exists a, ev = Sent a data /\ air_for g freq b sf true a
  | OReceive freq b sf t max => exists a, ev = Listened a (sy t) max /\ air_for g freq b sf false a
  | OReceiveEntropy => match ev with Sampled | Listened _ _ _ => True | _ => False end
  | _ => False
  end.
(* the symbols each chip can be told to wait for a packet *)
Definition wait7 (t : Z) : Z := Z.max 8 (Z.min 1023 t).
Definition wait6 (t : Z) : Z := Z.min 255 t.
(* a frequency below a limit, and a time to wait that is one *)
Definition tunable (limit : Z) (o : out) : Prop :=
  match o with
  | OTransmit freq _ _ _ _ => 0 <= freq < limit
  | OReceive freq _ _ t _ => 0 <= freq < limit /\ 0 <= t
  | _ => True
  end.
(* the frequencies the registers can hold: 24 bits in steps of 64, 32 bits *)
Definition limit7 : Z := 1024000000.
Definition limit6 : Z := 4096000000.
(* the calls whose number is taken *)
Fixpoint kept (take : nat -> bool) (l : list out) : list out :=
  match l with
  | [] => []
  | o :: l => if take O then o :: kept (fun n => take (S n)) l else kept (fun n => take (S n)) l
  end.

(* --- output power --- *)

(* what the amplifiers of the SX127x give, in tenths of a dBm, for RegPaConfig
   and the register that adds 3 dB to the boosted amplifier *)
Definition out_power7 (ty : radio_type) (r : Z -> Z) : Z :=
  let pc := r 9 in
  let op := Z.land pc 15 in
  match ty with
  | SX1272 =>
      if Z.testbit pc 7 then 10 * (if r 90 =? 135 then 5 + op else 2 + op) else 10 * (op - 1)
  | _ =>
      if Z.testbit pc 7 then 10 * (if r 77 =? 135 then 5 + op else 2 + op)
      else 108 + 6 * Z.land (Z.shiftr pc 4) 7 - 10 * (15 - op)
  end.

(* the value of SetTxParams is a signed byte, in dBm *)
Fixpoint tx_params (l : list chip_op) : option Z :=
  match l with
  | [] => None
  | ChipWrite [142; p; _] _ :: _ => Some (s8 p)
  | _ :: l => tx_params l
  end.

(* --- reception --- *)

(* RegPktSnrValue of the SX127x and SnrPkt of the SX126x are four times the
   ratio, two's complement; RegPktRssiValue counts from the bottom of the scale,
   RssiPkt and SignalRssiPkt are minus twice the level *)
Definition snr_of (v : Z) : Z := Z.quot (s8 v) 4.
Definition rssi7 (ty : radio_type) (v : Z) : Z := v - match ty with SX1272 => 139 | _ => 157 end.
Definition rssi6 (v : Z) : Z := Z.quot (- v) 2.

(* the 4 MHz steps of CalibrateImage *)
Definition image_covers (o : chip_op) (freq : Z) : Prop :=
  match o with
  | ChipWrite [152; f1; f2] _ => 4000000 * f1 <= freq <= 4000000 * f2
  | _ => False
  end.
