(* Model of the helpers of /repo/src/ldl_radio.c used by the MAC *)
From Verif Require Import Words RegionM.

(* ldl_radio.c:177-196 LDL_Radio_bwToNumber *)
Definition bwToNumber (b : bw) : Z :=
  match b with BW_125 => 125000 | BW_250 => 250000 | BW_500 => 500000 end.

(* ldl_radio.c:90-118 LDL_Radio_getMinSNR (dB * 100) *)
Definition getMinSNR (sf : Z) : Z :=
  match sf with
  | 8 => -1000 | 9 => -1250 | 10 => -1500 | 11 => -1750 | 12 => -2000
  | _ => -750
  end.

(* ldl_radio.c:156: low data rate optimisation *)
Definition ldro (b : bw) (sf : Z) : bool :=
  match b with BW_125 => (sf =? 11) || (sf =? 12) | _ => false end.

(* ldl_radio.c:161 symbol period in microseconds, uint32_t arithmetic *)
Definition at_Ts (b : bw) (sf : Z) : Z :=
  u32 (u32 (Z.shiftl 1 sf) * 1000000) / bwToNumber b.
(* ldl_radio.c:162 *)
Definition at_Tpreamble (Ts : Z) : Z := u32 (u32 (Ts * 12) + Ts / 4).
(* ldl_radio.c:164, every operation wraps in uint32_t *)
Definition at_numerator (sf size : Z) (crc : bool) : Z :=
  u32 (u32 (u32 (u32 (8 * size) - u32 (4 * sf)) + 28 + (if crc then 16 else 0)) - 20).
(* ldl_radio.c:165 *)
Definition at_denom (b : bw) (sf : Z) : Z :=
  u32 (4 * u32 (sf - (if ldro b sf then 2 else 0))).
(* ldl_radio.c:167; LDL_CR_5 = 1 *)
Definition at_Npayload (num den : Z) : Z :=
  u32 (8 + u32 ((num / den + (if num mod den =? 0 then 0 else 1)) * (1 + 4))).

(* ldl_radio.c:120-175 LDL_Radio_getAirTime, milliseconds *)
Definition getAirTime (b : bw) (sf size : Z) (crc : bool) : Z :=
  let Ts := at_Ts b sf in
  let Tpre := at_Tpreamble Ts in
  let n := at_Npayload (at_numerator sf size crc) (at_denom b sf) in
  let Tpay := u32 (n * Ts) in
  let Tpacket := u32 (Tpre + Tpay) in
  u32 (Tpacket / 1000 + 1).
