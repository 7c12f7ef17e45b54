(* LoRaWAN Regional Parameters for the four regions: frequency plan, data
   rates, RX1 data rate.  Frequencies in hertz. *)
From Coq Require Import ZArith List Bool.
From Verif Require Import Words RegionM MacStateM.
Import ListNotations.
Open Scope Z_scope.

(* limits of the regulatory band *)
Definition in_region (r : region) (f : Z) : Prop :=
  match r with
  | EU_863_870 => 863000000 < f < 870000000
  | EU_433 => 433050000 <= f <= 434790000
  | US_902_928 => 902000000 < f < 928000000
  | AU_915_928 => 915000000 < f < 928000000
  end.

(* uplink channels of the fixed plans: frequency, lowest and highest rate *)
Definition fixed_channel (r : region) (ch : Z) : option (Z * Z * Z) :=
  match r with
  | US_902_928 =>
      if ch <? 64 then Some (902300000 + 200000 * ch, 0, 3)
      else if ch <? 72 then Some (903000000 + 1600000 * (ch - 64), 4, 4) else None
  | AU_915_928 =>
      if ch <? 64 then Some (915200000 + 200000 * ch, 0, 5)
      else if ch <? 72 then Some (915900000 + 1600000 * (ch - 64), 6, 6) else None
  | _ => None
  end.

(* uplink rates of the region *)
Definition uplink_rate (r : region) (rate : Z) : Prop :=
  match r with
  | EU_863_870 | EU_433 => 0 <= rate <= 5
  | US_902_928 => 0 <= rate <= 4
  | AU_915_928 => 0 <= rate <= 6
  end.

(* rates and offsets for which RX1 is defined, and the RX1 data rate *)
Definition rx1_defined (r : region) (up off : Z) : Prop :=
  match r with
  | EU_863_870 | EU_433 => 0 <= up <= 7 /\ 0 <= off <= 5
  | US_902_928 => 0 <= up <= 4 /\ 0 <= off <= 3
  | AU_915_928 => 0 <= up <= 6 /\ 0 <= off <= 5
  end.
Definition rx1_rate (r : region) (up off : Z) : Z :=
  match r with
  | EU_863_870 | EU_433 => Z.max 0 (up - off)
  | US_902_928 => Z.max 8 (Z.min 13 (up + 10 - off))
  | AU_915_928 => Z.max 8 (Z.min 13 (up + 8 - off))
  end.

(* the EU 863-870 sub-bands with a duty cycle limit (ERC 70-03), as closed or
   half open intervals, and the limit as "one part in" *)
Definition eu_subband (f : Z) : option Z :=
  if (863000000 <=? f) && (f <=? 868600000) then Some 100
  else if (868700000 <=? f) && (f <=? 869200000) then Some 1000
  else if (869400000 <=? f) && (f <=? 869650000) then Some 10
  else if (869700000 <=? f) && (f <? 870000000) then Some 100
  else None.

(* frequency, band and rates of a channel are those of the region *)
Definition chan_valid (r : region) (ch f lo hi : Z) : Prop :=
  in_region r f /\ (exists b, getBand r f = Some b /\ 0 <= b < 5) /\
  uplink_rate r lo /\ uplink_rate r hi /\ lo <= hi /\ 0 <= ch < numChannels r /\
  validateFreq r f = true /\ validateRate r ch lo hi = true.

(* outcome of storing frequency f with rates 0..5 *)
Definition stored (r : region) (f : Z) (old : option (Z * Z * Z)) : option (Z * Z * Z) :=
  if f =? 0 then Some (0, 0, 0) else if validateFreq r f then Some (f, 0, 5) else old.

(* bit ch of the five little endian masks of a CFList of type 1 *)
Definition cf_bit (cf : bytes) (ch : nat) : bool :=
  Z.testbit (nth (2 * (ch / 16)) cf 0 + 256 * nth (2 * (ch / 16) + 1) cf 0) (Z.of_nat (ch mod 16)).

(* the tables of a session have their declared sizes *)
Definition tables_ok (s : session) : Prop :=
  length (s_chConfig s) = 16%nat /\ length (s_chMask s) = 9%nat.

(* channel index accepted by the mask functions *)
Definition mask_ok (mask : bytes) (r : region) (ch : Z) : bool :=
  (ch <? numChannels r) && (ch <? 8 * Z.of_nat (length mask)).
