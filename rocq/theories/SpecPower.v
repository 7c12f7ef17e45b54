(* What is expected of the output power and of the calibration. *)
From Verif Require Import Words RegionM ChipM SX127xM SX126xM.

(* --- SX1272 and SX1276 --- *)
(* the least and the most an amplifier gives, in dBm and in tenths *)
Definition lowest7 (ty : radio_type) (pa : pa127) : Z := match pa, ty with PA_BOOST, _ => 2 | _, SX1272 => -1 | _, _ => -3 end.
Definition highest7 (ty : radio_type) (pa : pa127) : Z := match pa, ty with PA_BOOST, _ => 200 | _, SX1272 => 140 | _, _ => 138 end.

(* the amplifier for p hundredths of a dBm *)
Definition amp7 (pa : pa127) (p : Z) : pa127 :=
  match pa with PA_AUTO => if p <? 1500 then PA_RFO else PA_BOOST | _ => pa end.
Definition is_boost (pa : pa127) : bool := match pa with PA_BOOST => true | _ => false end.

(* --- SX126x, in dBm --- *)
Definition lowest6 (pa : pa126) : Z := match pa with PA126_HP => -9 | _ => -17 end.
Definition highest6 (pa : pa126) : Z := match pa with PA126_HP => 22 | _ => 14 end.

(* --- the frequencies of a region --- *)
Definition band_of_region (r : region) (freq : Z) : Prop :=
  match r with
  | EU_863_870 => 863000000 <= freq < 870000000
  | EU_433 => 433050000 <= freq <= 434790000
  | US_902_928 => 902000000 <= freq <= 928000000
  | AU_915_928 => 915000000 <= freq <= 928000000
  end.
