(* The longest frame of a modulation: LoRaWAN regional parameters, maximum
   payload size tables (M, without dwell time limit), plus MHDR and MIC. *)
From Verif Require Import Lib RegionM.

Definition max_mac_payload (r : region) (b : bw) (sf : Z) : Z :=
  match r, b with
  | (EU_863_870 | EU_433 | AU_915_928), BW_125 => if 10 <=? sf then 59 else if sf =? 9 then 123 else 250
  | US_902_928, BW_125 => if sf =? 10 then 19 else if sf =? 9 then 61 else if sf =? 8 then 133 else 250
  | _, _ => 250
  end.
Definition max_frame (r : region) (b : bw) (sf : Z) : Z := max_mac_payload r b sf + 5.
