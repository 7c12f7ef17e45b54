(* LDL's promise to call LDL_MAC_process again in time: when the first
   sub-band becomes free. *)
From Verif Require Import Words MacStateM MacUtilM.

(* [t], in 1/256 s, is the time until a channel may become available: the
   global off-time while there is one, else the shortest off-time of a
   sub-band, else what is left of the day after a join was asked for *)
Definition next_free (m : mac) (t : Z) : Prop :=
  (0 < band_global m /\ t = band_global m) \/
  (band_global m = 0 /\ In t (m_band m) /\ 0 < t /\ forall b, In b (m_band m) -> 0 < b -> t <= b) \/
  ((forall b, In b (m_band m) -> b = 0) /\ 0 < t /\ t = m_day m).
(* longest time the timer can be set to, in seconds *)
Definition reach (tps : Z) : Z := (2 ^ 31 - 1) / tps.
(* a day, in 1/256 s *)
Definition one_day : Z := 24 * 60 * 60 * 256.
