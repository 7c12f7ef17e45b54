(* Power cycles of an mbed device (C74). *)
From Verif Require Import Words FrameM CommandsM RegionM MacStateM MacUtilM MacApiM SpecHist SpecRx MbedM.

Definition store_ok (s : store) : Prop :=
  eui_ok (st_joinEUI s) /\ eui_ok (st_devEUI s) /\ 0 <= st_devNonce s < 65536 /\ 0 <= st_joinNonce s < 4294967296.

(* one power cycle after another, in the region r, each cut off after any
   output and started from what was stored until then.  [ok] restricts what
   happens in a power cycle *)
Inductive powered (c : cfg) (r : region) (ok : history -> Prop) : store -> list out -> Prop :=
| powered_off s : powered c r ok s []
| powered_on s e h pre post rest : ok h -> m_log (run c h (mbed_start c r s e)) = pre ++ post ->
    powered c r ok (fold_left app_handler pre s) rest -> powered c r ok s (pre ++ rest).

(* no devNonce beyond 16 bits has been announced *)
Definition nonces_left (l : list out) : Prop :=
  Forall (fun o => match o with OEvent (EV_DEV_NONCE_UPDATED n) => 0 <= n < 65536 | _ => True end) l.
