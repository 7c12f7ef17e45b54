(* What the radio is told after a packet has been received. *)
From Verif Require Import Lib MacStateM.

(* among these the radio is told to transmit, to listen *)
Definition transmits (l : list out) : bool := existsb (fun o => match o with OTransmit _ _ _ _ _ => true | _ => false end) l.
Definition listens (l : list out) : bool := existsb (fun o => match o with OReceive _ _ _ _ _ => true | _ => false end) l.
