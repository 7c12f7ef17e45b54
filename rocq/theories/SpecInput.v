(* Radio interrupts as seen from outside (C40). *)
From Verif Require Import Words FrameM CommandsM RegionM MacStateM MacUtilM MacApiM SpecHist.

(* the states in which the radio transmits or listens *)
Definition radio_on (s : mac_state) : bool :=
  match s with ST_TX | ST_RX1 | ST_RX2 => true | _ => false end.

(* the radio is told to transmit, or to listen for a frame *)
Definition radio_start (o : out) : bool :=
  match o with OTransmit _ _ _ _ _ | OReceive _ _ _ _ _ => true | _ => false end.
Definition starts_radio (c : cfg) (e : env) (k : call) (m : mac) : bool :=
  existsb radio_start (new_out m (fst (step c e k m))).

Definition is_signal (k : call) : bool := match k with C_radioEvent _ => true | _ => false end.
Definition is_process (k : call) : bool := match k with C_process => true | _ => false end.

(* nothing in h signals an interrupt or starts the radio *)
Fixpoint undisturbed (c : cfg) (h : history) (m : mac) : bool :=
  match h with
  | [] => true
  | (e, k) :: h => negb (is_signal k) && negb (starts_radio c e k m) && undisturbed c h (fst (step c e k m))
  end.

(* the radio reports something else *)
Definition radio_says (tx rx timeout : bool) (w : bytes) (rssi snr : Z) (e : env) : env :=
  mkEnv (e_now e) (e_rand e) (e_battery e) tx rx timeout w rssi snr (e_entropy e).
