(* What is expected of the radio drivers and of the MAC that uses them. *)
From Verif Require Import Words RegionM MacStateM ChipM.

(* --- the modes (ldl_radio.h:82-90 and the comments there) --- *)

(* the mode changes both drivers carry out: a reset at any time, boot after
   reset, then sleep; from sleep or hold to receive or transmit; from receive or
   transmit to hold; and back to sleep from anything but reset *)
Definition change_ok (d n : radio_mode) : bool :=
  match n, d with
  | MODE_RESET, _ => true
  | MODE_BOOT, MODE_RESET => true
  | MODE_SLEEP, MODE_RESET => false
  | MODE_SLEEP, _ => true
  | (MODE_RX | MODE_TX), (MODE_SLEEP | MODE_HOLD) => true
  | MODE_HOLD, (MODE_RX | MODE_TX) => true
  | _, _ => false
  end.

(* the mode after a call, None if the call is not allowed in mode d *)
Definition next_mode (d : radio_mode) (o : out) : option radio_mode :=
  match o with
  | OEvent _ => Some d
  | OMode n => if change_ok d n then Some n else None
  | OTransmit _ _ _ _ _ => match d with MODE_TX => Some d | _ => None end
  | OReceive _ _ _ _ _ | OReceiveEntropy => match d with MODE_RX => Some d | _ => None end
  end.
Fixpoint modes (d : radio_mode) (l : list out) : option radio_mode :=
  match l with
  | [] => Some d
  | o :: l => match next_mode d o with Some d => modes d l | None => None end
  end.
