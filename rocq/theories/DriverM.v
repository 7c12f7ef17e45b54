(* The MAC on top of a radio driver: the calls ldl_mac.c makes through
   struct ldl_radio_interface (ldl_radio.h:250-340) carried out by the drivers
   of ldl_sx127x.c and ldl_sx126x.c.

   The log of the MAC model records set_mode, transmit, receive and
   receive_entropy.  read_buffer, read_entropy and get_status, which only ask
   the chip for data, are not in the log. *)
From Verif Require Import Words RegionM MacStateM ChipM SX127xM SX126xM.

(* self->mode = mode, ldl_sx127x.c:367 *)
Definition set_d7_mode (m : radio_mode) (x : sx127x) : sx127x :=
  mk127 (d7_type x) m (d7_xtal x) (d7_pa x) (d7_gain x).

(* One call.  None: LDL_ABORT in setMode, or an LDL_PEDANTIC check of the mode
   fails (ldl_sx127x.c:376, 456, 590).  v is the content of the TCXO register.
   The other LDL_PEDANTIC check on what the MAC passes, settings->freq != 0, is
   not part of this. *)
Definition call127 (v : Z) (o : out) (x : sx127x) : option (list chip_op * sx127x) :=
  match o with
  | OEvent _ => Some ([], x)
  | OMode n =>
      match setMode127 x v n with
      | Some l => Some (l, set_d7_mode n x)
      | None => None
      end
  | OTransmit freq b sf eirp data =>
      match d7_mode x with MODE_TX => Some (transmit127 x freq b sf eirp data, x) | _ => None end
  | OReceive freq b sf timeout max =>
      match d7_mode x with MODE_RX => Some (receive127 x freq b sf timeout max, x) | _ => None end
  | OReceiveEntropy =>
      match d7_mode x with MODE_RX => Some (receiveEntropy127 x, x) | _ => None end
  end.

(* a sequence of calls, with the content of the TCXO register at each *)
Fixpoint calls127 (v : nat -> Z) (l : list out) (x : sx127x) : option (list chip_op * sx127x) :=
  match l with
  | [] => Some ([], x)
  | o :: l =>
      match call127 (v O) o x with
      | Some (a, x) =>
          match calls127 (fun n => v (S n)) l x with
          | Some (b, y) => Some (a ++ b, y)
          | None => None
          end
      | None => None
      end
  end.

(* One call of the SX126x driver: the commands sent with, for each, whether the
   chip accepted it.  Nothing checks the mode of transmit and receive in this
   driver. *)
Definition with_answers (ok : nat -> bool) (l : list chip_op) : list (chip_op * bool) :=
  (fix go (n : nat) (l : list chip_op) :=
     match l with
     | [] => []
     | ChipMode m :: l => (ChipMode m, true) :: go n l
     | o :: l => (o, ok n) :: go (S n) l
     end) O l.

Definition call126 (ok : nat -> bool) (o : out) (x : sx126x) : option (list (chip_op * bool) * sx126x) :=
  match o with
  | OEvent _ => Some ([], x)
  | OMode n =>
      match setMode126 x n with
      | Some (l, y) => Some (with_answers ok l, y)
      | None => None
      end
  | OTransmit freq b sf eirp data =>
      let '(l, _, y) := transmit126 ok x freq b sf eirp data in Some (with_answers ok l, y)
  | OReceive freq b sf timeout max =>
      let '(l, _, y) := receive126 ok x freq b sf timeout max in Some (with_answers ok l, y)
  | OReceiveEntropy => Some (with_answers ok (fst (attempt ok 0 receiveEntropy_cmds)), x)
  end.

Fixpoint calls126 (ok : nat -> nat -> bool) (l : list out) (x : sx126x) : option (list (chip_op * bool) * sx126x) :=
  match l with
  | [] => Some ([], x)
  | o :: l =>
      match call126 (ok O) o x with
      | Some (a, x) =>
          match calls126 (fun n => ok (S n)) l x with
          | Some (b, y) => Some (a ++ b, y)
          | None => None
          end
      | None => None
      end
  end.
