(* LoRaWAN frame formats (LoRaWAN 1.0.4 / 1.1 specification, chapters 4 and 6),
   written independently of the model. *)
From Coq Require Import ZArith List Bool.
Import ListNotations.
Open Scope Z_scope.

(* n bytes of v, least significant first *)
Fixpoint le (n : nat) (v : Z) : list Z :=
  match n with
  | O => []
  | S n => v mod 256 :: le n (v / 256)
  end.

(* message types: MHDR bits 7..5; RFU and Major are zero *)
Inductive mtype := JoinRequest | JoinAccept | UnconfirmedUp | UnconfirmedDown
                 | ConfirmedUp | ConfirmedDown | RejoinRequest.
Definition mhdr (t : mtype) : Z :=
  match t with
  | JoinRequest => 0x00 | JoinAccept => 0x20 | UnconfirmedUp => 0x40
  | UnconfirmedDown => 0x60 | ConfirmedUp => 0x80 | ConfirmedDown => 0xA0
  | RejoinRequest => 0xC0
  end.

(* data message: the fields of FHDR, then port and payload, then MIC *)
Record data_msg := DataMsg {
  d_type : mtype;
  d_addr : Z;
  d_adr : bool;
  d_adrAckReq : bool;
  d_ack : bool;
  d_bit4 : bool;         (* FPending downlink, ClassB uplink *)
  d_fcnt : Z;
  d_fopts : list Z;
  d_payload : option (Z * list Z);   (* FPort and FRMPayload *)
  d_mic : Z
}.

Definition b2z (b : bool) : Z := if b then 1 else 0.

Definition fctrl_byte (m : data_msg) : Z :=
  128 * b2z (d_adr m) + 64 * b2z (d_adrAckReq m) + 32 * b2z (d_ack m)
  + 16 * b2z (d_bit4 m) + Z.of_nat (length (d_fopts m)).

Definition data_bytes (m : data_msg) : list Z :=
  [mhdr (d_type m)] ++ le 4 (d_addr m) ++ [fctrl_byte m] ++ le 2 (d_fcnt m)
  ++ d_fopts m
  ++ match d_payload m with Some (p, d) => p :: d | None => [] end
  ++ le 4 (d_mic m).

(* fields fit: FOpts at most 15 bytes *)
Definition data_wf (m : data_msg) : Prop :=
  0 <= d_addr m < 2 ^ 32 /\ 0 <= d_fcnt m < 2 ^ 16 /\ 0 <= d_mic m < 2 ^ 32 /\
  (length (d_fopts m) <= 15)%nat /\ Forall (fun b => 0 <= b < 256) (d_fopts m) /\
  match d_payload m with
  | Some (p, d) => 0 <= p < 256 /\ Forall (fun b => 0 <= b < 256) d
  | None => True
  end.

(* join request: EUIs are sent least significant byte first; they are given
   here most significant byte first, as the library's API takes them *)
Definition join_request (joinEUI devEUI : list Z) (devNonce mic : Z) : list Z :=
  [mhdr JoinRequest] ++ rev joinEUI ++ rev devEUI ++ le 2 devNonce ++ le 4 mic.

Definition rejoin_request (type netID : Z) (devEUI : list Z) (count mic : Z) : list Z :=
  [mhdr RejoinRequest] ++ [type] ++ le 3 netID ++ rev devEUI ++ le 2 count ++ le 4 mic.

(* join accept (after decryption) *)
Record join_accept := JoinAcceptMsg {
  j_joinNonce : Z;
  j_netID : Z;
  j_devAddr : Z;
  j_optNeg : bool;
  j_rx1DROffset : Z;
  j_rx2DataRate : Z;
  j_rxDelay : Z;
  j_cfList : option (list Z);
  j_mic : Z
}.

Definition accept_bytes (j : join_accept) : list Z :=
  [mhdr JoinAccept] ++ le 3 (j_joinNonce j) ++ le 3 (j_netID j) ++ le 4 (j_devAddr j)
  ++ [128 * b2z (j_optNeg j) + 16 * j_rx1DROffset j + j_rx2DataRate j]
  ++ [j_rxDelay j]
  ++ match j_cfList j with Some l => l | None => [] end
  ++ le 4 (j_mic j).

Definition accept_wf (j : join_accept) : Prop :=
  0 <= j_joinNonce j < 2 ^ 24 /\ 0 <= j_netID j < 2 ^ 24 /\ 0 <= j_devAddr j < 2 ^ 32 /\
  0 <= j_rx1DROffset j < 8 /\ 0 <= j_rx2DataRate j < 16 /\ 0 <= j_rxDelay j < 256 /\
  match j_cfList j with
  | Some l => length l = 16%nat /\ Forall (fun b => 0 <= b < 256) l
  | None => True
  end /\ 0 <= j_mic j < 2 ^ 32.

(* --- reading -------------------------------------------------------------------- *)

(* value of k little-endian bytes *)
Definition le_val (l : list Z) : Z := fold_right (fun b acc => b + 256 * acc) 0 l.

Definition is_downlink (t : mtype) : bool :=
  match t with UnconfirmedDown | ConfirmedDown => true | _ => false end.

(* LoRaWAN forbids FOpts together with MAC commands on port 0 *)
Definition fopts_allowed (m : data_msg) : Prop :=
  match d_payload m with Some (0, _) => d_fopts m = [] | _ => True end.
