(* What it means for the encoder's request and the decoder's result to denote a
   LoRaWAN message. *)
From Coq Require Import ZArith List Bool.
From Verif Require Import FrameM SpecFrame.
Import ListNotations.
Open Scope Z_scope.

(* the LoRaWAN message an encoding request describes *)
Definition mtype_of (t : frame_type) : mtype :=
  match t with
  | FT_JOIN_REQ => JoinRequest | FT_JOIN_ACCEPT => JoinAccept
  | FT_UNCONF_UP => UnconfirmedUp | FT_UNCONF_DOWN => UnconfirmedDown
  | FT_CONF_UP => ConfirmedUp | FT_CONF_DOWN => ConfirmedDown
  | FT_REJOIN_REQ => RejoinRequest
  end.

Definition msg_of (f : frame_data) : data_msg :=
  DataMsg (mtype_of (fd_type f)) (fd_devAddr f) (fd_adr f) (fd_adrAckReq f) (fd_ack f)
    (fd_pending f) (fd_counter f) (fd_opts f)
    (match fd_data f with Some d => Some (fd_port f, d) | None => None end) (fd_mic f).

Definition fd_wf (f : frame_data) : Prop := data_wf (msg_of f).

Definition fj_wf (f : frame_join) : Prop :=
  length (fj_joinEUI f) = 8%nat /\ length (fj_devEUI f) = 8%nat.

(* the bytes a pointer/length pair designates; NULL designates none *)
Definition region_at (buf : list Z) (off : option Z) (len : Z) : list Z :=
  match off with
  | None => []
  | Some p => firstn (Z.to_nat len) (skipn (Z.to_nat p) buf)
  end.

(* the designated bytes lie between the header and the MIC of an n byte frame *)
Definition region_inside (off : option Z) (len n : Z) : Prop :=
  match off with
  | None => len = 0
  | Some p => 8 <= p /\ 0 < len /\ p + len <= n - 4
  end.

Definition type_code (t : frame_type) : option mtype :=
  match t with
  | FT_UNCONF_DOWN => Some UnconfirmedDown
  | FT_CONF_DOWN => Some ConfirmedDown
  | FT_JOIN_ACCEPT => Some JoinAccept
  | _ => None
  end.

Definition reports_data (buf : list Z) (f : frame_down) (m : data_msg) : Prop :=
  type_code (dn_type f) = Some (d_type m) /\
  dn_devAddr f = d_addr m /\ dn_adr f = d_adr m /\ dn_adrAckReq f = d_adrAckReq m /\
  dn_ack f = d_ack m /\ dn_pending f = d_bit4 m /\ dn_counter f = d_fcnt m /\
  dn_mic f = d_mic m /\
  dn_optsLen f = Z.of_nat (length (d_fopts m)) /\
  region_at buf (dn_opts f) (dn_optsLen f) = d_fopts m /\
  match d_payload m with
  | Some (p, d) => dn_dataPresent f = true /\ dn_port f = p /\
                   dn_dataLen f = Z.of_nat (length d) /\
                   region_at buf (dn_data f) (dn_dataLen f) = d
  | None => dn_dataPresent f = false /\ dn_data f = None /\ dn_dataLen f = 0
  end.

(* the fields of a join accept; a zero RXDelay means one second *)
Definition reports_accept (buf : list Z) (f : frame_down) (j : join_accept) : Prop :=
  dn_type f = FT_JOIN_ACCEPT /\
  dn_joinNonce f = j_joinNonce j /\ dn_netID f = j_netID j /\ dn_devAddr f = j_devAddr j /\
  dn_optNeg f = j_optNeg j /\ dn_rx1DROffset f = j_rx1DROffset j /\
  dn_rx2DataRate f = j_rx2DataRate j /\
  dn_rxDelay f = (if j_rxDelay j =? 0 then 1 else j_rxDelay j) /\ dn_mic f = j_mic j /\
  match j_cfList j with
  | Some l => dn_cfList f = Some 13 /\ dn_cfListLen f = 16 /\
              region_at buf (dn_cfList f) (dn_cfListLen f) = l
  | None => dn_cfList f = None /\ dn_cfListLen f = 0
  end.
