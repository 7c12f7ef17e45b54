(* LoRaWAN 5: how long an answer to a command of the network is kept. *)
From Verif Require Import Words FrameM CommandsM MacStateM MacUtilM OpsM MacProcM MacApiM SpecAnswer SpecEffect.

(* answers sent once; the others are repeated until a downlink (SpecEffect),
   and RekeyInd until RekeyConf *)
Definition sent_once (t : cmd_type) : bool :=
  match t with
  | CMD_LINK_ADR | CMD_DUTY_CYCLE | CMD_DEV_STATUS | CMD_NEW_CHANNEL | CMD_TX_PARAM_SETUP | CMD_ADR_PARAM_SETUP | CMD_REJOIN_PARAM_SETUP => true
  | _ => false
  end.
(* the build has the command *)
Definition in_build (c : cfg) (t : cmd_type) : bool :=
  match t with
  | CMD_ADR_PARAM_SETUP | CMD_REJOIN_PARAM_SETUP => is_1_1 (c_l2 c)
  | CMD_TX_PARAM_SETUP => c_txps c
  | _ => true
  end.

(* a message was taken *)
Definition asked (k : call) (r : ret) : bool :=
  match k, r with
  | C_data _ _ _ _, RStatus (STATUS_OK | STATUS_MACPRIORITY) => true
  | _, _ => false
  end.

(* no frame is accepted, and the network is not forgotten *)
Fixpoint unheard (c : cfg) (h : history) (m : mac) : Prop :=
  match h with
  | [] => True
  | (e, k) :: h =>
      k <> C_forget /\
      (k = C_process -> window_open m = true -> e_st_rx e = true -> snd (receiveFrame c m (rx_buffer e) (rx_len e)) = None) /\
      unheard c h (fst (step c e k m))
  end.
