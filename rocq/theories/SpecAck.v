(* LoRaWAN 4.3.1: the control bits of an uplink. *)
From Verif Require Import Lib StreamM FrameM CommandsM MacStateM MacUtilM OpsM MacProcM MacApiM SpecEffect.

(* a downlink of the confirmed kind *)
Definition confirmed_frame (f : frame_down) : bool := match dn_type f with FT_CONF_DOWN => true | _ => false end.

(* an acknowledgement is owed after the call: a data frame that was accepted
   decides; the end of a transmission settles it, and so does leaving the
   network *)
Definition owed_after (c : cfg) (e : env) (k : call) (m : mac) (b : bool) : bool :=
  match k with
  | C_process =>
      if negb (inputPending m) then b
      else match m_state m with
           | ST_TX => if e_st_tx e then false else b
           | ST_RX1 | ST_RX2 =>
               if e_st_rx e then
                 match snd (receiveFrame c m (rx_buffer e) (rx_len e)) with
                 | Some f => if data_frame f then confirmed_frame f else b
                 | None => b
                 end
               else b
           | _ => b
           end
  | C_forget => if s_joined (m_ctx m) then false else b
  | _ => b
  end.
Fixpoint owed (c : cfg) (h : history) (m : mac) (b : bool) : bool :=
  match h with
  | [] => b
  | (e, k) :: h => owed c h (fst (step c e k m)) (owed_after c e k m b)
  end.

(* FCtrl of a data frame *)
Definition fctrl_of (f : bytes) : Z := nth 5 f 0.
Definition is_ack (f : bytes) : bool := Z.testbit (fctrl_of f) 5.
Definition asks_ack (f : bytes) : bool := Z.testbit (fctrl_of f) 6.
Definition has_adr (f : bytes) : bool := Z.testbit (fctrl_of f) 7.
Definition bit_four (f : bytes) : bool := Z.testbit (fctrl_of f) 4.
