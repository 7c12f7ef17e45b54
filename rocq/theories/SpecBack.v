(* How ADR back-off ought to work (C31). *)
From Verif Require Import Words StreamM FrameM CommandsM RegionM MacStateM MacUtilM OpsM MacProcM MacApiM SpecHist.

(* the settings that ADR controls, and the number of uplinks without answer *)
Record dials := mkDials { d_on : bool; d_limit : Z; d_delay : Z; d_power : Z; d_rate : Z; d_mask : bytes; d_count : Z }.
Definition dials_of (m : mac) : dials :=
  let s := m_ctx m in mkDials (s_adr s) (s_adr_ack_limit s) (s_adr_ack_delay s) (s_power s) (s_rate s) (s_chMask s) (m_adrAckCounter m).

(* calls that leave the settings to the MAC *)
Definition leaves_settings (k : call) : bool :=
  match k with C_process | C_radioEvent _ | C_data _ _ _ _ | C_cancel | C_entropy => true | _ => false end.
(* listening, as the state machine names it *)
Definition listening (s : mac_state) : bool := match s with ST_RX1 | ST_RX2 => true | _ => false end.
(* nothing acceptable is received *)
Fixpoint silent (c : cfg) (h : history) (m : mac) : Prop :=
  match h with
  | [] => True
  | (e, k) :: h =>
      leaves_settings k = true /\
      (k = C_process -> listening (m_state m) = true -> e_st_rx e = true -> snd (receiveFrame c m (rx_buffer e) (rx_len e)) = None) /\
      silent c h (fst (step c e k m))
  end.
(* data operations that have come to their end *)
Definition is_done (o : out) : bool := match o with OEvent EV_DATA_COMPLETE | OEvent EV_DATA_TIMEOUT => true | _ => false end.
Definition finished (l : list out) : Z := Z.of_nat (length (filter is_done l)).

(* steps from the present settings: full power, one rate after the other, all
   channels *)
Definition steps_needed (min : Z) (d : dials) : Z := (if d_power d >? 0 then 1 else 0) + (d_rate d - min) + 1.
(* steps due within n uplinks: the first after the limit and one delay *)
Definition steps_due (limit delay n : Z) : Z := if n <=? limit + delay then 0 else (n - 1 - (limit + delay)) / delay + 1.
(* the count stops at 255 *)
Definition steps_possible (limit delay : Z) : Z := steps_due limit delay 255.

Definition robust (min : Z) (d : dials) : Prop := d_power d = 0 /\ d_rate d = min /\ Forall (eq 0) (d_mask d).
(* after k steps, fewer than needed *)
Definition after_steps (k : Z) (d d' : dials) : Prop :=
  d_power d' = (if k =? 0 then d_power d else 0) /\
  d_rate d' = d_rate d - Z.max 0 (k - (if d_power d >? 0 then 1 else 0)) /\
  d_mask d' = d_mask d.

(* ADR is on, there are no unanswered uplinks, and the values are in range *)
Definition starts_fresh (min : Z) (d : dials) : Prop :=
  d_on d = true /\ 0 <= d_limit d /\ 0 < d_delay d /\ 0 <= d_power d /\ min <= d_rate d /\ d_count d = 0.
