(* Operations that end: what every state waits for, and how many steps are left. *)
From Verif Require Import Words MacStateM MacUtilM MacProcM MacApiM CaseP.

(* the event LDL_MAC_process finds when called *)
Definition event_at (e : env) (m : mac) : sme := snd (fst (next_event e (fst (processBands e m)) (snd (processBands e m)))).

(* states that wait for the timer of the second window *)
Definition second_due (s : mac_state) : bool := match s with ST_WAIT_RX2 | ST_START_RADIO_FOR_RX2 => true | _ => false end.

(* nothing is cancelled, and LDL_MAC_process does not find the timer of the
   second window expired before the first window is done with *)
Definition timely_call (e : env) (k : call) (m : mac) : bool :=
  match k with
  | C_process => match event_at e m with SME_TIMER_B => second_due (m_state m) | _ => true end
  | C_cancel | C_forget => false
  | _ => true
  end.
Fixpoint timely (c : cfg) (h : history) (m : mac) : bool :=
  match h with
  | [] => true
  | (e, k) :: h => timely_call e k m && timely c h (fst (step c e k m))
  end.

Definition runs (i : nat) (m : mac) : bool := tm_armed (get_timer m i).

(* what the state waits for is running *)
Definition awaits (m : mac) : Prop :=
  match m_state m with
  | ST_IDLE => True
  | ST_WAIT_OTAA => runs WAITA m = true \/ 0 < band_global m
  | ST_WAIT_RX1 | ST_START_RADIO_FOR_RX1 | ST_RX1 => runs WAITA m = true /\ runs WAITB m = true
  | ST_WAIT_RX2 | ST_START_RADIO_FOR_RX2 => runs WAITB m = true /\ runs WAITA m = false
  | _ => runs WAITA m = true
  end.

(* the events on which a state is left; clear: the global off-time is zero *)
Definition acts_on (s : mac_state) (ev : sme) (clear : bool) : bool :=
  match s, ev with
  | _, SME_NONE => false
  | ST_IDLE, _ => false
  | ST_INIT, _ => true
  | ST_WAIT_OTAA, _ => clear
  | ST_WAIT_ENTROPY, (SME_TIMER_A | SME_TIMER_B) | ST_WAIT_TX, (SME_TIMER_A | SME_TIMER_B)
  | ST_WAIT_RX1, (SME_TIMER_A | SME_TIMER_B) | ST_WAIT_RX2, (SME_TIMER_A | SME_TIMER_B) => true
  | ST_TX, (SME_TIMER_A | SME_INTERRUPT) | ST_RX1, (SME_TIMER_A | SME_INTERRUPT) | ST_RX2, (SME_TIMER_A | SME_INTERRUPT) => true
  | ST_START_RADIO_FOR_RX2, SME_TIMER_B => true
  | (ST_RADIO_RESET | ST_RADIO_BOOT | ST_START_RADIO_FOR_ENTROPY | ST_ENTROPY | ST_START_RADIO_FOR_TX | ST_START_RADIO_FOR_RX1 | ST_RX2_LOCKOUT), SME_TIMER_A => true
  | _, _ => false
  end.
Definition acts_at (e : env) (m : mac) : bool := acts_on (m_state m) (event_at e m) (band_global (fst (processBands e m)) =? 0).

(* the calls of LDL_MAC_process that find something to do *)
Fixpoint served (c : cfg) (h : history) (m : mac) : nat :=
  match h with
  | [] => 0
  | (e, k) :: h => (match k with C_process => if acts_at e m then 1 else 0 | _ => 0 end + served c h (fst (step c e k m)))%nat
  end.

(* steps of one try *)
Definition rank (s : mac_state) : nat :=
  match s with
  | ST_IDLE => 0 | ST_INIT => 14 | ST_RADIO_RESET => 13 | ST_RADIO_BOOT => 12 | ST_WAIT_OTAA => 11
  | ST_WAIT_TX => 10 | ST_START_RADIO_FOR_TX => 9 | ST_TX => 8
  | ST_WAIT_RX1 => 7 | ST_START_RADIO_FOR_RX1 => 6 | ST_RX1 => 5
  | ST_WAIT_RX2 => 4 | ST_START_RADIO_FOR_RX2 => 3 | ST_RX2 => 2 | ST_RX2_LOCKOUT => 1
  | ST_WAIT_ENTROPY => 3 | ST_START_RADIO_FOR_ENTROPY => 2 | ST_ENTROPY => 1
  end.
Definition tries_left (m : mac) : nat :=
  match m_op m with
  | OP_DATA_UNCONFIRMED | OP_DATA_CONFIRMED => Z.to_nat (tries_allowed m - m_trials m)
  | OP_JOINING => Z.to_nat (65536 - m_devNonce m)
  | _ => 0
  end.
Definition steps_left (m : mac) : nat := (16 * tries_left m + rank (m_state m))%nat.

(* the timer is running and has expired *)
Definition expired (e : env) (i : nat) (m : mac) : bool := match snd (timerCheck e i m) with Some _ => true | None => false end.

(* what the state waits for has come *)
Definition come (e : env) (m : mac) : bool :=
  match m_state m with
  | ST_IDLE => false
  | ST_WAIT_RX2 | ST_START_RADIO_FOR_RX2 => expired e WAITB m
  | ST_WAIT_OTAA => (band_global (fst (processBands e m)) =? 0) && (expired e WAITA m || (band_global m >? 0))
  | _ => expired e WAITA m
  end.
