(* The time between the transmissions of one request. *)
From Verif Require Import Words MacStateM MacUtilM MacProcM MacApiM SpecHist StuckP SpecEnds.

(* ticks to wait after n transmissions, tps ticks to the second *)
Definition back_off (op : mac_op) (tps n : Z) : Z :=
  match op with OP_DATA_CONFIRMED => (tps * 2 ^ n) mod 2 ^ 31 | _ => 0 end.

(* states in which the receive windows are used up, or the last of them is open *)
Definition listened (s : mac_state) : bool :=
  match s with ST_RX1 | ST_RX2 | ST_RX2_LOCKOUT => true | _ => false end.

(* the frame goes out again at time t, and nothing else can make it go *)
Record waits (t : Z) (m : mac) : Prop := {
  wt_state : m_state m = ST_WAIT_TX;
  wt_timer : get_timer m WAITA = mkTimer (u32 t) true;
  wt_other : runs WAITB m = false;
  wt_quiet : in_state (m_inputs m) = false /\ in_armed (m_inputs m) = false }.

(* calls at times from t0 up to t1, none of them to stop what is going on *)
Definition during (t0 t1 : Z) (h : history) : Prop :=
  Forall (fun x => (exists t, t0 <= t < t1 /\ e_now (fst x) = u32 t) /\ not_stop (snd x)) h.
