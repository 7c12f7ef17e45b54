(* How long a sub-band has to rest (C23). *)
From Verif Require Import Words MacStateM MacUtilM MacApiM SpecTime.

(* the calls of a history are made at the real times Ts, in order, T being the
   time before the first *)
Fixpoint timed (T : Z) (h : history) (Ts : list Z) : Prop :=
  match h, Ts with
  | [], [] => True
  | (e, _) :: h, T' :: Ts => T <= T' /\ e_now e = clock T' /\ timed T' h Ts
  | _, _ => False
  end.

(* no counter is ever at its limit *)
Fixpoint unsaturated (c : cfg) (h : history) (m : mac) : Prop :=
  match h with
  | [] => True
  | (e, k) :: h => let m' := fst (step c e k m) in Forall (fun b => b < UINT32_MAX) (m_band m') /\ unsaturated c h m'
  end.

(* counters are 32-bit values *)
Definition in_range (l : list Z) : Prop := Forall (fun b => 0 <= b <= UINT32_MAX) l.

(* the off-time clock runs and was last read at real time T *)
Definition clock_runs (T : Z) (m : mac) : Prop :=
  mt_parked (m_time m) = false /\ mt_ticks (m_time m) = clock T /\ 0 <= mt_remainder (m_time m) < m_tps m.

(* the radio reports the end of the transmission *)
Definition tx_ends (m : mac) (e : env) : Prop := m_state m = ST_TX /\ inputPending m = true /\ e_st_tx e = true.
