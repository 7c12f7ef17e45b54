(* A 32-bit tick counter that wraps, seen from unbounded real time. *)
From Coq Require Import ZArith List Bool.
From Verif Require Import Words MacStateM MacUtilM.
Import ListNotations.
Open Scope Z_scope.

(* what ticks() returns at real time T *)
Definition clock (T : Z) : Z := T mod 2 ^ 32.

(* the counter reads less at T' than at the earlier T *)
Definition wraps (T T' : Z) : bool := clock T' <? clock T.

(* signed distance from counter value [now] to counter value [d]: negative
   when d is in the past *)
Definition ahead (now d : Z) : Z :=
  let x := (d - now) mod 2 ^ 32 in if x <? 2 ^ 31 then x else x - 2 ^ 32.

(* a timer that is due at counter value now *)
Definition due (now : Z) (t : timer) : bool := tm_armed t && (ahead now (tm_time t) <=? 0).

(* number of pairs of consecutive readings between which the counter wrapped *)
Fixpoint wrap_count (T : Z) (Ts : list Z) : Z :=
  match Ts with
  | [] => 0
  | T' :: r => (if wraps T T' then 1 else 0) + wrap_count T' r
  end.

(* readings in order, less than one period of the counter apart *)
Fixpoint readings (T : Z) (Ts : list Z) : Prop :=
  match Ts with
  | [] => True
  | T' :: r => T <= T' < T + 2 ^ 32 /\ readings T' r
  end.

(* join back-off of LoRaWAN 7 (retransmission back-off): one part in [tier] of
   the time, by seconds since the first attempt *)
Definition join_tier (units_since_first : Z) : Z :=
  if units_since_first <? 1 * 3600 * 256 then 100
  else if units_since_first <? 11 * 3600 * 256 then 1000
  else 10000.

(* deadlines are 32-bit counter values *)
Definition timer_ok (t : timer) : Prop := 0 <= tm_time t < 4294967296.

(* the exact tie where the two comparisons of the code disagree *)
Definition tie (now : Z) (t : timer) : bool := tm_armed t && ((tm_time t - now) mod 4294967296 =? 2147483648).

(* r ticks from now the first armed timer is due *)
Definition earliest (now : Z) (ts : list timer) (r : Z) : Prop :=
  exists t, In t ts /\ tm_armed t = true /\ r = ahead now (tm_time t) /\
  forall t', In t' ts -> tm_armed t' = true -> r <= ahead now (tm_time t').

(* tick rates from 256 Hz to 16 MHz *)
Definition tps_ok (tps : Z) : Prop := 256 <= tps <= 16000000.

(* a counter that stops at zero *)
Definition drain (x t : Z) : Z := Z.max 0 (x - t).

(* the updates made at a list of real times *)
Fixpoint updates (Ts : list Z) (E : Z -> env) (m : mac) : mac :=
  match Ts with
  | [] => m
  | T :: r => updates r E (fst (processBands (E T) m))
  end.

Definition bands_ok (m : mac) : Prop := Forall (fun b => 0 <= b) (m_band m) /\ 0 <= m_day m.
