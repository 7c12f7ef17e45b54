(* The random wait before a join request. *)
From Verif Require Import Words MacStateM MacUtilM MacProcM MacApiM.
From Verif Require SpecEnds.

(* the divisor at ldl_mac.c:1073, a 32 bit product *)
Definition dither_divisor (tps dither : Z) : Z := u32 (tps * dither).

(* ticks waited when self->rand() returns x (ldl_mac.c:1070-1087, with the 31
   bits that LDL_MAC_timerSet keeps, :788-796) *)
Definition dither (tps d x : Z) : Z := if 0 <? d then (x mod dither_divisor tps d) mod 2 ^ 31 else 0.

(* states between the end of a transmission and the end of its last window *)
Definition receiving (s : mac_state) : bool :=
  match s with
  | ST_WAIT_RX1 | ST_START_RADIO_FOR_RX1 | ST_RX1 | ST_WAIT_RX2 | ST_START_RADIO_FOR_RX2 | ST_RX2 => true
  | _ => false
  end.

(* calls of LDL_MAC_process that find the device waiting for the off-time of a
   join to be over, and find it over *)
Definition draws (e : env) (m : mac) : Prop :=
  m_state m = ST_WAIT_OTAA /\ SpecEnds.event_at e m <> SME_NONE /\ band_global (fst (processBands e m)) = 0.
