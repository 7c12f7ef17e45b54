(* Interrupts within LDL_MAC_process, told as interrupts before and after. *)
From Verif Require Import Words MacStateM MacUtilM MacProcM MacIntM SpecInput.

(* LDL_MAC_radioEvent, or nothing *)
Definition event (t : option Z) (m : mac) : mac := match t with Some t => inputSignal t m | None => m end.

(* t is the time of one of the interrupts *)
Definition one_of (w : interrupts) (t : option Z) : Prop := match t with Some t => exists n, w n = Some t | None => True end.

(* the same as interrupts before and after the call *)
Definition serial (c : cfg) (e : env) (w : interrupts) (m : mac) : Prop :=
  exists before after, one_of w before /\ one_of w after /\ process_i c e w m = event after (MAC_process c e (event before m)).

(* the call finds that the radio is overdue and resets it; the interrupt leaves
   a flag and nothing else *)
Definition overtaken (c : cfg) (e : env) (w : interrupts) (m : mac) : Prop :=
  let m' := MAC_process c e m in
  radio_on (m_state m) = true /\ inputPending m = false /\ m_state m' = ST_RADIO_RESET /\ in_armed (m_inputs m') = false /\ inputPending m' = false /\
  exists t, one_of w (Some t) /\ process_i c e w m = set_m_inputs (mkInput false true t) m'.
