(* C86: every operation ends if the MAC is driven in time. *)
From Verif Require Import Words Lib FrameM CommandsM RegionM RadioM SmM MacStateM MacUtilM MacProcM MacApiM Scenario SpecHist SpecValid SpecEnds PropertiesMac.
From Verif Require EndsP.

(* --- C86 ------------------------------------------------------------------------- *)

(* Whatever the MAC waits for is running: in every history without cancel and
   forget in which the timer of the second window is not found expired while
   the first one is still awaited or open. *)
Theorem C86_never_stuck : forall c r a e0 h, 0 < ia_tps a -> valid_start r (ia_session a) -> Forall (fun x => power_arg (snd x)) h ->
  timely c h (MAC_init c r a e0) = true -> awaits (run c h (MAC_init c r a e0)).
Proof. intros c r a e0 h P V F T. exact (proj1 (EndsP.always_awaits c r a e0 h P V F T)). Qed.
Print Assumptions C86_never_stuck.
(* a data message is asked for, transmitted, sent again and not answered *)
Definition h_ask : history := h_toy_join ++ [P 10000; (at_t 10000, C_data false 1 (Some [1;2;3]) (Some (mkOpts 2 false false)))].
Definition h_try (t : Z) : history :=
  [P t; P (t + 25); (tx_at (t + 100), C_radioEvent (t + 100)); (tx_at (t + 100), C_process); P (t + 1100); P (t + 1125);
   (timeout_at (t + 1200), C_radioEvent (t + 1200)); (timeout_at (t + 1200), C_process); P (t + 2100); P (t + 2125);
   (timeout_at (t + 2200), C_radioEvent (t + 2200)); (timeout_at (t + 2200), C_process); P (t + 6000)].
Example C86_timely_ex : timely cfg4 (h_ask ++ h_try 10000 ++ h_try 16000) start4 = true /\ timely cfg4 h_lost start4 = false.
Proof. vm_compute. auto. Qed.
(* the condition is the one that fails in C25_operation_ends_refuted *)
Example C86_condition_ex : timely cfg4 (firstn 11 h_lost) start4 = true /\ m_state (run cfg4 (firstn 11 h_lost) start4) = ST_RX1 /\
  timely cfg4 (firstn 12 h_lost) start4 = false /\ ~ awaits (run cfg4 h_lost start4).
Proof. vm_compute. repeat split. intros [H _]. discriminate H. Qed.

(* When that comes, and no interrupt is pending, a call of LDL_MAC_process
   takes the next step. *)
Theorem C86_takes_the_step : forall e m, awaits m -> in_state (m_inputs m) = false -> come e m = true -> acts_at e m = true.
Proof. exact EndsP.come_acts. Qed.
Print Assumptions C86_takes_the_step.
Example C86_step_ex : let m := run cfg4 h_ask start4 in
  awaits m /\ in_state (m_inputs m) = false /\ come (at_t 10000) m = true /\ m_state m = ST_WAIT_TX /\
  m_state (MAC_process cfg4 (at_t 10000) m) = ST_START_RADIO_FOR_TX.
Proof. vm_compute. auto. Qed.

(* Every step brings the end nearer: after so many steps as are left the
   operation has ended. *)
Theorem C86_ends : forall c r a e0 h h2 k, 0 < ia_tps a -> valid_start r (ia_session a) -> Forall (fun x => power_arg (snd x)) (h ++ h2) ->
  timely c (h ++ h2) (MAC_init c r a e0) = true ->
  in_progress (items c h (MAC_init c r a e0)) = Some (Some k) ->
  (steps_left (run c h (MAC_init c r a e0)) <= served c h2 (run c h (MAC_init c r a e0)))%nat ->
  exists h3 h4, h2 = h3 ++ h4 /\ in_progress (items c (h ++ h3) (MAC_init c r a e0)) = Some None.
Proof. exact EndsP.operation_ends. Qed.
Print Assumptions C86_ends.
(* and there are never more than these *)
Theorem C86_steps : forall c r a e0 h k, 0 < ia_tps a -> valid_start r (ia_session a) -> Forall (fun x => power_arg (snd x)) h ->
  timely c h (MAC_init c r a e0) = true -> in_progress (items c h (MAC_init c r a e0)) = Some (Some k) ->
  Z.of_nat (steps_left (run c h (MAC_init c r a e0))) <= match k with KEntropy => 14 | KData => 254 | KJoin => 14 + 16 * 65536 end.
Proof. exact EndsP.steps_bound. Qed.
Print Assumptions C86_steps.
Example C86_ends_ex :
  in_progress (items cfg4 h_ask start4) = Some (Some KData) /\ steps_left (run cfg4 h_ask start4) = 42%nat /\
  served cfg4 (h_try 10000) (run cfg4 h_ask start4) = 10%nat /\ steps_left (run cfg4 (h_ask ++ h_try 10000) start4) = 26%nat /\
  in_progress (items cfg4 (h_ask ++ h_try 10000 ++ h_try 16000) start4) = Some None.
Proof. vm_compute. auto. Qed.
(* served as often as steps were left: everything asked for again after it ended *)
Example C86_hypotheses_ex : exists h2, timely cfg4 (h_ask ++ h2) start4 = true /\ Forall (fun x => power_arg (snd x)) (h_ask ++ h2) /\
  (steps_left (run cfg4 h_ask start4) <= served cfg4 h2 (run cfg4 h_ask start4))%nat.
Proof.
  exists (h_try 10000 ++ h_try 16000 ++ flat_map (fun t => [P t; (at_t t, C_data false 1 (Some [1;2;3]) (Some (mkOpts 2 false false)))] ++ h_try t ++ h_try (t + 6000)) [4000000; 8000000; 12000000]).
  split; [vm_compute; reflexivity|]. split; [repeat constructor|]. vm_compute. repeat constructor.
Qed.
