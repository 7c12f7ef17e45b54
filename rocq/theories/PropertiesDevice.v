(* C75, C76, C77: the methods of the mbed class Device. *)
From Verif Require Import Lib FrameM CommandsM RegionM RadioM MacStateM MacUtilM MacProcM MacApiM Scenario SpecHist DeviceM SpecDevice.
From Verif Require DeviceP.

Definition cfg4 : cfg := toy_cfg L2_1_0_4.
Definition init (so : option session) : mac := MAC_init cfg4 EU_863_870 (arg0 so) (at_t 0).
Definition net : option session := Some (set_s_rate 0 (m_ctx toy_joined)).
(* a history of process() and radio interrupts as moves *)
Definition mv (h : history) : list move :=
  map (fun x => match snd x with C_radioEvent t => M_radio (fst x) t | _ => M_process (fst x) end) h.
(* thread i calls a method and the worker serves it at t *)
Definition call_at (i : nat) (t : Z) (j : job) : list move := [M_begin i j; M_serve i (at_t t)].
Definition hello (cf : bool) : job := J_data cf 1 (Some [1;2;3]) None.
Definition sent_at (t : Z) : list move := mv [P t; P t; P (t + 25); P (t + 50); P (t + 75)].
Definition unheard (t d : Z) : list move :=
  mv (h_rx1 t d ++ [(timeout_at (t + 1000 * d + 100), C_radioEvent (t + 1000 * d + 100)); (timeout_at (t + 1000 * d + 100), C_process);
              P (t + 1000 * d + 1000); P (t + 1000 * d + 1000); P (t + 1000 * d + 1010);
              (timeout_at (t + 1000 * d + 1100), C_radioEvent (t + 1000 * d + 1100)); (timeout_at (t + 1000 * d + 1100), C_process)]).
Definition d_sent : list move := mv h_boot ++ call_at 0 10000 (hello false) ++ sent_at 10000 ++ unheard 12000 1 ++ mv [P 30000] ++ [M_wake 0].
Lemma all_one l : forallb (fun x => match x with M_begin i j => Nat.eqb i 0 || negb (operates j) | M_expire _ => false | _ => true end) l = true -> Forall one_operator l.
Proof.
  intros H. apply Forall_forall. intros x I. apply (proj1 (forallb_forall _ _) H) in I. destruct x; cbn; auto; [|discriminate].
  apply orb_true_iff in I as [I|I]; [left; now apply Nat.eqb_eq|right; now apply negb_true_iff].
Qed.

(* --- C75 ------------------------------------------------------------------------- *)

(* [told]: the last operation asked of the MAC is the one of this method; if
   it was refused the method returned what the MAC said, else one event ended
   it and the method returned what the event means.  For one thread that asks
   for operations, without a time limit for otaa(), and any others that cancel
   or change settings *)
Theorem C75_results_partial : forall c r a e l j s v, Forall one_operator l ->
  let d := drun c l (device_start (MAC_init c r a e)) in
  d_threads d 0%nat = T_done j s v -> operates j = true -> told j s v (d_log d).
Proof. exact DeviceP.results. Qed.
Print Assumptions C75_results_partial.

(* a method that waits does so for the operation in progress, or returns at
   once (or sends the message it had to put off for MAC commands) *)
Theorem C75_not_left_waiting : forall c r a e l j first, Forall one_operator l ->
  let d := drun c l (device_start (MAC_init c r a e)) in
  d_threads d 0%nat = T_op j first ->
  kind_of (m_op (d_mac d)) = Some (job_kind j) \/
  (exists s v, d_threads (dstep c (M_wake 0) d) 0%nat = T_done j s v) \/
  (first = true /\ d_threads (dstep c (M_wake 0) d) 0%nat = T_queue j).
Proof. exact DeviceP.never_stuck. Qed.
Print Assumptions C75_not_left_waiting.

Definition d_join : list move :=
  mv h_boot ++ call_at 0 30 J_otaa ++ mv [P 30; P 30; P 55] ++ mv (h_rx1 3000 5 ++ h_rx 8100 toy_accept) ++ [M_wake 0].
Example C75_example :
  let d := drun cfg4 d_join (device_start (init None)) in
  let d' := drun cfg4 d_sent (device_start (init net)) in
  Forall one_operator d_join /\ Forall one_operator d_sent /\
  d_threads d 0%nat = T_done J_otaa (D_mac (RStatus STATUS_OK)) 0 /\
  last_op (d_log d) = Some (C_otaa, RStatus STATUS_OK, [EV_JOIN_COMPLETE 2 19 637606874]) /\
  d_threads d' 0%nat = T_done (hello false) (D_mac (RStatus STATUS_OK)) 0 /\
  last_op (d_log d') = Some (C_data false 1 (Some [1;2;3]) None, RStatus STATUS_OK, [EV_DATA_COMPLETE]).
Proof. cbv zeta. split; [|split]; [apply all_one; vm_compute; reflexivity|apply all_one; vm_compute; reflexivity|]. vm_compute. repeat split. Qed.

(* with a time limit it fails, with one thread only: otaa() times out and
   calls forget(), whose OP_CANCELLED stays in op_flags.  do_entropy does not
   clear them, so entropy() returns CANCELLED while the MAC is still at it *)
Definition d_late : list move :=
  mv h_boot ++ call_at 0 30 J_otaa ++ mv [P 30; P 30; P 55] ++ [M_expire 0; M_serve 0 (at_t 1000)] ++
  mv [P 1000; P 1100; P 1200] ++ call_at 0 1300 J_entropy ++ [M_wake 0].
Theorem C75_time_limit_refuted :
  exists c r a e l, (forall i j, In (M_begin i j) l -> i = 0%nat) /\
  let d := drun c l (device_start (MAC_init c r a e)) in
  d_threads d 0%nat = T_done J_entropy D_CANCELLED 0 /\ m_op (d_mac d) = OP_ENTROPY /\
  last_op (d_log d) = Some (C_entropy, RStatus STATUS_OK, []).
Proof.
  exists cfg4, EU_863_870, (arg0 None), (at_t 0), d_late. split; [|vm_compute; repeat split].
  assert (forallb (fun x => match x with M_begin i _ => Nat.eqb i 0 | _ => true end) d_late = true) as H by (vm_compute; reflexivity).
  intros i j I. apply (proj1 (forallb_forall _ _) H) in I. now apply Nat.eqb_eq.
Qed.
Print Assumptions C75_time_limit_refuted.

(* with two threads that ask for operations it fails as well: the flags are
   shared, and do_data clears those of an operation that thread 1 has not yet
   begun to wait for, so thread 1 waits for ever *)
Definition d_two : list move :=
  mv h_boot ++ call_at 1 40 J_entropy ++ mv [P 40; P 60; P 80; P 100] ++
  call_at 0 10000 (hello false) ++ sent_at 10000 ++ unheard 12000 1 ++ mv [P 30000] ++ [M_wake 0; M_wake 1].
Theorem C75_two_threads_refuted :
  exists c r a e l, forallb (fun x => match x with M_expire _ => false | _ => true end) l = true /\
  let d := drun c l (device_start (MAC_init c r a e)) in
  d_threads d 0%nat = T_done (hello false) (D_mac (RStatus STATUS_OK)) 0 /\ d_threads d 1%nat = T_op J_entropy false /\
  d_op d = 0 /\ m_op (d_mac d) = OP_NONE /\ existsb (fun x => match x with IOut (OEvent (EV_ENTROPY _)) => true | _ => false end) (d_log d) = true.
Proof. exists cfg4, EU_863_870, (arg0 net), (at_t 0), d_two. vm_compute. repeat split. Qed.
Print Assumptions C75_two_threads_refuted.

(* --- C76 ------------------------------------------------------------------------- *)

(* a call of unconfirmed() or confirmed() that finds no free channel never
   sends: it waits for a band and then returns NOCHANNEL *)
Theorem C76_only_waits : forall c x d i j, d_threads d i = T_band j ->
  d_threads (dstep c x d) i = T_band j \/ d_threads (dstep c x d) i = T_done j (D_mac (RStatus STATUS_NOCHANNEL)) 0.
Proof. exact DeviceP.band_stays. Qed.
Print Assumptions C76_only_waits.

Definition frames (l : list item) : Z := count (fun x => match x with IOut (OTransmit _ _ _ _ _) => true | _ => false end) l.
Definition d_full : list move := d_sent ++ call_at 0 31000 (hello true).
Definition d_free : list move := mv [P 40000; P 3600000] ++ [M_wake 0].
Theorem C76_sends_refuted :
  exists c r a e l l', let d := drun c l (device_start (MAC_init c r a e)) in let d' := drun c l' d in
  d_threads d 0%nat = T_band (hello true) /\ d_threads d' 0%nat = T_done (hello true) (D_mac (RStatus STATUS_NOCHANNEL)) 0 /\
  In (IOut (OEvent EV_CHANNEL_READY)) (skipn (length (d_log d)) (d_log d')) /\ frames (d_log d') = frames (d_log d).
Proof.
  exists cfg4, EU_863_870, (arg0 net), (at_t 0), d_full, d_free. cbv zeta. split; [vm_compute; reflexivity|]. split; [vm_compute; reflexivity|].
  split; [|vm_compute; reflexivity].
  assert (existsb (fun x => match x with IOut (OEvent EV_CHANNEL_READY) => true | _ => false end)
    (skipn (length (d_log (drun cfg4 d_full (device_start (init net))))) (d_log (drun cfg4 d_free (drun cfg4 d_full (device_start (init net)))))) = true) as H
    by (vm_compute; reflexivity).
  apply existsb_exists in H as (x & I & X). destruct x as [|[[]| | | |]]; try discriminate X. exact I.
Qed.
Print Assumptions C76_sends_refuted.

(* while one thread sends, another that wants to does not wait at all *)
Theorem C76_second_refuted :
  exists c r a e l, let d := drun c l (device_start (MAC_init c r a e)) in
  d_threads d 0%nat = T_op (hello true) false /\ d_threads d 1%nat = T_none /\
  d_threads (dstep c (M_begin 1 (hello false)) d) 1%nat = T_done (hello false) D_TIMEOUT 0.
Proof. exists cfg4, EU_863_870, (arg0 net), (at_t 0), (mv h_boot ++ call_at 0 10000 (hello true)). vm_compute. repeat split. Qed.
Print Assumptions C76_second_refuted.

(* --- C77 ------------------------------------------------------------------------- *)

(* cancel() ends the operation another thread waits for, which returns CANCELLED *)
Theorem C77_cancels_partial : forall c r a e l j first i e1 jc, Forall one_operator l -> i <> 0%nat -> jc = J_cancel \/ jc = J_forget ->
  let d := drun c l (device_start (MAC_init c r a e)) in
  d_threads d 0%nat = T_op j first -> kind_of (m_op (d_mac d)) <> None -> d_threads d i = T_queue jc ->
  d_threads (drun c [M_serve i e1; M_wake 0] d) 0%nat = T_done j D_CANCELLED 0.
Proof. exact DeviceP.cancel_ends. Qed.
Print Assumptions C77_cancels_partial.

(* and, like forget(), the network *)
Theorem C77_forgets : forall c e d i j, j = J_cancel \/ j = J_forget -> d_threads d i = T_queue j ->
  s_joined (m_ctx (d_mac (dstep c (M_serve i e) d))) = false.
Proof. exact DeviceP.cancel_forgets. Qed.
Print Assumptions C77_forgets.

Definition d_busy : list move := mv h_boot ++ call_at 0 10000 (hello true) ++ [M_begin 1 J_cancel].
Theorem C77_session_refuted :
  exists c r a e l l', Forall one_operator (l ++ l') /\
  let d := drun c l (device_start (MAC_init c r a e)) in let d' := drun c l' d in
  s_joined (m_ctx (d_mac d)) = true /\ d_threads d 0%nat = T_op (hello true) false /\ d_threads d 1%nat = T_queue J_cancel /\
  d_threads d' 0%nat = T_done (hello true) D_CANCELLED 0 /\ s_joined (m_ctx (d_mac d')) = false.
Proof.
  exists cfg4, EU_863_870, (arg0 net), (at_t 0), d_busy, [M_serve 1 (at_t 10000); M_wake 0].
  split; [apply all_one; vm_compute; reflexivity|]. vm_compute. repeat split.
Qed.
Print Assumptions C77_session_refuted.
