(* Final statements: how long a sub-band rests (C23). *)
From Verif Require Import Words Lib FrameM RegionM RadioM MacStateM MacUtilM OpsM MacProcM MacApiM Scenario SpecHist SpecTime SpecRegion SpecChan SpecValid SpecWait.
From Verif Require BandP PropertiesChan.
Import PropertiesChan.

(* A transmission puts air time times factor on the counter of its sub-band. *)
Theorem C23_charge : forall c e m b, tx_ends m e -> getBand (s_region (m_ctx m)) (tx_freq (m_tx m)) = Some b ->
  length (m_band m) = 6%nat -> in_range (m_band m) ->
  u32 (tx_airTime (m_tx m) * getOffTimeFactor (s_region (m_ctx m)) b) <= nth (Z.to_nat b) (m_band (MAC_process c e m)) 0.
Proof. exact BandP.charged. Qed.
Print Assumptions C23_charge.

(* The counter of a sub-band is in 1/256 s.  It reaches zero at most one unit
   early, as long as the off-time clock is running at the start and no counter
   is at its limit. *)
Theorem C23_wait : forall c h m T0 Ts b, (b < BAND_GLOBAL)%nat -> length (m_band m) = 6%nat -> in_range (m_band m) ->
  clock_runs T0 m -> timed T0 h Ts -> unsaturated c h m -> nth b (m_band (run c h m)) 0 = 0 ->
  nth b (m_band m) 0 * m_tps m < 256 * (List.last Ts T0 - T0) + m_tps m.
Proof. exact BandP.waits. Qed.
Print Assumptions C23_wait.

(* After a transmission a data request is given a channel of the same sub-band
   only when the off-time has passed, whatever happens in between: for every
   history from initialisation in which the off-time clock was running at the
   time of the transmission.  Missing: a clock that was stopped, the second
   transmission of a request, and join requests; see below. *)
Theorem C23_next_request_partial : forall c r a e0 h0 e1 T0 P h Ts e cf port d o b, valid_start r (ia_session a) ->
  Forall (fun x => power_arg (snd x)) (h0 ++ (e1, C_process) :: h) -> 0 <= e_rand e RND_CHANNEL ->
  let m := run c h0 (MAC_init c r a e0) in let m2 := run c h (fst (step c e1 C_process m)) in
  tx_ends m e1 -> clock_runs P m -> P <= T0 -> e_now e1 = clock T0 -> getBand r (tx_freq (m_tx m)) = Some b ->
  timed T0 h Ts -> unsaturated c ((e1, C_process) :: h) m ->
  let k := C_data cf port d o in starts (IReq k (snd (step c e k m2))) = Some KData -> getBand r (tx_freq (m_tx (fst (step c e k m2)))) = Some b ->
  let off := tx_airTime (m_tx m) * getOffTimeFactor r b in 0 <= off < 2 ^ 32 ->
  off * m_tps m < 256 * (List.last Ts T0 - T0) + m_tps m.
Proof. exact BandP.next_request. Qed.
Print Assumptions C23_next_request_partial.

(* The transmission of a join request ends at 3 s; the sub-band has to rest
   for 1500/256 s; the device joins and sends in the same sub-band at 9 s.  At
   8.1 s that is refused. *)
Definition w_join : history := h_boot ++ h_join_tx 30 ++ [(tx_at 3000, C_radioEvent 3000)].
Definition w_rest : history := [P 8000; P 8000] ++ h_rx 8100 toy_accept ++ [P 9000].
Definition w_m : mac := at_h w_join.
Definition w_m2 : mac := run cfg4 w_rest (fst (step cfg4 (tx_at 3000) C_process w_m)).
Fixpoint below (c : cfg) (h : history) (m : mac) : bool :=
  match h with [] => true | (e, k) :: h => let m' := fst (step c e k m) in forallb (fun b => b <? UINT32_MAX) (m_band m') && below c h m' end.
Lemma below_unsaturated c h : forall m, below c h m = true -> unsaturated c h m.
Proof.
  induction h as [|[e k] h IH]; intros m H; [exact I|]. cbn [below unsaturated] in *. cbv zeta in *. apply andb_true_iff in H. destruct H as [H1 H2].
  split; [|auto]. apply Forall_forall. intros x Ix. rewrite forallb_forall in H1. specialize (H1 _ Ix). lia.
Qed.
Example C23_next_request_ex :
  valid_start EU_863_870 (ia_session (arg0 None)) /\ tx_ends w_m (tx_at 3000) /\ clock_runs 55 w_m /\ e_now (tx_at 3000) = clock 3000 /\
  getBand EU_863_870 (tx_freq (m_tx w_m)) = Some 1 /\ tx_airTime (m_tx w_m) * getOffTimeFactor EU_863_870 1 = 1500 /\
  timed 3000 w_rest [8000; 8000; 8100; 8100; 9000] /\ unsaturated cfg4 ((tx_at 3000, C_process) :: w_rest) w_m /\
  starts (IReq (ask 1 [1]) (snd (step cfg4 (at_t 9000) (ask 1 [1]) w_m2))) = Some KData /\
  getBand EU_863_870 (tx_freq (m_tx (fst (step cfg4 (at_t 9000) (ask 1 [1]) w_m2)))) = Some 1 /\
  snd (step cfg4 (at_t 8100) (ask 1 [1]) (run cfg4 (firstn 4 w_rest) (fst (step cfg4 (tx_at 3000) C_process w_m)))) = RStatus STATUS_NOCHANNEL.
Proof.
  split; [exact I|]. split; [vm_compute; auto|]. split; [vm_compute; repeat split; congruence|]. split; [reflexivity|]. split; [vm_compute; reflexivity|].
  split; [vm_compute; reflexivity|]. split; [vm_compute; repeat split; congruence|]. split; [apply below_unsaturated; vm_compute; reflexivity|].
  split; [vm_compute; reflexivity|]. split; vm_compute; reflexivity.
Qed.

(* A transmission ends with the call of e1 and another one in the same
   sub-band is started with that of e, more than one unit before the off-time
   has passed. *)
Definition sent_early (c : cfg) (r : region) (a : init_arg) (e0 : env) (h0 : history) (e1 : env) (h : history) (e : env) (fr : bytes) : Prop :=
  let m := run c h0 (MAC_init c r a e0) in let m2 := run c h (fst (step c e1 C_process m)) in
  exists b f bw sf p, tx_ends m e1 /\ getBand r (tx_freq (m_tx m)) = Some b /\ getBand r f = Some b /\
  In (OTransmit f bw sf p fr) (new_out m2 (fst (step c e C_process m2))) /\
  256 * (e_now e - e_now e1) + m_tps m < tx_airTime (m_tx m) * getOffTimeFactor r b * m_tps m /\
  0 <= e_now e1 <= e_now e /\ e_now e < 2 ^ 32.

(* After an idle time the off-time is dropped.  The off-time clock stops when
   there is nothing to wait for; at the end of the next transmission it is
   started with the time at which it stopped, so that the idle time counts as
   off-time.  Here: one frame, 50 minutes later, and the next 2.5 s after that;
   5 s are due. *)
Definition h_idle : history := h_clear ++ [(at_t 6000000, ask 1 [1;2;3]); P 6000000; P 6000025; (tx_at 6001025, C_radioEvent 6001025)].
Definition h_then : history := [
   P 6002025; P 6002025; (timeout_at 6002100, C_radioEvent 6002100); (timeout_at 6002100, C_process);
   P 6003025; P 6003025; (timeout_at 6003100, C_radioEvent 6003100); (timeout_at 6003100, C_process); P 6003500;
   (at_t 6003500, ask 1 [4]); P 6003500].
Theorem C23_idle_refuted : exists c r a e0 h0 e1 h e fr, in_place c /\ arg_ok a /\ ia_session a = None /\ is_data_frame fr = true /\
  sent_early c r a e0 h0 e1 h e fr.
Proof.
  exists cfg4, EU_863_870, (arg0 None), (at_t 0), h_idle, (tx_at 6001025), h_then, (at_t 6003525), [64; 218; 27; 1; 38; 128; 1; 0; 1; 4; 1; 2; 3; 4].
  split; [exact cfg4_in_place|]. split; [apply arg0_ok|]. split; [reflexivity|]. split; [reflexivity|]. unfold sent_early. cbv zeta.
  exists 1, 868100000, BW_125, 7, 1600.
  split; [vm_compute; auto|]. split; [vm_compute; reflexivity|]. split; [reflexivity|]. split; [apply sent_in; vm_compute; reflexivity|].
  split; [vm_compute; reflexivity|]. vm_compute. repeat split; congruence.
Qed.
Print Assumptions C23_idle_refuted.

(* The second transmission of a request does not wait. *)
Theorem C23_repeat_refuted : exists c r a e0 h0 e1 h e fr, in_place c /\ arg_ok a /\ ia_session a = None /\ is_data_frame fr = true /\
  sent_early c r a e0 h0 e1 h e fr.
Proof.
  exists cfg4, EU_863_870, (arg0 None), (at_t 0), (h_sent ++ [(tx_at 3001025, C_radioEvent 3001025)]), (tx_at 3001025),
    [P 3002025; P 3002025; (timeout_at 3002100, C_radioEvent 3002100); (timeout_at 3002100, C_process);
     P 3003025; P 3003025; (timeout_at 3003100, C_radioEvent 3003100); (timeout_at 3003100, C_process); P 3003500; P 3003500], (at_t 3003525), fr1.
  split; [exact cfg4_in_place|]. split; [apply arg0_ok|]. split; [reflexivity|]. split; [reflexivity|]. unfold sent_early. cbv zeta.
  exists 1, 868300000, BW_125, 7, 1600.
  split; [vm_compute; auto|]. split; [vm_compute; reflexivity|]. split; [reflexivity|]. split; [apply sent_in; vm_compute; reflexivity|].
  split; [vm_compute; reflexivity|]. vm_compute. repeat split; congruence.
Qed.
Print Assumptions C23_repeat_refuted.

(* Nor does a join request: after an error of the radio in the window of a
   data frame the application forgets the network and joins. *)
Theorem C23_join_refuted : exists c r a e0 h0 e1 h e fr, in_place c /\ arg_ok a /\ ia_session a = None /\ is_join_frame fr = true /\
  sent_early c r a e0 h0 e1 h e fr.
Proof.
  exists cfg4, EU_863_870, (arg0 None), (at_t 0), (h_sent ++ [(tx_at 3001025, C_radioEvent 3001025)]), (tx_at 3001025),
    [P 3002025; P 3002025; (at_t 3002100, C_radioEvent 3002100); (at_t 3002100, C_process);
     (at_t 3002100, C_forget); (at_t 3002100, C_otaa); P 3002102; P 3002112; P 3002112; P 3002112], (at_t 3002137), (jr 1).
  split; [exact cfg4_in_place|]. split; [apply arg0_ok|]. split; [reflexivity|]. split; [reflexivity|]. unfold sent_early. cbv zeta.
  exists 1, 868100000, BW_125, 7, 1600.
  split; [vm_compute; auto|]. split; [vm_compute; reflexivity|]. split; [reflexivity|]. split; [apply sent_in; vm_compute; reflexivity|].
  split; [vm_compute; reflexivity|]. vm_compute. repeat split; congruence.
Qed.
Print Assumptions C23_join_refuted.
