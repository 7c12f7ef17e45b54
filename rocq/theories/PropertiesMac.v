(* C24, C25, C26, C29, C39: operations of the MAC over histories. *)
From Verif Require Import Lib FrameM CommandsM RegionM RadioM MacStateM MacUtilM MacProcM MacApiM Scenario SpecHist SpecTime.
From Verif Require CaseP CoreP HistP EndP TxP StuckP WindowP ReqP.

Definition cfg4 : cfg := toy_cfg L2_1_0_4.
Definition start4 : mac := MAC_init cfg4 EU_863_870 (arg0 None) (at_t 0).

(* --- C24 ------------------------------------------------------------------------- *)

(* from outside: more operations started than ended *)
Theorem C24_busy_exclusion : forall c r a e0 h e k,
  let m0 := MAC_init c r a e0 in
  is_request k = true -> count is_start (items c h m0) <> count is_end (items c h m0) ->
  let m := run c h m0 in
  fst (step c e k m) = m /\ refuses (snd (step c e k m)) = true.
Proof. exact ReqP.busy_exclusion. Qed.
Print Assumptions C24_busy_exclusion.

(* any state, reachable or not *)
Theorem C24_busy_state : forall c e k m, is_request k = true -> m_op m <> OP_NONE ->
  fst (step c e k m) = m /\ refuses (snd (step c e k m)) = true.
Proof. exact ReqP.busy_refused. Qed.
Print Assumptions C24_busy_state.

Example C24_example :
  let h := h_boot ++ [(at_t 30, C_otaa)] in
  count is_start (items cfg4 h start4) = 1 /\ count is_end (items cfg4 h start4) = 0 /\
  snd (step cfg4 (at_t 31) C_entropy (run cfg4 h start4)) = RStatus STATUS_BUSY /\
  snd (step cfg4 (at_t 31) C_entropy (run cfg4 h_boot start4)) = RStatus STATUS_OK.
Proof. vm_compute. auto. Qed.

(* --- C25 ------------------------------------------------------------------------- *)

(* in every history the events follow the requests: [in_progress] is None as
   soon as an operation starts during another, or an event ends an operation
   that is not in progress or of another kind *)
Theorem C25_events_match_requests : forall c r a e h,
  in_progress (items c h (MAC_init c r a e)) = Some (EndP.kind_of (m_op (run c h (MAC_init c r a e)))).
Proof. exact EndP.progress_init. Qed.
Print Assumptions C25_events_match_requests.

(* so at every point no operation has ended twice and none without starting *)
Theorem C25_at_most_one_completion : forall c r a e h pre post,
  items c h (MAC_init c r a e) = pre ++ post -> 0 <= count is_start pre - count is_end pre <= 1.
Proof. exact EndP.balance. Qed.
Print Assumptions C25_at_most_one_completion.

(* and all that started have ended exactly when the MAC takes requests again *)
Theorem C25_idle_means_ended : forall c r a e h,
  let m := run c h (MAC_init c r a e) in
  let l := items c h (MAC_init c r a e) in
  count is_start l - count is_end l = match m_op m with OP_NONE => 0 | _ => 1 end.
Proof. exact EndP.busy_state. Qed.
Print Assumptions C25_idle_means_ended.

Example C25_example :
  let l := items cfg4 h_toy_join start4 in
  count is_start l = 1 /\ count is_end l = 1 /\ in_progress l = Some None.
Proof. vm_compute. auto. Qed.

(* the join request is sent and RX1 opened at 8.0 s; a call at 9.0 s takes the
   timer of RX2; RX1 times out *)
Definition h_lost : history :=
  h_boot ++ h_join_tx 30 ++ h_rx1 3000 5 ++
  [P 9000; (timeout_at 9100, C_radioEvent 9100); (timeout_at 9100, C_process)].

Lemma h_lost_dead : StuckP.dead (run cfg4 h_lost start4).
Proof. vm_compute. auto. Qed.

(* "every accepted operation ends" fails: however long it is driven, this one
   does not, unless the application cancels it *)
Theorem C25_operation_ends_refuted :
  exists c r a e h, let m0 := MAC_init c r a e in
  count is_start (items c h m0) = 1 /\ count is_end (items c h m0) = 0 /\
  forall h' x, Forall (fun x => snd x <> C_cancel /\ snd x <> C_forget) h' ->
    In x (items c h' (run c h m0)) -> ends x = None.
Proof.
  exists cfg4, EU_863_870, (arg0 None), (at_t 0), h_lost. cbv zeta. fold start4.
  split; [vm_compute; reflexivity|]. split; [vm_compute; reflexivity|].
  intros h' x F I. exact (StuckP.dead_no_end cfg4 h' _ x h_lost_dead F I).
Qed.
Print Assumptions C25_operation_ends_refuted.

(* --- C26 ------------------------------------------------------------------------- *)

(* cancel or forget in any state but the three of start-up *)
Theorem C26_cancel_stops_the_mac : forall c e m k h, StuckP.running (m_state m) = true -> k = C_cancel \/ k = C_forget ->
  let m' := run c h (fst (step c e k m)) in
  MAC_ready m' = false /\ (m_state m' = ST_RADIO_RESET \/ m_state m' = ST_WAIT_RX2) /\
  forall o, In (IOut o) (items c h (fst (step c e k m))) -> TxP.no_tx o = true.
Proof.
  intros c e m k h R K.
  assert (StuckP.dead (fst (step c e k m))) as D
    by (destruct K as [-> | ->]; [exact (StuckP.cancel_dead m R)|exact (StuckP.forget_dead c m R)]).
  pose proof (StuckP.dead_forever c h _ D) as D'.
  split; [exact (StuckP.dead_not_ready _ D')|]. split; [exact (proj1 D')|].
  intros o. exact (StuckP.dead_silent c h _ o D).
Qed.
Print Assumptions C26_cancel_stops_the_mac.

(* an idle, ready MAC is cancelled: no schedule makes it ready again *)
Theorem C26_cancel_returns_to_service_refuted :
  exists c r a e h, let m := run c h (MAC_init c r a e) in
  MAC_ready m = true /\ forall h' e', MAC_ready (run c h' (fst (step c e' C_cancel m))) = false.
Proof.
  exists cfg4, EU_863_870, (arg0 None), (at_t 0), h_boot. cbv zeta. fold start4. split; [vm_compute; reflexivity|].
  intros h' e'. destruct (C26_cancel_stops_the_mac cfg4 e' (run cfg4 h_boot start4) C_cancel h') as (H & _); [vm_compute; reflexivity|auto|exact H].
Qed.
Print Assumptions C26_cancel_returns_to_service_refuted.

(* what remains of the claim: during start-up cancelling does no harm, and
   start-up runs to idle *)
Theorem C26_startup_partial : forall c e1 e2 e3 D T1 T2 T3 m,
  m_state m = ST_INIT -> inputPending m = false ->
  length (m_timers m) = 3%nat -> 0 <= m_tps m < 2 ^ 32 -> get_timer m WAITA = mkTimer (clock D) true ->
  e_now e1 = clock T1 -> e_now e2 = clock T2 -> e_now e3 = clock T3 ->
  D <= T1 < D + 2 ^ 31 - 1 -> T1 + m_tps m / 1024 <= T2 < T1 + 2 ^ 31 - 1 -> T2 + m_tps m / 128 <= T3 < T2 + 2 ^ 31 - 1 ->
  let m' := run c [(e1, C_process); (e2, C_process); (e3, C_process)] (MAC_cancel m) in
  m_state m' = ST_IDLE /\ m_op m' = OP_NONE.
Proof. exact StuckP.cancel_boot. Qed.
Print Assumptions C26_startup_partial.

Example C26_startup_example :
  let m := start4 in
  m_state m = ST_INIT /\ inputPending m = false /\ get_timer m WAITA = mkTimer (clock 0) true /\
  MAC_ready (run cfg4 h_boot (MAC_cancel m)) = true.
Proof. vm_compute. auto. Qed.

(* --- C29 ------------------------------------------------------------------------- *)

(* nothing but the transmit parameters, which the next request overwrites *)
Theorem C29_refused_request : forall c e cf port data o m,
  refuses (snd (step c e (C_data cf port data o) m)) = true ->
  exists tx, fst (step c e (C_data cf port data o) m) = set_m_tx tx m.
Proof. exact ReqP.data_refused. Qed.
Print Assumptions C29_refused_request.

(* which refusal: the first condition that fails decides *)
Theorem C29_refusal_reasons : forall c e cf port data o m,
  let st := snd (MAC_data c e cf port data o m) in
  let s := m_ctx m in
  if negb (s_joined s) then st = STATUS_NOTJOINED
  else if negb (match m_op m with OP_NONE => true | _ => false end) then st = STATUS_BUSY
  else if negb ((1 <=? port) && (port <=? 223)) then st = STATUS_PORT
  else if negb (band_global m =? 0) then st = STATUS_NOCHANNEL
  else st <> STATUS_NOTJOINED /\ st <> STATUS_BUSY /\ st <> STATUS_PORT /\
    (st = STATUS_NOCHANNEL -> snd (selectChannel (CaseP.sel_start c m) (s_rate s) 0 (e_rand e RND_CHANNEL) (m_tx (CaseP.sel_start c m))) = false) /\
    (snd (selectChannel (CaseP.sel_start c m) (s_rate s) 0 (e_rand e RND_CHANNEL) (m_tx (CaseP.sel_start c m))) = true ->
     (st = STATUS_SIZE <-> rate_mtu (s_region s) (s_rate s) < CaseP.len_of data + Frame_dataOverhead)).
Proof. exact ReqP.data_status. Qed.
Print Assumptions C29_refusal_reasons.

Example C29_example :
  let m := run cfg4 [P 10000] toy_joined in
  let req p n := snd (step cfg4 (at_t 10000) (C_data false p (Some (fill 7 n)) None) m) in
  snd (step cfg4 (at_t 9000) (C_data false 1 None None) toy_joined) = RStatus STATUS_NOCHANNEL /\
  req 0 1%nat = RStatus STATUS_PORT /\ req 224 1%nat = RStatus STATUS_PORT /\
  req 1 245%nat = RStatus STATUS_SIZE /\ req 1 10%nat = RStatus STATUS_OK /\
  snd (step cfg4 (at_t 9000) (C_data false 1 None None) (run cfg4 h_boot start4)) = RStatus STATUS_NOTJOINED.
Proof. vm_compute. repeat split. Qed.

(* --- C39 ------------------------------------------------------------------------- *)

(* the timer of RX2 comes due while RX1 is open, and RX1 then times out: the MAC
   waits for RX2 with no timer running, so RX2 is never opened *)
Theorem C39_second_window_lost : forall c e1 t e2 D T m, m_state m = ST_RX1 -> m_inputs m = mkInput true false (in_time (m_inputs m)) ->
  WindowP.not_due T m WAITA -> WindowP.ticking D m WAITB -> (WAITB < length (m_timers m))%nat ->
  e_now e1 = clock T -> D <= T < D + 2 ^ 31 - 1 -> e_st_rx e2 = false -> e_st_timeout e2 = true ->
  let m' := run c [(e1, C_process); (e2, C_radioEvent t); (e2, C_process)] m in
  StuckP.dead m' /\ m_state m' = ST_WAIT_RX2 /\ m_op m' = m_op m.
Proof. exact WindowP.window_lost. Qed.
Print Assumptions C39_second_window_lost.

(* [dead] states stay so under every call *)
Theorem C39_lost_for_good : forall c h m, StuckP.dead m ->
  StuckP.dead (run c h m) /\ MAC_ready (run c h m) = false /\
  forall o, In (IOut o) (items c h m) -> TxP.no_tx o = true.
Proof.
  intros c h m D. pose proof (StuckP.dead_forever c h m D) as D'.
  split; [exact D'|]. split; [exact (StuckP.dead_not_ready _ D')|]. intros o. exact (StuckP.dead_silent c h m o D).
Qed.
Print Assumptions C39_lost_for_good.

Theorem C39_second_window_used_refuted :
  exists c r a e h, let m := run c h (MAC_init c r a e) in
  m_op m = OP_JOINING /\ m_state m = ST_WAIT_RX2 /\
  forall h', m_state (run c h' m) = ST_WAIT_RX2 \/ m_state (run c h' m) = ST_RADIO_RESET.
Proof.
  exists cfg4, EU_863_870, (arg0 None), (at_t 0), h_lost. cbv zeta. fold start4.
  split; [vm_compute; reflexivity|]. split; [vm_compute; reflexivity|].
  intros h'. destruct (StuckP.dead_forever cfg4 h' _ h_lost_dead) as [[H|H] _]; auto.
Qed.
Print Assumptions C39_second_window_used_refuted.

(* with its timer still running the second window opens on time *)
Theorem C39_second_window_partial : forall c e1 e2 D T1 T2 m, m_state m = ST_WAIT_RX2 -> inputPending m = false ->
  StuckP.armed WAITA m = false -> WindowP.ticking D m WAITB -> (WAITB < length (m_timers m))%nat ->
  e_now e1 = clock T1 -> e_now e2 = clock T2 -> D <= T1 < D + 2 ^ 31 - 1 ->
  D + msToTicks m (c_xtal c) <= T2 < D + 2 ^ 31 - 1 -> msToTicks m (c_xtal c) < 2 ^ 31 ->
  let m' := run c [(e1, C_process); (e2, C_process)] m in
  let r := s_region (m_ctx m) in let rate := s_rx2DataRate (m_ctx m) in
  m_state m' = ST_RX2 /\ exists l, m_log m' = m_log m ++ l /\
    In (OReceive (s_rx2Freq (m_ctx m)) (rate_bw r rate) (rate_sf r rate) (m_rx2_symbols m) (u8 (rate_mtu r rate + Frame_phyOverhead))) l.
Proof. exact WindowP.window_opens. Qed.
Print Assumptions C39_second_window_partial.

(* RX1 times out at 8.2 s, RX2 is waited for with its timer at 8.927 s *)
Example C39_example :
  let h := h_boot ++ h_join_tx 30 ++ h_rx1 3000 5 ++ [(timeout_at 8200, C_radioEvent 8200); (timeout_at 8200, C_process)] in
  let m := run cfg4 h start4 in
  m_state m = ST_WAIT_RX2 /\ StuckP.armed WAITA m = false /\ WindowP.ticking 8927 m WAITB /\
  m_state (run cfg4 [P 8927; P 8952] m) = ST_RX2.
Proof. vm_compute. auto. Qed.
