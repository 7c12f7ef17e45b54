(* Interrupts within LDL_MAC_process. *)
From Verif Require Import Lib StreamM FrameM CommandsM RegionM RadioM SmM MacStateM MacTac MacUtilM OpsM MacCmdM MacProcM MacApiM MacRw MacIntM SpecInput SpecInt InputP.

(* functions that leave the inputs alone *)
Definition lets (F : mac -> mac) : Prop := forall i m, F (set_m_inputs i m) = set_m_inputs i (F m).

Lemma inputs_eta m : set_m_inputs (m_inputs m) m = m.
Proof. destruct m; reflexivity. Qed.
Lemma lets_inputs F m : lets F -> m_inputs (F m) = m_inputs m.
Proof. intros L. rewrite <- (inputs_eta m) at 1. rewrite L. reflexivity. Qed.

Lemma sig_event w n m : sig w n m = event (w n) m. Proof. reflexivity. Qed.
Lemma event_pass F t m : lets F -> F (event t m) = event t (F m).
Proof.
  intros L. destruct t as [t|]; [|reflexivity]. cbn [event]. unfold inputSignal. rewrite (lets_inputs F m L). destruct (_ && _); [|reflexivity]. apply L.
Qed.

Definition first (a b : option Z) : option Z := match a with Some t => Some t | None => b end.
Lemma event_twice a b m : event b (event a m) = event (first a b) m.
Proof.
  destruct a as [t|]; [|reflexivity]. destruct b as [u|]; [|reflexivity]. cbn [event first]. unfold inputSignal at 1.
  unfold inputSignal. destruct (m_inputs m) as [ar st tm] eqn:I. cbn [in_state in_armed]. destruct st, ar; cbn [negb andb]; rewrite ?I; reflexivity.
Qed.
Lemma event_off t m : in_armed (m_inputs m) = false -> event t m = m.
Proof. intros A. destruct t; [|reflexivity]. cbn [event]. unfold inputSignal. rewrite A, andb_false_r. reflexivity. Qed.
Lemma event_state t m : m_state (event t m) = m_state m.
Proof. destruct t; [|reflexivity]. cbn [event]. unfold inputSignal. destruct (_ && _); reflexivity. Qed.
Lemma event_armed t m : in_armed (m_inputs (event t m)) = in_armed (m_inputs m).
Proof. destruct t; [|reflexivity]. cbn [event]. unfold inputSignal. destruct (_ && _); reflexivity. Qed.
Lemma event_on t m : in_armed (m_inputs m) = true -> in_state (m_inputs m) = false -> event (Some t) m = set_m_inputs (mkInput true true t) m.
Proof. intros A S. cbn [event]. unfold inputSignal. rewrite A, S. reflexivity. Qed.

Lemma one_of_first w a b : one_of w a -> one_of w b -> one_of w (first a b).
Proof. destruct a; cbn [first]; auto. Qed.
Lemma one_of_at w n : one_of w (w n).
Proof. destruct (w n) as [t|] eqn:E; [exists n; exact E|exact I]. Qed.

(* --- functions that leave them alone --- *)

Lemma l_state s : lets (set_m_state s). Proof. intros i m. reflexivity. Qed.
Lemma l_timerSet e t v : lets (timerSet e t v). Proof. intros i m. reflexivity. Qed.
Lemma l_timerClear t : lets (timerClear t). Proof. intros i m. reflexivity. Qed.
Lemma l_emit o : lets (emit o). Proof. intros i m. reflexivity. Qed.
Lemma l_next e : lets (setNextBandEvent e).
Proof. intros i m. unfold setNextBandEvent. change (nextBandTime (set_m_inputs i m)) with (nextBandTime m). cbv zeta. destruct (_ <? _); reflexivity. Qed.
Lemma l_bands e i m : processBands e (set_m_inputs i m) = (set_m_inputs i (fst (processBands e m)), snd (processBands e m)).
Proof.
  unfold processBands. change (m_time (set_m_inputs i m)) with (m_time m). destruct (mt_parked _); [reflexivity|].
  change (elapsed (set_m_inputs i m) (e_now e)) with (elapsed m (e_now e)). destruct (elapsed m (e_now e)) as [t r].
  cbv zeta. change (m_band (set_m_inputs i m)) with (m_band m). change (m_day (set_m_inputs i m)) with (m_day m).
  set (l := map _ _). set (rd := existsb _ _).
  change (band_global (set_m_band l (set_m_day (fst (updateDownCounter (m_day m) t)) (set_m_time (mkTime (e_now e) r (mt_parked (m_time m))) (set_m_inputs i m)))))
    with (band_global (set_m_band l (set_m_day (fst (updateDownCounter (m_day m) t)) (set_m_time (mkTime (e_now e) r (mt_parked (m_time m))) m)))).
  destruct (_ && _); reflexivity.
Qed.
Lemma l_bands1 e : lets (fun m => fst (processBands e m)).
Proof. intros i m. cbv beta. rewrite l_bands. reflexivity. Qed.
Lemma l_check e t i m : timerCheck e t (set_m_inputs i m) = (set_m_inputs i (fst (timerCheck e t m)), snd (timerCheck e t m)).
Proof.
  unfold timerCheck. change (get_timer (set_m_inputs i m) t) with (get_timer m t). cbv zeta. destruct (tm_armed _); [|reflexivity]. destruct (_ <? _); reflexivity.
Qed.
Lemma l_check1 e t : lets (fun m => fst (timerCheck e t m)).
Proof. intros i m. cbv beta. rewrite l_check. reflexivity. Qed.
Lemma check_event e t s m : timerCheck e t (event s m) = (event s (fst (timerCheck e t m)), snd (timerCheck e t m)).
Proof.
  rewrite <- (event_pass (fun m => fst (timerCheck e t m)) s m (l_check1 e t)). destruct s as [s|]; [|apply surjective_pairing].
  cbn [event]. unfold inputSignal. destruct (_ && _); [rewrite l_check; reflexivity|apply surjective_pairing].
Qed.
Lemma bands_event e s m : processBands e (event s m) = (event s (fst (processBands e m)), snd (processBands e m)).
Proof.
  rewrite <- (event_pass (fun m => fst (processBands e m)) s m (l_bands1 e)). destruct s as [s|]; [|apply surjective_pairing].
  cbn [event]. unfold inputSignal. destruct (_ && _); [rewrite l_bands; reflexivity|apply surjective_pairing].
Qed.
Lemma l_register : lets registerTime.
Proof.
  intros i m. unfold registerTime. change (m_tx (set_m_inputs i m)) with (m_tx m). change (m_ctx (set_m_inputs i m)) with (m_ctx m).
  change (m_op (set_m_inputs i m)) with (m_op m). cbv zeta. destruct (getBand _ _) as [b|].
  - change (band_set (Z.to_nat b) (sat_add (band_get (set_m_inputs i m) b) (u32 (tx_airTime (m_tx m) * getOffTimeFactor (s_region (m_ctx m)) b))) (set_m_inputs i m))
      with (set_m_inputs i (band_set (Z.to_nat b) (sat_add (band_get m b) (u32 (tx_airTime (m_tx m) * getOffTimeFactor (s_region (m_ctx m)) b))) m)).
    set (x := band_set _ _ m). clearbody x. destruct (m_op m); try (destruct (_ >? 0); reflexivity). reflexivity.
  - destruct (m_op m); try (destruct (_ >? 0); reflexivity). reflexivity.
Qed.
Lemma l_complete ev : lets (complete ev). Proof. intros i m. reflexivity. Qed.
Lemma l_fill c e n : lets (fillJoinBuffer c e n).
Proof.
  intros i m. unfold fillJoinBuffer. set (dn := match c_l2 c with L2_1_0_3 => _ | _ => n end). cbv zeta.
  change (on_ctx (set_s_devNonce dn) (set_m_inputs i m)) with (set_m_inputs i (on_ctx (set_s_devNonce dn) m)). set (x := on_ctx _ m). clearbody x.
  change (m_joinEUI (set_m_inputs i x)) with (m_joinEUI x). change (m_devEUI (set_m_inputs i x)) with (m_devEUI x). change (m_buffer (set_m_inputs i x)) with (m_buffer x).
  assert (forall f b k, prepareJoinRequest c (set_m_inputs i x) f b k = prepareJoinRequest c x f b k) as -> by reflexivity.
  destruct (prepareJoinRequest _ _ _ _ _) as [buf len].
  change (set_m_bufferLen len (set_m_buffer buf (set_m_inputs i x))) with (set_m_inputs i (set_m_bufferLen len (set_m_buffer buf x))).
  set (y := set_m_bufferLen _ _). clearbody y. unfold selectJoinChannelAndRate. cbv zeta.
  change (m_ctx (set_m_inputs i y)) with (m_ctx y). change (m_tx (set_m_inputs i y)) with (m_tx y). change (m_trials (set_m_inputs i y)) with (m_trials y).
  destruct (isDynamic _).
  - assert (timeUntilNextChannel (set_m_inputs i y) = timeUntilNextChannel y) as -> by reflexivity.
    assert (forall d l r t, selectChannel (set_m_inputs i y) d l r t = selectChannel y d l r t) as -> by reflexivity. reflexivity.
  - destruct (Region_getChannel _ _) as [[[f lo] hi]|]; reflexivity.
Qed.
Definition again (c : cfg) (e : env) (m : mac) : mac :=
  if m_devNonce m <=? 65535 then
    let m := fillJoinBuffer c e (u16 (m_devNonce m)) m in
    let m := set_m_devNonce (u32 (m_devNonce m + 1)) m in
    let m := notify (EV_DEV_NONCE_UPDATED (m_devNonce m)) m in
    timerSet e WAITA 0 (set_m_state ST_WAIT_OTAA m)
  else complete EV_JOIN_EXHAUSTED m.
Lemma missing_again c e m : m_op m = OP_JOINING -> downlinkMissing c e m = again c e (set_m_trials (u32 (m_trials m + 1)) m).
Proof.
  intros O. open_def downlinkMissing. assert (m_op (set_m_trials (u32 (m_trials m + 1)) m) = OP_JOINING) as O' by exact O.
  cbv zeta. rewrite O'. reflexivity.
Qed.
Lemma tail_in i y e : let m := set_m_inputs i y in
  timerSet e WAITA 0 (set_m_state ST_WAIT_OTAA (notify (EV_DEV_NONCE_UPDATED (m_devNonce (set_m_devNonce (u32 (m_devNonce m + 1)) m))) (set_m_devNonce (u32 (m_devNonce m + 1)) m))) =
  set_m_inputs i (timerSet e WAITA 0 (set_m_state ST_WAIT_OTAA (notify (EV_DEV_NONCE_UPDATED (m_devNonce (set_m_devNonce (u32 (m_devNonce y + 1)) y))) (set_m_devNonce (u32 (m_devNonce y + 1)) y)))).
Proof. reflexivity. Qed.
Lemma l_again c e : lets (again c e).
Proof.
  intros i m. unfold again. assert (m_devNonce (set_m_inputs i m) = m_devNonce m) as -> by reflexivity. destruct (_ <=? _); [|reflexivity]. cbv zeta.
  rewrite (l_fill c e _ i m). apply tail_in.
Qed.
Lemma trials_in i m v : set_m_trials v (set_m_inputs i m) = set_m_inputs i (set_m_trials v m). Proof. reflexivity. Qed.
Lemma l_retry c e i m : m_op m = OP_JOINING -> downlinkMissing c e (set_m_inputs i m) = set_m_inputs i (downlinkMissing c e m).
Proof.
  intros O. rewrite (missing_again c e m O), (missing_again c e (set_m_inputs i m)) by exact O.
  assert (m_trials (set_m_inputs i m) = m_trials m) as -> by reflexivity. rewrite trials_in. apply l_again.
Qed.

(* handleRadioError after the inputs are disarmed *)
Definition reset (c : cfg) (e : env) (m : mac) : mac :=
  let m := match m_op m with
           | OP_JOINING => downlinkMissing c e m
           | _ => notify EV_OP_ERROR (set_m_op OP_NONE m)
           end in
  timerSet e WAITA (m_tps m / 1024) (emit (OMode MODE_RESET) (set_m_state ST_RADIO_RESET m)).
Lemma reset_in e i y : timerSet e WAITA (m_tps (set_m_inputs i y) / 1024) (emit (OMode MODE_RESET) (set_m_state ST_RADIO_RESET (set_m_inputs i y))) =
  set_m_inputs i (timerSet e WAITA (m_tps y / 1024) (emit (OMode MODE_RESET) (set_m_state ST_RADIO_RESET y))).
Proof. reflexivity. Qed.
Lemma error_in i m : notify EV_OP_ERROR (set_m_op OP_NONE (set_m_inputs i m)) = set_m_inputs i (notify EV_OP_ERROR (set_m_op OP_NONE m)).
Proof. reflexivity. Qed.
Lemma l_reset c e : lets (reset c e).
Proof.
  intros i m. unfold reset. cbv zeta. assert (m_op (set_m_inputs i m) = m_op m) as -> by reflexivity.
  destruct (m_op m) eqn:O; [| |rewrite (l_retry c e i m O); apply reset_in| | |]; rewrite error_in; apply reset_in.
Qed.
Lemma error_reset c e m : handleRadioError c e m = reset c e (timerClear WAITB (timerClear WAITA (inputDisarm m))).
Proof. reflexivity. Qed.
Lemma error_i_reset c e w m : error_i c e w m = reset c e (sig w 6 (timerClear WAITB (timerClear WAITA (inputDisarm (sig w 5 m))))).
Proof. reflexivity. Qed.

(* --- the radio is started --- *)

Definition tx_tail (c : cfg) (e : env) (b : bw) (sf ms : Z) (m : mac) : mac :=
  let m := emit (OTransmit (tx_freq (m_tx m)) b sf (tx_eirp c (m_ctx m) (tx_power (m_tx m))) (slice (m_buffer m) 0 (Z.to_nat (m_bufferLen m)))) m in
  timerSet e WAITA (u32 (Z.shiftl (msToTicks m ms) 1)) (set_m_state ST_TX m).
Lemma l_tx_tail c e b sf ms : lets (tx_tail c e b sf ms). Proof. intros i m. reflexivity. Qed.
Lemma start_tx c e w m : in_armed (m_inputs m) = false -> start_tx_i c e w m = event (w 6%nat) (processStartRadioForTX c e SME_TIMER_A m).
Proof.
  intros A. unfold start_tx_i. cbv zeta. set (b := rate_bw _ _). set (sf := rate_sf _ _). set (ms := getAirTime _ _ _ _).
  change (tx_tail c e b sf ms (sig w 6 (inputArm (sig w 5 (on_tx (set_tx_airTime (msToTime ms)) m)))) = event (w 6%nat) (tx_tail c e b sf ms (inputArm (on_tx (set_tx_airTime (msToTime ms)) m)))).
  rewrite !sig_event. rewrite (event_off (w 5%nat)) by exact A. apply event_pass, l_tx_tail.
Qed.
Definition rx1_tail (e : env) (r : region) (rate freq : Z) (m : mac) : mac :=
  let m := emit (OReceive freq (rate_bw r rate) (rate_sf r rate) (m_rx1_symbols m) (u8 (rate_mtu r rate + Frame_phyOverhead))) m in
  timerSet e WAITA (u32 (Z.shiftl (u32 (m_tps m + m_a m)) 2)) m.
Lemma l_rx1_tail e r rate freq : lets (rx1_tail e r rate freq). Proof. intros i m. reflexivity. Qed.
Lemma start_rx1 e w m : in_armed (m_inputs m) = false -> start_rx1_i e w m = event (w 6%nat) (processStartRadioForRX1 e SME_TIMER_A m).
Proof.
  intros A. unfold start_rx1_i. cbv zeta. set (r := s_region _). set (freq := getRX1Freq _ _ _). set (rate := getRX1DataRate _ _ _).
  change (rx1_tail e r rate freq (sig w 6 (inputArm (sig w 5 (set_m_state ST_RX1 m)))) = event (w 6%nat) (rx1_tail e r rate freq (inputArm (set_m_state ST_RX1 m)))).
  rewrite !sig_event. rewrite (event_off (w 5%nat)) by exact A. apply event_pass, l_rx1_tail.
Qed.
Definition rx2_tail (e : env) (r : region) (rate : Z) (m : mac) : mac :=
  let m := emit (OReceive (s_rx2Freq (m_ctx m)) (rate_bw r rate) (rate_sf r rate) (m_rx2_symbols m) (u8 (rate_mtu r rate + Frame_phyOverhead))) m in
  timerSet e WAITA (u32 (u32 (m_tps m + m_a m) * 4)) m.
Lemma l_rx2_tail e r rate : lets (rx2_tail e r rate). Proof. intros i m. reflexivity. Qed.
Lemma start_rx2 e w m : in_armed (m_inputs m) = false -> start_rx2_i e w m = event (w 6%nat) (processStartRadioForRX2 e SME_TIMER_B m).
Proof.
  intros A. unfold start_rx2_i. cbv zeta. set (r := s_region _). set (rate := s_rx2DataRate _).
  change (rx2_tail e r rate (sig w 6 (inputArm (sig w 5 (set_m_state ST_RX2 m)))) = event (w 6%nat) (rx2_tail e r rate (inputArm (set_m_state ST_RX2 m)))).
  rewrite !sig_event. rewrite (event_off (w 5%nat)) by exact A. apply event_pass, l_rx2_tail.
Qed.

(* --- the radio is reset --- *)

Lemma disarmed_clear m : in_armed (m_inputs (timerClear WAITB (timerClear WAITA (inputDisarm m)))) = false. Proof. reflexivity. Qed.
Lemma error_off c e w m : in_armed (m_inputs m) = false -> error_i c e w m = handleRadioError c e m.
Proof.
  intros A. rewrite error_i_reset, error_reset, !sig_event. rewrite (event_off (w 5%nat) m A). rewrite event_off by apply disarmed_clear. reflexivity.
Qed.
Lemma disarm_flag t m : timerClear WAITB (timerClear WAITA (inputDisarm (set_m_inputs (mkInput true true t) m))) =
  set_m_inputs (mkInput false true t) (timerClear WAITB (timerClear WAITA (inputDisarm m))).
Proof. reflexivity. Qed.
(* with interrupts since the inputs were looked at *)
Lemma error_on c e w s m : in_armed (m_inputs m) = true -> in_state (m_inputs m) = false ->
  error_i c e w (event s m) = match first s (w 5%nat) with Some t => set_m_inputs (mkInput false true t) (handleRadioError c e m) | None => handleRadioError c e m end.
Proof.
  intros A S. rewrite error_i_reset, error_reset, !sig_event, event_twice. rewrite event_off by apply disarmed_clear.
  destruct (first s (w 5%nat)) as [t|]; [|reflexivity]. rewrite (event_on t m A S), disarm_flag. apply l_reset.
Qed.
Lemma error_state c e m : m_state (handleRadioError c e m) = ST_RADIO_RESET.
Proof. rewrite error_reset. unfold reset. cbv zeta. generalize (match m_op (timerClear WAITB (timerClear WAITA (inputDisarm m))) with OP_JOINING => downlinkMissing c e (timerClear WAITB (timerClear WAITA (inputDisarm m))) | _ => notify EV_OP_ERROR (set_m_op OP_NONE (timerClear WAITB (timerClear WAITA (inputDisarm m)))) end). intros y. reflexivity. Qed.
Lemma error_inputs c e m : m_inputs (handleRadioError c e m) = mkInput false (in_state (m_inputs m)) (in_time (m_inputs m)).
Proof. rewrite error_reset. rewrite (lets_inputs (reset c e)) by apply l_reset. reflexivity. Qed.

(* --- an event is dispatched --- *)

Lemma register_armed m : in_armed (m_inputs (registerTime m)) = in_armed (m_inputs m).
Proof. rewrite (lets_inputs registerTime m l_register). reflexivity. Qed.

(* nothing is listened for: an interrupt counts only once the radio is started *)
Lemma dispatch_off c e ev lag w m : in_armed (m_inputs m) = false ->
  exists s, one_of w s /\ dispatch_i c e ev lag w m = event s (dispatch c e ev lag m).
Proof.
  intros A. unfold dispatch_i. cbv zeta. rewrite sig_event, (event_off (w 4%nat) m A).
  assert (forall X, X = dispatch c e ev lag m -> exists s, one_of w s /\ X = event s (dispatch c e ev lag m)) as Same
    by (intros X ->; exists None; split; [exact I|reflexivity]).
  assert (forall X, X = event (w 6%nat) (dispatch c e ev lag m) -> exists s, one_of w s /\ X = event s (dispatch c e ev lag m)) as After
    by (intros X ->; exists (w 6%nat); split; [apply one_of_at|reflexivity]).
  destruct (m_state m) eqn:St; try (apply Same; reflexivity); destruct ev eqn:Ev; try (apply Same; reflexivity).
  - apply After. unfold dispatch. rewrite St. apply start_tx, A.
  - apply Same. unfold dispatch. rewrite St. cbn [processTX]. rewrite error_off by (rewrite register_armed; exact A). reflexivity.
  - apply Same. unfold dispatch. rewrite St. cbn [processTX]. rewrite error_off by (rewrite register_armed; exact A). reflexivity.
  - apply After. unfold dispatch. rewrite St. apply start_rx1, A.
  - apply Same. unfold dispatch. rewrite St. cbn [processRX]. rewrite error_off by exact A. reflexivity.
  - apply Same. unfold dispatch. rewrite St. cbn [processRX]. rewrite error_off by exact A. reflexivity.
  - apply After. unfold dispatch. rewrite St. apply start_rx2, A.
  - apply Same. unfold dispatch. rewrite St. cbn [processRX]. rewrite error_off by exact A. reflexivity.
  - apply Same. unfold dispatch. rewrite St. cbn [processRX]. rewrite error_off by exact A. reflexivity.
Qed.
Definition overdue (c : cfg) (e : env) (lag : Z) (m : mac) : mac := dispatch c e SME_TIMER_A lag m.
Lemma dispatch_overdue c e lag w s m : radio_on (m_state m) = true -> in_armed (m_inputs m) = true -> in_state (m_inputs m) = false ->
  dispatch_i c e SME_TIMER_A lag w (event s m) = match first (first s (w 4%nat)) (w 5%nat) with Some t => set_m_inputs (mkInput false true t) (overdue c e lag m) | None => overdue c e lag m end.
Proof.
  intros R A S. unfold dispatch_i. cbv zeta. rewrite sig_event, event_twice, event_state. set (f := first s (w 4%nat)).
  unfold overdue, dispatch. destruct (m_state m) eqn:St; try discriminate R.
  - rewrite (event_pass registerTime f m l_register). rewrite error_on; [reflexivity|rewrite register_armed; exact A|rewrite (lets_inputs registerTime m l_register); exact S].
  - apply error_on; [exact A|exact S].
  - apply error_on; [exact A|exact S].
Qed.
Lemma overdue_state c e lag m : radio_on (m_state m) = true -> m_state (overdue c e lag m) = ST_RADIO_RESET.
Proof. intros R. unfold overdue, dispatch. destruct (m_state m); try discriminate R; apply error_state. Qed.
Lemma overdue_inputs c e lag m : radio_on (m_state m) = true -> m_inputs (overdue c e lag m) = mkInput false (in_state (m_inputs m)) (in_time (m_inputs m)).
Proof.
  intros R. unfold overdue, dispatch. destruct (m_state m); try discriminate R; [|apply error_inputs|apply error_inputs].
  cbn [processTX]. rewrite error_inputs, (lets_inputs registerTime m l_register). reflexivity.
Qed.
Lemma dispatch_waits c e ev lag w s m : radio_on (m_state m) = true -> ev <> SME_TIMER_A -> ev <> SME_INTERRUPT ->
  dispatch_i c e ev lag w (event s m) = event (first s (w 4%nat)) m /\ dispatch c e ev lag m = m.
Proof.
  intros R NA NI. unfold dispatch_i. cbv zeta. rewrite sig_event, event_twice, event_state. set (f := first s (w 4%nat)). unfold dispatch. rewrite event_state.
  destruct (m_state m); try discriminate R; destruct ev; try congruence; split; reflexivity.
Qed.

(* --- the whole call --- *)

Lemma check_state e t m : m_state (fst (timerCheck e t m)) = m_state m.
Proof. unfold timerCheck. cbv zeta. destruct (tm_armed _); [|reflexivity]. destruct (_ <? _); reflexivity. Qed.
Lemma check_inputs e t m : m_inputs (fst (timerCheck e t m)) = m_inputs m.
Proof. exact (lets_inputs _ m (l_check1 e t)). Qed.
Lemma bands_state e m : m_state (fst (processBands e m)) = m_state m.
Proof. unfold processBands. destruct (mt_parked _); [reflexivity|]. destruct (elapsed m (e_now e)) as [t r]. cbv zeta. destruct (_ && _); reflexivity. Qed.
Lemma bands_inputs e m : m_inputs (fst (processBands e m)) = m_inputs m.
Proof. exact (lets_inputs _ m (l_bands1 e)). Qed.
Lemma next_state e m : m_state (setNextBandEvent e m) = m_state m.
Proof. unfold setNextBandEvent. cbv zeta. destruct (_ <? _); reflexivity. Qed.

Definition acts (c : cfg) (e : env) (p : mac * sme * Z) : mac :=
  let '(m, ev, lag) := p in match ev with SME_NONE => m | _ => dispatch c e ev lag m end.
Definition acts_i (c : cfg) (e : env) (w : interrupts) (p : mac * sme * Z) : mac :=
  let '(m, ev, lag) := p in match ev with SME_NONE => m | _ => dispatch_i c e ev lag w m end.
Lemma process_acts c e b m : MAC_process c e (event b m) = setNextBandEvent e (acts c e (next_event e (event b (fst (processBands e m))) (snd (processBands e m)))).
Proof. unfold MAC_process. rewrite bands_event. unfold acts. destruct (next_event _ _ _) as [[y ev] lag]. reflexivity. Qed.
Lemma process_i_acts c e w m : process_i c e w m =
  event (first (w 7%nat) (w 8%nat)) (setNextBandEvent e (acts_i c e w (next_event_i e w (event (first (w 0%nat) (w 1%nat)) (fst (processBands e m))) (snd (processBands e m))))).
Proof.
  unfold process_i. rewrite sig_event, bands_event. rewrite sig_event, event_twice. unfold acts_i. destruct (next_event_i _ _ _ _) as [[y ev] lag].
  rewrite !sig_event. rewrite (event_pass _ (w 7%nat) _ (l_next e)), event_twice. reflexivity.
Qed.

Definition late_in (c : cfg) (e : env) (w : interrupts) (x : mac) (rd : bool) : Prop :=
  let z := acts c e (next_event e x rd) in
  radio_on (m_state x) = true /\ in_armed (m_inputs x) = true /\ in_state (m_inputs x) = false /\ m_state z = ST_RADIO_RESET /\ in_armed (m_inputs z) = false /\ in_state (m_inputs z) = false /\
  exists t, one_of w (Some t) /\ acts_i c e w (next_event_i e w x rd) = set_m_inputs (mkInput false true t) z.

Lemma acts_off c e w y ev lag : in_armed (m_inputs y) = false -> exists s, one_of w s /\ acts_i c e w (y, ev, lag) = event s (acts c e (y, ev, lag)).
Proof.
  intros A. unfold acts_i, acts. destruct ev; try (apply dispatch_off; exact A). exists None. split; [exact I|reflexivity].
Qed.

Lemma whole c e w x rd : (in_armed (m_inputs x) = true -> radio_on (m_state x) = true) ->
  (exists s, one_of w s /\ acts_i c e w (next_event_i e w x rd) = event s (acts c e (next_event e x rd))) \/ late_in c e w x rd.
Proof.
  intros On. unfold late_in. cbv zeta. unfold next_event, next_event_i, inputCheck. destruct (in_state (m_inputs x)) eqn:S.
  - left. rewrite sig_event, event_off by reflexivity. apply acts_off. reflexivity.
  - destruct (in_armed (m_inputs x)) eqn:A.
    + specialize (On eq_refl). rewrite sig_event, check_event.
      pose proof (check_state e WAITA x) as Ca. pose proof (check_inputs e WAITA x) as Ia.
      destruct (timerCheck e WAITA x) as [xa ra]. cbn [fst snd] in *. destruct ra as [lag|].
      * cbn [acts_i acts]. assert (R : radio_on (m_state xa) = true) by (rewrite Ca; exact On).
        rewrite dispatch_overdue by (rewrite ?Ia; assumption). change (dispatch c e SME_TIMER_A lag xa) with (overdue c e lag xa).
        assert (O : one_of w (first (first (w 2%nat) (w 4%nat)) (w 5%nat))) by (repeat apply one_of_first; apply one_of_at).
        destruct (first (first (w 2%nat) (w 4%nat)) (w 5%nat)) as [t|].
        -- right. split; [exact On|]. split; [reflexivity|]. split; [reflexivity|]. split; [apply overdue_state; exact R|].
           rewrite overdue_inputs by exact R. cbn [in_armed in_state]. rewrite Ia, S. split; [reflexivity|]. split; [reflexivity|]. exists t. split; [exact O|reflexivity].
        -- left. exists None. split; [exact I|reflexivity].
      * rewrite sig_event, event_twice, check_event.
        pose proof (check_state e WAITB xa) as Cb. destruct (timerCheck e WAITB xa) as [xb rb]. cbn [fst snd] in *.
        assert (R : radio_on (m_state xb) = true) by (rewrite Cb, Ca; exact On). left. destruct rb as [lag|].
        -- cbn [acts_i acts]. destruct (dispatch_waits c e SME_TIMER_B lag w (first (w 2%nat) (w 3%nat)) xb R) as [-> ->]; [discriminate|discriminate|].
           eexists. split; [|reflexivity]. repeat apply one_of_first; apply one_of_at.
        -- destruct rd; cbn [acts_i acts].
           ++ destruct (dispatch_waits c e SME_BAND 0 w (first (w 2%nat) (w 3%nat)) xb R) as [-> ->]; [discriminate|discriminate|].
              eexists. split; [|reflexivity]. repeat apply one_of_first; apply one_of_at.
           ++ eexists. split; [|reflexivity]. repeat apply one_of_first; apply one_of_at.
    + left. rewrite sig_event, event_off by exact A. pose proof (check_inputs e WAITA x) as Ia. destruct (timerCheck e WAITA x) as [xa ra]. cbn [fst] in Ia.
      assert (Aa : in_armed (m_inputs xa) = false) by (rewrite Ia; exact A). destruct ra as [lag|]; [apply acts_off; exact Aa|].
      rewrite sig_event, event_off by exact Aa. pose proof (check_inputs e WAITB xa) as Ib. destruct (timerCheck e WAITB xa) as [xb rb]. cbn [fst] in Ib.
      assert (Ab : in_armed (m_inputs xb) = false) by (rewrite Ib; exact Aa). destruct rb as [lag|]; apply acts_off; exact Ab.
Qed.

Theorem within c e w m : (in_armed (m_inputs m) = true -> radio_on (m_state m) = true) -> serial c e w m \/ overtaken c e w m.
Proof.
  intros On. set (b := first (w 0%nat) (w 1%nat)). set (mB := fst (processBands e m)).
  assert (O : one_of w b) by (apply one_of_first; apply one_of_at).
  destruct (whole c e w (event b mB) (snd (processBands e m))) as [(s & Os & E)|L].
  - rewrite event_armed, event_state. unfold mB. rewrite bands_inputs, bands_state. exact On.
  - left. exists b, (first s (first (w 7%nat) (w 8%nat))). split; [exact O|]. split; [apply one_of_first; [exact Os|apply one_of_first; apply one_of_at]|].
    rewrite process_i_acts, process_acts. fold mB b. rewrite E, (event_pass _ s _ (l_next e)), event_twice. reflexivity.
  - right. red in L. cbv zeta in L. destruct L as (R & A & S & St & Zo & Zs & t & Ot & E).
    assert (B : event b mB = mB).
    { destruct b as [u|]; [|reflexivity]. rewrite event_armed in A. cbn [event] in *. unfold inputSignal in *. destruct (in_state (m_inputs mB)) eqn:Q; [reflexivity|].
      rewrite A in S. cbn in S. discriminate S. }
    rewrite B in *. red. cbv zeta. rewrite process_i_acts. fold mB b. rewrite B. rewrite E.
    pose proof (process_acts c e None m) as P. cbn [event] in P. fold mB in P. rewrite P. clear P.
    set (z := acts _ _ _) in *. clearbody z. unfold inputPending. rewrite next_state, (lets_inputs _ z (l_next e)).
    unfold mB in R, S. rewrite bands_state in R. rewrite bands_inputs in S.
    split; [exact R|]. split; [exact S|]. split; [exact St|]. split; [exact Zo|]. split; [exact Zs|]. exists t. split; [exact Ot|].
    rewrite (l_next e _ z). apply event_off. reflexivity.
Qed.

(* --- histories --- *)

Lemma event_air t m : on_air m -> on_air (event t m).
Proof. unfold on_air. rewrite event_armed, event_state. auto. Qed.
Lemma process_air c e m : on_air m -> on_air (MAC_process c e m).
Proof.
  intros J. destruct (in_state (m_inputs m)) eqn:IS.
  - destruct (process_signalled c e m IS) as [E _]. unfold on_air. rewrite E. cbn. discriminate.
  - destruct (process_unsignalled c e m IS) as [[C1 C2] R|[C1 C2]|C1 C2 C3].
    + unfold on_air. intros X. apply R; [exact X|]. apply J. congruence.
    + unfold on_air. rewrite C1. cbn. discriminate.
    + intros _. exact C2.
Qed.
Lemma step_air c e k m : on_air m -> on_air (fst (step c e k m)).
Proof.
  intros J. destruct (is_process k) eqn:KP.
  - destruct k; try discriminate KP. apply process_air, J.
  - destruct (is_signal k) eqn:KS.
    + destruct k; try discriminate KS. apply (event_air (Some _)), J.
    + apply (request_input c e k m KP KS J).
Qed.
Lemma within_air c e w m : on_air m -> on_air (process_i c e w m).
Proof.
  intros J. destruct (within c e w m J) as [(b & s & _ & _ & ->)|(_ & _ & _ & _ & _ & t & _ & ->)].
  - apply event_air, process_air, event_air, J.
  - unfold on_air. cbn. discriminate.
Qed.
Lemma step_i_air c e k w m : on_air m -> on_air (step_i c e k w m).
Proof.
  intros J. destruct (is_process k) eqn:KP.
  - destruct k; try discriminate KP. apply within_air, J.
  - assert (E : step_i c e k w m = sig w 1 (fst (step c e k (sig w 0 m)))) by (destruct k; try discriminate KP; reflexivity).
    rewrite E. apply event_air, step_air, event_air, J.
Qed.
Lemma run_i_air c h : forall m, on_air m -> on_air (run_i c h m).
Proof. induction h as [|[[e k] w] h IH]; intros m J; [exact J|]. apply IH, step_i_air, J. Qed.
Theorem within_always c r a e0 h e w : let m := run_i c h (MAC_init c r a e0) in serial c e w m \/ overtaken c e w m.
Proof. intros m. apply within. apply run_i_air. unfold on_air. rewrite init_inputs. discriminate. Qed.

Lemma nth_upd_other {A} (l : list A) i j v d : i <> j -> nth j (upd l i v) d = nth j l d.
Proof. intros N. rewrite nth_upd. destruct (Nat.eqb_spec j i); [congruence|]. reflexivity. Qed.
(* what a leftover flag does *)
Theorem leftover c e m : m_state m = ST_RADIO_RESET -> inputPending m = true ->
  MAC_ticksUntilNextEvent e m = 0 /\
  MAC_process c e m = set_m_inputs (mkInput false false (in_time (m_inputs m))) (setNextBandEvent e (fst (processBands e m))).
Proof.
  intros St Pd. split; [unfold MAC_ticksUntilNextEvent; rewrite Pd; reflexivity|].
  unfold MAC_process. pose proof (bands_state e m) as B. pose proof (bands_inputs e m) as Bi. destruct (processBands e m) as [x rd]. cbn [fst] in *.
  unfold next_event, inputCheck. unfold inputPending in Pd. rewrite Bi, Pd. unfold dispatch.
  assert (m_state (set_m_inputs (mkInput false false (in_time (m_inputs m))) x) = ST_RADIO_RESET) as -> by (rewrite <- St, <- B; reflexivity).
  cbn [processRadioReset]. apply l_next.
Qed.
Lemma next_kept e m : let m' := setNextBandEvent e m in
  m_op m' = m_op m /\ m_ctx m' = m_ctx m /\ m_log m' = m_log m /\ get_timer m' WAITA = get_timer m WAITA /\ get_timer m' WAITB = get_timer m WAITB.
Proof.
  intros m'. unfold m', setNextBandEvent. cbv zeta. destruct (_ <? _).
  - split; [reflexivity|]. split; [reflexivity|]. split; [reflexivity|]. split; unfold get_timer; cbn [timerSet set_timer m_timers set_m_timers]; apply nth_upd_other; discriminate.
  - split; [reflexivity|]. split; [reflexivity|]. split; [reflexivity|]. split; unfold get_timer; cbn [timerClear set_timer m_timers set_m_timers]; apply nth_upd_other; discriminate.
Qed.
Lemma bands_kept e m : let m' := fst (processBands e m) in
  m_op m' = m_op m /\ m_ctx m' = m_ctx m /\ (m_log m' = m_log m \/ m_log m' = m_log m ++ [OEvent EV_CHANNEL_READY]) /\ m_timers m' = m_timers m.
Proof.
  intros m'. unfold m', processBands. destruct (mt_parked _); [repeat split; auto|]. destruct (elapsed m (e_now e)) as [t r]. cbv zeta. destruct (_ && _); repeat split; auto.
Qed.
Lemma leftover_kept e m : let m' := setNextBandEvent e (fst (processBands e m)) in
  m_state m' = m_state m /\ m_op m' = m_op m /\ m_ctx m' = m_ctx m /\ (m_log m' = m_log m \/ m_log m' = m_log m ++ [OEvent EV_CHANNEL_READY]) /\
  get_timer m' WAITA = get_timer m WAITA /\ get_timer m' WAITB = get_timer m WAITB.
Proof.
  cbv zeta. rewrite next_state, bands_state. destruct (bands_kept e m) as (B1 & B2 & B3 & B4). destruct (next_kept e (fst (processBands e m))) as (N1 & N2 & N3 & N4 & N5).
  split; [reflexivity|]. rewrite N1, N2, N3, N4, N5. unfold get_timer. rewrite B1, B2, B4. repeat split. exact B3.
Qed.

(* no interrupts: the call of the model *)
Lemma quiet c e m : process_i c e (fun _ => None) m = MAC_process c e m.
Proof.
  unfold process_i, MAC_process, sig. destruct (processBands e m) as [x rd].
  assert (next_event_i e (fun _ => None) x rd = next_event e x rd) as -> by reflexivity.
  destruct (next_event e x rd) as [[y ev] lag].
  assert (forall z, dispatch_i c e ev lag (fun _ => None) z = dispatch c e ev lag z) as D; [|destruct ev; rewrite ?D; reflexivity].
  intros z. unfold dispatch_i, sig. cbv zeta. unfold dispatch at 2. destruct (m_state z) eqn:St; destruct ev eqn:Ev; try reflexivity;
    unfold dispatch; rewrite St; reflexivity.
Qed.
