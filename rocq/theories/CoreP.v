(* What the steps of the state machine leave alone. *)
From Verif Require Import Lib FrameM CommandsM RegionM RadioM SmM MacStateM MacTac MacUtilM OpsM MacCmdM MacProcM MacApiM MacRw.

(* the MAC with timers, clock, off-time, inputs, receive window settings, air
   time, state and log blanked *)
Definition core (m : mac) : mac :=
  set_m_state ST_INIT (set_m_pendingACK false (set_m_band [] (set_m_day 0 (set_m_rx_snr 0
  (set_m_rx1_symbols 0 (set_m_rx2_symbols 0 (set_m_inputs (mkInput false false 0) (set_m_timers []
  (set_m_time (mkTime 0 0 false) (set_m_ticks_at_tx 0 (set_m_log []
  (set_m_tx (set_tx_airTime 0 (m_tx m)) m)))))))))))).

(* outputs that neither transmit nor report the fate of an operation, a
   session or a nonce *)
Definition plain (o : out) : bool :=
  match o with
  | OMode _ | OReceive _ _ _ _ _ | OReceiveEntropy | OEvent EV_CHANNEL_READY => true
  | _ => false
  end.

Definition logs (P : out -> bool) (m m' : mac) : Prop :=
  exists l, m_log m' = m_log m ++ l /\ forallb P l = true.

Lemma logs_refl P m : logs P m m.
Proof. exists []. split; [symmetry; apply app_nil_r|reflexivity]. Qed.
Lemma logs_trans P m1 m2 m3 : logs P m1 m2 -> logs P m2 m3 -> logs P m1 m3.
Proof.
  intros (l1 & E1 & H1) (l2 & E2 & H2). exists (l1 ++ l2). rewrite E2, E1, app_assoc, forallb_app, H1, H2. auto.
Qed.
Lemma logs_same P m m' : m_log m' = m_log m -> logs P m m'.
Proof. intros E. exists []. rewrite E, app_nil_r. auto. Qed.
Lemma logs_one P m m' o : m_log m' = m_log m ++ [o] -> P o = true -> logs P m m'.
Proof. intros E H. exists [o]. cbn. rewrite H. auto. Qed.

(* same core; plain outputs *)
Definition moved (m m' : mac) : Prop := core m' = core m /\ logs plain m m'.
(* and same state *)
Definition quiet (m m' : mac) : Prop := moved m m' /\ m_state m' = m_state m.

Lemma moved_refl m : moved m m. Proof. split; [reflexivity|apply logs_refl]. Qed.
Lemma moved_trans a b c : moved a b -> moved b c -> moved a c.
Proof. intros [A1 A2] [B1 B2]. split; [congruence|eapply logs_trans; eauto]. Qed.
Lemma quiet_refl m : quiet m m. Proof. split; [apply moved_refl|reflexivity]. Qed.
Lemma quiet_trans a b c : quiet a b -> quiet b c -> quiet a c.
Proof. intros [A1 A2] [B1 B2]. split; [eapply moved_trans; eauto|congruence]. Qed.

Ltac coreq := intros; reflexivity.
Lemma core_timers v m : core (set_m_timers v m) = core m. Proof. coreq. Qed.
Lemma core_inputs v m : core (set_m_inputs v m) = core m. Proof. coreq. Qed.
Lemma core_time v m : core (set_m_time v m) = core m. Proof. coreq. Qed.
Lemma core_band v m : core (set_m_band v m) = core m. Proof. coreq. Qed.
Lemma core_day v m : core (set_m_day v m) = core m. Proof. coreq. Qed.
Lemma core_state v m : core (set_m_state v m) = core m. Proof. coreq. Qed.
Lemma core_log v m : core (set_m_log v m) = core m. Proof. coreq. Qed.
Lemma core_snr v m : core (set_m_rx_snr v m) = core m. Proof. coreq. Qed.
Lemma core_sym1 v m : core (set_m_rx1_symbols v m) = core m. Proof. coreq. Qed.
Lemma core_sym2 v m : core (set_m_rx2_symbols v m) = core m. Proof. coreq. Qed.
Lemma core_ack v m : core (set_m_pendingACK v m) = core m. Proof. coreq. Qed.
Lemma core_att v m : core (set_m_ticks_at_tx v m) = core m. Proof. coreq. Qed.
Lemma core_air v m : core (on_tx (set_tx_airTime v) m) = core m. Proof. coreq. Qed.
#[export] Hint Rewrite core_timers core_inputs core_time core_band core_day core_state core_log core_snr
  core_sym1 core_sym2 core_ack core_att core_air : core.

Definition same_core (m m' : mac) : Prop :=
  m_op m' = m_op m /\ m_joinEUI m' = m_joinEUI m /\ m_devEUI m' = m_devEUI m /\
  m_buffer m' = m_buffer m /\ m_bufferLen m' = m_bufferLen m /\ m_devNonce m' = m_devNonce m /\
  m_joinNonce m' = m_joinNonce m /\ m_ctx m' = m_ctx m /\ m_sm m' = m_sm m /\
  m_adrAckCounter m' = m_adrAckCounter m /\ m_adrAckReq m' = m_adrAckReq m /\
  m_trials m' = m_trials m /\ m_opts m' = m_opts m /\ m_fPending m' = m_fPending m /\
  m_tps m' = m_tps m /\ m_a m' = m_a m /\ m_b m' = m_b m /\ m_advance m' = m_advance m /\
  m_maxDutyCycle m' = m_maxDutyCycle m /\ m_otaaDither m' = m_otaaDither m /\
  tx_freq (m_tx m') = tx_freq (m_tx m) /\ tx_counter (m_tx m') = tx_counter (m_tx m) /\
  tx_chIndex (m_tx m') = tx_chIndex (m_tx m) /\ tx_rate (m_tx m') = tx_rate (m_tx m) /\
  tx_power (m_tx m') = tx_power (m_tx m).

Lemma core_fields m m' : core m' = core m -> same_core m m'.
Proof.
  destruct m, m'. destruct m_tx, m_tx0. cbv [core]. mred. intros H. injection H. intros.
  unfold same_core. mred. repeat split; assumption.
Qed.

(* --- the parts of the state machine that only move it --- *)

Lemma emit_plain o m : plain o = true -> logs plain m (emit o m).
Proof. intros H. apply (logs_one _ _ _ o); [reflexivity|exact H]. Qed.

Lemma processBands_quiet e m : quiet m (fst (processBands e m)).
Proof.
  unfold processBands. destruct (mt_parked _); [apply quiet_refl|].
  destruct (elapsed _ _). cbv zeta. destruct (_ && _); cbn [fst].
  - split; [split|]; [reflexivity| |reflexivity]. apply (logs_one _ _ _ (OEvent EV_CHANNEL_READY)); reflexivity.
  - split; [split|]; [reflexivity|now apply logs_same|reflexivity].
Qed.

Lemma timerCheck_quiet e i m : quiet m (fst (timerCheck e i m)).
Proof.
  unfold timerCheck. cbv zeta. destruct (tm_armed _); [destruct (_ <? _)|]; cbn [fst]; try apply quiet_refl.
  split; [split|]; [reflexivity|now apply logs_same|reflexivity].
Qed.

Lemma inputCheck_quiet e m : quiet m (fst (inputCheck e m)).
Proof.
  unfold inputCheck. destruct (in_state _); cbn [fst]; try apply quiet_refl.
  split; [split|]; [reflexivity|now apply logs_same|reflexivity].
Qed.

Lemma next_event_quiet e m b : quiet m (fst (fst (next_event e m b))).
Proof.
  unfold next_event.
  pose proof (inputCheck_quiet e m) as H1. destruct (inputCheck e m) as [m1 [lag|]]; cbn [fst] in *; [exact H1|].
  pose proof (timerCheck_quiet e WAITA m1) as H2. destruct (timerCheck e WAITA m1) as [m2 [lag|]]; cbn [fst] in *;
    [eapply quiet_trans; eauto|].
  pose proof (timerCheck_quiet e WAITB m2) as H3. destruct (timerCheck e WAITB m2) as [m3 [lag|]]; cbn [fst] in *;
    eapply quiet_trans; [eapply quiet_trans; eauto|eauto|eapply quiet_trans; eauto|eauto].
Qed.

Lemma setNext_quiet e m : quiet m (setNextBandEvent e m).
Proof.
  unfold setNextBandEvent. cbv zeta. destruct (_ <? _);
  (split; [split|]; [reflexivity|now apply logs_same|reflexivity]).
Qed.

Lemma processInit_moved e m : moved m (processInit e m).
Proof. split; [reflexivity|]. apply (logs_one _ _ _ (OMode MODE_RESET)); reflexivity. Qed.
Lemma processRadioReset_moved e ev m : moved m (processRadioReset e ev m).
Proof. destruct ev; try apply moved_refl. split; [reflexivity|]. apply (logs_one _ _ _ (OMode MODE_BOOT)); reflexivity. Qed.
Lemma processRadioBoot_moved e ev m : moved m (processRadioBoot e ev m).
Proof.
  destruct ev; try apply moved_refl. cbv [processRadioBoot]. 
  change (m_op (emit (OMode MODE_SLEEP) m)) with (m_op m).
  destruct (m_op m); (split; [reflexivity|]; apply (logs_one _ _ _ (OMode MODE_SLEEP)); reflexivity).
Qed.
Lemma processStartRadioForEntropy_moved e ev m : moved m (processStartRadioForEntropy e ev m).
Proof. destruct ev; try apply moved_refl. split; [reflexivity|]. apply (logs_one _ _ _ OReceiveEntropy); reflexivity. Qed.
Lemma processWaitOTAA_moved e m : moved m (processWaitOTAA e m).
Proof.
  unfold processWaitOTAA. destruct (_ =? _); [|apply moved_refl]. cbv zeta. split; [reflexivity|now apply logs_same].
Qed.
Lemma processWait_moved c ev lag m : moved m (processWait c ev lag m).
Proof.
  destruct ev; try apply moved_refl; cbv [processWait];
  (destruct (m_state m); (split; [reflexivity|]; eapply logs_one; reflexivity)).
Qed.
Lemma registerTime_quiet m : quiet m (registerTime m).
Proof.
  unfold registerTime. cbv zeta.
  assert (forall i v x, quiet x (band_set i v x)) as Hb
    by (intros; split; [split|]; [reflexivity|now apply logs_same|reflexivity]).
  assert (forall x y i v, quiet x y -> quiet x (band_set i v y)) as Hc by (intros; eapply quiet_trans; eauto).
  destruct (getBand _ _); destruct (m_op m);
  try (destruct (_ >? _)); repeat (first [apply quiet_refl | apply Hc]).
Qed.
Lemma tx_done_moved c e lag m : moved m (tx_done c e lag m).
Proof.
  open_def tx_done.
  match goal with |- moved m (let s := _ in _) => cbv zeta end.
  destruct (window _ _ _ _) as [sym1 marg1]. destruct (window _ _ _ _) as [sym2 marg2].
  split.
  - unfold emit. autorewrite with core. destruct (_ <=? _); [destruct (_ <=? _)|]; reflexivity.
  - apply (logs_one _ _ _ (OMode MODE_HOLD)); [|reflexivity]. unfold emit. ms. f_equal. destruct (_ <=? _); [destruct (_ <=? _)|]; reflexivity.
Qed.
Lemma processStartRadioForRX1_moved e ev m : moved m (processStartRadioForRX1 e ev m).
Proof. destruct ev; try apply moved_refl. split; [reflexivity|]. eapply logs_one; reflexivity. Qed.
Lemma processStartRadioForRX2_moved e ev m : moved m (processStartRadioForRX2 e ev m).
Proof. destruct ev; try apply moved_refl. split; [reflexivity|]. eapply logs_one; reflexivity. Qed.
Lemma rx_timeout_moved e m : moved m (rx_timeout e m).
Proof. unfold rx_timeout. destruct (m_state m); (split; [reflexivity|]; eapply logs_one; reflexivity). Qed.

(* --- one call of LDL_MAC_process --- *)

(* states that can follow without ending an operation or transmitting *)
Definition arrow (op : mac_op) (s s' : mac_state) : bool :=
  match s, s' with
  | ST_INIT, ST_RADIO_RESET | ST_RADIO_RESET, ST_RADIO_BOOT
  | ST_WAIT_ENTROPY, ST_START_RADIO_FOR_ENTROPY | ST_START_RADIO_FOR_ENTROPY, ST_ENTROPY
  | ST_WAIT_OTAA, ST_WAIT_TX | ST_WAIT_TX, ST_START_RADIO_FOR_TX
  | ST_TX, ST_WAIT_RX1 | ST_TX, ST_WAIT_RX2
  | ST_WAIT_RX1, ST_START_RADIO_FOR_RX1 | ST_START_RADIO_FOR_RX1, ST_RX1
  | ST_RX1, ST_WAIT_RX2 | ST_WAIT_RX2, ST_START_RADIO_FOR_RX2
  | ST_START_RADIO_FOR_RX2, ST_RX2 | ST_RX2, ST_RX2_LOCKOUT => true
  | ST_RADIO_BOOT, ST_WAIT_ENTROPY => match op with OP_ENTROPY => true | _ => false end
  | ST_RADIO_BOOT, ST_WAIT_OTAA => match op with OP_JOINING => true | _ => false end
  | ST_RADIO_BOOT, ST_WAIT_TX =>
      match op with OP_DATA_CONFIRMED | OP_DATA_UNCONFIRMED => true | _ => false end
  | ST_RADIO_BOOT, ST_IDLE => match op with OP_NONE | OP_REJOINING => true | _ => false end
  | _, _ => false
  end.

Definition transmit_of (c : cfg) (m : mac) : out :=
  let r := s_region (m_ctx m) in
  OTransmit (tx_freq (m_tx m)) (rate_bw r (tx_rate (m_tx m))) (rate_sf r (tx_rate (m_tx m)))
    (tx_eirp c (m_ctx m) (tx_power (m_tx m))) (slice (m_buffer m) 0 (Z.to_nat (m_bufferLen m))).

Definition in_rx (s : mac_state) : bool := match s with ST_RX1 | ST_RX2 => true | _ => false end.

Inductive proc_case (c : cfg) (e : env) (m : mac) : mac -> Prop :=
| pc_same : proc_case c e m m
| pc_move m2 : moved m m2 -> arrow (m_op m) (m_state m) (m_state m2) = true -> proc_case c e m m2
| pc_tx m2 : m_state m = ST_START_RADIO_FOR_TX -> m_state m2 = ST_TX -> core m2 = core m ->
    m_log m2 = m_log m ++ [transmit_of c m] -> proc_case c e m m2
| pc_entropy : m_state m = ST_ENTROPY -> proc_case c e m (processEntropy e SME_TIMER_A m)
| pc_missing : m_state m = ST_RX2_LOCKOUT -> proc_case c e m (downlinkMissing c e m)
| pc_tx_error : m_state m = ST_TX -> proc_case c e m (handleRadioError c e (registerTime m))
| pc_rx_error : in_rx (m_state m) = true -> proc_case c e m (handleRadioError c e m)
| pc_packet : in_rx (m_state m) = true -> e_st_rx e = true -> proc_case c e m (rx_packet c e m).

Lemma tx_done_state c e lag m : m_state (tx_done c e lag m) = ST_WAIT_RX1 \/ m_state (tx_done c e lag m) = ST_WAIT_RX2.
Proof.
  open_def tx_done. cbv zeta.
  destruct (window _ _ _ _) as [sym1 marg1]. destruct (window _ _ _ _) as [sym2 marg2].
  unfold emit. ms. destruct (_ <=? _); [destruct (_ <=? _)|]; [left|right|right]; reflexivity.
Qed.

Lemma dispatch_cases c e ev lag m : proc_case c e m (dispatch c e ev lag m).
Proof.
  unfold dispatch. destruct (m_state m) eqn:S; try apply pc_same.
  - apply pc_move; [apply processInit_moved|]. rewrite S. reflexivity.
  - destruct ev; try apply pc_same. apply pc_move; [apply processRadioReset_moved|]. rewrite S. reflexivity.
  - destruct ev; try apply pc_same. apply pc_move; [apply processRadioBoot_moved|]. rewrite S.
    cbv [processRadioBoot]. change (m_op (emit (OMode MODE_SLEEP) m)) with (m_op m). destruct (m_op m) eqn:O; reflexivity.
  - destruct ev; try apply pc_same; (apply pc_move; [apply processWait_moved|]; rewrite S; cbv [processWait]; rewrite S; reflexivity).
  - destruct ev; try apply pc_same. apply pc_move; [apply processStartRadioForEntropy_moved|]. rewrite S. reflexivity.
  - destruct ev; try apply pc_same. now apply pc_entropy.
  - pose proof (processWaitOTAA_moved e m) as HM. unfold processWaitOTAA in *. destruct (_ =? 0); [|apply pc_same].
    apply pc_move; [exact HM|]. rewrite S. reflexivity.
  - destruct ev; try apply pc_same; (apply pc_move; [apply processWait_moved|]; rewrite S; cbv [processWait]; rewrite S; reflexivity).
  - destruct ev; try apply pc_same. apply pc_tx; auto.
  - unfold processTX.
    destruct ev; try apply pc_same; [now apply pc_tx_error|]. destruct (e_st_tx e); [|now apply pc_tx_error].
    apply pc_move.
    + eapply moved_trans; [exact (proj1 (registerTime_quiet m))|apply tx_done_moved].
    + rewrite S. destruct (tx_done_state c e lag (registerTime m)) as [-> | ->]; reflexivity.
  - destruct ev; try apply pc_same; (apply pc_move; [apply processWait_moved|]; rewrite S; cbv [processWait]; rewrite S; reflexivity).
  - destruct ev; try apply pc_same. apply pc_move; [apply processStartRadioForRX1_moved|]. rewrite S. reflexivity.
  - unfold processRX. destruct ev; try apply pc_same; [apply pc_rx_error; now rewrite S|].
    destruct (e_st_rx e) eqn:R; [apply pc_packet; [now rewrite S|exact R]|].
    destruct (e_st_timeout e); [|apply pc_rx_error; now rewrite S].
    apply pc_move; [apply rx_timeout_moved|]. rewrite S. unfold rx_timeout. rewrite S. reflexivity.
  - destruct ev; try apply pc_same; (apply pc_move; [apply processWait_moved|]; rewrite S; cbv [processWait]; rewrite S; reflexivity).
  - destruct ev; try apply pc_same. apply pc_move; [apply processStartRadioForRX2_moved|]. rewrite S. reflexivity.
  - unfold processRX. destruct ev; try apply pc_same; [apply pc_rx_error; now rewrite S|].
    destruct (e_st_rx e) eqn:R; [apply pc_packet; [now rewrite S|exact R]|].
    destruct (e_st_timeout e); [|apply pc_rx_error; now rewrite S].
    apply pc_move; [apply rx_timeout_moved|]. rewrite S. unfold rx_timeout. rewrite S. reflexivity.
  - destruct ev; try apply pc_same. now apply pc_missing.
Qed.

Lemma process_cases c e m : exists m1 m2,
  quiet m m1 /\ proc_case c e m1 m2 /\ quiet m2 (MAC_process c e m).
Proof.
  open_def MAC_process. pose proof (processBands_quiet e m) as HB.
  destruct (processBands e m) as [ma ready]. cbn [fst] in HB.
  pose proof (next_event_quiet e ma ready) as HN. destruct (next_event e ma ready) as [[mb ev] lag]. cbn [fst] in HN.
  exists mb, (match ev with SME_NONE => mb | _ => dispatch c e ev lag mb end).
  split; [eapply quiet_trans; eauto|]. split; [|apply setNext_quiet].
  destruct ev; try apply dispatch_cases. apply pc_same.
Qed.
