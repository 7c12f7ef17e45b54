(* Case analysis of the steps that end, repeat or start an operation. *)
From Verif Require Import Lib FrameM CommandsM RegionM RadioM SmM MacStateM MacTac MacUtilM OpsM MacCmdM MacProcM MacApiM MacRw CoreP.

Definition is_data (op : mac_op) : bool :=
  match op with OP_DATA_UNCONFIRMED | OP_DATA_CONFIRMED => true | _ => false end.

Definition tries_allowed (m : mac) : Z :=
  if do_nbTrans (m_opts m) >? 0 then do_nbTrans (m_opts m)
  else if s_nbTrans (m_ctx m) >? 0 then s_nbTrans (m_ctx m) else 1.

Definition next_trial (m : mac) : mac := set_m_trials (u32 (m_trials m + 1)) m.

Definition data_done (op : mac_op) : event :=
  match op with OP_DATA_CONFIRMED => EV_DATA_TIMEOUT | _ => EV_DATA_COMPLETE end.

Inductive miss_case (c : cfg) (e : env) (m : mac) : mac -> Prop :=
| mc_retry m2 : is_data (m_op m) = true -> u32 (m_trials m + 1) < tries_allowed m ->
    core m2 = core (micDataFrame c (next_trial m)) -> m_state m2 = ST_WAIT_TX -> m_log m2 = m_log m ->
    miss_case c e m m2
| mc_done m2 : is_data (m_op m) = true ->
    let p := adaptRate c (next_trial m) in
    core m2 = core (set_m_op OP_NONE (fst p)) -> m_state m2 = ST_IDLE ->
    m_log m2 = m_log m ++ (if snd p then [OEvent (EV_SESSION_UPDATED (m_ctx (fst p)))] else [])
                 ++ [OEvent (data_done (m_op m))] ->
    miss_case c e m m2
| mc_rejoin m2 : m_op m = OP_JOINING -> m_devNonce m <= 65535 ->
    core m2 = core (set_m_devNonce (u32 (m_devNonce m + 1)) (fillJoinBuffer c e (u16 (m_devNonce m)) (next_trial m))) ->
    m_state m2 = ST_WAIT_OTAA -> m_log m2 = m_log m ++ [OEvent (EV_DEV_NONCE_UPDATED (u32 (m_devNonce m + 1)))] ->
    miss_case c e m m2
| mc_exhausted m2 : m_op m = OP_JOINING -> 65535 < m_devNonce m ->
    core m2 = core (set_m_op OP_NONE (next_trial m)) -> m_state m2 = ST_IDLE ->
    m_log m2 = m_log m ++ [OEvent EV_JOIN_EXHAUSTED] -> miss_case c e m m2
| mc_other : is_data (m_op m) = false -> m_op m <> OP_JOINING -> miss_case c e m (next_trial m).

Lemma selectJoin_fields c e m :
  exists t, selectJoinChannelAndRate c e m = set_m_tx t m /\ tx_counter t = tx_counter (m_tx m) /\
    tx_power t = tx_power (m_tx m) /\ tx_airTime t = tx_airTime (m_tx m).
Proof.
  unfold selectJoinChannelAndRate. cbv zeta. destruct (isDynamic _).
  - eexists. split; [reflexivity|]. unfold selectChannel.
    destruct (sel_scan _ _) as [[mask av] ex]. destruct (_ >? 0); [|auto].
    destruct (if negb _ then _ else _) as [a' x']. 
    assert (forall s mk ex sel d chs j t, let r := fst (sel_pick s mk ex sel d chs j t) in
       tx_counter r = tx_counter t /\ tx_power r = tx_power t /\ tx_airTime r = tx_airTime t) as H.
    { intros s mk ex0 sel d chs. induction chs as [|ch r IH]; intros j t; cbn [sel_pick]; [auto|].
      destruct (_ && _); [|apply IH]. destruct (_ =? _); [|apply IH].
      destruct (getChannel s ch) as [[[? ?] ?]|]; [cbn; auto|apply IH]. }
    apply H.
  - destruct (Region_getChannel _ _) as [[[f lo] hi]|]; (eexists; split; [reflexivity|cbn; auto]).
Qed.

(* what preparing a join request changes *)
Lemma fillJoin_fields c e n m :
  exists t buf len dn, fillJoinBuffer c e n m =
    set_m_tx t (set_m_bufferLen len (set_m_buffer buf (on_ctx (set_s_devNonce dn) m))) /\
    dn = (match c_l2 c with L2_1_0_3 => u16 (e_rand e RND_DEVNONCE) | _ => n end) /\
    (buf, len) = prepareJoinRequest c (on_ctx (set_s_devNonce dn) m)
                   (mkFrameJoin (m_joinEUI m) (m_devEUI m) dn 0) (m_buffer m) LDL_MAX_PACKET /\
    tx_counter t = tx_counter (m_tx m) /\ tx_power t = tx_power (m_tx m) /\ tx_airTime t = tx_airTime (m_tx m).
Proof.
  open_def fillJoinBuffer. set (dn := match c_l2 c with L2_1_0_3 => _ | _ => n end). cbv zeta.
  change (m_joinEUI (on_ctx (set_s_devNonce dn) m)) with (m_joinEUI m).
  change (m_devEUI (on_ctx (set_s_devNonce dn) m)) with (m_devEUI m).
  change (m_buffer (on_ctx (set_s_devNonce dn) m)) with (m_buffer m).
  destruct (prepareJoinRequest _ _ _ _ _) as [buf len] eqn:P.
  destruct (selectJoin_fields c e (set_m_bufferLen len (set_m_buffer buf (on_ctx (set_s_devNonce dn) m)))) as (t & E & A & B & C).
  exists t, buf, len, dn. rewrite E, <- P. repeat split; auto.
Qed.

Lemma adaptRate_fields c m :
  let p := adaptRate c m in
  exists s n b, fst p = set_m_ctx s (set_m_adrAckCounter n (set_m_adrAckReq b m)) /\
    (s = m_ctx m \/ s = set_s_rate (s_rate (m_ctx m) - 1) (m_ctx m) \/
     s = set_s_chMask (unmaskAllChannels (s_chMask (m_ctx m))) (m_ctx m) \/ s = set_s_power 0 (m_ctx m)) /\
    (snd p = false -> s = m_ctx m).
Proof.
  cbv zeta. open_def adaptRate.
  assert (forall x n b, x = set_m_adrAckCounter n (set_m_adrAckReq b m) ->
      x = set_m_ctx (m_ctx m) (set_m_adrAckCounter n (set_m_adrAckReq b m))) as H0 by (intros; subst; destruct m; reflexivity).
  cbv zeta.
  change (m_ctx (set_m_adrAckReq false m)) with (m_ctx m).
  change (m_adrAckCounter (set_m_adrAckReq false m)) with (m_adrAckCounter m).
  destruct (s_adr (m_ctx m)); [|exists (m_ctx m), (m_adrAckCounter m), false; cbn [fst snd]; split; [destruct m; reflexivity|auto]].
  destruct (m_adrAckCounter m <? 255); [|exists (m_ctx m), (m_adrAckCounter m), false; cbn [fst snd]; split; [destruct m; reflexivity|auto]].
  destruct (_ >=? _); [|exists (m_ctx m), (u8 (m_adrAckCounter m + 1)), false; cbn [fst snd]; split; [destruct m; reflexivity|auto]].
  destruct (_ && _); [|exists (m_ctx m), (u8 (m_adrAckCounter m + 1)), true; cbn [fst snd]; split; [destruct m; reflexivity|auto]].
  destruct (_ =? _); [destruct (_ >? _)|]; cbn [fst snd].
  - exists (set_s_rate (s_rate (m_ctx m) - 1) (m_ctx m)), (u8 (m_adrAckCounter m + 1)), true.
    split; [reflexivity|split; [auto|discriminate]].
  - exists (set_s_chMask (unmaskAllChannels (s_chMask (m_ctx m))) (m_ctx m)), (u8 (255 + 1)), true.
    split; [reflexivity|split; [auto|discriminate]].
  - exists (set_s_power 0 (m_ctx m)), (u8 (m_adrAckCounter m + 1)), true.
    split; [reflexivity|split; [auto|discriminate]].
Qed.

Lemma missing_cases c e m : miss_case c e m (downlinkMissing c e m).
Proof.
  open_def downlinkMissing. cbv zeta. fold (tries_allowed m).
  set (nb := tries_allowed m). change (set_m_trials (u32 (m_trials m + 1)) m) with (next_trial m).
  assert (is_data (m_op m) = true -> forall cf : bool, cf = (match m_op m with OP_DATA_CONFIRMED => true | _ => false end) ->
     miss_case c e m
      (if (m_trials (next_trial m) <? nb) &&
          (band_global (next_trial m) <? getMaxDCycleOffLimit (s_region (m_ctx (next_trial m)))) &&
          snd (selectChannel (next_trial m) (tx_rate (m_tx (next_trial m)))
               (getMaxDCycleOffLimit (s_region (m_ctx (next_trial m)))) (e_rand e RND_CHANNEL) (m_tx (next_trial m)))
       then set_m_state ST_WAIT_TX (timerSet e WAITA (if cf then u32 (Z.shiftl (m_tps (micDataFrame c (next_trial m))) (m_trials (micDataFrame c (next_trial m)))) else 0) (micDataFrame c (next_trial m)))
       else
        let (m0, changed) := adaptRate c (next_trial m) in
        complete (if cf then EV_DATA_TIMEOUT else EV_DATA_COMPLETE) (if changed then pushSessionUpdate m0 else m0))) as HD.
  { intros Hd cf Hcf. destruct (_ && _) eqn:G.
    - apply mc_retry; [exact Hd| |m_unf; autorewrite with core; reflexivity|reflexivity|m_unf; ms; unfold micDataFrame; cbv zeta; ms; reflexivity]. unfold nb in G. change (m_trials (next_trial m)) with (u32 (m_trials m + 1)) in G. lia.
    - destruct (adaptRate c (next_trial m)) as [m0 ch] eqn:A. apply mc_done; rewrite ?A; auto; cbn [fst snd].
      + destruct ch; reflexivity.
      + pose proof (adaptRate_fields c (next_trial m)) as (s & n & b & E & _). rewrite A in E. cbn [fst] in E.
        assert (m_log m0 = m_log m) as EL by (rewrite E; reflexivity).
        unfold complete, pushSessionUpdate, notify, emit. ms. destruct ch; ms; rewrite EL, <- ?app_assoc; cbn [app];
        (subst cf; destruct (m_op m); try discriminate; reflexivity). }
  change (m_op (next_trial m)) with (m_op m).
  destruct (m_op m) eqn:O.
  - apply mc_other; rewrite O; [reflexivity|discriminate].
  - apply mc_other; rewrite O; [reflexivity|discriminate].
  - change (m_devNonce (next_trial m)) with (m_devNonce m). destruct (m_devNonce m <=? 65535) eqn:G.
    + destruct (fillJoin_fields c e (u16 (m_devNonce m)) (next_trial m)) as (t & buf & len & dn & E & _).
      assert (m_log (fillJoinBuffer c e (u16 (m_devNonce m)) (next_trial m)) = m_log m) as EL by (rewrite E; reflexivity).
      assert (m_devNonce (fillJoinBuffer c e (u16 (m_devNonce m)) (next_trial m)) = m_devNonce m) as EN by (rewrite E; reflexivity).
      clear E. apply mc_rejoin; [exact O|lia| | | ]; revert EL EN;
      generalize (fillJoinBuffer c e (u16 (m_devNonce m)) (next_trial m)); intros x EL EN;
      [rewrite EN; reflexivity|reflexivity|rewrite <- EL, EN; reflexivity].
    + apply mc_exhausted; [exact O|lia|reflexivity|reflexivity|reflexivity].
  - apply mc_other; rewrite O; [reflexivity|discriminate].
  - exact (HD eq_refl false eq_refl).
  - exact (HD eq_refl true eq_refl).
Qed.

(* --- the outcome of every call, up to moves that leave the core alone --- *)

(* a request made while the MAC is idle starts at once; otherwise it waits for
   the radio to be reset *)
Definition start_state (s want : mac_state) : mac_state := match s with ST_IDLE => want | _ => s end.

Definition sess_data (c : cfg) (m : mac) : session :=
  clear_single_shot c (set_s_up (u32 (s_up (m_ctx m) + 1)) (m_ctx m)).
Definition opts_of (o : option data_opts) : data_opts :=
  let o := match o with Some o => o | None => mkOpts 0 false false end in
  mkOpts (Z.land (do_nbTrans o) 15) (do_check o) (do_getTime o).
Definition frame0 (cf : bool) (port : Z) (m : mac) : frame_data :=
  mkFrameData (if cf then FT_CONF_UP else FT_UNCONF_UP) (s_devAddr (m_ctx m)) (u16 (s_up (m_ctx m)))
    (m_pendingACK m) (s_adr (m_ctx m)) (m_adrAckReq m) false [] port None 0.
Definition sel_start (c : cfg) (m : mac) : mac :=
  on_tx (fun t => set_tx_rate (dwellRate c (m_ctx m) (s_rate (m_ctx m))) (set_tx_power (s_power (m_ctx m)) t)) m.
Definition len_of (d : option bytes) : Z := match d with Some d => Z.of_nat (length d) | None => 0 end.
(* the state in which the frame of a request is prepared *)
Definition data_base (c : cfg) (o : option data_opts) (tx : mac_tx) (op : mac_op) (m : mac) : mac :=
  set_m_op op (set_m_ctx (sess_data c m) (on_tx (set_tx_counter (s_up (m_ctx m)))
    (set_m_trials 0 (set_m_opts (opts_of o) (set_m_tx tx (sel_start c m)))))).
Definition data_filled (c : cfg) (f : frame_data) (x : mac) : mac :=
  let p := prepareData c x f (m_buffer x) LDL_MAX_PACKET in
  micDataFrame c (set_m_bufferLen (snd p) (set_m_buffer (fst p) x)).

(* requests that change the session but neither its counters nor its identity *)
Definition tuned (s s' : session) : Prop :=
  exists r p a d cc k, s' = set_s_rate r (set_s_power p (set_s_adr a (set_s_maxDutyCycle d (set_s_chConfig cc (set_s_chMask k s))))).

Definition is_rx_data (f : frame_down) : bool :=
  match dn_type f with FT_CONF_DOWN | FT_UNCONF_DOWN => true | _ => false end.

Definition can_err (s : mac_state) : bool := match s with ST_TX | ST_RX1 | ST_RX2 => true | _ => false end.

Inductive act (c : cfg) (e : env) (m : mac) : call -> ret -> mac -> Prop :=
| a_same k r : (k = C_process \/ exists t, k = C_radioEvent t) -> r = RVoid -> act c e m k r m
| a_move m' : moved m m' -> arrow (m_op m) (m_state m) (m_state m') = true -> act c e m C_process RVoid m'
| a_tx m' : m_state m = ST_START_RADIO_FOR_TX -> m_state m' = ST_TX -> core m' = core m ->
    m_log m' = m_log m ++ [transmit_of c m] -> act c e m C_process RVoid m'
| a_entropy_done m' : m_state m = ST_ENTROPY -> core m' = core (set_m_op OP_NONE m) -> m_state m' = ST_IDLE ->
    m_log m' = m_log m ++ [OMode MODE_SLEEP; OEvent (EV_ENTROPY (e_entropy e))] -> act c e m C_process RVoid m'
| a_missing m' : m_state m = ST_RX2_LOCKOUT \/ in_rx (m_state m) = true -> miss_case c e m m' -> act c e m C_process RVoid m'
| a_error m' : can_err (m_state m) = true -> m_op m <> OP_JOINING -> core m' = core (set_m_op OP_NONE m) ->
    m_state m' = ST_RADIO_RESET -> m_log m' = m_log m ++ [OEvent EV_OP_ERROR; OMode MODE_RESET] ->
    act c e m C_process RVoid m'
| a_error_join x m' : can_err (m_state m) = true -> m_op m = OP_JOINING -> miss_case c e m x ->
    core m' = core x -> m_state m' = ST_RADIO_RESET -> m_log m' = m_log x ++ [OMode MODE_RESET] ->
    act c e m C_process RVoid m'
| a_down buf f : in_rx (m_state m) = true -> receiveFrame c m (rx_buffer e) (rx_len e) = (buf, Some f) ->
    is_rx_data f = true -> act c e m C_process RVoid (pushSessionUpdate (data_received c e buf f m))
| a_joined buf f : in_rx (m_state m) = true -> receiveFrame c m (rx_buffer e) (rx_len e) = (buf, Some f) ->
    is_rx_data f = false -> act c e m C_process RVoid (pushSessionUpdate (join_accepted c buf f m))
| a_refused k st m' tx : m' = set_m_tx tx m -> tx_counter tx = tx_counter (m_tx m) -> st <> STATUS_OK -> st <> STATUS_MACPRIORITY ->
    (m_op m <> OP_NONE -> tx = m_tx m) -> act c e m k (RStatus st) m'
| a_entropy m' : m_op m = OP_NONE -> core m' = core (set_m_op OP_ENTROPY m) -> m_log m' = m_log m ->
    m_state m' = start_state (m_state m) ST_RADIO_BOOT -> act c e m C_entropy (RStatus STATUS_OK) m'
| a_otaa sm m' : m_op m = OP_NONE -> s_joined (m_ctx m) = false -> m_devNonce m <= 65535 ->
    let x := fillJoinBuffer c e (u16 (m_devNonce m)) (set_m_sm (m_sm m ++ sm) (set_m_trials 0 m)) in
    core m' = core (set_m_op OP_JOINING (on_tx (set_tx_power 0) (set_m_devNonce (u32 (m_devNonce m + 1)) x))) ->
    m_log m' = m_log m ++ [OEvent (EV_DEV_NONCE_UPDATED (u32 (m_devNonce m + 1)))] ->
    m_state m' = start_state (m_state m) ST_WAIT_OTAA ->
    m_sm m ++ sm = m_sm (if is_1_1 (c_l2 c) then deriveJoinKeys m else m) -> act c e m C_otaa (RStatus STATUS_OK) m'
| a_abp a m' : m_op m = OP_NONE -> s_joined (m_ctx m) = false ->
    core m' = core (on_ctx (fun s => set_s_devAddr a (set_s_joined true s)) m) -> m_log m' = m_log m ->
    m_state m' = m_state m -> act c e m (C_abp a) (RStatus STATUS_OK) m'
| a_data cf port data o tx f op st m' : m_op m = OP_NONE -> s_joined (m_ctx m) = true -> 0 < port <= 223 ->
    band_global m = 0 -> selectChannel (sel_start c m) (s_rate (m_ctx m)) 0 (e_rand e RND_CHANNEL) (m_tx (sel_start c m)) = (tx, true) ->
    let mtu := rate_mtu (s_region (m_ctx m)) (s_rate (m_ctx m)) in
    len_of data + Frame_dataOverhead <= mtu ->
    compose cf port data mtu (mac_bytes (mac_commands c (m_ctx m) (opts_of o))) (frame0 cf port m) = (f, op, st) ->
    core m' = core (data_filled c f (data_base c o tx op m)) ->
    m_log m' = m_log m ++ [OEvent (EV_SESSION_UPDATED (sess_data c m))] ->
    m_state m' = start_state (m_state m) ST_WAIT_TX -> act c e m (C_data cf port data o) (RStatus st) m'
| a_cancel k m' : k = C_cancel \/ (k = C_forget /\ s_joined (m_ctx m) = false) ->
    core m' = core (set_m_op OP_NONE m) ->
    m_state m' = (match m_state m with ST_INIT | ST_RADIO_RESET | ST_RADIO_BOOT => m_state m | _ => ST_RADIO_RESET end) ->
    m_log m' = m_log m ++ (match m_state m with ST_INIT | ST_RADIO_RESET | ST_RADIO_BOOT => [] | _ => [OMode MODE_RESET] end)
                       ++ (match m_op m with OP_NONE => [] | _ => [OEvent EV_OP_CANCELLED] end) ->
    act c e m k RVoid m'
| a_forget x m' : act c e m C_cancel RVoid x -> s_joined (m_ctx m) = true ->
    core m' = core (forgetNetwork c x) -> m_state m' = m_state x ->
    m_log m' = m_log x ++ [OEvent (EV_SESSION_UPDATED (forgotten (m_ctx m) (m_maxDutyCycle m) (c_txps c)))] ->
    act c e m C_forget RVoid m'
| a_tune k r s d m' : tuned (m_ctx m) s -> (exists b, r = RBool b) \/ r = RStatus STATUS_OK \/ r = RVoid ->
    (match k with C_setRate _ | C_setPower _ | C_setADR _ | C_setMaxDCycle _ | C_addChannel _ _ _ _ | C_maskChannel _ | C_unmaskChannel _ => True | _ => False end) ->
    core m' = core (set_m_ctx s (set_m_maxDutyCycle d m)) -> m_state m' = m_state m ->
    (m_log m' = m_log m \/ m_log m' = m_log m ++ [OEvent (EV_SESSION_UPDATED s)]) -> m' = fst (step c e k m) -> act c e m k r m'.

Lemma set_tx_same m : m = set_m_tx (m_tx m) m. Proof. destruct m; reflexivity. Qed.
Lemma tuned_refl s : tuned s s.
Proof. exists (s_rate s), (s_power s), (s_adr s), (s_maxDutyCycle s), (s_chConfig s), (s_chMask s). destruct s; reflexivity. Qed.

Lemma refused c e m k st : st <> STATUS_OK -> st <> STATUS_MACPRIORITY -> act c e m k (RStatus st) m.
Proof. intros. eapply a_refused; [apply set_tx_same|reflexivity|assumption|assumption|reflexivity]. Qed.

Lemma entropy_act c e m : act c e m C_entropy (RStatus (snd (MAC_entropy e m))) (fst (MAC_entropy e m)).
Proof.
  open_def MAC_entropy. destruct (m_op m) eqn:O; cbn [fst snd]; try (apply refused; discriminate).
  cbv zeta. change (m_state (set_m_op OP_ENTROPY m)) with (m_state m).
  apply a_entropy; [exact O| | |]; destruct (m_state m) eqn:S; try reflexivity; try exact S.
Qed.

Lemma deriveJoinKeys_sm m : exists l, deriveJoinKeys m = set_m_sm (m_sm m ++ l) m.
Proof.
  open_def deriveJoinKeys. cbv zeta. unfold sm_update. eexists (_ :: _ :: nil). ms. rewrite <- app_assoc. reflexivity.
Qed.

Lemma fillJoin_day c e n d m : fillJoinBuffer c e n (set_m_day d m) = set_m_day d (fillJoinBuffer c e n m).
Proof.
  open_def fillJoinBuffer. set (dn := match c_l2 c with L2_1_0_3 => _ | _ => _ end). clearbody dn.
  assert (forall f b k, prepareJoinRequest c (on_ctx (set_s_devNonce dn) (set_m_day d m)) f b k
             = prepareJoinRequest c (on_ctx (set_s_devNonce dn) m) f b k) as H by reflexivity.
  cbv zeta. rewrite H. clear H.
  change (m_joinEUI (on_ctx (set_s_devNonce dn) (set_m_day d m))) with (m_joinEUI (on_ctx (set_s_devNonce dn) m)).
  change (m_devEUI (on_ctx (set_s_devNonce dn) (set_m_day d m))) with (m_devEUI (on_ctx (set_s_devNonce dn) m)).
  change (m_buffer (on_ctx (set_s_devNonce dn) (set_m_day d m))) with (m_buffer (on_ctx (set_s_devNonce dn) m)).
  destruct (prepareJoinRequest _ _ _ _ _) as [buf len].
  change (set_m_bufferLen len (set_m_buffer buf (on_ctx (set_s_devNonce dn) (set_m_day d m)))) with
    (set_m_day d (set_m_bufferLen len (set_m_buffer buf (on_ctx (set_s_devNonce dn) m)))).
  generalize (set_m_bufferLen len (set_m_buffer buf (on_ctx (set_s_devNonce dn) m))). intros x.
  open_def selectJoinChannelAndRate. cbv zeta.
  change (m_ctx (set_m_day d x)) with (m_ctx x). change (m_trials (set_m_day d x)) with (m_trials x).
  change (m_tx (set_m_day d x)) with (m_tx x).
  destruct (isDynamic _).
  - assert (forall r l rn t, selectChannel (set_m_day d x) r l rn t = selectChannel x r l rn t) as -> by reflexivity. reflexivity.
  - destruct (Region_getChannel _ _) as [[[? ?] ?]|]; reflexivity.
Qed.

Lemma starts_core e want x : core (match m_state x with ST_IDLE => timerSet e WAITA 0 (set_m_state want x) | _ => x end) = core x.
Proof. destruct (m_state x); reflexivity. Qed.
Lemma starts_log e want x : m_log (match m_state x with ST_IDLE => timerSet e WAITA 0 (set_m_state want x) | _ => x end) = m_log x.
Proof. destruct (m_state x); reflexivity. Qed.
Lemma starts_state e want x : m_state (match m_state x with ST_IDLE => timerSet e WAITA 0 (set_m_state want x) | _ => x end) = start_state (m_state x) want.
Proof. destruct (m_state x) eqn:S; try exact S; reflexivity. Qed.

Lemma otaa_act c e m : act c e m C_otaa (RStatus (snd (MAC_otaa c e m))) (fst (MAC_otaa c e m)).
Proof.
  open_def MAC_otaa. destruct (s_joined (m_ctx m)) eqn:J; [apply refused; discriminate|].
  destruct (m_op m) eqn:O; cbn [fst snd]; try (apply refused; discriminate).
  destruct (m_devNonce m <=? 65535) eqn:G; cbn [fst snd]; [|apply refused; discriminate].
  set (m0 := set_m_day _ _). cbv zeta.
  assert (exists sm, (if is_1_1 (c_l2 c) then deriveJoinKeys m0 else m0) = set_m_sm (m_sm m ++ sm) m0) as (sm & E).
  { destruct (is_1_1 _); [exact (deriveJoinKeys_sm m0)|]. exists []. rewrite app_nil_r. unfold m0. destruct m; reflexivity. }
  assert (m_sm m ++ sm = m_sm (if is_1_1 (c_l2 c) then deriveJoinKeys m else m)) as ESM.
  { apply (f_equal m_sm) in E. ms_in E. rewrite <- E. destruct (is_1_1 _); reflexivity. }
  rewrite E. clear E. change (m_devNonce (set_m_sm (m_sm m ++ sm) m0)) with (m_devNonce m).
  assert (set_m_sm (m_sm m ++ sm) m0 = set_m_day (60 * 60 * 24 * timeTPS) (set_m_sm (m_sm m ++ sm) (set_m_trials 0 m))) as -> by reflexivity.
  set (m1 := set_m_sm (m_sm m ++ sm) (set_m_trials 0 m)).
  assert (fillJoinBuffer c e (u16 (m_devNonce m)) (set_m_day (60 * 60 * 24 * timeTPS) m1) =
          set_m_day (60 * 60 * 24 * timeTPS) (fillJoinBuffer c e (u16 (m_devNonce m)) m1)) as -> by apply fillJoin_day.
  destruct (fillJoin_fields c e (u16 (m_devNonce m)) m1) as (t & buf & len & dn & E2 & _).
  assert (m_log (fillJoinBuffer c e (u16 (m_devNonce m)) m1) = m_log m) as EL by (rewrite E2; reflexivity).
  assert (m_devNonce (fillJoinBuffer c e (u16 (m_devNonce m)) m1) = m_devNonce m) as EN by (rewrite E2; reflexivity).
  assert (m_state (fillJoinBuffer c e (u16 (m_devNonce m)) m1) = m_state m) as ES by (rewrite E2; reflexivity).
  clear E2. 
  apply (a_otaa c e m sm); [exact O|exact J|lia| | | |exact ESM]; fold m1; revert EL EN ES;
  generalize (fillJoinBuffer c e (u16 (m_devNonce m)) m1); intros x EL EN ES.
  - rewrite starts_core, <- EN. reflexivity.
  - rewrite starts_log, <- EL, <- EN. reflexivity.
  - rewrite starts_state, <- ES. reflexivity.
Qed.

Lemma abp_act c e a m : act c e m (C_abp a) (RStatus (snd (MAC_abp a m))) (fst (MAC_abp a m)).
Proof.
  open_def MAC_abp. destruct (s_joined (m_ctx m)) eqn:J; [apply refused; discriminate|].
  destruct (m_op m) eqn:O; cbn [fst snd]; try (apply refused; discriminate).
  cbv zeta. apply a_abp; [exact O|exact J| | |]; m_unf; ms; autorewrite with core; reflexivity.
Qed.

Lemma sel_pick_counter s mk ex sel d chs : forall j t, tx_counter (fst (sel_pick s mk ex sel d chs j t)) = tx_counter t.
Proof.
  induction chs as [|ch r IH]; intros j t; cbn [sel_pick]; [auto|].
  destruct (_ && _); [|apply IH]. destruct (_ =? _); [|apply IH].
  destruct (getChannel s ch) as [[[? ?] ?]|]; [reflexivity|apply IH].
Qed.
Lemma selectChannel_counter m d l r t : tx_counter (fst (selectChannel m d l r t)) = tx_counter t.
Proof.
  unfold selectChannel. destruct (sel_scan _ _) as [[mask av] ex]. destruct (_ >? 0); [|reflexivity].
  destruct (if negb _ then _ else _) as [a' x']. apply sel_pick_counter.
Qed.

Lemma data_act c e cf port data o m :
  act c e m (C_data cf port data o) (RStatus (snd (MAC_data c e cf port data o m))) (fst (MAC_data c e cf port data o m)).
Proof.
  open_def MAC_data. fold (len_of data). destruct (s_joined (m_ctx m)) eqn:J; cbn [negb];
  [|apply refused; discriminate].
  destruct (m_op m) eqn:O; try (apply refused; discriminate).
  destruct ((port >? 0) && (port <=? 223)) eqn:PT; [|apply refused; discriminate].
  destruct (band_global m =? 0) eqn:BG; [|apply refused; discriminate].
  fold (sel_start c m). cbv zeta.
  destruct (selectChannel (sel_start c m) (s_rate (m_ctx m)) 0 (e_rand e RND_CHANNEL) (m_tx (sel_start c m))) as [tx fd] eqn:SEL.
  assert (tx_counter tx = tx_counter (m_tx m)) as TC.
  { pose proof (selectChannel_counter (sel_start c m) (s_rate (m_ctx m)) 0 (e_rand e RND_CHANNEL) (m_tx (sel_start c m))) as H.
    rewrite SEL in H. exact H. }
  destruct fd.
  2: { eapply (a_refused c e m _ _ _ (m_tx (sel_start c m))); [reflexivity|reflexivity|discriminate|discriminate|rewrite O; congruence]. }
  destruct (len_of data + Frame_dataOverhead <=? rate_mtu (s_region (m_ctx m)) (s_rate (m_ctx m))) eqn:SZ.
  2: { eapply (a_refused c e m _ _ _ tx); [reflexivity|exact TC|discriminate|discriminate|rewrite O; congruence]. }
  change (mkOpts (Z.land (do_nbTrans match o with Some o0 => o0 | None => mkOpts 0 false false end) 15)
            (do_check match o with Some o0 => o0 | None => mkOpts 0 false false end)
            (do_getTime match o with Some o0 => o0 | None => mkOpts 0 false false end)) with (opts_of o).
  match goal with |- context [compose cf port data ?mtu ?mc ?fr] =>
    change (compose cf port data mtu mc fr) with
      (compose cf port data (rate_mtu (s_region (m_ctx m)) (s_rate (m_ctx m)))
         (mac_bytes (mac_commands c (m_ctx m) (opts_of o))) (frame0 cf port m)) end.
  destruct (compose cf port data (rate_mtu (s_region (m_ctx m)) (s_rate (m_ctx m)))
         (mac_bytes (mac_commands c (m_ctx m) (opts_of o))) (frame0 cf port m)) as [[f op] st] eqn:CO.
  match goal with |- context [prepareData c ?x f ?b ?n] => 
    change x with (data_base c o tx op m); change b with (m_buffer (data_base c o tx op m)) end.
  assert (m_log (data_base c o tx op m) = m_log m /\ m_state (data_base c o tx op m) = m_state m /\
    m_ctx (data_base c o tx op m) = sess_data c m) as (XL & XS & XC).
  { unfold data_base, sel_start, on_tx. ms. auto. }
  destruct (prepareData c (data_base c o tx op m) f (m_buffer (data_base c o tx op m)) LDL_MAX_PACKET) as [buf n] eqn:PD.
  cbn [fst snd].
  apply (a_data c e m cf port data o tx f op st); try assumption; [lia|lia|lia| | |];
  unfold data_filled; rewrite ?PD; cbn [fst snd]; clear PD;
  revert XL XS XC; generalize (data_base c o tx op m); intros x XL XS XC.
  - rewrite starts_core. unfold pushSessionUpdate, notify, emit. autorewrite with core. reflexivity.
  - rewrite starts_log, <- XL, <- XC. reflexivity.
  - rewrite starts_state, <- XS. reflexivity.
Qed.

Definition resets (s : mac_state) : bool := match s with ST_INIT | ST_RADIO_RESET | ST_RADIO_BOOT => false | _ => true end.
Definition cancel_mid (m : mac) : mac :=
  if resets (m_state m) then emit (OMode MODE_RESET) (set_m_state ST_RADIO_RESET
                    (inputDisarm (timerClear WAITB (timerClear WAITA (set_m_op OP_NONE m))))) else set_m_op OP_NONE m.
Lemma cancel_mid_core m : core (cancel_mid m) = core (set_m_op OP_NONE m).
Proof. unfold cancel_mid. destruct (resets _); m_unf; autorewrite with core; reflexivity. Qed.
Lemma cancel_mid_log m : m_log (cancel_mid m) = m_log m ++ (if resets (m_state m) then [OMode MODE_RESET] else []).
Proof. unfold cancel_mid. destruct (resets _); m_unf; ms; rewrite ?app_nil_r; reflexivity. Qed.
Lemma cancel_mid_state m : m_state (cancel_mid m) = if resets (m_state m) then ST_RADIO_RESET else m_state m.
Proof. unfold cancel_mid. destruct (resets _); m_unf; ms; reflexivity. Qed.
Lemma cancel_eq m : MAC_cancel m = match m_op m with OP_NONE => cancel_mid m | _ => notify EV_OP_CANCELLED (cancel_mid m) end.
Proof.
  open_def MAC_cancel. cbv zeta. change (m_state (set_m_op OP_NONE m)) with (m_state m).
  unfold cancel_mid. destruct (m_state m) eqn:S; cbn [resets];
  try (change (m_state (emit (OMode MODE_RESET) (set_m_state ST_RADIO_RESET (inputDisarm
         (timerClear WAITB (timerClear WAITA (set_m_op OP_NONE m))))))) with ST_RADIO_RESET);
  try (change (m_state (set_m_op OP_NONE m)) with (m_state m); rewrite S); reflexivity.
Qed.

Lemma cancel_act c e m k : k = C_cancel \/ (k = C_forget /\ s_joined (m_ctx m) = false) -> act c e m k RVoid (MAC_cancel m).
Proof.
  intros K. rewrite cancel_eq.
  pose proof (cancel_mid_core m) as HC. pose proof (cancel_mid_log m) as HL. pose proof (cancel_mid_state m) as HS.
  revert HC HL HS. generalize (cancel_mid m). intros x HC HL HS.
  apply a_cancel; [exact K| | |].
  - destruct (m_op m); exact HC.
  - transitivity (m_state x); [destruct (m_op m); reflexivity|]. rewrite HS. destruct (m_state m); reflexivity.
  - assert (match m_state m with ST_INIT | ST_RADIO_RESET | ST_RADIO_BOOT => [] | _ => [OMode MODE_RESET] end
            = (if resets (m_state m) then [OMode MODE_RESET] else [])) as -> by (destruct (m_state m); reflexivity).
    rewrite app_assoc, <- HL. destruct (m_op m); unfold notify, emit; ms; rewrite ?app_nil_r; reflexivity.
Qed.

Lemma forget_act c e m : act c e m C_forget RVoid (MAC_forget c m).
Proof.
  open_def MAC_forget. cbv zeta.
  pose proof (cancel_act c e m C_cancel (or_introl eq_refl)) as HC.
  assert (s_joined (m_ctx (MAC_cancel m)) = s_joined (m_ctx m) /\ m_ctx (MAC_cancel m) = m_ctx m /\ m_maxDutyCycle (MAC_cancel m) = m_maxDutyCycle m) as (EJ & EC & ED).
  { assert (core (MAC_cancel m) = core (set_m_op OP_NONE m)) as H.
    { rewrite cancel_eq, <- cancel_mid_core. destruct (m_op m); reflexivity. }
    apply core_fields in H. unfold same_core in H.
    assert (m_ctx (MAC_cancel m) = m_ctx m) as -> by apply H. split; [auto|]. split; [auto|]. apply H. }
  rewrite EJ. destruct (s_joined (m_ctx m)) eqn:J.
  - revert HC EJ EC ED. generalize (MAC_cancel m). intros x HC EJ EC ED.
    apply (a_forget c e m x); [exact HC|exact J| | |]; unfold forgetNetwork;
    change (m_ctx (band_set BAND_GLOBAL 0 x)) with (m_ctx x); change (m_maxDutyCycle (band_set BAND_GLOBAL 0 x)) with (m_maxDutyCycle x);
    rewrite EC, ED; generalize (forgotten (m_ctx m) (m_maxDutyCycle m) (c_txps c)); intros s; reflexivity.
  - apply cancel_act. auto.
Qed.

Lemma tune_act c e k m :
  (match k with C_setRate _ | C_setPower _ | C_setADR _ | C_setMaxDCycle _ | C_addChannel _ _ _ _ | C_maskChannel _ | C_unmaskChannel _ => True | _ => False end) ->
  act c e m k (snd (step c e k m)) (fst (step c e k m)).
Proof.
  intros K. pose proof (tuned_refl (m_ctx m)) as T.
  destruct k; try contradiction; cbn [step st_ret bool_ret fst snd].
  - unfold MAC_setRate. destruct (rateSettingIsValid _ _) eqn:E; cbn [fst snd]; [|apply refused; discriminate].
    eapply (a_tune c e m _ _ (set_s_rate rate (m_ctx m)) (m_maxDutyCycle m)); [|auto|exact I| | |right|].
    + exists rate, (s_power (m_ctx m)), (s_adr (m_ctx m)), (s_maxDutyCycle (m_ctx m)), (s_chConfig (m_ctx m)), (s_chMask (m_ctx m)). destruct (m_ctx m); reflexivity.
    + m_unf. autorewrite with core. destruct m; reflexivity.
    + reflexivity.
    + reflexivity.
    + cbn [step st_ret bool_ret fst]. unfold MAC_setRate. rewrite E. reflexivity.
  - unfold MAC_setPower. destruct (validateTXPower _ _) eqn:E; cbn [fst snd]; [|apply refused; discriminate].
    eapply (a_tune c e m _ _ (set_s_power power (m_ctx m)) (m_maxDutyCycle m)); [|auto|exact I| | |right|].
    + exists (s_rate (m_ctx m)), power, (s_adr (m_ctx m)), (s_maxDutyCycle (m_ctx m)), (s_chConfig (m_ctx m)), (s_chMask (m_ctx m)). destruct (m_ctx m); reflexivity.
    + m_unf. autorewrite with core. destruct m; reflexivity.
    + reflexivity.
    + reflexivity.
    + cbn [step st_ret bool_ret fst]. unfold MAC_setPower. rewrite E. reflexivity.
  - unfold MAC_setADR.
    eapply (a_tune c e m _ _ (set_s_adr v (m_ctx m)) (m_maxDutyCycle m)); [|auto|exact I| | |right|].
    + exists (s_rate (m_ctx m)), (s_power (m_ctx m)), v, (s_maxDutyCycle (m_ctx m)), (s_chConfig (m_ctx m)), (s_chMask (m_ctx m)). destruct (m_ctx m); reflexivity.
    + m_unf. autorewrite with core. destruct m; reflexivity.
    + reflexivity.
    + reflexivity.
    + reflexivity.
  - unfold MAC_setMaxDCycle. cbv zeta.
    eapply (a_tune c e m _ _ (set_s_maxDutyCycle (Z.land v 15) (m_ctx m)) (Z.land v 15)); [|auto|exact I| | |right|].
    + exists (s_rate (m_ctx m)), (s_power (m_ctx m)), (s_adr (m_ctx m)), (Z.land v 15), (s_chConfig (m_ctx m)), (s_chMask (m_ctx m)). destruct (m_ctx m); reflexivity.
    + m_unf. autorewrite with core. destruct m; reflexivity.
    + reflexivity.
    + reflexivity.
    + reflexivity.
  - unfold MAC_addChannel. destruct (setChannel (m_ctx m) ch freq lo hi) as [s ok] eqn:E. cbn [fst snd].
    eapply (a_tune c e m _ _ s (m_maxDutyCycle m)); [|eauto|exact I| | |left|].
    + assert (s = m_ctx m \/ exists cc, s = set_s_chConfig cc (m_ctx m)) as [->|(cc & ->)].
      { unfold setChannel in E. destruct (_ && _); [|injection E; auto]. cbv zeta in E. destruct (_ =? 0); [injection E; intros; subst; eauto|].
        destruct (validateFreq _ _); injection E; intros; subst; eauto. }
      * exact T.
      * exists (s_rate (m_ctx m)), (s_power (m_ctx m)), (s_adr (m_ctx m)), (s_maxDutyCycle (m_ctx m)), cc, (s_chMask (m_ctx m)). destruct (m_ctx m); reflexivity.
    + destruct m; reflexivity.
    + reflexivity.
    + reflexivity.
    + cbn [step st_ret bool_ret fst]. unfold MAC_addChannel. rewrite E. reflexivity.
  - unfold MAC_maskChannel. destruct (maskChannel _ _ _) as [k ok] eqn:E. cbn [fst snd].
    eapply (a_tune c e m _ _ (set_s_chMask k (m_ctx m)) (m_maxDutyCycle m)); [|eauto|exact I| | |left|].
    + exists (s_rate (m_ctx m)), (s_power (m_ctx m)), (s_adr (m_ctx m)), (s_maxDutyCycle (m_ctx m)), (s_chConfig (m_ctx m)), k. destruct (m_ctx m); reflexivity.
    + destruct m; reflexivity.
    + reflexivity.
    + reflexivity.
    + cbn [step st_ret bool_ret fst]. unfold MAC_maskChannel. rewrite E. reflexivity.
  - unfold MAC_unmaskChannel. destruct (unmaskChannel _ _ _) as [k ok] eqn:E. cbn [fst snd].
    eapply (a_tune c e m _ _ (set_s_chMask k (m_ctx m)) (m_maxDutyCycle m)); [|eauto|exact I| | |left|].
    + exists (s_rate (m_ctx m)), (s_power (m_ctx m)), (s_adr (m_ctx m)), (s_maxDutyCycle (m_ctx m)), (s_chConfig (m_ctx m)), k. destruct (m_ctx m); reflexivity.
    + destruct m; reflexivity.
    + reflexivity.
    + reflexivity.
    + cbn [step st_ret bool_ret fst]. unfold MAC_unmaskChannel. rewrite E. reflexivity.
Qed.

Lemma entropy_done_act c e m : m_state m = ST_ENTROPY -> act c e m C_process RVoid (processEntropy e SME_TIMER_A m).
Proof.
  intros S. apply a_entropy_done; [exact S| | |]; unfold processEntropy; m_unf; unfold emit; ms; autorewrite with core; rewrite <- ?app_assoc; reflexivity.
Qed.

Lemma error_act c e m : can_err (m_state m) = true -> act c e m C_process RVoid (handleRadioError c e m) \/
  exists m1, quiet m m1 /\ act c e m1 C_process RVoid (handleRadioError c e m).
Proof.
  intros CE. right. exists (timerClear WAITB (timerClear WAITA (inputDisarm m))). split.
  { split; [split|]; [reflexivity|now apply logs_same|reflexivity]. }
  open_def handleRadioError. set (x := timerClear WAITB (timerClear WAITA (inputDisarm m))). cbv zeta.
  assert (m_op x = m_op m /\ m_state x = m_state m) as (XO & XS) by (split; reflexivity). clearbody x.
  destruct (m_op x) eqn:O.
  3: { pose proof (missing_cases c e x) as HM. revert HM. generalize (downlinkMissing c e x). intros y HM.
       apply (a_error_join c e x y); [now rewrite XS|exact O|exact HM| | |]; m_unf; ms; autorewrite with core; reflexivity. }
  all: apply a_error; [now rewrite XS|congruence| | |]; m_unf; unfold emit; ms; autorewrite with core; rewrite <- ?app_assoc; reflexivity.
Qed.

Lemma packet_act c e m : in_rx (m_state m) = true -> exists m1, quiet m m1 /\ act c e m1 C_process RVoid (rx_packet c e m).
Proof.
  intros R. exists (set_m_rx_snr (e_snr e) (emit (OMode MODE_SLEEP) (timerClear WAITB (timerClear WAITA m)))). split.
  { split; [split|]; [reflexivity| |reflexivity]. apply (logs_one _ _ _ (OMode MODE_SLEEP)); reflexivity. }
  open_def rx_packet. cbv zeta.
  set (x := set_m_rx_snr (e_snr e) (emit (OMode MODE_SLEEP) (timerClear WAITB (timerClear WAITA m)))).
  assert (m_state x = m_state m) as XS by reflexivity. clearbody x. rewrite <- XS in R.
  destruct (receiveFrame c x (rx_buffer e) (rx_len e)) as [buf [f|]] eqn:E.
  - pose proof (a_down c e x buf f R E) as H1. pose proof (a_joined c e x buf f R E) as H2. unfold is_rx_data in *.
    destruct (dn_type f); auto.
  - apply a_missing; [auto|apply missing_cases].
Qed.

Lemma step_cases c e k m : exists m1 m2,
  quiet m m1 /\ act c e m1 k (snd (step c e k m)) m2 /\ quiet m2 (fst (step c e k m)) /\ (k <> C_process -> m1 = m).
Proof.
  assert (act c e m k (snd (step c e k m)) (fst (step c e k m)) -> exists m1 m2,
    quiet m m1 /\ act c e m1 k (snd (step c e k m)) m2 /\ quiet m2 (fst (step c e k m)) /\ (k <> C_process -> m1 = m)) as H
    by (intros HA; exists m, (fst (step c e k m)); repeat split; auto using quiet_refl, moved_refl, logs_refl).
  destruct k; try (apply H; now apply tune_act).
  - cbn [step fst snd]. destruct (process_cases c e m) as (m1 & m2 & Q1 & HC & Q2).
    destruct HC as [|m2 HM HA|m2 S1 S2 HC HL|S|S|S|S|S R].
    + exists m1, m1. split; [exact Q1|]. split; [apply a_same; auto|split; [exact Q2|congruence]].
    + exists m1, m2. split; [exact Q1|]. split; [apply a_move; auto|split; [exact Q2|congruence]].
    + exists m1, m2. split; [exact Q1|]. split; [apply a_tx; auto|split; [exact Q2|congruence]].
    + exists m1, (processEntropy e SME_TIMER_A m1). split; [exact Q1|]. split; [now apply entropy_done_act|split; [exact Q2|congruence]].
    + exists m1, (downlinkMissing c e m1). split; [exact Q1|]. split; [apply a_missing; [auto|apply missing_cases]|split; [exact Q2|congruence]].
    + destruct (error_act c e (registerTime m1)) as [HA|(m3 & Q3 & HA)].
      { rewrite (proj2 (registerTime_quiet m1)), S. reflexivity. }
      * exists (registerTime m1), (handleRadioError c e (registerTime m1)). split; [eapply quiet_trans; [exact Q1|apply registerTime_quiet]|]. split; [assumption|split; [assumption|congruence]].
      * exists m3, (handleRadioError c e (registerTime m1)).
        split; [eapply quiet_trans; [exact Q1|]; eapply quiet_trans; [apply registerTime_quiet|exact Q3]|]. split; [assumption|split; [assumption|congruence]].
    + destruct (error_act c e m1) as [HA|(m3 & Q3 & HA)].
      { destruct (m_state m1); try discriminate S; reflexivity. }
      * exists m1, (handleRadioError c e m1). split; [exact Q1|]. split; [assumption|split; [assumption|congruence]].
      * exists m3, (handleRadioError c e m1). split; [eapply quiet_trans; eauto|]. split; [assumption|split; [assumption|congruence]].
    + destruct (packet_act c e m1 S) as (m3 & Q3 & HA). exists m3, (rx_packet c e m1).
      split; [eapply quiet_trans; eauto|]. split; [assumption|split; [assumption|congruence]].
  - apply H. apply entropy_act.
  - apply H. apply otaa_act.
  - apply H. apply abp_act.
  - apply H. apply data_act.
  - apply H. apply cancel_act. auto.
  - apply H. apply forget_act.
  - cbn [step fst snd]. exists m, m. split; [apply quiet_refl|]. split; [apply a_same; eauto|]. split; [|reflexivity].
    unfold inputSignal. destruct (_ && _); [|apply quiet_refl].
    split; [split|]; [reflexivity|now apply logs_same|reflexivity].
Qed.
