(* The receive windows are tuned to the uplink before them. *)
From Verif Require Import Lib StreamM FrameM CommandsM RegionM RadioM SmM MacStateM MacTac MacUtilM OpsM MacCmdM MacProcM MacApiM MacRw
  CoreP CaseP RxP ExecP SpecHist SpecRegion RegionP ChanP SelectP HistP EndP TxP SentP UplinkP ReadyP DataP AcceptP CtxP DownP ValidP ChoiceP JoinChanP SpecSize AirP SizeP EirpP DriveP SpecListen.

(* --- the last transmission --- *)
Lemma last_tx_none l2 : forall a, forallb no_tx l2 = true ->
  fold_left (fun a o => match o with OTransmit _ _ _ _ _ => Some o | _ => a end) l2 a = a.
Proof.
  induction l2 as [|o l IH]; intros a H; [reflexivity|]. cbn [forallb] in H. apply andb_true_iff in H. destruct H as [A B].
  cbn [fold_left]. destruct o; try discriminate A; now apply IH.
Qed.
Lemma last_tx_app l l2 : forallb no_tx l2 = true -> last_tx (l ++ l2) = last_tx l.
Proof. intros H. unfold last_tx. rewrite fold_left_app. now apply last_tx_none. Qed.
Lemma last_tx_snoc l f b sf p fr : last_tx (l ++ [OTransmit f b sf p fr]) = Some (OTransmit f b sf p fr).
Proof. unfold last_tx. rewrite fold_left_app. reflexivity. Qed.

Definition on_air (s : mac_state) : bool :=
  match s with
  | ST_TX | ST_WAIT_RX1 | ST_START_RADIO_FOR_RX1 | ST_RX1 | ST_WAIT_RX2 | ST_START_RADIO_FOR_RX2 | ST_RX2 | ST_RX2_LOCKOUT => true
  | _ => false
  end.
Definition told (m : mac) : Prop := on_air (m_state m) = true ->
  exists p fr, last_tx (m_log m) = Some (OTransmit (tx_freq (m_tx m)) (rate_bw (s_region (m_ctx m)) (tx_rate (m_tx m)))
    (rate_sf (s_region (m_ctx m)) (tx_rate (m_tx m))) p fr).

(* channel, frequency and rate of a transmission of a fixed plan *)
Definition planned (r : region) (t : mac_tx) : Prop :=
  isDynamic r = false -> exists lo hi, 0 <= tx_chIndex t < 72 /\ fixed_channel r (tx_chIndex t) = Some (tx_freq t, lo, hi) /\ lo <= tx_rate t <= hi.
Definition busy (o : mac_op) : bool := match o with OP_JOINING | OP_DATA_CONFIRMED | OP_DATA_UNCONFIRMED => true | _ => false end.
Definition on_plan (m : mac) : Prop := busy (m_op m) = true -> planned (s_region (m_ctx m)) (m_tx m).

Lemma pick_found s mk ex sel d chs : forall j t, snd (sel_pick s mk ex sel d chs j t) = true ->
  let x := fst (sel_pick s mk ex sel d chs j t) in
  exists lo hi, In (tx_chIndex x) chs /\ getChannel s (tx_chIndex x) = Some (tx_freq x, lo, hi) /\ tx_rate x = requiredRate d lo hi.
Proof.
  induction chs as [|ch l IH]; intros j t; cbn [sel_pick]; [discriminate|].
  assert (forall j t, snd (sel_pick s mk ex sel d l j t) = true -> let x := fst (sel_pick s mk ex sel d l j t) in
    exists lo hi, In (tx_chIndex x) (ch :: l) /\ getChannel s (tx_chIndex x) = Some (tx_freq x, lo, hi) /\ tx_rate x = requiredRate d lo hi) as K.
  { intros j0 t0 H. destruct (IH j0 t0 H) as (lo & hi & A & B). exists lo, hi. split; [now right|exact B]. }
  destruct (_ && _); [|apply K]. destruct (_ =? _); [|apply K]. destruct (getChannel s ch) as [[[f lo] hi]|] eqn:G; [|apply K].
  intros _. exists lo, hi. split; [now left|]. split; [exact G|reflexivity].
Qed.
Lemma select_planned m d w rnd t : snd (selectChannel m d w rnd t) = true -> planned (s_region (m_ctx m)) (fst (selectChannel m d w rnd t)).
Proof.
  intros H D. unfold selectChannel in *. destruct (sel_scan m w) as [[mask av] ex]. destruct (av >? 0); [|discriminate H].
  destruct (if negb (ex =? 255) then _ else _) as [e1 a1]. apply pick_found in H. cbv zeta in H. destruct H as (lo & hi & I & G & R).
  set (x := fst (sel_pick _ _ _ _ _ _ _ _)) in *. apply channels_in in I.
  assert (0 <= tx_chIndex x < 72) as B by (destruct (s_region (m_ctx m)); try discriminate D; exact I).
  unfold getChannel in G. rewrite D, fixed_spec in G by lia. exists lo, hi. split; [exact B|]. split; [exact G|].
  rewrite R. apply required_near. exact (fixed_lohi _ _ _ _ _ G).
Qed.
Lemma join_planned c e m : planned (s_region (m_ctx m)) (m_tx (selectJoinChannelAndRate c e m)).
Proof.
  intros D. unfold selectJoinChannelAndRate. cbv zeta. rewrite D. set (ch := getJoinIndex _ _ _).
  assert (0 <= ch < 72) as CH by (apply index_range; exact D). rewrite fixed_spec by lia.
  destruct (fixed_channel (s_region (m_ctx m)) ch) as [[[f lo] hi]|] eqn:FC.
  - exists lo, hi. split; [exact CH|]. split; [exact FC|].
    match goal with |- context [requiredRate ?d lo hi] => exact (proj1 (required_near d lo hi (fixed_lohi _ _ _ _ _ FC))) end.
  - exfalso. exact (fixed_some _ _ D CH FC).
Qed.
Lemma fill_planned c e n m : planned (s_region (m_ctx m)) (m_tx (fillJoinBuffer c e n m)).
Proof.
  open_def fillJoinBuffer. set (d := match c_l2 c with L2_1_0_3 => _ | _ => n end). cbv zeta. destruct (prepareJoinRequest _ _ _ _ _) as [b l].
  exact (join_planned c e (set_m_bufferLen l (set_m_buffer b (on_ctx (set_s_devNonce d) m)))).
Qed.

Lemma planned_same r t t' : tx_freq t' = tx_freq t -> tx_chIndex t' = tx_chIndex t -> tx_rate t' = tx_rate t -> planned r t -> planned r t'.
Proof. intros E1 E2 E3 P D. rewrite E1, E2, E3. exact (P D). Qed.
Lemma core_plan m m' : core m' = core m -> on_plan m -> on_plan m'.
Proof.
  intros C J O. pose proof (core_op_eq _ _ C) as EO. destruct (core_send _ _ C) as (_ & _ & _ & F1 & F2 & F3 & _ & _ & _ & _ & RG & _).
  rewrite RG. apply (planned_same _ (m_tx m)); try assumption. apply J. congruence.
Qed.
Lemma idle_plan m : busy (m_op m) = false -> on_plan m. Proof. intros H O. congruence. Qed.
Lemma none_plan x : on_plan (set_m_op OP_NONE x). Proof. apply idle_plan. destruct x. reflexivity. Qed.
Lemma nonce_plan n x : planned (s_region (m_ctx x)) (m_tx x) -> on_plan (set_m_devNonce n x). Proof. intros H _. exact H. Qed.
Lemma otaa_plan n x : planned (s_region (m_ctx x)) (m_tx x) -> on_plan (set_m_op OP_JOINING (on_tx (set_tx_power 0) (set_m_devNonce n x))). Proof. intros H _. exact H. Qed.
Lemma trial_plan x : on_plan x -> on_plan (next_trial x). Proof. intros H. exact H. Qed.
Lemma mic_plan c x : on_plan x -> on_plan (micDataFrame c x). Proof. intros H. exact H. Qed.
Lemma mic_keeps c m : m_tx (micDataFrame c m) = m_tx m /\ m_ctx (micDataFrame c m) = m_ctx m /\ m_op (micDataFrame c m) = m_op m.
Proof. unfold micDataFrame. cbv zeta. repeat split; reflexivity. Qed.

Lemma miss_plan c e m m' : miss_case c e m m' -> on_plan m -> on_plan m'.
Proof.
  intros HM J. destruct HM as [m2 D ? C S E|m2 D p C S E|m2 O ? C S E|m2 O ? C S E|D O].
  - apply (core_plan _ _ C). apply mic_plan, trial_plan, J.
  - apply (core_plan _ _ C). apply none_plan.
  - apply (core_plan _ _ C). apply nonce_plan. destruct (fill_join c e (u16 (m_devNonce m)) (next_trial m)) as (X1 & _).
    rewrite X1. apply fill_planned.
  - apply (core_plan _ _ C). apply none_plan.
  - apply trial_plan, J.
Qed.
Lemma act_plan c e m k r m' : act c e m k r m' -> on_plan m -> on_plan m'.
Proof.
  intros HA J. destruct HA.
  - exact J.
  - destruct H as [C _]. exact (core_plan _ _ C J).
  - exact (core_plan _ _ H1 J).
  - apply (core_plan _ _ H0). apply none_plan.
  - exact (miss_plan _ _ _ _ H0 J).
  - apply (core_plan _ _ H1). apply none_plan.
  - apply (core_plan _ _ H2). exact (miss_plan _ _ _ _ H1 J).
  - destruct (data_received_frame c e buf f m) as (s & l & C & _). cbv zeta in C. apply (core_plan _ _ (push_core _)), (core_plan _ _ C), idle_plan. reflexivity.
  - destruct (join_accepted_frame c buf f m) as (s & l & C & _). cbv zeta in C. apply (core_plan _ _ (push_core _)), (core_plan _ _ C), idle_plan. reflexivity.
  - subst m'. intros O. change (busy (m_op m) = true) in O. assert (tx = m_tx m) as -> by (apply H3; intros X; rewrite X in O; discriminate O). exact (J O).
  - apply (core_plan _ _ H0). apply none_plan.
  - apply (core_plan _ _ H2). apply otaa_plan. destruct (fill_join c e (u16 (m_devNonce m)) (set_m_sm (m_sm m ++ sm) (set_m_trials 0 m))) as (X1 & _).
    pose proof (fill_planned c e (u16 (m_devNonce m)) (set_m_sm (m_sm m ++ sm) (set_m_trials 0 m))) as P. fold x in X1, P. clearbody x.
    rewrite X1. exact P.
  - apply (core_plan _ _ H1). apply idle_plan. change (busy (m_op m) = false). rewrite H. reflexivity.
  - apply (core_plan _ _ H6). intros _. unfold data_filled. cbv zeta. 
    match goal with |- planned (s_region (m_ctx (micDataFrame c ?y))) _ => destruct (mic_keeps c y) as (K1 & K2 & _) end. rewrite K1, K2.
    pose proof (select_planned (sel_start c m) (s_rate (m_ctx m)) 0 (e_rand e RND_CHANNEL) (m_tx (sel_start c m))) as P. rewrite H3 in P. specialize (P eq_refl). cbn [fst] in P.
    change (planned (s_region (sess_data c m)) (set_tx_counter (s_up (m_ctx m)) tx)). rewrite sess_region. exact P.
  - apply (core_plan _ _ H0). apply none_plan.
  - apply (core_plan _ _ H0). apply idle_plan. change (busy (m_op x) = false). rewrite (cancel_op _ _ _ _ HA). reflexivity.
  - apply (core_plan _ _ H2). intros O. change (busy (m_op m) = true) in O. destruct H as (r0 & p & a & dd & cc & kk & ->). exact (J O).
Qed.

(* --- what was transmitted is still in place --- *)
Lemma told_keep m m' lo : told m -> (on_air (m_state m') = true -> on_air (m_state m) = true) -> m_log m' = m_log m ++ lo -> forallb no_tx lo = true ->
  tx_freq (m_tx m') = tx_freq (m_tx m) -> tx_rate (m_tx m') = tx_rate (m_tx m) -> s_region (m_ctx m') = s_region (m_ctx m) -> told m'.
Proof.
  intros T A L N E1 E2 E3 O. destruct (T (A O)) as (p & fr & E). exists p, fr. rewrite L, last_tx_app, E1, E2, E3 by exact N. exact E.
Qed.
Lemma told_off m : on_air (m_state m) = false -> told m. Proof. intros H O. congruence. Qed.
Lemma core_told m m' lo : core m' = core m -> told m -> (on_air (m_state m') = true -> on_air (m_state m) = true) -> m_log m' = m_log m ++ lo -> forallb no_tx lo = true -> told m'.
Proof.
  intros C T A L N. destruct (core_send _ _ C) as (_ & _ & _ & F1 & F2 & F3 & _ & _ & _ & _ & RG & _). eapply told_keep; eauto.
Qed.
Lemma arrow_air op s s' : arrow op s s' = true -> on_air s' = true -> on_air s = true.
Proof. destruct s, s', op; cbn; intros; try reflexivity; discriminate. Qed.
Lemma start_air op s w : so op s = true -> op = OP_NONE -> on_air w = false -> on_air (start_state s w) = false.
Proof. intros S O W. subst. destruct s; try discriminate S; try reflexivity. exact W. Qed.
Lemma miss_air c e m m' : miss_case c e m m' -> busy (m_op m) = true -> on_air (m_state m') = false.
Proof.
  intros HM B. destruct HM as [m2 D ? C S E|m2 D p C S E|m2 O ? C S E|m2 O ? C S E|D O]; try (rewrite S; reflexivity).
  exfalso. destruct (m_op m); try discriminate B; try discriminate D; congruence.
Qed.
Lemma rx_busy op s : so op s = true -> s = ST_RX2_LOCKOUT \/ in_rx s = true -> busy op = true.
Proof. intros S [-> | H]; [destruct op; try discriminate S; reflexivity|]. destruct s; try discriminate H; destruct op; try discriminate S; reflexivity. Qed.

Lemma cancel_air c e m k r x : act c e m k r x -> k = C_cancel -> r = RVoid -> on_air (m_state x) = false.
Proof.
  intros A K R. destruct A; try discriminate K; try discriminate R.
  - destruct H as [H|[t H]]; rewrite K in H; discriminate H.
  - rewrite H1. destruct (m_state m); reflexivity.
  - rewrite K in H1. destruct H1.
Qed.
Lemma push_state x : m_state (pushSessionUpdate x) = m_state x. Proof. reflexivity. Qed.
Lemma act_told c e m k r m' lo : act c e m k r m' -> m_log m' = m_log m ++ lo -> so (m_op m) (m_state m) = true -> told m -> told m'.
Proof.
  intros HA L S T. destruct HA.
  - exact T.
  - destruct H as [C (l & E & P)]. eapply core_told; [exact C|exact T|apply (arrow_air _ _ _ H0)|exact E|now apply plain_no_tx].
  - intros _. destruct (core_send _ _ H1) as (_ & _ & _ & F1 & F2 & F3 & _ & _ & _ & _ & RG & _). rewrite H2, F1, F3, RG. unfold transmit_of. cbv zeta.
    rewrite last_tx_snoc. eauto.
  - apply told_off. rewrite H1. reflexivity.
  - apply told_off. eapply miss_air; [eassumption|]. eapply rx_busy; eauto.
  - apply told_off. rewrite H2. reflexivity.
  - apply told_off. rewrite H3. reflexivity.
  - apply told_off. destruct (data_received_frame c e buf f m) as (s & l & _ & _ & E & _). cbv zeta in E.
    rewrite push_state, E. reflexivity.
  - apply told_off. destruct (join_accepted_frame c buf f m) as (s & l & _ & _ & E & _). cbv zeta in E.
    rewrite push_state, E. reflexivity.
  - subst m'. intros O. change (on_air (m_state m) = true) in O. 
    assert (tx = m_tx m) as -> by (apply H3; intros X; rewrite X in S; destruct (m_state m); discriminate). exact (T O).
  - apply told_off. rewrite H2. now apply (start_air (m_op m)).
  - apply told_off. rewrite H4. now apply (start_air (m_op m)).
  - apply told_off. rewrite H3, H in *. destruct (m_state m); try discriminate S; reflexivity.
  - apply told_off. rewrite H8. now apply (start_air (m_op m)).
  - apply told_off. rewrite H1. destruct (m_state m); reflexivity.
  - apply told_off. rewrite H1. exact (cancel_air _ _ _ _ _ _ HA eq_refl eq_refl).
  - destruct H as (r0 & p & a & dd & cc & kk & ->). 
    pose proof (core_send _ _ H2) as (_ & _ & _ & F1 & F2 & F3 & _ & _ & _ & _ & RG & _).
    destruct H4 as [E|E].
    + apply (told_keep m m' [] T); [rewrite H3; auto|rewrite app_nil_r; exact E|reflexivity|exact F1|exact F3|exact RG].
    + eapply (told_keep m m' _ T); [rewrite H3; auto|exact E|reflexivity|exact F1|exact F3|exact RG].
Qed.

Definition listening_inv (m : mac) : Prop := so (m_op m) (m_state m) = true /\ told m /\ on_plan m.
Theorem listening_always c h m : listening_inv m -> listening_inv (run c h m).
Proof.
  intros H. refine (hist_ind c (fun _ => True) (fun _ m => listening_inv m) _ _ h [] m H _).
  - intros l x x' lo (S & T & P) Q L PL. split; [eapply quiet_so; eauto|]. pose proof Q as [[C _] ES]. split; [|exact (core_plan _ _ C P)].
    eapply core_told; [exact C|exact T|rewrite ES; auto|exact L|now apply plain_no_tx].
  - intros l x e k r x' lo (S & T & P) _ A L. split; [eapply act_so; eauto|]. split; [eapply act_told; eauto|eapply act_plan; eauto].
  - apply Forall_forall. auto.
Qed.
Lemma listening_init c r a e : listening_inv (MAC_init c r a e).
Proof.
  split; [apply (init_so c r a e [])|]. destruct (init_facts c r a e) as (O & S & _). split; [apply told_off; rewrite S; reflexivity|apply idle_plan; rewrite O; reflexivity].
Qed.

(* --- when the radio is told to listen --- *)
Definition no_rx (o : out) : bool := match o with OReceive _ _ _ _ _ => false | _ => true end.
Lemma evo_no_rx l : forallb evo l = true -> forallb no_rx l = true.
Proof. intros H. apply forallb_forall. intros o Ho. apply (proj1 (forallb_forall _ _) H) in Ho. destruct o; auto. Qed.
Definition deaf (m m' : mac) : Prop := exists l, m_log m' = m_log m ++ l /\ forallb no_rx l = true.
Lemma deaf_refl m : deaf m m. Proof. exists []. split; [symmetry; apply app_nil_r|reflexivity]. Qed.
Lemma deaf_same m m' : m_log m' = m_log m -> deaf m m'. Proof. intros E. exists []. rewrite app_nil_r. auto. Qed.
Lemma deaf_trans m m1 m2 : deaf m m1 -> deaf m1 m2 -> deaf m m2.
Proof. intros (l1 & E1 & P1) (l2 & E2 & P2). exists (l1 ++ l2). rewrite E2, E1, <- app_assoc, forallb_app, P1, P2. auto. Qed.
Lemma deaf_evo m m' : (exists l, m_log m' = m_log m ++ l /\ forallb evo l = true) -> deaf m m'.
Proof. intros (l & L & E). exists l. split; [exact L|now apply evo_no_rx]. Qed.

Lemma packet_deaf c e m : busy (m_op m) = true -> deaf m (rx_packet c e m).
Proof.
  intros O. open_def rx_packet. cbv zeta. set (m1 := set_m_rx_snr _ _).
  assert (m_log m1 = m_log m ++ [OMode MODE_SLEEP]) as L1 by reflexivity.
  assert (m_op m1 = m_op m) as O1 by reflexivity. clearbody m1.
  apply (deaf_trans m m1); [eexists; split; [exact L1|reflexivity]|].
  destruct (receiveFrame c m1 (rx_buffer e) (rx_len e)) as [buf [f|]].
  - assert (forall x, deaf m1 x -> deaf m1 (pushSessionUpdate x)) as K.
    { intros x D. apply (deaf_trans m1 x); [exact D|]. eexists. split; [unfold pushSessionUpdate, notify, emit; ms; reflexivity|reflexivity]. }
    apply K. clear K.
    assert (deaf m1 (data_received c e buf f m1)) as D.
    { destruct (data_received_frame c e buf f m1) as (s & l & _ & _ & S & L & _ & T). exists (l ++ down_end m1 f).
      split; [exact L|]. apply evo_no_rx. rewrite forallb_app, (told_evo _ T). apply down_end_evo. }
    assert (deaf m1 (join_accepted c buf f m1)) as J.
    { destruct (join_accepted_frame c buf f m1) as (s & l & _ & _ & S & L & _). eexists. split; [exact L|reflexivity]. }
    destruct (dn_type f); assumption.
  - destruct (miss_evo c e m1 _ (missing_cases c e m1)) as [LE _]; [|now apply deaf_evo].
    rewrite O1. destruct (m_op m); try discriminate O; auto.
Qed.
Lemma error_deaf c e m : deaf m (handleRadioError c e m).
Proof.
  open_def handleRadioError. cbv zeta. set (x := timerClear WAITB (timerClear WAITA (inputDisarm m))).
  assert (m_log x = m_log m) as XL by reflexivity. clearbody x.
  assert (forall y l, m_log y = m_log m ++ l -> forallb evo l = true ->
    deaf m (timerSet e WAITA (m_tps y / 1024) (emit (OMode MODE_RESET) (set_m_state ST_RADIO_RESET y)))) as K.
  { intros y l L E. exists (l ++ [OMode MODE_RESET]). split.
    - unfold timerSet, emit. ms. rewrite L, app_assoc. reflexivity.
    - rewrite forallb_app, (evo_no_rx _ E). reflexivity. }
  destruct (m_op x) eqn:O; try (apply (K _ [OEvent EV_OP_ERROR]); [unfold notify, emit; ms; rewrite XL; reflexivity|reflexivity]).
  destruct (miss_evo c e x _ (missing_cases c e x)) as [(l & L & V) _]; [auto|]. apply (K _ l); [congruence|exact V].
Qed.

(* the two calls *)
Definition listens (m : mac) (o : out) : Prop :=
  let s := m_ctx m in let r := s_region s in exists y,
  (m_state m = ST_START_RADIO_FOR_RX1 /\
     let rate := getRX1DataRate r (tx_rate (m_tx m)) (s_rx1DROffset s) in
     o = OReceive (getRX1Freq r (tx_freq (m_tx m)) (tx_chIndex (m_tx m))) (rate_bw r rate) (rate_sf r rate) y (u8 (rate_mtu r rate + Frame_phyOverhead))) \/
  (m_state m = ST_START_RADIO_FOR_RX2 /\
     let rate := s_rx2DataRate s in
     o = OReceive (s_rx2Freq s) (rate_bw r rate) (rate_sf r rate) y (u8 (rate_mtu r rate + Frame_phyOverhead))).

Ltac deaf_by S := left; eexists; (split; [cbv [processWait rx_timeout]; rewrite ?S; reflexivity|reflexivity]).
Lemma dispatch_listen c e ev lag m : so (m_op m) (m_state m) = true ->
  deaf m (dispatch c e ev lag m) \/ exists o, m_log (dispatch c e ev lag m) = m_log m ++ [o] /\ listens m o.
Proof.
  intros O. unfold dispatch. destruct (m_state m) eqn:S; try (left; apply deaf_refl).
  - left. eexists. split; reflexivity.
  - left. destruct ev; try apply deaf_refl. eexists. split; reflexivity.
  - left. destruct ev; try apply deaf_refl. exists [OMode MODE_SLEEP]. split; [|reflexivity].
    cbv [processRadioBoot]. change (m_op (emit (OMode MODE_SLEEP) m)) with (m_op m). destruct (m_op m); reflexivity.
  - destruct ev; try (left; apply deaf_refl); deaf_by S.
  - left. destruct ev; try apply deaf_refl. eexists. split; reflexivity.
  - left. destruct ev; try apply deaf_refl. exists [OMode MODE_SLEEP; OEvent (EV_ENTROPY (e_entropy e))]. split; [|reflexivity].
    unfold processEntropy, notify, emit. ms. rewrite <- app_assoc. reflexivity.
  - left. unfold processWaitOTAA. destruct (_ =? _); [|apply deaf_refl]. cbv zeta. now apply deaf_same.
  - destruct ev; try (left; apply deaf_refl); deaf_by S.
  - left. destruct ev; try apply deaf_refl. eexists. split; [unfold processStartRadioForTX, timerSet, emit; ms; reflexivity|reflexivity].
  - left. assert (deaf m (registerTime m)) as H2 by apply deaf_same, registerTime_log.
    unfold processTX. destruct ev; try apply deaf_refl; [eapply deaf_trans; [exact H2|apply error_deaf]|].
    destruct (e_st_tx e); [|eapply deaf_trans; [exact H2|apply error_deaf]]. eapply deaf_trans; [exact H2|]. exists [OMode MODE_HOLD]. split; [|reflexivity].
    set (x := registerTime m). clearbody x. open_def tx_done. cbv zeta.
    destruct (window _ _ _ _) as [sym1 marg1]. destruct (window _ _ _ _) as [sym2 marg2].
    unfold emit. ms. f_equal. destruct (_ <=? _); [destruct (_ <=? _)|]; reflexivity.
  - destruct ev; try (left; apply deaf_refl); deaf_by S.
  - destruct ev; try (left; apply deaf_refl). right. eexists. split; [unfold processStartRadioForRX1, timerSet, emit; ms; reflexivity|].
    eexists. left. split; [exact S|reflexivity].
  - unfold processRX. destruct ev; try (left; apply deaf_refl); [left; apply error_deaf|].
    destruct (e_st_rx e) eqn:R; [left; apply packet_deaf, (rx_busy _ ST_RX1 O); now right|].
    destruct (e_st_timeout e); [|left; apply error_deaf]. deaf_by S.
  - destruct ev; try (left; apply deaf_refl); deaf_by S.
  - destruct ev; try (left; apply deaf_refl). right. eexists. split; [unfold processStartRadioForRX2, timerSet, emit; ms; reflexivity|].
    eexists. right. split; [exact S|reflexivity].
  - unfold processRX. destruct ev; try (left; apply deaf_refl); [left; apply error_deaf|].
    destruct (e_st_rx e) eqn:R; [left; apply packet_deaf, (rx_busy _ ST_RX2 O); now right|].
    destruct (e_st_timeout e); [|left; apply error_deaf]. deaf_by S.
  - left. unfold processRX2Lockout. destruct ev; try apply deaf_refl.
    destruct (miss_evo c e m _ (missing_cases c e m)) as [LE _]; [|now apply deaf_evo].
    destruct (m_op m); try discriminate O; auto.
Qed.

Lemma act_deaf c e m k r m' : act c e m k r m' -> outside k = true -> deaf m m'.
Proof.
  intros A. induction A as
    [k r K R|? ? ?|? ? ? ? ?|? ? ? ? ?|? ? ?|? ? ? ? ? ?|? ? ? ? ? ? ? ?|? ? ? ? ?|? ? ? ? ?
    |k st m' tx E _ _ _ _|m' _ _ L S|sm m' _ _ _ x _ L S _|a m' _ _ _ L S|cf port data o tx f op st m' _ _ _ _ _ mtu _ _ _ L S
    |k m' K _ S L|x m' A IH _ _ S L|k r s d m' _ _ _ _ S L _]; intros NP; try discriminate NP.
  - apply deaf_refl.
  - subst m'. now apply deaf_same.
  - now apply deaf_same.
  - eexists. split; [exact L|reflexivity].
  - now apply deaf_same.
  - eexists. split; [exact L|reflexivity].
  - eexists. split; [exact L|]. destruct (m_state m), (m_op m); reflexivity.
  - apply (deaf_trans m x); [now apply IH|]. eexists. split; [exact L|reflexivity].
  - destruct L as [L|L]; [now apply deaf_same|]. eexists. split; [exact L|reflexivity].
Qed.

Lemma listens_same m m' o : core m' = core m -> m_state m' = m_state m -> listens m' o -> listens m o.
Proof.
  intros C S. destruct (core_send _ _ C) as (_ & _ & _ & F1 & F2 & F3 & _). assert (m_ctx m' = m_ctx m) as EC by (apply core_fields in C; unfold same_core in C; tauto).
  unfold listens. rewrite F1, F2, F3, S, EC. auto.
Qed.
Lemma step_listen c e k m : so (m_op m) (m_state m) = true ->
  deaf m (fst (step c e k m)) \/ (k = C_process /\ exists l o, m_log (fst (step c e k m)) = m_log m ++ l ++ [o] /\ forallb no_rx l = true /\ listens m o).
Proof.
  intros O. assert (k = C_process \/ k <> C_process) as [->|N] by (destruct k; auto; right; discriminate).
  - cbn [step fst]. open_def MAC_process.
    pose proof (bands_evo e m) as HB. pose proof (processBands_quiet e m) as QB.
    destruct (processBands e m) as [ma ready]. cbn [fst] in HB, QB. apply deaf_evo in HB.
    pose proof (quiet_so _ _ QB O) as Oa.
    pose proof (next_event_log e ma ready) as HN. pose proof (next_event_quiet e ma ready) as QN.
    destruct (next_event e ma ready) as [[mb ev] lag]. cbn [fst] in HN, QN.
    assert (deaf m mb) as Hb by (eapply deaf_trans; [exact HB|apply deaf_same, HN]).
    pose proof (quiet_so _ _ QN Oa) as Ob.
    assert (core mb = core m /\ m_state mb = m_state m) as [CC SS].
    { destruct QB as [[C1 _] S1], QN as [[C2 _] S2]. split; congruence. }
    assert (forall x, deaf m x \/ (C_process = C_process /\ exists l o, m_log x = m_log m ++ l ++ [o] /\ forallb no_rx l = true /\ listens m o) ->
      deaf m (setNextBandEvent e x) \/ (C_process = C_process /\ exists l o, m_log (setNextBandEvent e x) = m_log m ++ l ++ [o] /\ forallb no_rx l = true /\ listens m o)) as K.
    { intros x [D|D]; [left; eapply deaf_trans; [exact D|apply deaf_same, setNext_log]|right]. rewrite (proj1 (setNext_log e x)). exact D. }
    apply K. clear K. 
    assert (ev = SME_NONE \/ ev <> SME_NONE) as [-> | NE] by (destruct ev; auto; right; discriminate); [left; exact Hb|].
    assert (match ev with SME_NONE => mb | _ => dispatch c e ev lag mb end = dispatch c e ev lag mb) as -> by (destruct ev; [congruence|reflexivity..]).
    destruct (dispatch_listen c e ev lag mb Ob) as [D|(o & L & LS)]; [left; eapply deaf_trans; eauto|].
    right. split; [reflexivity|]. destruct Hb as (l & L1 & P1). exists l, o. rewrite L, L1, <- app_assoc. split; [reflexivity|]. split; [exact P1|].
    exact (listens_same _ _ _ CC SS LS).
  - left. assert (act c e m k (snd (step c e k m)) (fst (step c e k m)) /\ outside k = true \/ exists t, k = C_radioEvent t) as [[A K]|(t & ->)].
    { destruct k; try (left; split; [now apply tune_act|reflexivity]).
      - now destruct N.
      - left. split; [apply entropy_act|reflexivity].
      - left. split; [apply otaa_act|reflexivity].
      - left. split; [apply abp_act|reflexivity].
      - left. split; [apply data_act|reflexivity].
      - left. split; [apply cancel_act; auto|reflexivity].
      - left. split; [apply forget_act|reflexivity].
      - right. eauto. }
    + exact (act_deaf _ _ _ _ _ _ A K).
    + cbn [step fst]. unfold inputSignal. destruct (_ && _); [now apply deaf_same|apply deaf_refl].
Qed.

Lemma mtu_len r rate : u8 (rate_mtu r rate + Frame_phyOverhead) = rate_mtu r rate + 5.
Proof.
  unfold rate_mtu, convertRate. 
  destruct r; repeat (match goal with |- context [match ?x with _ => _ end] => is_var x; destruct x end); reflexivity.
Qed.
Lemma first_freq_spec r f ch : 0 <= ch < 256 -> getRX1Freq r f ch = first_freq r f ch.
Proof.
  intros H. destruct r; cbn [getRX1Freq first_freq]; try reflexivity; rewrite u32_id; pose proof (Z.mod_pos_bound ch 8 ltac:(lia)); lia.
Qed.

Theorem window_listens c r a e0 h f b sf sym len : In (OReceive f b sf sym len) (m_log (run c h (MAC_init c r a e0))) ->
  exists h1 e h2, h = h1 ++ (e, C_process) :: h2 /\ window_ok (run c h1 (MAC_init c r a e0)) f b sf len.
Proof.
  intros I. destruct (run_split_log _ _ _ _ I) as [X|(h0 & e' & k' & h3 & E & X)]; [rewrite (proj1 (proj2 (proj2 (init_facts c r a e0)))) in X; destruct X|].
  pose proof (listening_always c h0 _ (listening_init c r a e0)) as (S & T & P). set (m := run c h0 (MAC_init c r a e0)) in *.
  destruct (step_listen c e' k' m S) as [(l & L & N)|(-> & l & o & L & N & LS)].
  { exfalso. rewrite (new_out_app _ _ _ L) in X. apply (proj1 (forallb_forall _ _) N) in X. discriminate X. }
  rewrite (new_out_app _ _ _ L) in X. apply in_app_or in X. destruct X as [X|[X|[]]]; [apply (proj1 (forallb_forall _ _) N) in X; discriminate X|]. subst o.
  exists h0, e', h3. split; [exact E|]. fold m. clearbody m. clear L E I.
  assert (on_air (m_state m) = true /\ busy (m_op m) = true) as [OA BU].
  { destruct LS as (y & [[SS _]|[SS _]]); rewrite SS in *; (split; [reflexivity|]); destruct (m_op m); try discriminate S; reflexivity. }
  destruct (T OA) as (p & fr & LT). specialize (P BU). unfold window_ok. cbv zeta.
  eexists _, _, _, p, fr. split; [exact LT|]. split; [reflexivity|]. split; [reflexivity|].
  split; [intros D; destruct (P D) as (lo & hi & B & FC & R); exists lo, hi; auto|].
  destruct LS as (y & [[SS LS]|[SS LS]]); rewrite SS; cbv zeta in LS.
  - assert (f = getRX1Freq (s_region (m_ctx m)) (tx_freq (m_tx m)) (tx_chIndex (m_tx m))) as -> by congruence. split.
    + destruct (isDynamic (s_region (m_ctx m))) eqn:D.
      * destruct (s_region (m_ctx m)); try discriminate D; reflexivity.
      * apply first_freq_spec. destruct (P D) as (lo & hi & B & _). lia.
    + intros DF. apply rx1_spec in DF. rewrite <- DF. unfold modulation. rewrite <- mtu_len. repeat split; congruence.
  - split; [congruence|]. unfold modulation. rewrite <- mtu_len. repeat split; congruence.
Qed.
