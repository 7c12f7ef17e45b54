(* A join accept is taken as it was sent. *)
From Verif Require Import Lib StreamM FrameM CommandsM RegionM RadioM SmM MacStateM MacTac MacUtilM OpsM MacCmdM MacProcM MacApiM MacRw CoreP CaseP RxP SpecFrame SpecDecode SpecAes SpecSm SpecHist SpecRx SpecJoined SpecRegion FrameP FrameDecP FrameRtP SmP HistP EndP TxP UplinkP ReadyP JoinP DataP AcceptP GenuineP CtxP DownP ChanP WindowP.

(* --- a genuine accept is received --- *)

Lemma mhdr_first j : nth 0 (accept_bytes j) 0 = mhdr JoinAccept.
Proof. reflexivity. Qed.

Lemma accept_received c m e j : octets c -> length (m_joinEUI m) = 8%nat -> bytes_ok (e_rx e) -> genuine_accept c m (heard e) j ->
  exists buf f, receiveFrame c m (rx_buffer e) (rx_len e) = (buf, Some f) /\ is_rx_data f = false /\ reports_accept buf f j.
Proof.
  intros OC EJ HB (O & W & LH & OP & MI & ON).
  destruct (accept_plain_ok c m e OC HB) as [B L]. cbv zeta in B, L. destruct (heard_len e) as [LN L255].
  set (b2 := accept_plain c m (rx_buffer e) (rx_len e)) in *.
  assert (firstn (length (heard e)) b2 = accept_bytes j) as FB by (rewrite <- OP; exact (opened_plain c m e (proj1 OC) LH)).
  assert (length (accept_bytes j) = length (heard e)) as LA by (rewrite <- FB, firstn_length, L; lia).
  assert (b2 = accept_bytes j ++ skipn (length (heard e)) b2) as EB by (rewrite <- FB; symmetry; apply firstn_skipn).
  assert (bytes_ok (skipn (length (heard e)) b2)) as BR.
  { unfold bytes_ok in *. rewrite <- (firstn_skipn (length (heard e)) b2) in B. apply Forall_app in B. apply B. }
  destruct (join_complete (c_l2 c) j _ W BR) as (f & E & R). rewrite <- EB, LA, <- LN in E. rewrite <- EB in R.
  exists b2, f. pose proof R as (T & RN & _ & _ & RO & _ & _ & _ & RM & _).
  split; [|split; [unfold is_rx_data; now rewrite T|exact R]].
  unfold receiveFrame. rewrite (proj2 (decode_eq (c_l2 c) _ _ (heard_ok e HB))).
  assert (decode_closed (rx_buffer e) (rx_len e) = Some (jframe (rx_buffer e) (rx_len e))) as ->.
  { unfold decode_closed. replace (rx_len e <? 1) with false by lia. cbv zeta. rewrite rd1_heard by lia. change (Z.to_nat 0) with 0%nat.
    assert (nth 0 (heard e) 0 = mhdr JoinAccept) as ->.
    { rewrite <- (mhdr_first j), <- OP. unfold opened. destruct (heard e) as [|x l]; [cbn in LH; lia|reflexivity]. }
    rewrite Z.eqb_refl. unfold jdecode. replace ((rx_len e =? 17) || (rx_len e =? 33)) with true by lia. reflexivity. }
  change (dn_type (jframe (rx_buffer e) (rx_len e))) with FT_JOIN_ACCEPT. cbn iota.
  unfold receiveJoin. rewrite O. cbv zeta. fold (accept_plain c m (rx_buffer e) (rx_len e)). fold b2. rewrite E.
  assert ((match c_l2 c with L2_1_0_3 => false | _ => dn_joinNonce f <? m_joinNonce m end) = false) as ->.
  { rewrite RN. destruct (c_l2 c); [reflexivity| |]; (assert (m_joinNonce m <= j_joinNonce j) by (apply ON; discriminate); lia). }
  rewrite js_header by exact EJ. rewrite RM, RO.
  assert (slice b2 0 (Z.to_nat (u8 (rx_len e - 4))) = firstn (length (accept_bytes j) - 4) (accept_bytes j)) as ->.
  { unfold slice. change (skipn 0 b2) with b2. rewrite <- FB at 2. rewrite LA, firstn_firstn. f_equal. unfold u8. lia. }
  assert (forall a b : bytes * option frame_down, (if j_mic j =? accept_mic c m j then a else b) = a) as Q by (intros; now rewrite MI, Z.eqb_refl).
  unfold accept_mic in Q. cbv zeta in Q. apply Q.
Qed.

(* --- the session it gives --- *)

Lemma chan_step_frame s k : chan_step s k = set_s_chMask (s_chMask (chan_step s k)) (set_s_chConfig (s_chConfig (chan_step s k)) s).
Proof.
  destruct k; cbn [chan_step]; [|destruct s; reflexivity|destruct s; reflexivity].
  match goal with |- context [fst (setChannel ?x ?a ?b ?cc ?d)] => destruct (set_frame x a b cc d) as [E _]; destruct (set_masks x a b cc d) as [F _]; cbv zeta in E; rewrite F end.
  rewrite E at 1. destruct s; reflexivity.
Qed.
Lemma chan_step_same s t k : s_region t = s_region s -> s_chConfig t = s_chConfig s -> s_chMask t = s_chMask s ->
  s_chConfig (chan_step t k) = s_chConfig (chan_step s k) /\ s_chMask (chan_step t k) = s_chMask (chan_step s k).
Proof.
  intros A B D. destruct k; cbn [chan_step].
  - unfold setChannel. rewrite A, B. destruct (_ && _); [|split; [exact B|exact D]]. cbv zeta.
    destruct (_ =? 0); [split; [reflexivity|exact D]|]. destruct (validateFreq _ _); split; try exact D; try exact B; reflexivity.
  - rewrite A, D. split; [exact B|reflexivity].
  - rewrite A, D. split; [exact B|reflexivity].
Qed.
Lemma chan_steps_same l : forall s t, s_region t = s_region s -> s_chConfig t = s_chConfig s -> s_chMask t = s_chMask s ->
  s_chConfig (chan_steps t l) = s_chConfig (chan_steps s l) /\ s_chMask (chan_steps t l) = s_chMask (chan_steps s l).
Proof.
  induction l as [|k l IH]; intros s t A B D; [split; assumption|]. cbn [chan_steps fold_left]. fold (chan_steps (chan_step t k) l) (chan_steps (chan_step s k) l).
  destruct (chan_step_same s t k A B D) as [B1 D1]. apply IH; try assumption. rewrite !region_step. exact A.
Qed.
Lemma chan_steps_frame l : forall s, chan_steps s l = set_s_chMask (s_chMask (chan_steps s l)) (set_s_chConfig (s_chConfig (chan_steps s l)) s).
Proof.
  induction l as [|k l IH]; intros s; [destruct s; reflexivity|]. cbn [chan_steps fold_left]. fold (chan_steps (chan_step s k) l).
  rewrite (IH (chan_step s k)) at 1. rewrite (chan_step_frame s k) at 3. destruct s; reflexivity.
Qed.

Lemma joined_ctx c buf f j m : reports_accept buf f j -> m_ctx (join_accepted c buf f m) = joined_session c m j.
Proof.
  intros (_ & RN & RI & RA & RO & R1 & R2 & RD & _ & RC).
  remember (join_accepted c buf f m) as R eqn:ER. symmetry in ER. open_def join_accepted in ER.
  ltn ER s0. ltn ER s1. ltn ER s2. ltn ER s3. ltn ER s4. ltn ER s5. ltn ER s6. ltn ER s7. ltn ER m1. ltn ER m2. ltn ER m3. ltn ER m4. ltn ER m5.
  destruct (deriveKeys_sm c m1) as (l & EK). rewrite <- Em2 in EK.
  assert (m_ctx R = s7) as ->.
  { subst R. rewrite Em5, Em4, Em3, EK, Em1. unfold notify, emit, band_set. ms. reflexivity. }
  clear ER R Em5 Em4 Em3 EK Em2 Em1 m1 m2 m3 m4 m5 l.
  assert (s4 = set_s_chMask (s_chMask (listed s0 (j_cfList j))) (set_s_chConfig (s_chConfig (listed s0 (j_cfList j))) s3)) as E4.
  { assert (s_region s3 = s_region s0 /\ s_chConfig s3 = s_chConfig s0 /\ s_chMask s3 = s_chMask s0) as (A & B & D) by (rewrite Es3, Es2, Es1; repeat split; reflexivity).
    rewrite Es4. unfold listed. destruct (j_cfList j) as [cf|].
    - destruct RC as (C1 & C2 & C3). rewrite C1, C2 in *. cbn [region_at] in C3. 
      replace (slice buf (Z.to_nat 13) (Z.to_nat 16)) with cf by (symmetry; exact C3).
      rewrite A. destruct (chan_steps_same (processCFList (s_region s0) cf) s0 s3 A B D) as [X Y]. rewrite <- X, <- Y. apply chan_steps_frame.
    - destruct RC as [-> _]. rewrite <- B, <- D. destruct s3; reflexivity. }
  clear Es4. rewrite Es7, Es6, Es5, E4. rewrite Es3, Es2, Es1, RN, RI, RA, RO, R1, R2, RD. unfold joined_session. cbv zeta. rewrite Es0.
  generalize (listed (m_ctx m) (j_cfList j)). intros ch. generalize (getJoinRate (c_noSF12 c)). intros g. generalize (m_ctx m). intros s. 
  destruct (is_1_1 (c_l2 c)), (j_optNeg j); reflexivity.
Qed.

(* --- the call that takes it --- *)

Lemma plain_not_join lo : forallb plain lo = true -> filter is_join lo = [].
Proof.
  induction lo as [|o l IH]; intros H; [reflexivity|]. cbn [forallb] in H. apply andb_true_iff in H. destruct H as [H1 H2]. cbn [filter].
  destruct o as [[]| | | |]; try discriminate H1; cbn [is_join]; now apply IH.
Qed.
Lemma none_join lo : forallb no_join lo = true -> filter is_join lo = [].
Proof.
  induction lo as [|o l IH]; intros H; [reflexivity|]. cbn [forallb] in H. apply andb_true_iff in H. destruct H as [H1 H2]. cbn [filter].
  destruct o as [[]| | | |]; try discriminate H1; cbn [is_join]; now apply IH.
Qed.
Lemma next_nonce j : accept_wf j -> u32 (j_joinNonce j + 1) = j_joinNonce j + 1.
Proof. intros (H & _). change (2 ^ 24) with 16777216 in H. unfold u32. lia. Qed.

Lemma joined_log c buf f m : m_op (join_accepted c buf f m) = OP_NONE /\ m_state (join_accepted c buf f m) = ST_IDLE.
Proof. split; open_def join_accepted; cbv zeta; reflexivity. Qed.

Lemma session_core c m m' j : core m' = core m -> joined_session c m' j = joined_session c m j.
Proof. intros C. unfold joined_session. rewrite (core_ctx _ _ C). apply core_fields in C. unfold same_core in C. replace (m_trials m') with (m_trials m) by (symmetry; tauto). reflexivity. Qed.
Lemma genuine_accept_core c m m' w j : core m' = core m -> genuine_accept c m' w j -> genuine_accept c m w j.
Proof.
  intros C. apply core_fields in C. unfold same_core in C. destruct C as (E1 & E2 & _ & _ & _ & _ & E3 & E4 & E5 & _).
  unfold genuine_accept, accept_mic. rewrite E1, E2, E3, E4, E5. auto.
Qed.

Theorem window_join c e m j : octets c -> length (m_joinEUI m) = 8%nat -> bytes_ok (e_rx e) ->
  in_rx (m_state m) = true -> inputPending m = true -> e_st_rx e = true -> genuine_accept c m (heard e) j ->
  let m' := fst (step c e C_process m) in
  filter is_join (new_out m m') = [OEvent (EV_JOIN_COMPLETE (j_joinNonce j + 1) (j_netID j) (j_devAddr j))] /\
  m_ctx m' = joined_session c m j /\ m_joinNonce m' = j_joinNonce j + 1 /\ m_op m' = OP_NONE /\ m_state m' = ST_IDLE.
Proof.
  intros OC EJ HB R I X G. pose proof G as (_ & W & _). destruct (accept_received c m e j OC EJ HB G) as (buf & f & RF & D & RP).
  destruct (process_I c e m I) as (m2 & lag & Q & _ & _ & E). cbn [step fst]. rewrite E.
  destruct (quiet_log _ _ Q) as (l1 & L1 & P1). destruct Q as [[C _] ST].
  assert (dispatch c e SME_INTERRUPT lag m2 = rx_packet c e m2) as ->.
  { unfold dispatch. rewrite ST. destruct (m_state m); try discriminate R; unfold processRX; rewrite X; reflexivity. }
  open_def rx_packet. cbv zeta. set (m3 := set_m_rx_snr (e_snr e) _).
  assert (core m3 = core m) as C3. { rewrite <- C. unfold m3, emit, timerClear, set_timer. autorewrite with core. reflexivity. }
  assert (m_log m3 = m_log m ++ l1 ++ [OMode MODE_SLEEP]) as L3.
  { unfold m3, emit, timerClear, set_timer. ms. rewrite L1, <- app_assoc. reflexivity. }
  rewrite (receive_core _ _ _ _ _ C3), RF. pose proof RP as (T & RN & RI & RA & _).
  assert (forall y, (match dn_type f with FT_CONF_DOWN | FT_UNCONF_DOWN => y | _ => join_accepted c buf f m3 end) = join_accepted c buf f m3) as -> by (intros; rewrite T; reflexivity).
  destruct (join_accepted_frame c buf f m3) as (s & l & CJ & _ & SJ & LJ & _). cbv zeta in *.
  pose proof (joined_ctx c buf f j m3 RP) as XJ. rewrite (session_core c m m3 j C3) in XJ. rewrite RN, RI, RA, (next_nonce j W) in *.
  revert CJ SJ LJ XJ. generalize (join_accepted c buf f m3). intros x CJ SJ LJ XJ.
  pose proof (setNext_quiet e (pushSessionUpdate x)) as Q4. destruct (quiet_log _ _ Q4) as (l4 & L4 & P4). destruct Q4 as [[C4 _] ST4].
  assert (m_log (setNextBandEvent e (pushSessionUpdate x)) = m_log m ++ (l1 ++ [OMode MODE_SLEEP]) ++ [OEvent (EV_JOIN_COMPLETE (j_joinNonce j + 1) (j_netID j) (j_devAddr j))] ++ [OEvent (EV_SESSION_UPDATED (m_ctx x))] ++ l4) as LL.
  { rewrite L4. unfold pushSessionUpdate, notify, emit. ms. rewrite LJ, L3, <- !app_assoc. reflexivity. }
  rewrite (new_out_app _ _ _ LL), !filter_app, (plain_not_join _ P1), (plain_not_join _ P4). 
  split; [reflexivity|]. split; [rewrite (core_ctx _ _ C4); exact XJ|]. split; [rewrite (core_jn _ _ C4); change (m_joinNonce (pushSessionUpdate x)) with (m_joinNonce x); rewrite (core_jn _ _ CJ); reflexivity|].
  split; [rewrite (core_op_eq _ _ C4); change (m_op (pushSessionUpdate x)) with (m_op x); rewrite (core_op_eq _ _ CJ); reflexivity|]. rewrite ST4. exact SJ.
Qed.

(* --- nothing else joins --- *)

Lemma act_accept c e m k r m' lo : act c e m k r m' -> m_log m' = m_log m ++ lo -> so (m_op m) (m_state m) = true ->
  m_joinNonce m' = m_joinNonce m /\ forallb no_join lo = true \/
  k = C_process /\ in_rx (m_state m) = true /\ exists buf f, accepted_here c e m m' lo f buf /\ m' = pushSessionUpdate (join_accepted c buf f m).
Proof.
  intros HA. revert lo. induction HA; intros lo L HS.
  - apply same_log_tail in L. subst. left. split; reflexivity.
  - destruct H as [C (l & E & P)]. rewrite E in L. apply app_tail in L. subst l. left. split; [now apply core_jn|now apply plain_no_join].
  - rewrite H2 in L. apply app_tail in L. subst lo. left. split; [now apply core_jn|reflexivity].
  - rewrite H2 in L. apply app_tail in L. subst lo. left. split; [now rewrite (core_jn _ _ H0)|reflexivity].
  - left. eapply miss_join; eauto. destruct (so_rx _ _ HS) as [D|D]; [tauto|auto|auto].
  - rewrite H3 in L. apply app_tail in L. subst lo. left. split; [now rewrite (core_jn _ _ H1)|reflexivity].
  - destruct (miss_log _ _ _ _ H1) as (l1 & E1). rewrite H4, E1, <- app_assoc in L. apply app_tail in L. subst lo. left.
    destruct (miss_join c e m x l1 H1 E1 (or_introl H0)) as [A B]. split; [now rewrite (core_jn _ _ H2)|]. now rewrite forallb_app, B.
  - destruct (data_received_frame c e buf f m) as (s & l & C & _ & _ & LG & _ & T). cbv zeta in *.
    set (x := data_received c e buf f m) in *. clearbody x. unfold pushSessionUpdate, notify, emit in *. ms_in L. rewrite LG, <- !app_assoc in L. apply app_tail in L. subst lo.
    left. ms. split; [now rewrite (core_jn _ _ C)|].
    rewrite !forallb_app, (told_no_join _ T). unfold down_end. destruct (m_op m), (dn_ack f); reflexivity.
  - destruct (join_accepted_frame c buf f m) as (s & l & C & CX & _ & LG & _). cbv zeta in *. right. split; [reflexivity|]. split; [assumption|]. exists buf, f. split; [|reflexivity]. unfold accepted_here. split; [assumption|]. split; [assumption|].
    set (x := join_accepted c buf f m) in *. clearbody x. unfold pushSessionUpdate, notify, emit in *. ms_in L. rewrite LG, <- !app_assoc in L. apply app_tail in L. subst lo.
    split; [ms; now rewrite (core_jn _ _ C)|]. eexists. reflexivity.
  - subst m'. apply same_log_tail in L. subst. left. split; reflexivity.
  - rewrite H1 in L. apply same_log_tail in L. subst. left. split; [now rewrite (core_jn _ _ H0)|reflexivity].
  - rewrite H3 in L. apply app_tail in L. subst lo. left. rewrite (core_jn _ _ H2). split; [|reflexivity].
    destruct (fillJoin_fields c e (u16 (m_devNonce m)) (set_m_sm (m_sm m ++ sm) (set_m_trials 0 m))) as (t & buf & len & dn & E1 & _).
    subst x. rewrite E1. reflexivity.
  - rewrite H2 in L. apply same_log_tail in L. subst. left. split; [now rewrite (core_jn _ _ H1)|reflexivity].
  - rewrite H7 in L. apply app_tail in L. subst lo. left. split; [now rewrite (core_jn _ _ H6)|reflexivity].
  - rewrite H2 in L. apply app_tail in L. subst lo. left. split; [now rewrite (core_jn _ _ H0)|]. destruct (m_state m), (m_op m); reflexivity.
  - destruct (act_log _ _ _ _ _ _ HA) as (l1 & E1). rewrite H2, E1, <- app_assoc in L. apply app_tail in L. subst lo.
    destruct (IHHA l1 E1 HS) as [[A B]|(E & _)]; [|discriminate E]. left. split; [now rewrite (core_jn _ _ H0)|]. now rewrite forallb_app, B.
  - left. split; [now rewrite (core_jn _ _ H2)|].
    destruct H4 as [E|E]; rewrite E in L; [apply same_log_tail in L|apply app_tail in L]; subst; reflexivity.
Qed.

Lemma act_joins c e m k r m' lo : octets c -> length (m_joinEUI m) = 8%nat -> bytes_ok (e_rx e) ->
  act c e m k r m' -> m_log m' = m_log m ++ lo -> so (m_op m) (m_state m) = true ->
  filter is_join lo = [] \/
  (k = C_process /\ in_rx (m_state m) = true /\ exists j, genuine_accept c m (heard e) j /\
   filter is_join lo = [OEvent (EV_JOIN_COMPLETE (j_joinNonce j + 1) (j_netID j) (j_devAddr j))] /\ m_ctx m' = joined_session c m j).
Proof.
  intros OC EJ HB HA L HS. destruct (act_accept _ _ _ _ _ _ _ HA L HS) as [[_ N]|(EK & R & buf & f & (RF & D & _ & s & LO) & EM)]; [left; now apply none_join|].
  right. split; [exact EK|]. split; [exact R|]. clear HA L.
  destruct (accept_genuine c m e buf f OC EJ HB RF D (so_not_rejoining _ _ HS)) as (j & G & _).
  destruct (accept_received c m e j OC EJ HB G) as (buf' & f' & RF' & _ & RP). rewrite RF in RF'. apply pair_equal_spec in RF' as [EB EF]. injection EF as EF. subst buf' f'.
  exists j. split; [exact G|]. pose proof G as (_ & W & _). pose proof RP as (_ & RN & RI & RA & _). split.
  - rewrite LO, RN, RI, RA, (next_nonce j W). reflexivity.
  - rewrite EM. unfold pushSessionUpdate, notify, emit. ms. exact (joined_ctx c buf f j m RP).
Qed.

Theorem only_accept c r a e0 h e k : octets c -> arg_ok a -> bytes_ok (e_rx e) ->
  let m := run c h (MAC_init c r a e0) in let m' := fst (step c e k m) in
  filter is_join (new_out m m') = [] \/
  (k = C_process /\ in_rx (m_state m) = true /\ exists j, genuine_accept c m (heard e) j /\
   filter is_join (new_out m m') = [OEvent (EV_JOIN_COMPLETE (j_joinNonce j + 1) (j_netID j) (j_devAddr j))] /\ m_ctx m' = joined_session c m j).
Proof.
  intros OC AO HB m m'. pose proof (init_so c r a e0 h) as S. fold m in S.
  assert (length (m_joinEUI m) = 8%nat) as EJ by exact (init_eui c r a e0 h OC AO).
  destruct (step_cases c e k m) as (m1 & m2 & Q1 & A & Q2 & _). fold m' in Q2.
  destruct (quiet_log _ _ Q1) as (l1 & L1 & P1). destruct (quiet_log _ _ Q2) as (l2 & L2 & P2). destruct (act_log _ _ _ _ _ _ A) as (la & LA).
  assert (so (m_op m1) (m_state m1) = true) as S1 by (eapply quiet_so; eauto).
  assert (new_out m m' = l1 ++ la ++ l2) as ->.
  { unfold new_out. rewrite L2, LA, L1, <- !app_assoc. rewrite skipn_app, skipn_all, Nat.sub_diag. reflexivity. }
  rewrite !filter_app, (plain_not_join _ P1), (plain_not_join _ P2), app_nil_r. cbn [List.app].
  destruct Q1 as [[C1 _] ST1]. destruct Q2 as [[C2 _] _].
  assert (m_joinEUI m1 = m_joinEUI m) as EE. { pose proof C1 as F. apply core_fields in F. unfold same_core in F. tauto. }
  rewrite <- EE in EJ.
  destruct (act_joins c e m1 k _ m2 la OC EJ HB A LA S1) as [N|(EK & R & j & G & F & X)]; [auto|]. right.
  split; [exact EK|]. rewrite <- ST1. split; [exact R|]. exists j. split; [eapply genuine_accept_core; eauto|]. split; [exact F|].
  rewrite (core_ctx _ _ C2), X. now apply session_core.
Qed.

Theorem accept_taken c r a e0 h e j : octets c -> arg_ok a -> bytes_ok (e_rx e) ->
  let m := run c h (MAC_init c r a e0) in let m' := fst (step c e C_process m) in
  in_rx (m_state m) = true -> inputPending m = true -> e_st_rx e = true -> genuine_accept c m (heard e) j ->
  filter is_join (new_out m m') = [OEvent (EV_JOIN_COMPLETE (j_joinNonce j + 1) (j_netID j) (j_devAddr j))] /\
  m_ctx m' = joined_session c m j /\ m_joinNonce m' = j_joinNonce j + 1 /\ m_op m' = OP_NONE /\ m_state m' = ST_IDLE.
Proof. intros OC AO HB m m'. exact (window_join c e m j OC (init_eui c r a e0 h OC AO) HB). Qed.

(* --- a session that is not joined has not been used --- *)

Lemma act_data_joined c e m k r m' : act c e m k r m' -> match k with C_data _ _ _ _ => True | _ => False end ->
  m_ctx m' = m_ctx m \/ s_joined (m_ctx m) = true.
Proof.
  intros A K. destruct A; try contradiction; try (subst k; contradiction); try (now right).
  - now left.
  - left. now subst.
  - destruct H as [->|[-> _]]; contradiction.
  - destruct k; contradiction.
Qed.

Lemma unused_joined s : s_joined s = true -> unused s. Proof. intros J N. congruence. Qed.
Lemma unused_same s s' : s_joined s' = s_joined s -> s_up s' = s_up s -> s_appDown s' = s_appDown s -> s_nwkDown s' = s_nwkDown s -> s_pending s' = s_pending s -> unused s -> unused s'.
Proof. unfold unused. intros -> -> -> -> ->. auto. Qed.
Lemma chan_steps_unused l s : unused s -> unused (chan_steps s l).
Proof. rewrite (chan_steps_frame l s). destruct s. exact (fun H => H). Qed.

Lemma forgotten_unused s d t : unused (forgotten s d t).
Proof. unfold forgotten. cbv zeta. apply chan_steps_unused. intros _. repeat split. Qed.

Lemma act_unused c e m k r m' : act c e m k r m' -> so (m_op m) (m_state m) = true -> joined_ok m -> unused (m_ctx m) -> unused (m_ctx m').
Proof.
  intros A S [J1 J2] U. destruct (act_log _ _ _ _ _ _ A) as (lo & L). destruct (act_ctx _ _ _ _ _ _ _ A L) as [CC _].
  pose proof (act_data_joined _ _ _ _ _ _ A) as DJ. revert CC DJ. generalize (m_ctx m'). clear A L. intros s CC DJ. destruct CC.
  - exact U.
  - destruct (adaptRate_fields c (next_trial m)) as (s & n & b & E1 & E2 & _). cbv zeta in E1, E2. change (m_ctx (next_trial m)) with (m_ctx m) in E2.
    rewrite E1. apply unused_joined. destruct E2 as [->|[->|[->| ->]]]; now apply J1.
  - exact U.
  - destruct (data_received_frame c e buf f m) as (s & l & _ & EC & _ & _ & I & _). cbv zeta in *. rewrite EC. apply unused_joined.
    pose proof (receiveFrame_op _ _ _ _ _ H0) as O. rewrite H1 in O.
    assert (is_data (m_op m) = true) as D. { pose proof (so_not_rejoining _ _ S) as NR. destruct O as [O|O]; [exact O|contradiction]. }
    assert (s_joined s = s_joined (syncDownCounter c (dn_port f) (dn_counter f) (m_ctx m))) as EJ by (unfold same_ident in I; tauto).
    rewrite EJ. unfold syncDownCounter. destruct (_ && _); exact (J1 D).
  - apply unused_joined. destruct (join_accepted_frame c buf f m) as (s & l & _ & -> & _ & _ & _ & _ & _ & -> & _). reflexivity.
  - now apply unused_joined.
  - destruct (DJ I) as [->|J]; [exact U|]. apply unused_joined. unfold sess_data, clear_single_shot, clearPendingCommand. destruct (is_1_1 (c_l2 c)), (c_txps c); exact J.
  - apply forgotten_unused.
  - destruct H as (r0 & p & a & dd & cc & kk & EQ). rewrite EQ. exact U.
Qed.

Lemma fresh_unused c r : unused (fresh c r).
Proof. unfold fresh. pose proof (forgotten_unused session_zero 0 (c_txps c)) as U. revert U. generalize (forgotten session_zero 0 (c_txps c)). intros s U. destruct s. exact U. Qed.

Theorem unused_always c r a e0 h : unused_start (ia_session a) -> let m := run c h (MAC_init c r a e0) in
  joined_ok m /\ unused (m_ctx m) /\ forall s, In (OEvent (EV_SESSION_UPDATED s)) (m_log m) -> unused s.
Proof.
  intros U m.
  assert (unused (m_ctx (MAC_init c r a e0))) as U0.
  { rewrite init_ctx. destruct (ia_session a) as [s|]; [|apply fresh_unused]. destruct (_ && _); [exact U|apply fresh_unused]. }
  pose proof (hist_ind c (fun _ => True) (fun _ x => so (m_op x) (m_state x) = true /\ joined_ok x /\ unused (m_ctx x) /\ saved_all unused (m_log x))) as H.
  destruct (fun A B P => H A B h [] (MAC_init c r a e0) P (proj2 (Forall_forall _ _) (fun _ _ => I))) as (_ & R1 & R2 & R3).
  - intros _ x x' lo (S & J & UX & LX) QQ E P. pose proof (quiet_so _ _ QQ S) as S'. destruct QQ as [[C _] _].
    split; [exact S'|]. split; [exact (proj1 (keeps_core _ _ _ C (keeps_refl x J)))|]. rewrite (core_ctx _ _ C), E. split; [exact UX|]. apply saved_all_app; [exact LX|].
    apply (saved_as_all unused (m_ctx x) _ UX), no_sess_saved, plain_no_sess, P.
  - intros _ x e k q x' lo (S & J & UX & LX) _ A E. split; [exact (act_so _ _ _ _ _ _ A S)|]. split; [exact (act_joined_ok _ _ _ _ _ _ A S J)|].
    pose proof (act_unused _ _ _ _ _ _ A S J UX) as U'. split; [exact U'|]. rewrite E. apply saved_all_app; [exact LX|].
    destruct (act_ctx _ _ _ _ _ _ _ A E) as [_ SV]. exact (saved_as_all unused _ _ U' SV).
  - split; [exact (init_so c r a e0 [])|]. split; [|split; [exact U0|rewrite init_log; constructor]].
    pose proof (init_facts c r a e0) as F. cbv zeta in F. assert (m_op (MAC_init c r a e0) = OP_NONE) as O by tauto. unfold joined_ok. rewrite O. split; discriminate.
  - split; [exact R1|]. split; [exact R2|]. intros s. exact (saved_all_in _ _ s R3).
Qed.

(* a join starts a session in which nothing has been sent or received *)
Theorem join_starts_anew c r a e0 h j : unused_start (ia_session a) -> let m := run c h (MAC_init c r a e0) in
  m_op m = OP_JOINING -> let s := joined_session c m j in
  s_up s = 0 /\ s_appDown s = 0 /\ s_nwkDown s = 0 /\ s_pending s = (if is_1_1 (c_l2 c) && j_optNeg j then 2 ^ cmd_bit CMD_REKEY else 0).
Proof.
  intros U m O s. destruct (unused_always c r a e0 h U) as ((_ & J) & N & _). fold m in J, N. destruct (N (J O)) as (A & B & D & P).
  unfold s, joined_session. cbv zeta. cbn [s_up s_appDown s_nwkDown s_pending]. rewrite A, B, D, P. repeat split. 
Qed.

(* --- the channels --- *)

Lemma getChannel_same s t ch : s_region t = s_region s -> s_chConfig t = s_chConfig s -> getChannel t ch = getChannel s ch.
Proof. intros A B. unfold getChannel. rewrite A, B. reflexivity. Qed.
Lemma joined_channel c m j ch : getChannel (joined_session c m j) ch = getChannel (listed (m_ctx m) (j_cfList j)) ch.
Proof.
  apply getChannel_same; [|reflexivity]. unfold listed, joined_session. destruct (j_cfList j); [|reflexivity]. rewrite region_steps. reflexivity.
Qed.
Lemma joined_added c m j cf i : j_cfList j = Some cf -> tables_ok (m_ctx m) -> isDynamic (s_region (m_ctx m)) = true -> accept_wf j ->
  nth 15 cf 0 = 0 -> (i < 5)%nat ->
  getChannel (joined_session c m j) (3 + Z.of_nat i) =
  stored (s_region (m_ctx m)) (100 * (nth (3 * i) cf 0 + 256 * nth (3 * i + 1) cf 0 + 65536 * nth (3 * i + 2) cf 0)) (getChannel (m_ctx m) (3 + Z.of_nat i)).
Proof.
  intros E T D W N I. rewrite joined_channel, E. destruct W as (_ & _ & _ & _ & _ & _ & W & _). rewrite E in W. destruct W as [L B]. cbn [listed].
  now apply cflist_freq.
Qed.
Lemma joined_others c m j ch : isDynamic (s_region (m_ctx m)) = true -> 0 <= ch -> ch < 3 \/ 8 <= ch ->
  getChannel (joined_session c m j) ch = getChannel (m_ctx m) ch.
Proof. intros D P Q. rewrite joined_channel. unfold listed. destruct (j_cfList j) as [cf|]; [|reflexivity]. now apply cflist_other. Qed.
Lemma joined_masks c m j cf ch : j_cfList j = Some cf -> tables_ok (m_ctx m) -> isDynamic (s_region (m_ctx m)) = false -> accept_wf j ->
  nth 15 cf 0 = 1 -> 0 <= ch < 72 ->
  channelIsMasked (s_chMask (joined_session c m j)) (s_region (m_ctx m)) ch = negb (cf_bit cf (Z.to_nat ch)).
Proof.
  intros E T D W N I. change (s_chMask (joined_session c m j)) with (s_chMask (listed (m_ctx m) (j_cfList j))). rewrite E.
  destruct W as (_ & _ & _ & _ & _ & _ & W & _). rewrite E in W. destruct W as [L B]. cbn [listed]. now apply cflist_mask.
Qed.
