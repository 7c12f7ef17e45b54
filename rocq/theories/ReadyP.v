(* The frame held in the transmit buffer while an operation is in progress. *)
From Verif Require Import Lib StreamM FrameM CommandsM RegionM RadioM SmM MacStateM MacTac MacUtilM OpsM MacCmdM MacProcM MacApiM MacRw CoreP CaseP RxP SpecFrame SpecHist FrameP SmP AnswerP HistP EndP TxP UplinkP.

(* a data frame: MHDR is one of two values, FCnt is the counter chosen, and
   the integrity code is up to date *)
Definition holds_data (c : cfg) (m : mac) (body rest : bytes) : Prop :=
  m_buffer m = body ++ le 4 (mic_word c m body) ++ rest /\ m_bufferLen m = Z.of_nat (length body + 4) /\
  (8 <= length body)%nat /\ (length body + 4 <= 255)%nat /\
  (nth 0 body 0 = 64 \/ nth 0 body 0 = 128) /\ fcnt_of body = u16 (tx_counter (m_tx m)).

Definition holds_join (c : cfg) (m : mac) (n mic : Z) (rest : bytes) : Prop :=
  m_buffer m = join_request (m_joinEUI m) (m_devEUI m) n mic ++ rest /\ m_bufferLen m = 23 /\ 0 <= n < 65536 /\
  (c_l2 c <> L2_1_0_3 -> n = m_devNonce m - 1).

Definition ready (c : cfg) (m : mac) : Prop :=
  length (m_buffer m) = 255%nat /\ length (m_joinEUI m) = 8%nat /\ length (m_devEUI m) = 8%nat /\
  0 <= m_devNonce m < 4294967296 /\
  (is_data (m_op m) = true -> exists body rest, holds_data c m body rest) /\
  (m_op m = OP_JOINING -> exists n mic rest, holds_join c m n mic rest).

Lemma mic_word_same c m m' body : m_ctx m' = m_ctx m -> m_sm m' = m_sm m -> tx_counter (m_tx m') = tx_counter (m_tx m) ->
  tx_rate (m_tx m') = tx_rate (m_tx m) -> tx_chIndex (m_tx m') = tx_chIndex (m_tx m) -> mic_word c m' body = mic_word c m body.
Proof. intros E1 E2 E3 E4 E5. unfold mic_word. cbv zeta. rewrite E1, E2, E3, E4, E5. reflexivity. Qed.

Lemma mic_word_tuned c m m' body : s_devAddr (m_ctx m') = s_devAddr (m_ctx m) -> s_version (m_ctx m') = s_version (m_ctx m) ->
  m_sm m' = m_sm m -> m_tx m' = m_tx m -> mic_word c m' body = mic_word c m body.
Proof. intros E1 E2 E3 E4. unfold mic_word, sess_version. cbv zeta. rewrite E1, E2, E3, E4. reflexivity. Qed.

Lemma ready_core c m m' : core m' = core m -> ready c m -> ready c m'.
Proof.
  intros C (L & EJ & ED & N & D & J). apply core_fields in C. unfold same_core in C.
  destruct C as (O & C1 & C2 & C3 & C4 & C5 & C6 & C7 & C8 & _ & _ & _ & _ & _ & _ & _ & _ & _ & _ & _ & _ & T1 & T2 & T3 & _).
  unfold ready, holds_data, holds_join. rewrite O, C1, C2, C3, C4, C5, T1.
  split; [exact L|]. split; [exact EJ|]. split; [exact ED|]. split; [exact N|]. split; [|exact J].
  intros H. destruct (D H) as (body & rest & HD). exists body, rest. rewrite (mic_word_same c m m' body) by assumption. exact HD.
Qed.

Lemma ready_quiet c m m' : quiet m m' -> ready c m -> ready c m'.
Proof. intros [[C _] _]. now apply ready_core. Qed.

Lemma ready_none c m : length (m_buffer m) = 255%nat -> length (m_joinEUI m) = 8%nat -> length (m_devEUI m) = 8%nat ->
  0 <= m_devNonce m < 4294967296 -> (is_data (m_op m) = false) -> m_op m <> OP_JOINING -> ready c m.
Proof. intros. unfold ready. repeat split; try assumption; try lia; congruence. Qed.

Lemma ready_op_none c m : ready c m -> ready c (set_m_op OP_NONE m).
Proof. intros (L & EJ & ED & N & _). apply ready_none; try assumption; [reflexivity|discriminate]. Qed.

Lemma ready_join c e m x y F : ready c m -> m_buffer x = m_buffer m -> m_joinEUI x = m_joinEUI m -> m_devEUI x = m_devEUI m ->
  m_devNonce m <= 65535 ->
  F = fillJoinBuffer c e (u16 (m_devNonce m)) x ->
  m_buffer y = m_buffer F -> m_bufferLen y = m_bufferLen F -> m_joinEUI y = m_joinEUI F -> m_devEUI y = m_devEUI F ->
  m_devNonce y = u32 (m_devNonce m + 1) -> m_op y = OP_JOINING -> ready c y.
Proof.
  intros (L & EJ & ED & N & _) B J D LE -> Y1 Y2 Y3 Y4 Y5 Y6.
  destruct (fillJoin_fields c e (u16 (m_devNonce m)) x) as (t & buf & len & dn & E1 & E2 & E3 & _).
  rewrite E1 in Y1, Y2, Y3, Y4. clear E1. change (m_buffer y = buf) in Y1. change (m_bufferLen y = len) in Y2.
  change (m_joinEUI y = m_joinEUI x) in Y3. change (m_devEUI y = m_devEUI x) in Y4.
  rewrite J in Y3, E3. rewrite D in Y4, E3. rewrite B in E3.
  destruct (prepareJoin_layout c (on_ctx (set_s_devNonce dn) x) (m_joinEUI m) (m_devEUI m) dn (m_buffer m) EJ ED L) as (mic & E4 & L4).
  rewrite E4 in E3. pose proof (f_equal fst E3) as E5. pose proof (f_equal snd E3) as E6. cbn [fst snd] in E5, E6. clear E3 E4.
  unfold ready, holds_join. rewrite Y1, Y2, Y3, Y4, Y5, Y6, E5, E6.
  split; [rewrite app_length, L4, skipn_length, L; reflexivity|]. split; [exact EJ|]. split; [exact ED|].
  split; [unfold u32; lia|]. split; [discriminate|]. intros _. exists dn, mic, (skipn 23 (m_buffer m)).
  split; [reflexivity|]. split; [reflexivity|]. split; [subst dn; destruct (c_l2 c); unfold u16; lia|].
  intros NV. subst dn. unfold u16, u32. destruct (c_l2 c); [congruence| |]; lia.
Qed.

Lemma hdr_first f rest : fd_type f = FT_UNCONF_UP \/ fd_type f = FT_CONF_UP -> nth 0 (data_hdr f ++ rest) 0 = 64 \/ nth 0 (data_hdr f ++ rest) 0 = 128.
Proof. intros [E|E]; unfold data_hdr; rewrite E; [left|right]; reflexivity. Qed.

Lemma hdr_fcnt f rest : fcnt_of (data_hdr f ++ rest) = u16 (fd_counter f).
Proof.
  unfold data_hdr. cbn [le app]. unfold fcnt_of. cbn [nth]. unfold u16. lia.
Qed.

Lemma ready_data c m cf port data o tx f op st m' : in_place c -> ready c m ->
  compose cf port data (rate_mtu (s_region (m_ctx m)) (s_rate (m_ctx m)))
    (mac_bytes (mac_commands c (m_ctx m) (opts_of o))) (frame0 cf port m) = (f, op, st) ->
  core m' = core (data_filled c f (data_base c o tx op m)) -> ready c m'.
Proof.
  intros IP (L & EJ & ED & N & _) C E.
  apply (ready_core c _ _ E). clear E.
  destruct (compose_size _ _ _ _ _ _ _ _ _ C) as (Ho & Hl & HA & HC & HT); [reflexivity|apply mtu_bound| |].
  { destruct (mac_commands_spec c (m_ctx m) (opts_of o)) as (_ & _ & _ & H). destruct (is_1_1 (c_l2 c)); lia. }
  apply compose_op in C. destruct C as [OD _].
  set (x := data_base c o tx op m).
  assert (m_buffer x = m_buffer m /\ m_joinEUI x = m_joinEUI m /\ m_devEUI x = m_devEUI m /\ m_devNonce x = m_devNonce m /\ m_op x = op /\
    tx_counter (m_tx x) = s_up (m_ctx m)) as (X1 & X2 & X3 & X4 & X5 & X6) by (repeat split; reflexivity).
  clearbody x. rewrite data_filled_layout; [|assumption|assumption|rewrite X1; exact L|exact Hl].
  pose proof (data_body_length c x f IP) as LB.
  set (body := data_body c x f) in *.
  unfold ready, holds_data. ms. rewrite X1, X2, X3, X4, X5, X6.
  split; [rewrite !app_length, LB, le_length, skipn_length, L; lia|]. split; [exact EJ|]. split; [exact ED|]. split; [exact N|].
  split; [|intros ->; discriminate OD]. intros _. exists body, (skipn (body_len f + 4) (m_buffer m)).
  split; [f_equal; f_equal; f_equal; symmetry; apply mic_word_same; reflexivity|]. split; [rewrite LB; reflexivity|]. split; [rewrite LB; unfold body_len; lia|]. split; [lia|].
  unfold body, data_body. split; [now apply hdr_first|]. rewrite hdr_fcnt, HC. unfold frame0. cbn [fd_counter]. unfold u16. lia.
Qed.

(* recomputing the integrity code of a frame that has it changes nothing *)
Lemma mic_again c m body rest : holds_data c m body rest -> m_buffer (micDataFrame c m) = m_buffer m.
Proof.
  intros (B & LN & L1 & L2 & _). rewrite (micData_layout c m body _ rest B LN) by lia. ms. symmetry. exact B.
Qed.

Lemma ready_retry c m m' : ready c m -> is_data (m_op m) = true -> core m' = core (micDataFrame c (next_trial m)) -> ready c m'.
Proof.
  intros (L & EJ & ED & N & D & _) O C. destruct (D O) as (body & rest & HD).
  apply (ready_core c _ _ C). clear C.
  assert (holds_data c (next_trial m) body rest) as HD2.
  { unfold holds_data in *. rewrite (mic_word_same c m (next_trial m) body) by reflexivity. exact HD. }
  pose proof (mic_again _ _ _ _ HD2) as B.
  assert (micDataFrame c (next_trial m) = set_m_buffer (m_buffer m) (next_trial m)) as ->.
  { change (m_buffer (next_trial m)) with (m_buffer m) in B. rewrite <- B. reflexivity. }
  split; [exact L|]. split; [exact EJ|]. split; [exact ED|]. split; [exact N|]. split; [|intros J; change (m_op m = OP_JOINING) in J; rewrite J in O; discriminate O].
  intros _. exists body, rest. exact HD.
Qed.

Lemma ready_trial c m : ready c m -> ready c (next_trial m).
Proof.
  intros (L & EJ & ED & N & D & J). split; [exact L|]. split; [exact EJ|]. split; [exact ED|]. split; [exact N|]. split; [exact D|exact J].
Qed.

Lemma ready_rejoin c e m m' : ready c m -> m_op m = OP_JOINING -> m_devNonce m <= 65535 ->
  core m' = core (set_m_devNonce (u32 (m_devNonce m + 1)) (fillJoinBuffer c e (u16 (m_devNonce m)) (next_trial m))) -> ready c m'.
Proof.
  intros R O LE C. apply (ready_core c _ _ C). clear C.
  pose proof (fillJoin_op c e (u16 (m_devNonce m)) (next_trial m)) as FO.
  pose proof (fun y => ready_join c e m (next_trial m) y (fillJoinBuffer c e (u16 (m_devNonce m)) (next_trial m)) R eq_refl eq_refl eq_refl LE eq_refl) as Q.
  revert FO Q. generalize (fillJoinBuffer c e (u16 (m_devNonce m)) (next_trial m)). intros F FO Q.
  apply Q; [reflexivity|reflexivity|reflexivity|reflexivity|reflexivity|]. etransitivity; [exact FO|exact O].
Qed.

Lemma ready_done c x m m' : ready c m -> core m' = core (set_m_op OP_NONE x) -> m_buffer x = m_buffer m -> m_joinEUI x = m_joinEUI m ->
  m_devEUI x = m_devEUI m -> m_devNonce x = m_devNonce m -> ready c m'.
Proof.
  intros (L & EJ & ED & N & _) C B J D DN. apply (ready_core c _ _ C). clear C.
  apply ready_none; ms; [congruence|congruence|congruence|congruence|reflexivity|discriminate].
Qed.

Lemma ready_miss c e m m' : ready c m -> miss_case c e m m' -> ready c m'.
Proof.
  intros R HM. destruct HM as [m2 D ? C S L|m2 D p C S L|m2 O ? C S L|m2 O ? C S L|].
  - eapply ready_retry; eauto.
  - destruct (adaptRate_fields c (next_trial m)) as (s & n & b & E & _). cbv zeta in E. clear L. subst p. rewrite E in C. clear E.
    eapply (ready_done c _ m m2 R C); reflexivity.
  - eapply ready_rejoin; eauto.
  - apply (ready_core c _ _ C). apply ready_op_none. now apply ready_trial.
  - now apply ready_trial.
Qed.

Lemma core_push m : core (pushSessionUpdate m) = core m. Proof. reflexivity. Qed.

Lemma cancel_op c e m x : act c e m C_cancel RVoid x -> m_op x = OP_NONE.
Proof.
  intros HA. remember C_cancel as k eqn:K. remember RVoid as r eqn:R. destruct HA; try discriminate K; try discriminate R.
  - destruct H as [E|[t E]]; rewrite E in K; discriminate K.
  - apply core_op_eq in H0. exact H0.
  - subst k. destruct H1.
Qed.

Lemma ready_act c e m k r m' : in_place c -> so (m_op m) (m_state m) = true -> ready c m -> act c e m k r m' -> ready c m'.
Proof.
  intros IP HS R HA. revert HS R. induction HA; intros HS R.
  - exact R.
  - destruct H as [C _]. now apply (ready_core c m).
  - now apply (ready_core c m).
  - apply (ready_core c _ _ H0). now apply ready_op_none.
  - eapply ready_miss; eauto.
  - apply (ready_core c _ _ H1). now apply ready_op_none.
  - apply (ready_core c _ _ H2). eapply ready_miss; eauto.
  - destruct (data_received_frame c e buf f m) as (s & l & C & _). cbv zeta in C.
    apply (ready_core c _ _ (core_push _)). apply (ready_core c _ _ C).
    destruct R as (L & EJ & ED & N & _). apply ready_none; try assumption; [reflexivity|discriminate].
  - destruct (join_accepted_frame c buf f m) as (s & l & C & _). cbv zeta in C.
    apply (ready_core c _ _ (core_push _)). apply (ready_core c _ _ C).
    destruct R as (L & EJ & ED & N & _). apply ready_none; try assumption; [reflexivity|discriminate].
  - destruct R as (L & EJ & ED & N & D & J). subst m'. split; [exact L|]. split; [exact EJ|]. split; [exact ED|]. split; [exact N|]. split.
    + intros O. destruct (D O) as (body & rest & HD). assert (m_op m <> OP_NONE) as NO by (intros E; change (is_data (m_op m) = true) in O; rewrite E in O; discriminate O).
      rewrite (H3 NO). exists body, rest. unfold holds_data in *. rewrite (mic_word_tuned c m (set_m_tx (m_tx m) m) body) by reflexivity. exact HD.
    + exact J.
  - apply (ready_core c _ _ H0). destruct R as (L & EJ & ED & N & _). apply ready_none; try assumption; [reflexivity|discriminate].
  - apply (ready_core c _ _ H2). clear H2. subst x.
    pose proof (fun y => ready_join c e m (set_m_sm (m_sm m ++ sm) (set_m_trials 0 m)) y _ R eq_refl eq_refl eq_refl H1 eq_refl) as Q. revert Q.
    generalize (fillJoinBuffer c e (u16 (m_devNonce m)) (set_m_sm (m_sm m ++ sm) (set_m_trials 0 m))). intros F Q.
    apply Q; reflexivity.
  - apply (ready_core c _ _ H1). destruct R as (L & EJ & ED & N & _). apply ready_none; try assumption; change (m_op (on_ctx ?f m)) with (m_op m); rewrite H; [reflexivity|discriminate].
  - eapply ready_data; eauto.
  - apply (ready_core c _ _ H0). now apply ready_op_none.
  - apply (ready_core c _ _ H0). specialize (IHHA HS R). destruct IHHA as (L & EJ & ED & N & _).
    assert (m_op (forgetNetwork c x) = OP_NONE) as E.
    { change (m_op (forgetNetwork c x)) with (m_op x). now apply (cancel_op c e m). }
    apply ready_none; try assumption; rewrite E; [reflexivity|discriminate].
  - apply (ready_core c _ _ H2). destruct R as (L & EJ & ED & N & D & J). destruct H as (r0 & p & a & dd & cc & kk & ->).
    split; [exact L|]. split; [exact EJ|]. split; [exact ED|]. split; [exact N|]. split; [|exact J].
    intros O. destruct (D O) as (body & rest & HD). exists body, rest. unfold holds_data in *.
    match goal with |- m_buffer ?y = _ /\ _ => rewrite (mic_word_tuned c m y body) by reflexivity end. exact HD.
Qed.

Lemma ready_init c r a e : arg_ok a -> ready c (MAC_init c r a e).
Proof.
  intros ((J & _) & (D & _) & N & _). destruct (init_facts c r a e) as (O & _ & _ & DN & _ & EJ & ED & B & _). cbv zeta in *.
  apply ready_none; rewrite ?O, ?DN, ?EJ, ?ED, ?B; auto; try discriminate.
Qed.

Theorem ready_always c h m : in_place c -> so (m_op m) (m_state m) = true -> ready c m ->
  so (m_op (run c h m)) (m_state (run c h m)) = true /\ ready c (run c h m).
Proof.
  intros IP S R. refine (hist_ind c (fun _ => True) (fun _ m => so (m_op m) (m_state m) = true /\ ready c m) _ _ h [] m (conj S R) _).
  - intros l x x' lo [S1 R1] Q _ _. split; [eapply quiet_so; eauto|eapply ready_quiet; eauto].
  - intros l x e k r x' lo [S1 R1] _ A _. split; [eapply act_so; eauto|eapply ready_act; eauto].
  - apply Forall_forall. auto.
Qed.

(* the frame that would be sent *)
Lemma frame_data c m body rest : holds_data c m body rest -> frame_of m = body ++ le 4 (mic_word c m body).
Proof. intros (B & L & L1 & L2 & _). rewrite app_assoc in B. apply (frame_of_layout m _ rest B). rewrite app_length, le_length. exact L. Qed.

Lemma frame_data_kind c m body rest : holds_data c m body rest -> is_join_frame (frame_of m) = false /\ is_data_frame (frame_of m) = true /\
  fcnt_of (frame_of m) = u16 (tx_counter (m_tx m)).
Proof.
  intros HD. rewrite (frame_data _ _ _ _ HD). destruct HD as (_ & _ & L1 & _ & H & F).
  destruct body as [|b0 [|b1 [|b2 [|b3 [|b4 [|b5 [|b6 [|b7 body]]]]]]]]; try (cbn in L1; lia).
  cbn [nth] in H. unfold fcnt_of in *. cbn [app nth] in *.
  split; [destruct H; subst; reflexivity|]. split; [destruct H; subst; reflexivity|]. exact F.
Qed.

Lemma frame_join_kind c m n mic rest : length (m_joinEUI m) = 8%nat -> length (m_devEUI m) = 8%nat -> holds_join c m n mic rest ->
  is_join_frame (frame_of m) = true /\ nonce_of (frame_of m) = n /\ frame_of m = join_request (m_joinEUI m) (m_devEUI m) n mic.
Proof.
  intros J D (B & L & N & _).
  assert (frame_of m = join_request (m_joinEUI m) (m_devEUI m) n mic) as E.
  { apply (frame_of_layout m _ rest B). rewrite L. unfold join_request. rewrite !app_length, !rev_length, J, D, !le_length. reflexivity. }
  rewrite E. split; [|split; [|reflexivity]]; apply join_request_read; assumption.
Qed.
