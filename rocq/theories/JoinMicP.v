(* Every join request sent carries its integrity code. *)
From Verif Require Import Lib StreamM FrameM CommandsM RegionM RadioM SmM AesM CmacM CtrM MacStateM MacTac MacUtilM OpsM MacCmdM MacProcM MacApiM MacRw CoreP CaseP RxP SpecFrame SpecAes Scenario SpecSm SpecHist SpecKey SpecUp SpecCmac FrameP FrameRtP ModuleP SmP AnswerP HistP EndP TxP UplinkP ReadyP JoinP DataP RestoreP AcceptP CtxP DownP CipherP MicP SpecJoinMic.

Lemma root_mic c app nwk log body : default_sm c app nwk -> block app -> block nwk -> bytes_ok body -> (length body < 256)%nat ->
  c_mic c log KEY_NWK [] body = mic_of (if is_1_1 (c_l2 c) then nwk else app) [] body.
Proof.
  intros D Ha Hn B L. destruct (D log KEY_NWK) as [E _]. rewrite E.
  assert (getKey (c_l2 c) (sm_replay (c_l2 c) (SM_init (c_l2 c) app nwk) log) KEY_NWK = if is_1_1 (c_l2 c) then nwk else app) as K.
  { rewrite root_kept; [|reflexivity|destruct (c_l2 c); reflexivity]. destruct (c_l2 c); reflexivity. }
  rewrite SM_mic_spec; [rewrite K; reflexivity| |constructor|exact B|cbn; lia|exact L|cbn; lia].
  rewrite K. destruct (is_1_1 _); assumption.
Qed.

Lemma filled_euis c f x : m_joinEUI (data_filled c f x) = m_joinEUI x /\ m_devEUI (data_filled c f x) = m_devEUI x.
Proof. unfold data_filled. cbv zeta. unfold micDataFrame. cbv zeta. ms. split; reflexivity. Qed.

Section Auth.
  Context (c : cfg) (app nwk je de : list Z) (D : default_sm c app nwk) (Ha : block app) (Hn : block nwk) (EJ : eui_ok je) (ED : eui_ok de).
  Let jm (n : Z) : Z := join_mic (c_l2 c) app nwk je de n.

  Lemma prepared_join x n b : length b = 255%nat ->
    prepareJoinRequest c x (mkFrameJoin je de n 0) b LDL_MAX_PACKET = (join_request je de n (jm n) ++ skipn 23 b, 23).
  Proof.
    intros Hb. destruct EJ as [Hj Bj], ED as [Hd Bd]. unfold prepareJoinRequest.
    destruct (putJoin_layout (mkFrameJoin je de n 0) b LDL_MAX_PACKET) as (L & _ & H);
      [split; assumption|unfold LDL_MAX_PACKET; lia|unfold LDL_MAX_PACKET; lia|]. cbn [fj_joinEUI fj_devEUI fj_devNonce fj_mic] in *.
    change (23 <=? LDL_MAX_PACKET) with true in H. cbv iota in H. destruct H as [HL HB].
    destruct (Frame_putJoinRequest _ b LDL_MAX_PACKET) as [s len]. cbn [fst snd] in *. subst len.
    set (hd := [mhdr JoinRequest] ++ rev je ++ rev de ++ le 2 n).
    assert (length hd = 19%nat) as LH by (unfold hd; rewrite !app_length, !rev_length, Hj, Hd, le_length; reflexivity).
    assert (forall q r, join_request je de n q ++ r = hd ++ le 4 q ++ r) as E by (intros; unfold hd, join_request; rewrite <- !app_assoc; reflexivity).
    assert (slice (st_buf s) 0 (Z.to_nat (u8 (23 - 4))) = hd) as SL by (rewrite HB, E; change (Z.to_nat (u8 (23 - 4))) with 19%nat; rewrite <- LH; apply slice_app_l; reflexivity).
    rewrite SL, (root_mic c app nwk (m_sm x) hd D Ha Hn) by
      first [lia|unfold hd; repeat (apply bytes_ok_app; split); try apply le_ok; try (now apply bytes_ok_rev); repeat constructor; cbn; lia].
    unfold jm, join_mic. change ([mhdr JoinRequest] ++ rev je ++ rev de ++ le 2 n) with hd. generalize (mic_of (if is_1_1 (c_l2 c) then nwk else app) [] hd). intros q. apply pair_equal_spec. split; [|reflexivity].
    rewrite updateMIC_spec; [|lia|rewrite HB, app_length, L; lia]. rewrite HB, !E. change (Z.to_nat (23 - 4)) with 19%nat. rewrite <- LH.
    apply splice_app. reflexivity.
  Qed.

  Definition good (m : mac) : Prop := exists n rest, 0 <= n < 65536 /\ m_buffer m = join_request je de n (jm n) ++ rest /\ m_bufferLen m = 23.
  Definition auth (m : mac) : Prop := m_joinEUI m = je /\ m_devEUI m = de /\ (m_op m = OP_JOINING -> good m).

  Lemma auth_core m m' : core m' = core m -> auth m -> auth m'.
  Proof.
    intros C. apply core_fields in C. unfold same_core in C. destruct C as (O & C1 & C2 & C3 & C4 & C5 & _).
    unfold auth, good. rewrite O, C1, C2. assert (m_buffer m' = m_buffer m /\ m_bufferLen m' = m_bufferLen m) as [-> ->] by (split; assumption). auto.
  Qed.
  Lemma auth_not m x : auth m -> m_joinEUI x = m_joinEUI m -> m_devEUI x = m_devEUI m -> m_op x <> OP_JOINING -> auth x.
  Proof. intros (A & B & _) E1 E2 N. split; [congruence|]. split; [congruence|]. intros X. congruence. Qed.
  Lemma auth_keep m x : auth m -> m_joinEUI x = m_joinEUI m -> m_devEUI x = m_devEUI m -> m_op x = m_op m -> m_buffer x = m_buffer m -> m_bufferLen x = m_bufferLen m -> auth x.
  Proof. intros (A & B & C) E1 E2 E3 E4 E5. unfold auth, good. rewrite E1, E2, E3, E4, E5. auto. Qed.

  Lemma auth_join e m x y F : auth m -> length (m_buffer m) = 255%nat -> m_buffer x = m_buffer m -> m_joinEUI x = m_joinEUI m -> m_devEUI x = m_devEUI m ->
    F = fillJoinBuffer c e (u16 (m_devNonce m)) x ->
    m_buffer y = m_buffer F -> m_bufferLen y = m_bufferLen F -> m_joinEUI y = m_joinEUI F -> m_devEUI y = m_devEUI F -> auth y.
  Proof.
    intros (A1 & A2 & _) L B J DD -> Y1 Y2 Y3 Y4.
    destruct (fillJoin_fields c e (u16 (m_devNonce m)) x) as (t & buf & len & dn & E1 & E2 & E3 & _).
    rewrite E1 in Y1, Y2, Y3, Y4. clear E1. change (m_buffer y = buf) in Y1. change (m_bufferLen y = len) in Y2.
    change (m_joinEUI y = m_joinEUI x) in Y3. change (m_devEUI y = m_devEUI x) in Y4.
    rewrite J, A1 in Y3, E3. rewrite DD, A2 in Y4, E3. rewrite B in E3.
    rewrite prepared_join in E3 by exact L. pose proof (f_equal fst E3) as E5. pose proof (f_equal snd E3) as E6. cbn [fst snd] in E5, E6. clear E3.
    split; [congruence|]. split; [congruence|]. intros _. exists dn, (skipn 23 (m_buffer m)). rewrite Y1, Y2, E5, E6.
    split; [subst dn; destruct (c_l2 c); unfold u16; lia|]. auto.
  Qed.

  Lemma auth_miss e m m' : ready c m -> auth m -> miss_case c e m m' -> auth m'.
  Proof.
    intros (LB & _) R HM. destruct HM as [m2 DT ? C S L|m2 DT p C S L|m2 O ? C S L|m2 O ? C S L|].
    - apply (auth_core _ _ C). apply (auth_not m); auto. change (m_op m <> OP_JOINING). intros X. rewrite X in DT. discriminate DT.
    - destruct (adaptRate_fields c (next_trial m)) as (s & n & b & E & _). cbv zeta in E. clear L. subst p. rewrite E in C. clear E.
      apply (auth_core _ _ C). apply (auth_not m); auto. discriminate.
    - apply (auth_core _ _ C). clear C.
      pose proof (fun y => auth_join e m (next_trial m) y (fillJoinBuffer c e (u16 (m_devNonce m)) (next_trial m)) R LB eq_refl eq_refl eq_refl eq_refl) as Q.
      revert Q. generalize (fillJoinBuffer c e (u16 (m_devNonce m)) (next_trial m)). intros F Q. apply Q; reflexivity.
    - apply (auth_core _ _ C). apply (auth_not m); auto. discriminate.
    - apply (auth_keep m); auto.
  Qed.

  Lemma auth_act e m k r m' : in_place c -> so (m_op m) (m_state m) = true -> ready c m -> auth m -> act c e m k r m' -> auth m'.
  Proof.
    intros IP HS R A HA. revert HS R A. induction HA; intros HS R A.
    - exact A.
    - destruct H as [C _]. now apply (auth_core m).
    - now apply (auth_core m).
    - apply (auth_core _ _ H0). apply (auth_not m); auto. discriminate.
    - eapply auth_miss; eauto.
    - apply (auth_core _ _ H1). apply (auth_not m); auto. discriminate.
    - apply (auth_core _ _ H2). eapply auth_miss; eauto.
    - destruct (data_received_frame c e buf f m) as (s & l & C & _). cbv zeta in C.
      apply (auth_core _ _ (core_push _)). apply (auth_core _ _ C). apply (auth_not m); auto. discriminate.
    - destruct (join_accepted_frame c buf f m) as (s & l & C & _). cbv zeta in C.
      apply (auth_core _ _ (core_push _)). apply (auth_core _ _ C). apply (auth_not m); auto. discriminate.
    - subst m'. apply (auth_keep m); auto.
    - apply (auth_core _ _ H0). apply (auth_not m); auto. discriminate.
    - apply (auth_core _ _ H2). clear H2. subst x.
      pose proof (fun y => auth_join e m (set_m_sm (m_sm m ++ sm) (set_m_trials 0 m)) y _ A (proj1 R) eq_refl eq_refl eq_refl eq_refl) as Q. revert Q.
      generalize (fillJoinBuffer c e (u16 (m_devNonce m)) (set_m_sm (m_sm m ++ sm) (set_m_trials 0 m))). intros F Q.
      apply Q; reflexivity.
    - apply (auth_core _ _ H1). apply (auth_keep m); auto.
    - apply (auth_core _ _ H6). clear H6. destruct (compose_op _ _ _ _ _ _ _ _ _ H5) as [OD _]. clear H5. destruct (filled_euis c f (data_base c o tx op m)) as [F1 F2].
      apply (auth_not m); [exact A|rewrite F1; reflexivity|rewrite F2; reflexivity|rewrite data_filled_op].
      intros X. change (op = OP_JOINING) in X. rewrite X in OD. discriminate OD.
    - apply (auth_core _ _ H0). apply (auth_not m); auto. discriminate.
    - apply (auth_core _ _ H0). specialize (IHHA HS R A).
      apply (auth_not x); auto. change (m_op x <> OP_JOINING). rewrite (cancel_op c e m x) by exact HA. discriminate.
    - apply (auth_core _ _ H2). destruct H as (r0 & p & a & dd & cc & kk & ->). apply (auth_keep m); auto.
  Qed.

  Lemma auth_always h m : in_place c -> so (m_op m) (m_state m) = true -> ready c m -> auth m -> auth (run c h m).
  Proof.
    intros IP S R A. refine (proj2 (proj2 (hist_ind c (fun _ => True) (fun _ m => so (m_op m) (m_state m) = true /\ ready c m /\ auth m) _ _ h [] m (conj S (conj R A)) _))).
    - intros l x x' lo (S1 & R1 & A1) Q _ _. split; [eapply quiet_so; eauto|]. split; [eapply ready_quiet; eauto|]. destruct Q as [[C _] _]. now apply (auth_core x).
    - intros l x e k r x' lo (S1 & R1 & A1) _ X _. split; [eapply act_so; eauto|]. split; [eapply ready_act; eauto|eapply auth_act; eauto].
    - apply Forall_forall. auto.
  Qed.
End Auth.

Theorem sent_join_mic c r a e0 h e k f b sf p fr app nwk : block app -> block nwk -> default_sm c app nwk -> arg_ok a ->
  let m := run c h (MAC_init c r a e0) in
  m_op m = OP_JOINING -> In (OTransmit f b sf p fr) (new_out m (fst (step c e k m))) ->
  exists n, 0 <= n < 65536 /\ fr = join_request (ia_joinEUI a) (ia_devEUI a) n (join_mic (c_l2 c) app nwk (ia_joinEUI a) (ia_devEUI a) n).
Proof.
  intros Ha Hn D OK m O HI. pose proof (proj1 (ModuleP.default_octets c app nwk Ha Hn D)) as IP. pose proof OK as (JE & DE & _).
  destruct (init_facts c r a e0) as (O0 & S0 & _ & _ & _ & E6 & E7 & _). cbv zeta in *.
  assert (auth c app nwk (ia_joinEUI a) (ia_devEUI a) m) as (A1 & A2 & A3).
  { apply auth_always; auto; [rewrite O0, S0; reflexivity|now apply ready_init|]. split; [exact E6|]. split; [exact E7|]. rewrite O0. discriminate. }
  destruct (A3 O) as (n & rest & N & B & L). exists n. split; [exact N|].
  destruct (step_sends _ _ _ _ _ _ _ _ _ HI) as (_ & m1 & C1 & _ & EF). destruct (core_frame _ _ C1) as [X _]. rewrite EF, X.
  apply (frame_of_layout m _ rest B). rewrite L. unfold join_request. rewrite !app_length, !rev_length, !le_length.
  destruct JE as [-> _], DE as [-> _]. reflexivity.
Qed.

Lemma step_sends_state c e m k f b sf p fr : In (OTransmit f b sf p fr) (new_out m (fst (step c e k m))) -> m_state m = ST_START_RADIO_FOR_TX.
Proof.
  intros HI. destruct (step_cases c e k m) as (m1 & m2 & Q1 & A & Q2 & _).
  destruct (quiet_log _ _ Q1) as (l1 & L1 & P1). destruct (quiet_log _ _ Q2) as (l2 & L2 & P2). destruct (act_log _ _ _ _ _ _ A) as (la & LA).
  assert (m_log (fst (step c e k m)) = m_log m ++ (l1 ++ la ++ l2)) as E by (rewrite L2, LA, L1, !app_assoc; reflexivity).
  rewrite (new_out_app _ _ _ E), !in_app_iff in HI.
  assert (forall l, forallb no_tx l = true -> ~ In (OTransmit f b sf p fr) l) as N.
  { intros l H X. apply (proj1 (forallb_forall _ _) H) in X. discriminate X. }
  destruct HI as [H|[H|H]]; [destruct (N _ (plain_no_tx _ P1) H)| |destruct (N _ (plain_no_tx _ P2) H)].
  destruct (act_tx _ _ _ _ _ _ _ A LA) as [X|(K & S & _ & _ & X)]; [destruct (N _ X H)|].
  rewrite <- (proj2 Q1). exact S.
Qed.

Theorem sent_for c r a e0 h e k f b sf p fr :
  let m := run c h (MAC_init c r a e0) in
  In (OTransmit f b sf p fr) (new_out m (fst (step c e k m))) ->
  k = C_process /\ (m_op m = OP_JOINING \/ m_op m = OP_DATA_UNCONFIRMED \/ m_op m = OP_DATA_CONFIRMED).
Proof.
  intros m HI. destruct (step_sends _ _ _ _ _ _ _ _ _ HI) as (K & _). split; [exact K|].
  pose proof (step_sends_state _ _ _ _ _ _ _ _ _ HI) as S.
  assert (so (m_op m) (m_state m) = true) as SO.
  { destruct (init_facts c r a e0) as (O0 & S0 & _). cbv zeta in *. apply so_always. rewrite O0, S0. reflexivity. }
  rewrite S in SO. destruct (m_op m); auto; discriminate SO.
Qed.
