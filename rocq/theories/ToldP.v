(* Changes of the session are told to the application. *)
From Verif Require Import Lib StreamM FrameM CommandsM RegionM RadioM SmM MacStateM MacTac MacUtilM OpsM MacCmdM MacProcM MacApiM MacRw SpecAes SpecSm SpecKey
  CoreP CaseP RxP SpecHist HistP EndP TxP UplinkP ReadyP JoinP DataP RestoreP AcceptP CtxP SpecTold.

Definition tells (m m' : mac) (lo : list out) : Prop :=
  existsb is_sess lo = true \/ m_ctx m' = m_ctx m \/
  (but_nonce (m_ctx m') = but_nonce (m_ctx m) /\ s_joined (m_ctx m') = s_joined (m_ctx m) /\ (m_op m = OP_JOINING \/ s_joined (m_ctx m) = false)).

Lemma miss_tells c e m m' lo : miss_case c e m m' -> m_log m' = m_log m ++ lo -> tells m m' lo.
Proof.
  intros HM L. unfold tells. destruct HM as [m2 D ? C S E|m2 D p C S E|m2 O ? C S E|m2 O ? C S E|D O].
  - right. left. exact (core_ctx _ _ C).
  - rewrite E in L. apply app_tail in L. subst lo. pose proof (adaptRate_fields c (next_trial m)) as (s & n & b & E1 & _ & E3). fold p in E1, E3.
    destruct (snd p); [left; reflexivity|]. right. left. rewrite (core_ctx _ _ C). change (m_ctx (set_m_op OP_NONE (fst p))) with (m_ctx (fst p)). rewrite E1.
    exact (E3 eq_refl).
  - right. right. destruct (fillJoin_fields c e (u16 (m_devNonce m)) (next_trial m)) as (t & buf & len & dn & E1 & _).
    pose proof (core_ctx _ _ C) as CC. rewrite E1 in CC. change (m_ctx m2 = set_s_devNonce dn (m_ctx m)) in CC. rewrite CC. auto.
  - right. left. exact (core_ctx _ _ C).
  - right. left. reflexivity.
Qed.

Lemma sess_last l s : existsb is_sess (l ++ [OEvent (EV_SESSION_UPDATED s)]) = true.
Proof. rewrite existsb_app. apply orb_true_iff. right. reflexivity. Qed.

Lemma tune_tells c e k m lo : told_call k ->
  (match k with C_setRate _ | C_setPower _ | C_setADR _ | C_setMaxDCycle _ | C_addChannel _ _ _ _ | C_maskChannel _ | C_unmaskChannel _ => True | _ => False end) ->
  m_log (fst (step c e k m)) = m_log m ++ lo -> tells m (fst (step c e k m)) lo.
Proof.
  intros T K. assert (forall x, m_log x = m_log m -> m_log (pushSessionUpdate x) = m_log m ++ lo -> tells m (pushSessionUpdate x) lo) as HP.
  { intros x EX L. unfold pushSessionUpdate, notify, emit in L. ms_in L. rewrite EX in L. apply app_tail in L. subst lo. left. reflexivity. }
  destruct k; try contradiction; cbn [step st_ret bool_ret fst snd].
  - unfold MAC_setRate. destruct (rateSettingIsValid _ _); cbn [fst]; [apply HP; reflexivity|right; left; reflexivity].
  - unfold MAC_setPower. destruct (validateTXPower _ _); cbn [fst]; [apply HP; reflexivity|right; left; reflexivity].
  - apply HP. reflexivity.
  - apply HP. reflexivity.
Qed.

Lemma act_tells c e m k r m' lo : act c e m k r m' -> told_call k -> m_log m' = m_log m ++ lo -> tells m m' lo.
Proof.
  intros HA T L. destruct HA.
  - right. left. reflexivity.
  - right. left. exact (core_ctx _ _ (proj1 H)).
  - right. left. exact (core_ctx _ _ H1).
  - right. left. exact (core_ctx _ _ H0).
  - eapply miss_tells; eauto.
  - right. left. exact (core_ctx _ _ H1).
  - destruct (miss_log _ _ _ _ H1) as (l1 & E1). rewrite H4, E1, <- app_assoc in L. apply app_tail in L. subst lo.
    pose proof (miss_tells _ _ _ _ _ H1 E1) as B. unfold tells in *. rewrite (core_ctx _ _ H2).
    destruct B as [B|B]; [left; rewrite existsb_app, B; reflexivity|right; exact B].
  - left. destruct (data_received_frame c e buf f m) as (s & l & _ & CX & _ & LG & _). cbv zeta in *.
    revert CX LG L. generalize (data_received c e buf f m). intros x CX LG L.
    unfold pushSessionUpdate, notify, emit in L. ms_in L. rewrite LG, <- !app_assoc in L. apply app_tail in L. subst lo. rewrite app_assoc. apply sess_last.
  - left. destruct (join_accepted_frame c buf f m) as (s & l & _ & CX & _ & LG & _). cbv zeta in *.
    revert CX LG L. generalize (join_accepted c buf f m). intros x CX LG L.
    unfold pushSessionUpdate, notify, emit in L. ms_in L. rewrite LG, <- !app_assoc in L. apply app_tail in L. subst lo. apply sess_last.
  - subst m'. right. left. reflexivity.
  - right. left. exact (core_ctx _ _ H0).
  - right. right.
    destruct (fillJoin_fields c e (u16 (m_devNonce m)) (set_m_sm (m_sm m ++ sm) (set_m_trials 0 m))) as (t & buf & len & dn & E1 & _).
    pose proof (core_ctx _ _ H2) as CC. subst x. rewrite E1 in CC. change (m_ctx m' = set_s_devNonce dn (m_ctx m)) in CC. rewrite CC. auto.
  - contradiction T.
  - rewrite H7 in L. apply app_tail in L. subst lo. left. reflexivity.
  - right. left. exact (core_ctx _ _ H0).
  - left. destruct (act_log _ _ _ _ _ _ HA) as (l1 & E1). rewrite H2, E1, <- app_assoc in L. apply app_tail in L. subst lo. apply sess_last.
  - subst m'. apply tune_tells; assumption.
Qed.

(* the last session told *)
Definition up_to (so0 : option session) (l : list out) (m : mac) : Prop :=
  exists s, last_session so0 l = Some s /\ but_nonce s = but_nonce (m_ctx m) /\ (s_joined (m_ctx m) = true -> s = m_ctx m).

Lemma last_saved t lo so0 : Forall (saved_as t) lo -> existsb is_sess lo = true -> last_session so0 lo = Some t.
Proof.
  revert so0. enough (forall so0, Forall (saved_as t) lo -> so0 = Some t \/ existsb is_sess lo = true -> last_session so0 lo = Some t) as H by (intros; apply H; auto).
  induction lo as [|o lo IH]; intros so0 F H.
  - destruct H as [H|H]; [exact H|discriminate H].
  - inversion F as [|x y F1 F2]; subst. unfold last_session in *. cbn [fold_left]. cbn [existsb] in H.
    destruct o as [[]| | | |]; try (apply IH; [exact F2|destruct H as [H|H]; [left; exact H|right; exact H]]).
    apply IH; [exact F2|]. left. f_equal. exact F1.
Qed.
Lemma no_sess_last lo so0 : existsb is_sess lo = false -> last_session so0 lo = so0.
Proof.
  revert so0. induction lo as [|o lo IH]; intros so0 H; [reflexivity|]. cbn [existsb] in H. apply orb_false_iff in H as [H1 H2].
  unfold last_session in *. cbn [fold_left]. destruct o as [[]| | | |]; try (apply IH; exact H2). discriminate H1.
Qed.

Lemma up_step so0 l m m' lo : up_to so0 l m -> Forall (saved_as (m_ctx m')) lo -> tells m m' lo -> (m_op m = OP_JOINING -> s_joined (m_ctx m) = false) -> up_to so0 (l ++ lo) m'.
Proof.
  intros (s & L & B & J) F T NJ. unfold up_to. rewrite last_app, L. destruct (existsb is_sess lo) eqn:X.
  - exists (m_ctx m'). split; [now apply last_saved|]. auto.
  - exists s. rewrite no_sess_last by exact X. split; [reflexivity|]. destruct T as [T|[T|(T1 & T2 & T3)]]; [congruence|rewrite T; auto|].
    split; [congruence|]. rewrite T2. intros Y. assert (s_joined (m_ctx m) = false) by (destruct T3; auto). congruence.
Qed.

Definition zeros : list Z := repeat 0 16.
Lemma zeros_block : block zeros. Proof. split; [reflexivity|]. unfold bytes_ok, zeros. apply Forall_forall. intros x I. apply repeat_spec in I. subst x. unfold byte_ok. lia. Qed.

Theorem told_always c r a e h : arg_ok a -> Forall (fun x => told_call (snd x)) h ->
  let m0 := MAC_init c r a e in let m := run c h m0 in
  s_magic (m_ctx m) = sessionMagicNumber /\ s_region (m_ctx m) = r /\ up_to (Some (m_ctx m0)) (m_log m) m.
Proof.
  intros OK NA m0 m. subst m.
  assert (forall k, told_call k -> not_abp k) as TA by (intros []; cbn; auto).
  destruct (init_facts c r a e) as (_ & _ & LG & _ & _ & E6 & E7 & _). cbv zeta in *. destruct (init_up c r a e) as (_ & _ & RG). fold m0 in LG, E6, E7, RG.
  assert (m_log (run c h m0) = outs (items c h m0)) as EL by (rewrite outs_items, LG; reflexivity). rewrite EL.
  enough (keys_ok c zeros zeros (ia_session a) (outs (items c h m0)) (run c h m0) /\ s_region (m_ctx (run c h m0)) = r /\ up_to (Some (m_ctx m0)) (outs (items c h m0)) (run c h m0)) as (K & RR & UU).
  { destruct K as (_ & _ & _ & _ & MG & _). auto. }
  pose proof zeros_block as ZB.
  refine (hist_ind c (fun x => told_call (snd x)) (fun l m => keys_ok c zeros zeros (ia_session a) (outs l) m /\ s_region (m_ctx m) = r /\ up_to (Some (m_ctx m0)) (outs l) m) _ _ h [] m0 _ NA).
  - intros l x x' lo (K & I3 & U) Q L P. rewrite outs_app, outs_map. pose proof K as (S & _ & _ & LO & MG & J & _).
    destruct (keys_step c zeros zeros (ia_session a) (outs l) x x' lo K) as (A & B1 & B2 & B3); [eapply quiet_so; eauto|assumption|assumption| |].
    + apply ks_core; [assumption|assumption|apply J|apply Q|]. apply no_sess_saves, plain_no_sess, P.
    + split; [exact A|]. split; [congruence|]. apply (up_step _ _ x); [exact U|apply no_sess_saved, plain_no_sess, P| |apply J].
      right. left. apply core_ctx, Q.
  - intros l x e1 k ret x' lo (K & I3 & U) NK AC L. cbn [snd] in NK. rewrite !outs_app, outs_reqs, outs_map. cbn [List.app]. pose proof K as (S & EJ & ED & LO & MG & J & _).
    destruct (keys_step c zeros zeros (ia_session a) (outs l) x x' lo K) as (A & B1 & B2 & B3); [eapply act_so; eauto|assumption|assumption| |].
    + eapply act_keys; eauto. apply J.
    + split; [exact A|]. split; [congruence|]. apply (up_step _ _ x); [exact U|apply (act_ctx _ _ _ _ _ _ _ AC L)| |apply J]. eapply act_tells; eauto.
  - split; [apply keys_start; assumption|]. split; [exact RG|]. exists (m_ctx m0). auto.
Qed.

Theorem told_now c r a e h : arg_ok a -> Forall (fun x => told_call (snd x)) h ->
  let m0 := MAC_init c r a e in let m := run c h m0 in
  exists s, last_session (Some (m_ctx m0)) (m_log m) = Some s /\ but_nonce s = but_nonce (m_ctx m) /\ (s_joined (m_ctx m) = true -> s = m_ctx m).
Proof. intros OK NA. apply (told_always c r a e h OK NA). Qed.

(* and it is what a restart resumes *)
Theorem resumed c r a e h a' e' : arg_ok a -> Forall (fun x => told_call (snd x)) h ->
  let m := run c h (MAC_init c r a e) in
  s_joined (m_ctx m) = true -> ia_session a' = last_session (ia_session a) (m_log m) -> m_ctx (MAC_init c r a' e') = m_ctx m.
Proof.
  intros OK NA. cbv zeta. destruct (told_always c r a e h OK NA) as (MG & RG & s & L & _ & J). cbv zeta in *.
  revert MG RG L J. generalize (run c h (MAC_init c r a e)). intros m MG RG L J JN A. specialize (J JN). subst s.
  destruct (existsb is_sess (m_log m)) eqn:X.
  - assert (forall l s1 s2, existsb is_sess l = true -> last_session s1 l = last_session s2 l) as IND.
    { induction l as [|o l IH]; intros s1 s2 Y; [discriminate Y|]. unfold last_session in *. cbn [fold_left existsb] in *.
      destruct o as [[]| | | |]; try (apply IH; exact Y). reflexivity. }
    rewrite (IND _ _ (Some (m_ctx (MAC_init c r a e))) X), L in A. rewrite init_ctx, A, MG, RG.
    rewrite Z.eqb_refl. replace (region_eqb r r) with true by (destruct r; reflexivity). reflexivity.
  - rewrite no_sess_last in A, L by exact X. apply (f_equal (fun o => match o with Some s => s | None => m_ctx m end)) in L. cbv beta iota in L. rewrite <- L, !init_ctx, A. reflexivity.
Qed.
