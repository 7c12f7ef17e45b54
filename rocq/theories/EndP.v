(* Every operation that starts ends once, with an event of its own kind. *)
From Verif Require Import Lib FrameM CommandsM RegionM RadioM SmM MacStateM MacTac MacUtilM OpsM MacCmdM MacProcM MacApiM MacRw CoreP CaseP RxP SpecHist HistP.

Definition kind_of (op : mac_op) : option kind :=
  match op with
  | OP_NONE => None | OP_ENTROPY => Some KEntropy
  | OP_JOINING | OP_REJOINING => Some KJoin
  | OP_DATA_CONFIRMED | OP_DATA_UNCONFIRMED => Some KData
  end.

Lemma progress_app l l' : in_progress (l ++ l') = fold_left follow l' (in_progress l).
Proof. apply fold_left_app. Qed.

(* outputs that end nothing *)
Definition inert (o : out) : bool := negb (is_end (IOut o)).
Lemma follow_inert lo s : forallb inert lo = true -> fold_left follow (map IOut lo) s = s.
Proof.
  revert s. induction lo as [|o lo IH]; intros s H; [reflexivity|]. cbn [map fold_left]. cbn [forallb] in H.
  apply andb_true_iff in H. destruct H as [H1 H2]. rewrite IH by exact H2.
  unfold inert, is_end in H1. unfold follow. destruct s as [cur|]; [|reflexivity]. cbn [starts].
  destruct (ends (IOut o)); [discriminate|reflexivity].
Qed.
Lemma plain_inert lo : forallb plain lo = true -> forallb inert lo = true.
Proof.
  intros H. apply forallb_forall. intros o Ho. apply (proj1 (forallb_forall _ _) H) in Ho.
  destruct o as [[]| | | |]; try discriminate; reflexivity.
Qed.
Lemma told_inert lo : forallb told_rx lo = true -> forallb inert lo = true.
Proof.
  intros H. apply forallb_forall. intros o Ho. apply (proj1 (forallb_forall _ _) H) in Ho.
  destruct o as [[]| | | |]; try discriminate; reflexivity.
Qed.

Lemma app_tail {A} (a l1 l2 : list A) : a ++ l1 = a ++ l2 -> l1 = l2. Proof. apply app_inv_head. Qed.

Definition watch_ok (l : list item) (m : mac) : Prop :=
  so (m_op m) (m_state m) = true /\ in_progress l = Some (kind_of (m_op m)).

Lemma miss_watch c e m m' lo : miss_case c e m m' -> m_log m' = m_log m ++ lo -> so (m_op m) (m_state m) = true ->
  m_state m = ST_RX2_LOCKOUT \/ in_rx (m_state m) = true \/ can_err (m_state m) = true ->
  fold_left follow (map IOut lo) (Some (kind_of (m_op m))) = Some (kind_of (m_op m')).
Proof.
  intros HM L HS HR. pose proof (so_rx _ _ HS HR) as HO. destruct HM as [m2 D ? C S E|m2 D p C S E|m2 O ? C S E|m2 O ? C S E|D O];
  try rewrite (core_op_eq _ _ C).
  - rewrite E in L. rewrite <- (app_nil_r (m_log m)) in L at 1. apply app_tail in L. subst lo. reflexivity.
  - rewrite L in E. apply app_tail in E. subst lo. rewrite map_app, fold_left_app.
    rewrite (follow_inert (if snd p then _ else _)) by (destruct (snd p); reflexivity). ms. destruct (m_op m); try discriminate D; reflexivity.
  - rewrite L in E. apply app_tail in E. subst lo. ms. rewrite fillJoin_op. change (m_op (next_trial m)) with (m_op m). rewrite O. reflexivity.
  - rewrite L in E. apply app_tail in E. subst lo. ms. rewrite O. reflexivity.
  - destruct HO; congruence.
Qed.

Lemma act_watch c e m k r m' lo : act c e m k r m' -> m_log m' = m_log m ++ lo -> so (m_op m) (m_state m) = true ->
  fold_left follow (reqs k r ++ map IOut lo) (Some (kind_of (m_op m))) = Some (kind_of (m_op m')).
Proof.
  intros HA. revert lo. induction HA; intros lo L HS.
  - rewrite <- (app_nil_r (m_log m)) in L at 1. apply app_tail in L. subst lo.
    destruct H as [->|[t ->]]; reflexivity.
  - destruct H as [C (l & E & P)]. rewrite E in L. apply app_tail in L. subst l.
    rewrite (core_op_eq _ _ C). cbn [reqs app]. apply follow_inert, plain_inert, P.
  - rewrite H2 in L. apply app_tail in L. subst lo. rewrite (core_op_eq _ _ H1). reflexivity.
  - rewrite H2 in L. apply app_tail in L. subst lo. rewrite (core_op_eq _ _ H0). rewrite H in HS. destruct (m_op m); try discriminate HS; reflexivity.
  - cbn [reqs app]. eapply miss_watch; eauto. tauto.
  - rewrite H3 in L. apply app_tail in L. subst lo. rewrite (core_op_eq _ _ H1).
    destruct (so_rx _ _ HS (or_intror (or_intror H))) as [D|]; [|contradiction].
    destruct (m_op m); try discriminate D; reflexivity.
  - destruct (miss_log _ _ _ _ H1) as (l & E). rewrite H4, E, <- app_assoc in L. apply app_tail in L. subst lo.
    cbn [reqs app]. rewrite map_app, fold_left_app. rewrite (miss_watch _ _ _ _ _ H1 E HS) by tauto.
    rewrite (core_op_eq _ _ H2). reflexivity.
  - destruct (data_received_frame c e buf f m) as (s & l & C & _ & S & E & _ & T). cbv zeta in *.
    pose proof (receiveFrame_op _ _ _ _ _ H0) as HO. rewrite H1 in HO.
    unfold pushSessionUpdate, notify, emit in *. ms_in L. ms. rewrite E, <- !app_assoc in L. apply app_tail in L. subst lo.
    rewrite (core_op_eq _ _ C). cbn [reqs app]. rewrite !map_app, !fold_left_app, (follow_inert l) by now apply told_inert.
    assert (is_data (m_op m) = true) as D.
    { destruct HO as [D|D]; [exact D|]. rewrite D in HS. destruct (m_state m); discriminate. }
    unfold down_end. ms. destruct (m_op m); try discriminate D; [reflexivity|]. destruct (dn_ack f); reflexivity.
  - destruct (join_accepted_frame c buf f m) as (s & l & C & _ & S & E & _). cbv zeta in *.
    pose proof (receiveFrame_op _ _ _ _ _ H0) as HO. rewrite H1 in HO.
    unfold pushSessionUpdate, notify, emit in *. ms_in L. ms. rewrite E, <- !app_assoc in L. apply app_tail in L. subst lo.
    rewrite (core_op_eq _ _ C). ms.
    destruct HO as [[O|O] _]; [|rewrite O in HS; destruct (m_state m); discriminate]. rewrite O. reflexivity.
  - subst m'. ms_in L. rewrite <- (app_nil_r (m_log m)) in L at 1. apply app_tail in L. subst lo.
    ms. destruct k; try reflexivity; destruct st; try reflexivity; congruence.
  - rewrite <- (app_nil_r (m_log m')) in L. rewrite H1, <- (app_nil_r (m_log m)) in L at 1. rewrite <- app_assoc in L. apply app_tail in L. rewrite app_nil_l in L. subst lo.
    rewrite (core_op_eq _ _ H0), H. reflexivity.
  - rewrite H3 in L. apply app_tail in L. subst lo. rewrite (core_op_eq _ _ H2), H. reflexivity.
  - rewrite H2, <- (app_nil_r (m_log m)) in L at 1. apply app_tail in L. subst lo.
    rewrite (core_op_eq _ _ H1). reflexivity.
  - rewrite H7 in L. apply app_tail in L. subst lo. rewrite (core_op_eq _ _ H6), data_filled_op, H.
    destruct (compose_op _ _ _ _ _ _ _ _ _ H5) as [D [-> | ->]];
    change (m_op (data_base c o tx op m)) with op; destruct op; try discriminate D; reflexivity.
  - rewrite H2 in L. apply app_tail in L. subst lo. rewrite (core_op_eq _ _ H0).
    destruct H as [->|[-> _]]; destruct (m_state m); destruct (m_op m); reflexivity.
  - destruct (act_log _ _ _ _ _ _ HA) as (l & E). rewrite H2, E, <- app_assoc in L. apply app_tail in L. subst lo.
    specialize (IHHA l E HS). rewrite (core_op_eq _ _ H0). cbn [reqs app] in *. rewrite map_app. 
    cbn [fold_left] in *. rewrite fold_left_app. cbn [follow starts ends] in *. rewrite IHHA. reflexivity.
  - assert (forallb inert lo = true) as P.
    { destruct H4 as [E|E]; rewrite E in L; [rewrite <- (app_nil_r (m_log m)) in L at 1|]; apply app_tail in L; subst lo; reflexivity. }
    rewrite fold_left_app, follow_inert by exact P. rewrite (core_op_eq _ _ H2).
    destruct k; try contradiction; reflexivity.
Qed.

Theorem watch_always c h l m : watch_ok l m -> watch_ok (l ++ items c h m) (run c h m).
Proof.
  intros H. refine (hist_ind c (fun _ => True) watch_ok _ _ h l m H _); [| |apply Forall_forall; auto].
  - intros x y y' lo [S W] Q L P. split; [eapply quiet_so; eauto|].
    rewrite progress_app, W, follow_inert by now apply plain_inert. now rewrite (quiet_op _ _ Q).
  - intros x y e k r y' lo [S W] _ A L. split; [eapply act_so; eauto|].
    rewrite progress_app, W. eapply act_watch; eauto.
Qed.

Theorem progress_init c r a e h :
  in_progress (items c h (MAC_init c r a e)) = Some (kind_of (m_op (run c h (MAC_init c r a e)))).
Proof.
  destruct (init_facts c r a e) as (O & S & _). cbv zeta in *.
  apply (watch_always c h [] (MAC_init c r a e)). split; [rewrite O, S; reflexivity|rewrite O; reflexivity].
Qed.

Lemma follow_none l : fold_left follow l None = None.
Proof. induction l; auto. Qed.

(* the operation in progress, and how many have started and ended *)
Lemma progress_count l cur : in_progress l = Some cur ->
  count is_start l - count is_end l = match cur with Some _ => 1 | None => 0 end.
Proof.
  revert cur. induction l as [|x l IH] using rev_ind; intros cur; [intros [= <-]; reflexivity|].
  rewrite progress_app. cbn [fold_left]. unfold count in *. rewrite !filter_app, !app_length. cbn [filter].
  destruct (in_progress l) as [c0|]; [|discriminate]. specialize (IH c0 eq_refl).
  unfold follow, is_start, is_end in *. destruct (starts x) as [k|], (ends x) as [may|]; try discriminate.
  - destruct c0; intros [= <-]. cbn [length]. lia.
  - destruct c0 as [k|]; [|discriminate]. destruct (may k); intros [= <-]. cbn [length]. lia.
  - intros [= <-]. cbn [length]. lia.
Qed.

Theorem balance c r a e h pre post : items c h (MAC_init c r a e) = pre ++ post ->
  0 <= count is_start pre - count is_end pre <= 1.
Proof.
  intros E. pose proof (progress_init c r a e h) as H. rewrite E, progress_app in H.
  destruct (in_progress pre) as [cur|] eqn:P; [|rewrite follow_none in H; discriminate].
  apply progress_count in P. destruct cur; lia.
Qed.

Lemma busy_state c r a e h :
  let m := run c h (MAC_init c r a e) in
  let l := items c h (MAC_init c r a e) in
  count is_start l - count is_end l = (match m_op m with OP_NONE => 0 | _ => 1 end).
Proof.
  cbv zeta. rewrite (progress_count _ _ (progress_init c r a e h)). destruct (m_op _); reflexivity.
Qed.
