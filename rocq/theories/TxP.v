(* Where transmissions come from. *)
From Verif Require Import Lib FrameM CommandsM RegionM RadioM SmM MacStateM MacTac MacUtilM OpsM MacCmdM MacProcM MacApiM MacRw CoreP CaseP RxP SpecHist HistP EndP.

Definition no_tx (o : out) : bool := match o with OTransmit _ _ _ _ _ => false | _ => true end.

Lemma plain_no_tx lo : forallb plain lo = true -> forallb no_tx lo = true.
Proof.
  intros H. apply forallb_forall. intros o Ho. apply (proj1 (forallb_forall _ _) H) in Ho. destruct o as [[]| | | |]; auto.
Qed.
Lemma told_no_tx lo : forallb told_rx lo = true -> forallb no_tx lo = true.
Proof.
  intros H. apply forallb_forall. intros o Ho. apply (proj1 (forallb_forall _ _) H) in Ho. destruct o as [[]| | | |]; auto.
Qed.

Lemma miss_no_tx c e m m' lo : miss_case c e m m' -> m_log m' = m_log m ++ lo -> forallb no_tx lo = true.
Proof.
  intros HM L. destruct HM as [m2 D ? C S E|m2 D p C S E|m2 O ? C S E|m2 O ? C S E|D O].
  - rewrite E in L. rewrite <- (app_nil_r (m_log m)) in L at 1. apply app_tail in L. subst lo. reflexivity.
  - rewrite E in L. apply app_tail in L. subst lo. rewrite forallb_app. destruct (snd p); reflexivity.
  - rewrite E in L. apply app_tail in L. subst lo. reflexivity.
  - rewrite E in L. apply app_tail in L. subst lo. reflexivity.
  - change (m_log (next_trial m)) with (m_log m) in L. rewrite <- (app_nil_r (m_log m)) in L at 1. apply app_tail in L. subst lo. reflexivity.
Qed.

Lemma same_log_tail (l lo : list out) : l = l ++ lo -> lo = [].
Proof. intros H. rewrite <- (app_nil_r l) in H at 1. apply app_tail in H. congruence. Qed.

Lemma act_tx c e m k r m' lo : act c e m k r m' -> m_log m' = m_log m ++ lo ->
  forallb no_tx lo = true \/
  (k = C_process /\ m_state m = ST_START_RADIO_FOR_TX /\ m_state m' = ST_TX /\ core m' = core m /\ lo = [transmit_of c m]).
Proof.
  intros HA. revert lo. induction HA; intros lo L.
  - left. apply same_log_tail in L. subst. reflexivity.
  - left. destruct H as [C (l & E & P)]. rewrite E in L. apply app_tail in L. subst l. now apply plain_no_tx.
  - right. rewrite H2 in L. apply app_tail in L. subst lo. auto.
  - left. rewrite H2 in L. apply app_tail in L. subst lo. reflexivity.
  - left. eapply miss_no_tx; eauto.
  - left. rewrite H3 in L. apply app_tail in L. subst lo. reflexivity.
  - left. destruct (miss_log _ _ _ _ H1) as (l & E). rewrite H4, E, <- app_assoc in L. apply app_tail in L. subst lo.
    rewrite forallb_app, (miss_no_tx _ _ _ _ _ H1 E). reflexivity.
  - left. destruct (data_received_frame c e buf f m) as (s & l & _ & _ & _ & E & _ & T). cbv zeta in E.
    unfold pushSessionUpdate, notify, emit in L. ms_in L. rewrite E, <- !app_assoc in L. apply app_tail in L. subst lo.
    rewrite !forallb_app, (told_no_tx _ T). unfold down_end. destruct (m_op m); try reflexivity.
  - left. destruct (join_accepted_frame c buf f m) as (s & l & _ & _ & _ & E & _). cbv zeta in E.
    unfold pushSessionUpdate, notify, emit in L. ms_in L. rewrite E, <- !app_assoc in L. apply app_tail in L. subst lo. reflexivity.
  - left. rewrite H in L. change (m_log (set_m_tx tx m)) with (m_log m) in L. apply same_log_tail in L. subst. reflexivity.
  - left. rewrite H1 in L. apply same_log_tail in L. subst. reflexivity.
  - left. rewrite H3 in L. apply app_tail in L. subst lo. reflexivity.
  - left. rewrite H2 in L. apply same_log_tail in L. subst. reflexivity.
  - left. rewrite H7 in L. apply app_tail in L. subst lo. reflexivity.
  - left. rewrite H2 in L. apply app_tail in L. subst lo. rewrite forallb_app. destruct (m_state m), (m_op m); reflexivity.
  - left. destruct (act_log _ _ _ _ _ _ HA) as (l & E). rewrite H2, E, <- app_assoc in L. apply app_tail in L. subst lo.
    rewrite forallb_app. destruct (IHHA l E) as [->|(X & _)]; [reflexivity|discriminate].
  - left. destruct H4 as [E|E]; rewrite E in L; [apply same_log_tail in L|apply app_tail in L]; subst lo; reflexivity.
Qed.
