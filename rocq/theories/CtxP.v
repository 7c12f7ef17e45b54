(* Every way in which the session changes; invariants of sessions. *)
From Verif Require Import Lib StreamM FrameM CommandsM RegionM RadioM SmM MacStateM MacTac MacUtilM OpsM MacCmdM MacProcM MacApiM MacRw CoreP CaseP RxP SpecHist HistP EndP TxP UplinkP DataP.

Inductive ctx_case (c : cfg) (e : env) (m : mac) : call -> session -> Prop :=
| cc_same k : ctx_case c e m k (m_ctx m)
| cc_back : is_data (m_op m) = true -> ctx_case c e m C_process (m_ctx (fst (adaptRate c (next_trial m))))
| cc_nonce k dn : k = C_process \/ k = C_otaa -> ctx_case c e m k (set_s_devNonce dn (m_ctx m))
| cc_down buf f : in_rx (m_state m) = true -> receiveFrame c m (rx_buffer e) (rx_len e) = (buf, Some f) -> is_rx_data f = true ->
    ctx_case c e m C_process (m_ctx (data_received c e buf f m))
| cc_joined buf f : in_rx (m_state m) = true -> receiveFrame c m (rx_buffer e) (rx_len e) = (buf, Some f) -> is_rx_data f = false ->
    ctx_case c e m C_process (m_ctx (join_accepted c buf f m))
| cc_abp a : s_joined (m_ctx m) = false -> ctx_case c e m (C_abp a) (set_s_devAddr a (set_s_joined true (m_ctx m)))
| cc_data cf port data o : ctx_case c e m (C_data cf port data o) (sess_data c m)
| cc_forget : ctx_case c e m C_forget (forgotten (m_ctx m) (m_maxDutyCycle m) (c_txps c))
| cc_tune k : tuned (m_ctx m) (m_ctx (fst (step c e k m))) ->
    (match k with C_setRate _ | C_setPower _ | C_setADR _ | C_setMaxDCycle _ | C_addChannel _ _ _ _ | C_maskChannel _ | C_unmaskChannel _ => True | _ => False end) ->
    ctx_case c e m k (m_ctx (fst (step c e k m))).

(* a session handed over is the one kept *)
Definition saved_as (s : session) (o : out) : Prop := match o with OEvent (EV_SESSION_UPDATED t) => t = s | _ => True end.
Lemma no_sess_saved s lo : forallb no_sess lo = true -> Forall (saved_as s) lo.
Proof.
  intros H. apply Forall_forall. intros o Ho. apply (proj1 (forallb_forall _ _) H) in Ho. destruct o as [[]| | | |]; try discriminate; exact I.
Qed.
Lemma saved_one s t : t = s -> Forall (saved_as s) [OEvent (EV_SESSION_UPDATED t)].
Proof. intros ->. repeat constructor. Qed.

Lemma cc_keep c e m k s : s = m_ctx m -> ctx_case c e m k s. Proof. intros ->. apply cc_same. Qed.

Lemma miss_ctx c e m m' lo : miss_case c e m m' -> m_log m' = m_log m ++ lo ->
  ctx_case c e m C_process (m_ctx m') /\ Forall (saved_as (m_ctx m')) lo.
Proof.
  intros HM L. destruct HM as [m2 D ? C S E|m2 D p C S E|m2 O ? C S E|m2 O ? C S E|D O].
  - rewrite E in L. apply same_log_tail in L. subst lo. split; [apply cc_keep; exact (core_ctx _ _ C)|constructor].
  - rewrite E in L. apply app_tail in L. subst lo. rewrite (core_ctx _ _ C). change (m_ctx (set_m_op OP_NONE (fst p))) with (m_ctx (fst p)).
    split; [now apply cc_back|]. apply Forall_app. split; [|constructor; [destruct (m_op m); exact I|constructor]].
    destruct (snd p); [now apply saved_one|constructor].
  - rewrite E in L. apply app_tail in L. subst lo.
    destruct (fillJoin_fields c e (u16 (m_devNonce m)) (next_trial m)) as (t & buf & len & dn & E1 & _).
    pose proof (core_ctx _ _ C) as CC. rewrite E1 in CC. change (m_ctx m2 = set_s_devNonce dn (m_ctx m)) in CC. rewrite CC.
    split; [apply cc_nonce; auto|repeat constructor].
  - rewrite E in L. apply app_tail in L. subst lo. split; [apply cc_keep; exact (core_ctx _ _ C)|repeat constructor].
  - change (m_log (next_trial m)) with (m_log m) in L. apply same_log_tail in L. subst lo. split; [apply cc_keep; reflexivity|constructor].
Qed.

Lemma act_ctx c e m k r m' lo : act c e m k r m' -> m_log m' = m_log m ++ lo ->
  ctx_case c e m k (m_ctx m') /\ Forall (saved_as (m_ctx m')) lo.
Proof.
  intros HA L. destruct HA.
  - apply same_log_tail in L. subst. split; [apply cc_same|constructor].
  - destruct H as [C (l & E & P)]. rewrite E in L. apply app_tail in L. subst l. split; [apply cc_keep; exact (core_ctx _ _ C)|]. apply no_sess_saved, plain_no_sess, P.
  - rewrite H2 in L. apply app_tail in L. subst lo. split; [apply cc_keep; exact (core_ctx _ _ H1)|repeat constructor].
  - rewrite H2 in L. apply app_tail in L. subst lo. split; [apply cc_keep; exact (core_ctx _ _ H0)|repeat constructor].
  - eapply miss_ctx; eauto.
  - rewrite H3 in L. apply app_tail in L. subst lo. split; [apply cc_keep; exact (core_ctx _ _ H1)|repeat constructor].
  - destruct (miss_log _ _ _ _ H1) as (l1 & E1). rewrite H4, E1, <- app_assoc in L. apply app_tail in L. subst lo.
    rewrite (core_ctx _ _ H2). destruct (miss_ctx _ _ _ _ _ H1 E1) as [A B]. split; [exact A|]. apply Forall_app. split; [exact B|repeat constructor].
  - destruct (data_received_frame c e buf f m) as (s & l & _ & CX & _ & LG & _ & T). cbv zeta in *.
    pose proof (cc_down c e m buf f H H0 H1) as CC. revert CC CX LG L. generalize (data_received c e buf f m). intros x CC CX LG L.
    unfold pushSessionUpdate, notify, emit in *. ms_in L. rewrite LG, <- !app_assoc in L. apply app_tail in L. subst lo.
    split; [exact CC|]. apply Forall_app. split; [apply no_sess_saved, told_no_sess, T|]. apply Forall_app. split.
    + apply no_sess_saved. unfold down_end. destruct (m_op m), (dn_ack f); reflexivity.
    + now apply saved_one.
  - destruct (join_accepted_frame c buf f m) as (s & l & _ & CX & _ & LG & _). cbv zeta in *.
    pose proof (cc_joined c e m buf f H H0 H1) as CC. revert CC CX LG L. generalize (join_accepted c buf f m). intros x CC CX LG L.
    unfold pushSessionUpdate, notify, emit in *. ms_in L. rewrite LG, <- !app_assoc in L. apply app_tail in L. subst lo.
    split; [exact CC|]. constructor; [exact I|]. now apply saved_one.
  - subst m'. apply same_log_tail in L. subst lo. split; [apply cc_keep; reflexivity|constructor].
  - rewrite H1 in L. apply same_log_tail in L. subst lo. split; [apply cc_keep; exact (core_ctx _ _ H0)|constructor].
  - rewrite H3 in L. apply app_tail in L. subst lo.
    destruct (fillJoin_fields c e (u16 (m_devNonce m)) (set_m_sm (m_sm m ++ sm) (set_m_trials 0 m))) as (t & buf & len & dn & E1 & _).
    pose proof (core_ctx _ _ H2) as CC. subst x. rewrite E1 in CC. change (m_ctx m' = set_s_devNonce dn (m_ctx m)) in CC. rewrite CC.
    split; [apply cc_nonce; auto|repeat constructor].
  - rewrite H2 in L. apply same_log_tail in L. subst lo. rewrite (core_ctx _ _ H1). split; [now apply cc_abp|constructor].
  - rewrite H7 in L. apply app_tail in L. subst lo.
    assert (m_ctx m' = sess_data c m) as CC by (rewrite (core_ctx _ _ H6), filled_ctx; reflexivity).
    rewrite CC. split; [apply cc_data|now apply saved_one].
  - rewrite H2 in L. apply app_tail in L. subst lo. split; [apply cc_keep; exact (core_ctx _ _ H0)|]. apply no_sess_saved. destruct (m_state m), (m_op m); reflexivity.
  - inversion HA; subst; try discriminate; try contradiction.
    + destruct H3 as [E3|[t E3]]; discriminate E3.
    + rewrite H2, H6, <- !app_assoc in L. apply app_tail in L. subst lo.
      assert (m_ctx m' = forgotten (m_ctx m) (m_maxDutyCycle m) (c_txps c)) as CC.
      { rewrite (core_ctx _ _ H0). pose proof (core_fields _ _ H4) as F. change (m_ctx (forgetNetwork c x)) with (forgotten (m_ctx x) (m_maxDutyCycle x) (c_txps c)).
        rewrite (core_ctx _ _ H4). f_equal. unfold same_core in F. change (m_maxDutyCycle (set_m_op OP_NONE m)) with (m_maxDutyCycle m) in F. tauto. }
      rewrite CC. split; [apply cc_forget|]. apply Forall_app. split; [apply no_sess_saved; destruct (m_state m); reflexivity|].
      apply Forall_app. split; [apply no_sess_saved; destruct (m_op m); reflexivity|]. now apply saved_one.
  - pose proof (core_ctx _ _ H2) as CC. change (m_ctx (set_m_ctx s (set_m_maxDutyCycle d m))) with s in CC. subst s.
    split. { rewrite H5. apply cc_tune; [rewrite <- H5; exact H|exact H1]. }
    destruct H4 as [E|E]; rewrite E in L; [apply same_log_tail in L|apply app_tail in L]; subst lo; [constructor|now apply saved_one].
Qed.

(* --- invariants --- *)

Definition saved_all (Q : session -> Prop) (l : list out) : Prop :=
  Forall (fun o => match o with OEvent (EV_SESSION_UPDATED t) => Q t | _ => True end) l.
Lemma saved_all_app Q l l' : saved_all Q l -> saved_all Q l' -> saved_all Q (l ++ l').
Proof. intros. apply Forall_app. auto. Qed.
Lemma saved_as_all (Q : session -> Prop) s l : Q s -> Forall (saved_as s) l -> saved_all Q l.
Proof. intros HQ. apply Forall_impl. intros o. destruct o as [[]| | | |]; cbn; intros; subst; auto. Qed.
Lemma saved_all_in Q l s : saved_all Q l -> In (OEvent (EV_SESSION_UPDATED s)) l -> Q s.
Proof. intros H I. exact (proj1 (Forall_forall _ _) H _ I). Qed.

Theorem session_inv c (ok : env * call -> Prop) (Q : session -> Prop) :
  (forall e k m s, ok (e, k) -> so (m_op m) (m_state m) = true -> Q (m_ctx m) -> ctx_case c e m k s -> Q s) ->
  forall h m, so (m_op m) (m_state m) = true -> Q (m_ctx m) -> saved_all Q (m_log m) -> Forall ok h ->
  Q (m_ctx (run c h m)) /\ saved_all Q (m_log (run c h m)).
Proof.
  intros HQ h m S0 Q0 L0 OK.
  pose proof (hist_ind c ok (fun _ x => so (m_op x) (m_state x) = true /\ Q (m_ctx x) /\ saved_all Q (m_log x))) as H.
  destruct (fun A B => H A B h [] m (conj S0 (conj Q0 L0)) OK) as (_ & R); [| |exact R].
  - intros _ x x' lo (S & QX & LX) QQ E P. pose proof (quiet_so _ _ QQ S) as S'. destruct QQ as [[C _] _].
    split; [exact S'|]. rewrite (core_ctx _ _ C), E. split; [exact QX|]. apply saved_all_app; [exact LX|].
    apply (saved_as_all Q (m_ctx x) _ QX), no_sess_saved, plain_no_sess, P.
  - intros _ x e k r x' lo (S & QX & LX) OKK A E. pose proof (act_so _ _ _ _ _ _ A S) as S'. split; [exact S'|].
    destruct (act_ctx _ _ _ _ _ _ _ A E) as [CC SV]. pose proof (HQ _ _ _ _ OKK S QX CC) as Q'. split; [exact Q'|].
    rewrite E. apply saved_all_app; [exact LX|]. exact (saved_as_all Q _ _ Q' SV).
Qed.
