(* Induction over histories, and which states go with which operations. *)
From Verif Require Import Lib FrameM CommandsM RegionM RadioM SmM MacStateM MacTac MacUtilM OpsM MacCmdM MacProcM MacApiM MacRw CoreP CaseP RxP SpecHist.

Lemma each_nil {A} (G : list A -> A -> Prop) : each G [].
Proof. intros pre x post H. destruct pre; discriminate. Qed.

Lemma each_app {A} (G : list A -> A -> Prop) l l' :
  each G l -> each (fun p x => G (l ++ p) x) l' -> each G (l ++ l').
Proof.
  intros H1 H2 pre x post E. apply app_eq_app in E. destruct E as (d & [[E1 E2]|[E1 E2]]).
  - destruct d as [|y d].
    + rewrite app_nil_r in E1. subst. cbn in E2. specialize (H2 [] x post (eq_sym E2)). cbv beta in H2. now rewrite app_nil_r in H2.
    + injection E2. intros. subst. apply (H1 pre y d). reflexivity.
  - rewrite E1. apply (H2 d x post). exact E2.
Qed.

Lemma each_Forall {A} (P : A -> Prop) l : (forall x, In x l -> P x) -> each (fun _ x => P x) l.
Proof. intros H pre x post E. apply H. rewrite E. apply in_or_app. right. now left. Qed.

Lemma each_weaken {A} (G G' : list A -> A -> Prop) l : each G l -> (forall p x, G p x -> G' p x) -> each G' l.
Proof. intros H1 H2 pre x post E. apply H2. exact (H1 _ _ _ E). Qed.

Definition reqs (k : call) (r : ret) : list item := match k with C_process => [] | _ => [IReq k r] end.

Lemma new_out_app m m' lo : m_log m' = m_log m ++ lo -> new_out m m' = lo.
Proof. intros E. unfold new_out. rewrite E, skipn_app, skipn_all, Nat.sub_diag. reflexivity. Qed.

Lemma miss_log c e m m' : miss_case c e m m' -> exists lo, m_log m' = m_log m ++ lo.
Proof. destruct 1 as [m2 ? ? ? ? L|m2 ? p ? ? L|m2 ? ? ? ? L|m2 ? ? ? ? L|]; try (eexists; exact L).
  - exists []. now rewrite app_nil_r.
  - exists []. now rewrite app_nil_r.
Qed.

Lemma act_log c e m k r m' : act c e m k r m' -> exists lo, m_log m' = m_log m ++ lo.
Proof.
  intros HA. induction HA; try (eexists; eassumption); try (exists []; rewrite app_nil_r; first [reflexivity|assumption]).
  - destruct H as [_ (l & E & _)]. eauto.
  - eapply miss_log; eauto.
  - apply miss_log in H1. destruct H1 as (lo & E). exists (lo ++ [OMode MODE_RESET]). rewrite H4, E, app_assoc. reflexivity.
  - destruct (data_received_frame c e buf f m) as (s & l & _ & _ & _ & L & _). cbv zeta in L.
    unfold pushSessionUpdate, notify, emit. ms. rewrite L, <- app_assoc. eauto.
  - destruct (join_accepted_frame c buf f m) as (s & l & _ & _ & _ & L & _). cbv zeta in L.
    unfold pushSessionUpdate, notify, emit. ms. rewrite L, <- app_assoc. eauto.
  - exists []. rewrite H, app_nil_r. reflexivity.
  - destruct IHHA as (lo & E). rewrite H2, E, <- app_assoc. eauto.
  - destruct H4 as [E|E]; rewrite E; [exists []; now rewrite app_nil_r|eauto].
Qed.

Lemma quiet_log m m' : quiet m m' -> exists lo, m_log m' = m_log m ++ lo /\ forallb plain lo = true.
Proof. intros [[_ (l & E)] _]. eauto. Qed.

Theorem hist_ind c (ok : env * call -> Prop) (I : list item -> mac -> Prop) :
  (forall l m m' lo, I l m -> quiet m m' -> m_log m' = m_log m ++ lo -> forallb plain lo = true ->
     I (l ++ map IOut lo) m') ->
  (forall l m e k r m' lo, I l m -> ok (e, k) -> act c e m k r m' -> m_log m' = m_log m ++ lo ->
     I (l ++ reqs k r ++ map IOut lo) m') ->
  forall h l m, I l m -> Forall ok h -> I (l ++ items c h m) (run c h m).
Proof.
  intros HQ HA. induction h as [|[e k] h IH]; intros l m Hm Hh.
  - cbn [items run]. now rewrite app_nil_r.
  - inversion Hh as [|x y Hok Hh']; subst. cbn [items run]. rewrite app_assoc. apply IH; [|exact Hh'].
    destruct (step_cases c e k m) as (m1 & m2 & Q1 & A & Q2 & E1).
    destruct (quiet_log _ _ Q1) as (l1 & L1 & P1). destruct (quiet_log _ _ Q2) as (l2 & L2 & P2).
    destruct (act_log _ _ _ _ _ _ A) as (la & LA).
    pose proof (HQ l m m1 l1 Hm Q1 L1 P1) as I1.
    pose proof (HA _ _ e k _ _ la I1 Hok A LA) as I2.
    pose proof (HQ _ _ _ l2 I2 Q2 L2 P2) as I3.
    assert (m_log (fst (step c e k m)) = m_log m ++ l1 ++ la ++ l2) as LL by (rewrite L2, LA, L1, <- !app_assoc; reflexivity).
    unfold step_items. rewrite (new_out_app _ _ _ LL), !map_app.
    assert (l ++ match k with C_process => [] | _ => [IReq k (snd (step c e k m))] end ++ map IOut l1 ++ map IOut la ++ map IOut l2
            = ((l ++ map IOut l1) ++ reqs k (snd (step c e k m)) ++ map IOut la) ++ map IOut l2) as ->.
    { unfold reqs. destruct k; try (cbn [app]; rewrite <- !app_assoc; reflexivity);
      (assert (l1 = []) as -> by (rewrite E1 in L1 by discriminate; apply (app_inv_head (m_log m)); rewrite <- L1, app_nil_r; reflexivity);
       cbn [map app]; rewrite app_nil_r, <- app_assoc; reflexivity). }
    exact I3.
Qed.

Lemma run_log c h : forall m, m_log (run c h m) = m_log m ++ flat_map (fun x => match x with IOut o => [o] | _ => [] end) (items c h m).
Proof.
  intros m. 
  pose proof (hist_ind c (fun _ => True) (fun l m' => m_log m' = m_log m ++ flat_map (fun x => match x with IOut o => [o] | _ => [] end) l)) as H.
  assert (forall lo, flat_map (fun x => match x with IOut o => [o] | _ => [] end) (map IOut lo) = lo) as HM
    by (induction lo as [|o lo IH]; cbn; [reflexivity|now rewrite IH]).
  specialize (fun A B => H A B h [] m). apply H.
  - intros l x x' lo E _ L _. rewrite L, E, flat_map_app, HM, app_assoc. reflexivity.
  - intros l x e k r x' lo E _ _ L. rewrite L, E, !flat_map_app, HM, <- app_assoc. f_equal.
    destruct k; reflexivity.
  - now rewrite app_nil_r.
  - apply Forall_forall. auto.
Qed.

(* --- states and operations --- *)

Definition so (op : mac_op) (s : mac_state) : bool :=
  match s with
  | ST_INIT | ST_RADIO_RESET | ST_RADIO_BOOT => match op with OP_REJOINING => false | _ => true end
  | ST_IDLE => match op with OP_NONE => true | _ => false end
  | ST_WAIT_ENTROPY | ST_START_RADIO_FOR_ENTROPY | ST_ENTROPY => match op with OP_ENTROPY => true | _ => false end
  | ST_WAIT_OTAA => match op with OP_JOINING => true | _ => false end
  | _ => match op with OP_JOINING | OP_DATA_CONFIRMED | OP_DATA_UNCONFIRMED => true | _ => false end
  end.

Lemma so_arrow op s s' : so op s = true -> arrow op s s' = true -> so op s' = true.
Proof. destruct s, s', op; cbn; intros; try reflexivity; discriminate. Qed.
Lemma so_idle s op : so op s = true -> op = OP_NONE -> forall op', op' <> OP_REJOINING -> forall w, so op' w = true -> so op' (start_state s w) = true.
Proof. intros H E op' N w W. subst. destruct s, op'; try discriminate H; try (now contradiction N); auto; exact W. Qed.
Lemma so_rx op s : so op s = true -> (s = ST_RX2_LOCKOUT \/ in_rx s = true \/ can_err s = true) -> is_data op = true \/ op = OP_JOINING.
Proof. intros H [E|[E|E]]; destruct s, op; try discriminate; auto. Qed.

Lemma core_op_eq m x : core m = core x -> m_op m = m_op x.
Proof. intros H. apply core_fields in H. apply H. Qed.

Lemma fillJoin_op c e n m : m_op (fillJoinBuffer c e n m) = m_op m.
Proof. destruct (fillJoin_fields c e n m) as (t & buf & len & dn & E & _). rewrite E. reflexivity. Qed.

Lemma miss_op c e m m' : miss_case c e m m' -> so (m_op m) (m_state m) = true ->
  m_state m = ST_RX2_LOCKOUT \/ in_rx (m_state m) = true \/ can_err (m_state m) = true ->
  (m_op m' = m_op m /\ (m_state m' = ST_WAIT_TX /\ is_data (m_op m) = true \/ m_state m' = ST_WAIT_OTAA /\ m_op m = OP_JOINING))
  \/ (m_op m' = OP_NONE /\ m_state m' = ST_IDLE).
Proof.
  intros HM HS HR. destruct (so_rx _ _ HS HR) as [D|J].
  - destruct HM as [m2 ? ? C S L|m2 ? p C S L|m2 O ? C S L|m2 O ? C S L|].
    + left. apply core_op_eq in C. split; [exact C|auto].
    + right. apply core_op_eq in C. auto.
    + left. apply core_op_eq in C. split; [|auto]. rewrite C. ms. rewrite fillJoin_op. reflexivity.
    + right. apply core_op_eq in C. auto.
    + congruence.
  - destruct HM as [m2 D ? C S L|m2 D p C S L|m2 O ? C S L|m2 O ? C S L|].
    + rewrite J in D. discriminate.
    + rewrite J in D. discriminate.
    + left. apply core_op_eq in C. split; [|auto]. rewrite C. ms. rewrite fillJoin_op. reflexivity.
    + right. apply core_op_eq in C. auto.
    + congruence.
Qed.

Lemma compose_op cf port data mtu l f g op st : compose cf port data mtu l f = (g, op, st) ->
  is_data op = true /\ (st = STATUS_OK \/ st = STATUS_MACPRIORITY).
Proof.
  unfold compose. cbv zeta. destruct (_ >? 15); [|destruct (_ >? mtu)]; intros H; injection H; intros; subst; auto.
  destruct cf; auto.
Qed.

Lemma data_filled_op c f x : m_op (data_filled c f x) = m_op x.
Proof. reflexivity. Qed.

Lemma act_so c e m k r m' : act c e m k r m' -> so (m_op m) (m_state m) = true -> so (m_op m') (m_state m') = true.
Proof.
  intros HA. induction HA; intros HS; auto.
  - destruct H as [C _]. rewrite (core_op_eq _ _ C). eapply so_arrow; eauto.
  - rewrite H0, (core_op_eq _ _ H1). rewrite H in HS. destruct (m_op m); auto.
  - rewrite H1, (core_op_eq _ _ H0). reflexivity.
  - destruct (miss_op _ _ _ _ H0 HS) as [(E & [[S D]|[S D]])|(E & S)]; [tauto|..]; rewrite E, S; try reflexivity.
    + destruct (m_op m); try discriminate D; reflexivity.
    + rewrite D. reflexivity.
  - rewrite H2, (core_op_eq _ _ H1). reflexivity.
  - rewrite H3, (core_op_eq _ _ H2). destruct (miss_op _ _ _ _ H1 HS) as [(E & _)|(E & _)]; [tauto|..]; rewrite E; [rewrite H0|]; reflexivity.
  - subst m'. exact HS.
  - rewrite H2, (core_op_eq _ _ H0). apply (so_idle _ _ HS H); [discriminate|reflexivity].
  - rewrite H4, (core_op_eq _ _ H2). apply (so_idle _ _ HS H); [discriminate|reflexivity].
  - rewrite H3, (core_op_eq _ _ H1). exact HS.
  - rewrite H8, (core_op_eq _ _ H6), data_filled_op. destruct (compose_op _ _ _ _ _ _ _ _ _ H5) as [D _].
    apply (so_idle _ _ HS H); ms; change (m_op (data_base c o tx op m)) with op; destruct op; try discriminate; reflexivity.
  - rewrite H1, (core_op_eq _ _ H0). destruct (m_state m); reflexivity.
  - rewrite H1, (core_op_eq _ _ H0). exact (IHHA HS).
  - rewrite H3, (core_op_eq _ _ H2). exact HS.
Qed.

Lemma quiet_op m m' : quiet m m' -> m_op m' = m_op m. Proof. intros [[C _] _]. now apply core_op_eq. Qed.
Lemma quiet_so m m' : quiet m m' -> so (m_op m) (m_state m) = true -> so (m_op m') (m_state m') = true.
Proof. intros Q. rewrite (quiet_op _ _ Q), (proj2 Q). auto. Qed.

Theorem so_always c h m : so (m_op m) (m_state m) = true -> so (m_op (run c h m)) (m_state (run c h m)) = true.
Proof.
  intros H. refine (hist_ind c (fun _ => True) (fun _ m => so (m_op m) (m_state m) = true) _ _ h [] m H _).
  - intros. eapply quiet_so; eauto.
  - intros. eapply act_so; eauto.
  - apply Forall_forall. auto.
Qed.

(* the state after LDL_MAC_init *)
Lemma init_facts c r a e : let m := MAC_init c r a e in
  m_op m = OP_NONE /\ m_state m = ST_INIT /\ m_log m = [] /\ m_devNonce m = ia_devNonce a /\ m_joinNonce m = ia_joinNonce a /\
  m_joinEUI m = ia_joinEUI a /\ m_devEUI m = ia_devEUI a /\ m_buffer m = fill 0 255 /\ m_bufferLen m = 0 /\ m_trials m = 0.
Proof.
  cbv zeta. open_def MAC_init. cbv zeta.
  set (m0 := initSession c r (mac_zero a)). 
  assert (exists x s, restoreSession c r (ia_session a) m0 = set_m_ctx x (set_m_sm s m0)) as (x & s & E).
  { unfold restoreSession. destruct (ia_session a) as [s|].
    - destruct (_ && _).
      + destruct (deriveKeys_sm c (set_m_ctx s m0)) as (l & E). exists s, (m_sm m0 ++ l). rewrite E. reflexivity.
      + exists (m_ctx m0), (m_sm m0). destruct m0; reflexivity.
    - exists (m_ctx m0), (m_sm m0). destruct m0; reflexivity. }
  rewrite E. clear E.
  assert (exists x', m0 = set_m_ctx x' (set_m_pendingACK false (set_m_fPending false (mac_zero a)))) as (x' & E0).
  { unfold m0, initSession, forgetNetwork. cbv zeta. unfold on_ctx. rewrite ctx_ctx. eexists. reflexivity. }
  clearbody m0. subst m0. m_unf. ms. repeat split; reflexivity.
Qed.
