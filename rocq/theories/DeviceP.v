(* What the methods of Device return (C75). *)
From Verif Require DataP.
From Verif Require Import Lib FrameM CommandsM RegionM RadioM MacStateM MacTac MacUtilM MacProcM MacApiM MacRw CoreP CaseP SpecHist HistP EndP DeviceM SpecDevice.

Notation kind_of := EndP.kind_of.

Lemma step_follow c e k m : so (m_op m) (m_state m) = true ->
  so (m_op (fst (step c e k m))) (m_state (fst (step c e k m))) = true /\
  fold_left follow (step_items c e k m) (Some (kind_of (m_op m))) = Some (kind_of (m_op (fst (step c e k m)))).
Proof.
  intros S.
  assert (exists l, in_progress l = Some (kind_of (m_op m))) as [l L].
  { destruct (kind_of (m_op m)) as [[]|].
    - exists [IReq C_entropy (RStatus STATUS_OK)]. reflexivity.
    - exists [IReq C_otaa (RStatus STATUS_OK)]. reflexivity.
    - exists [IReq (C_data false 0 None None) (RStatus STATUS_OK)]. reflexivity.
    - exists []. reflexivity. }
  destruct (watch_always c [(e, k)] l m (conj S L)) as [S' L']. cbn [items run] in *.
  rewrite app_nil_r, progress_app, L in L'. auto.
Qed.

(* an accepted operation is in progress when the call returns *)
Lemma started_busy c e k m s : operation k = true -> snd (step c e k m) = RStatus s -> accepted_ret (RStatus s) = true ->
  kind_of (m_op (fst (step c e k m))) <> None.
Proof.
  intros K R A. destruct (step_cases c e k m) as (m1 & m2 & Q1 & HA & Q2 & _). rewrite (quiet_op _ _ Q2). rewrite R in HA.
  remember (RStatus s) as r. remember m2 as x. 
  destruct HA; subst; try discriminate K; try discriminate Heqr.
  all: try (match goal with H : _ \/ exists _, _ |- _ => destruct H as [H|[? H]]; subst; discriminate end).
  - injection Heqr as ->. destruct s; try discriminate A; congruence.
  - rewrite (core_op_eq _ _ H0). discriminate.
  - rewrite (core_op_eq _ _ H2). discriminate.
  - rewrite (core_op_eq _ _ H6), data_filled_op. destruct (compose_op _ _ _ _ _ _ _ _ _ H5) as [D _].
    change (m_op (data_base c o tx op m1)) with op. destruct op; try discriminate D; discriminate.
  - destruct k; try discriminate K; contradiction.
Qed.

Definition ends_kind (ev : event) (kd : kind) : Prop := exists may, ends (IOut (OEvent ev)) = Some may /\ may kd = true.
Definition handle_all (lo : list out) (d : device) : device := fold_left (fun d o => handle_mac_event o d) lo d.

Lemma handle_same lo : forall d, let d' := handle_all lo d in
  d_mac d' = d_mac d /\ d_sem d' = d_sem d /\ d_threads d' = d_threads d /\ d_log d' = d_log d.
Proof.
  induction lo as [|o lo IH]; intros d; [cbv zeta; auto|]. unfold handle_all in *. cbn [fold_left]. cbv zeta in *.
  destruct (IH (handle_mac_event o d)) as (-> & -> & -> & ->). destruct o as [[]| | | |]; cbn; auto.
Qed.

Lemma handle_inert lo : forall d, forallb inert lo = true -> d_op (handle_all lo d) = d_op d /\ d_entropy (handle_all lo d) = d_entropy d.
Proof.
  induction lo as [|o lo IH]; intros d H; [auto|]. cbn [forallb] in H. apply andb_true_iff in H as [H1 H2].
  unfold handle_all in *. cbn [fold_left]. destruct (IH (handle_mac_event o d) H2) as [-> ->].
  destruct o as [[]| | | |]; try discriminate H1; auto.
Qed.

Lemma note_inert lo acc : forallb inert lo = true -> fold_left note (map IOut lo) acc = acc.
Proof.
  revert acc. induction lo as [|o lo IH]; intros acc H; [reflexivity|]. cbn [forallb] in H. apply andb_true_iff in H as [H1 H2].
  cbn [map fold_left]. rewrite IH by exact H2. destruct o as [ev| | | |]; try reflexivity. cbn [note].
  unfold inert in H1. destruct (is_end (IOut (OEvent ev))); [discriminate|]. now destruct acc as [[[? ?] ?]|].
Qed.

(* at most one event of a call ends an operation *)
Lemma split_end lo cur res : fold_left follow (map IOut lo) (Some cur) = Some res ->
  (forallb inert lo = true /\ res = cur) \/
  (exists a ev b kd, lo = a ++ OEvent ev :: b /\ forallb inert a = true /\ forallb inert b = true /\
                     is_end (IOut (OEvent ev)) = true /\ cur = Some kd /\ ends_kind ev kd /\ res = None).
Proof.
  revert cur. induction lo as [|o lo IH]; intros cur H; [left; cbn in H; split; [reflexivity|congruence]|].
  cbn [map fold_left] in H. destruct (inert o) eqn:I.
  - assert (follow (Some cur) (IOut o) = Some cur) as E.
    { unfold inert, is_end in I. unfold follow. cbn [starts]. destruct (ends (IOut o)); [discriminate|reflexivity]. }
    rewrite E in H. destruct (IH cur H) as [[P R]|(a & ev & b & kd & -> & A & B & E1 & C & K & R)].
    + left. cbn [forallb]. now rewrite I, P.
    + right. exists (o :: a), ev, b, kd. cbn [forallb]. rewrite I, A. repeat split; auto.
  - right. unfold inert in I. apply negb_false_iff in I. destruct o as [ev| | | |]; try discriminate I.
    unfold follow in H at 2. cbn [starts] in H. unfold is_end in I. destruct (ends (IOut (OEvent ev))) as [may|] eqn:En; [|discriminate].
    destruct cur as [kd|]; [|rewrite follow_none in H; discriminate]. destruct (may kd) eqn:M; [|rewrite follow_none in H; discriminate].
    destruct (IH None H) as [[P R]|(? & ? & ? & ? & _ & _ & _ & _ & C & _)]; [|discriminate].
    exists [], ev, lo, kd. cbn [app forallb]. unfold is_end. rewrite En. repeat split; auto. now exists may.
Qed.

Lemma handle_end a ev b d : forallb inert a = true -> forallb inert b = true -> is_end (IOut (OEvent ev)) = true ->
  d_op (handle_all (a ++ OEvent ev :: b) d) = Z.lor (d_op d) (flag ev) /\
  (forall v, ev = EV_ENTROPY v -> d_entropy (handle_all (a ++ OEvent ev :: b) d) = v).
Proof.
  intros A B E. unfold handle_all. rewrite fold_left_app. cbn [fold_left].
  destruct (handle_inert b (handle_mac_event (OEvent ev) (handle_all a d)) B) as [H1 H2].
  destruct (handle_inert a d A) as [H3 H4]. unfold handle_all in *. rewrite H1, H2.
  split; [|intros v ->; reflexivity]. destruct ev; try discriminate E; cbn [handle_mac_event set_op d_op]; now rewrite H3.
Qed.
Lemma note_end a ev b k r l : forallb inert a = true -> forallb inert b = true -> is_end (IOut (OEvent ev)) = true ->
  fold_left note (map IOut (a ++ OEvent ev :: b)) (Some (k, r, l)) = Some (k, r, l ++ [ev]).
Proof.
  intros A B E. rewrite map_app, fold_left_app, (note_inert a) by exact A. cbn [map fold_left].
  rewrite note_inert by exact B. cbn [note]. now rewrite E.
Qed.

Definition note_call (k : call) (r : ret) (acc : option (call * ret * list event)) :=
  if operation k then Some (k, r, []) else acc.

Lemma items_split c e k m : exists lo, step_items c e k m = match k with C_process => [] | _ => [IReq k (snd (step c e k m))] end ++ map IOut lo /\
  lo = new_out m (fst (step c e k m)).
Proof. eexists. split; reflexivity. Qed.

Definition watched (d : device) : Prop := so (m_op (d_mac d)) (m_state (d_mac d)) = true.
Definition op_kind (d : device) : option kind := kind_of (m_op (d_mac d)).

Lemma call_same c e k d : let d' := mac_call c e k d in
  d_mac d' = fst (step c e k (d_mac d)) /\ d_sem d' = d_sem d /\ d_threads d' = d_threads d /\ d_log d' = d_log d ++ step_items c e k (d_mac d).
Proof.
  exact (handle_same (new_out (d_mac d) (fst (step c e k (d_mac d))))
    (mkDevice (fst (step c e k (d_mac d))) (d_op d) (d_band d) (d_sem d) (d_entropy d) (d_threads d) (d_log d ++ step_items c e k (d_mac d)))).
Qed.

(* a call that asks for no operation *)
Lemma call_other c e k d : watched d -> operation k = false -> let d' := mac_call c e k d in
  watched d' /\
  ((op_kind d' = op_kind d /\ d_op d' = d_op d /\ d_entropy d' = d_entropy d /\ last_op (d_log d') = last_op (d_log d)) \/
   (exists ev kd, op_kind d = Some kd /\ ends_kind ev kd /\ op_kind d' = None /\ d_op d' = Z.lor (d_op d) (flag ev) /\
      (forall v, ev = EV_ENTROPY v -> d_entropy d' = v) /\
      (forall x r l, last_op (d_log d) = Some (x, r, l) -> last_op (d_log d') = Some (x, r, l ++ [ev])))).
Proof.
  intros S K d'. destruct (call_same c e k d) as (M & _ & _ & L). fold d' in M, L.
  destruct (step_follow c e k (d_mac d) S) as [S' F]. split; [unfold watched; now rewrite M|].
  unfold op_kind. rewrite M, L. unfold last_op. rewrite fold_left_app. fold (last_op (d_log d)).
  destruct (items_split c e k (d_mac d)) as (lo & E & N). rewrite E in *.
  assert (forall s, fold_left follow (match k with C_process => [] | _ => [IReq k (snd (step c e k (d_mac d)))] end) (Some s) = Some s) as F0
    by (intros s; destruct k; try discriminate K; reflexivity).
  assert (forall s, fold_left note (match k with C_process => [] | _ => [IReq k (snd (step c e k (d_mac d)))] end) s = s) as N0
    by (intros s; destruct k; try discriminate K; reflexivity).
  rewrite fold_left_app, F0 in F. rewrite fold_left_app, N0.
  assert (d' = handle_all lo (mkDevice (fst (step c e k (d_mac d))) (d_op d) (d_band d) (d_sem d) (d_entropy d) (d_threads d) (d_log d ++ step_items c e k (d_mac d)))) as ->
    by (rewrite N; reflexivity).
  destruct (split_end lo _ _ F) as [[P R]|(a & ev & b & kd & -> & A & B & E1 & C & KE & R)].
  - left. destruct (handle_inert lo (mkDevice (fst (step c e k (d_mac d))) (d_op d) (d_band d) (d_sem d) (d_entropy d) (d_threads d) (d_log d ++ step_items c e k (d_mac d))) P) as [-> ->].
    rewrite note_inert by exact P. auto.
  - right. exists ev, kd.
    destruct (handle_end a ev b (mkDevice (fst (step c e k (d_mac d))) (d_op d) (d_band d) (d_sem d) (d_entropy d) (d_threads d) (d_log d ++ step_items c e k (d_mac d))) A B E1) as [H1 H2].
    repeat split; auto.
    intros x r l ->. now apply note_end.
Qed.

(* an operation asked for while none is in progress *)
Lemma call_operation c e j d : watched d -> operates j = true -> op_kind d = None ->
  let k := job_call j in let d' := mac_call c e k d in let r := snd (step c e k (d_mac d)) in
  watched d' /\ (exists s, r = RStatus s) /\ last_op (d_log d') = Some (k, r, []) /\ d_op d' = d_op d /\
  op_kind d' = (if accepted_ret r then Some (job_kind j) else None) /\
  (r = RStatus STATUS_MACPRIORITY -> DeviceM.is_data j = true).
Proof.
  intros S K I k d' r. destruct (call_same c e k d) as (M & _ & _ & L). fold d' in M, L.
  destruct (step_follow c e k (d_mac d) S) as [S' F]. split; [unfold watched; now rewrite M|].
  assert (operation k = true) as KO by (destruct j; try discriminate K; reflexivity).
  assert (exists s, r = RStatus s) as [s R] by (unfold r, k; destruct j; try discriminate K; cbn [job_call step]; unfold st_ret; eexists; reflexivity).
  split; [eauto|]. unfold op_kind. rewrite M, L. unfold last_op. rewrite fold_left_app. fold (last_op (d_log d)).
  destruct (items_split c e k (d_mac d)) as (lo & E & N). rewrite E in *. fold r in E, F |- *.
  assert (match k with C_process => [] | _ => [IReq k r] end = [IReq k r]) as E0 by (destruct k; try discriminate KO; reflexivity).
  rewrite E0 in *. cbn [app fold_left note] in F |- *. rewrite KO. unfold op_kind in I. rewrite I in F.
  assert (d' = handle_all lo (mkDevice (fst (step c e k (d_mac d))) (d_op d) (d_band d) (d_sem d) (d_entropy d) (d_threads d) (d_log d ++ step_items c e k (d_mac d)))) as ->
    by (rewrite N; reflexivity).
  assert (exists cur, follow (Some None) (IReq k r) = Some cur /\
          (cur = None \/ (cur = Some (job_kind j) /\ accepted_ret r = true)) /\ (accepted_ret r = true -> r = RStatus STATUS_MACPRIORITY -> cur <> None -> DeviceM.is_data j = true)) as (cur & Fc & Hc & MP).
  { unfold k in *. rewrite R. destruct j; try discriminate K; destruct s; cbn; eexists; (split; [reflexivity|]); split; auto; try discriminate; congruence. }
  rewrite Fc in F.
  assert (accepted_ret r = true -> kind_of (m_op (fst (step c e k (d_mac d)))) <> None) as AB.
  { intros A. unfold r in R. eapply started_busy; eauto. unfold r in A. now rewrite R in A. }
  assert (forallb inert lo = true /\ kind_of (m_op (fst (step c e k (d_mac d)))) = cur) as [P Q].
  { destruct (split_end lo _ _ F) as [?|(a & ev & b & kd & _ & _ & _ & _ & C & _ & Rn)]; [assumption|].
    destruct Hc as [->|[-> A]]; [discriminate|]. now destruct (AB A). }
  rewrite note_inert by exact P.
  destruct (handle_inert lo (mkDevice (fst (step c e k (d_mac d))) (d_op d) (d_band d) (d_sem d) (d_entropy d) (d_threads d) (d_log d ++ step_items c e k (d_mac d))) P) as [-> _].
  split; [reflexivity|]. split; [reflexivity|]. rewrite Q.
  destruct (accepted_ret r) eqn:A.
  - destruct Hc as [->|[-> _]]; [now destruct (AB eq_refl)|]. split; [reflexivity|]. intros Em. apply MP; auto. discriminate.
  - destruct Hc as [->|[_ ?]]; [|discriminate]. split; [reflexivity|]. intros Em. rewrite Em in A. discriminate.
Qed.

(* --- the invariant of one operating thread ----------------------------------- *)

Definition idle (d : device) : Prop := d_op d = 0 /\ op_kind d = None.
Definition waits (j : job) (first : bool) (d : device) : Prop :=
  exists evs, last_op (d_log d) = Some (job_call j, RStatus (if first then STATUS_MACPRIORITY else STATUS_OK), evs) /\
  operates j = true /\ (first = true -> DeviceM.is_data j = true) /\
  ((evs = [] /\ d_op d = 0 /\ op_kind d = Some (job_kind j)) \/
   (exists ev, evs = [ev] /\ d_op d = flag ev /\ ends_kind ev (job_kind j) /\ op_kind d = None /\
               (forall v, ev = EV_ENTROPY v -> d_entropy d = v))).
Definition bystander (t : thread) : Prop :=
  match t with T_queue j => operates j = false | T_op _ _ | T_band _ | T_drop => False | _ => True end.
Definition operator (t : thread) (d : device) : Prop :=
  match t with
  | T_none => idle d /\ d_sem d = true
  | T_queue j => idle d /\ d_sem d = negb (DeviceM.is_data j)
  | T_op j first => waits j first d /\ d_sem d = negb (DeviceM.is_data j)
  | T_band j => idle d /\ d_sem d = false /\ DeviceM.is_data j = true /\
                last_op (d_log d) = Some (job_call j, RStatus STATUS_NOCHANNEL, [])
  | T_drop => False
  | T_done j s v => idle d /\ d_sem d = true /\ (operates j = true -> told j s v (d_log d))
  end.
Definition Inv (d : device) : Prop :=
  watched d /\ (forall i, i <> 0%nat -> bystander (d_threads d i)) /\ operator (d_threads d 0%nat) d.

Lemma told_same j s v l l' : last_op l' = last_op l -> told j s v l -> told j s v l'.
Proof. intros E (r & evs & H & K). exists r, evs. now rewrite E. Qed.

(* the operator is left alone by calls that ask for no operation *)
Lemma operator_call c e k d t : watched d -> operation k = false -> operator t d -> operator t (mac_call c e k d).
Proof.
  intros S K H. destruct (call_same c e k d) as (_ & Sem & _ & _). cbv zeta in Sem.
  destruct (call_other c e k d S K) as [_ [(Q & O & E & L)|(ev & kd & Q & EK & Q' & O & E & L)]]; cbv zeta in *.
  - destruct t; unfold operator, idle, waits in *; rewrite ?Sem, ?Q, ?O, ?E, ?L; auto.
    destruct H as (I & Se & T). repeat split; auto; try apply I. intros U. apply (told_same _ _ _ _ _ L). auto.
  - destruct t; unfold operator, idle in *; try (destruct H as [[_ H] _]; congruence); [|contradiction].
    rewrite Sem. destruct H as [(evs & W & OP & F & [(-> & O0 & Qk)|(ev' & _ & _ & _ & Qn & _)]) Se]; [|congruence].
    split; [|exact Se]. exists [ev]. specialize (L _ _ _ W). split; [exact L|]. split; [exact OP|]. split; [exact F|].
    right. exists ev. rewrite O, O0, Q'. assert (kd = job_kind j) as -> by congruence. repeat split; auto.
Qed.

Lemma threads_call c e k d : d_threads (mac_call c e k d) = d_threads d. Proof. exact (proj1 (proj2 (proj2 (call_same c e k d)))). Qed.

Lemma inv_call c e k d : Inv d -> operation k = false -> Inv (mac_call c e k d).
Proof.
  intros (S & B & O) K. destruct (call_other c e k d S K) as [S' _]. split; [exact S'|]. rewrite threads_call.
  split; [exact B|]. now apply operator_call.
Qed.

Lemma set_other i t d : i <> 0%nat -> Inv d -> bystander t -> Inv (set_thread i t d).
Proof.
  intros N (S & B & O) T. split; [exact S|]. split.
  - intros x X. cbn. destruct (Nat.eqb_spec x i); [exact T|now apply B].
  - cbn. destruct i as [|i]; [congruence|]. exact O.
Qed.
Lemma set_zero t d : watched d -> (forall i, i <> 0%nat -> bystander (d_threads d i)) -> operator t d -> Inv (set_thread 0 t d).
Proof.
  intros S B O. split; [exact S|]. split.
  - intros x X. cbn. destruct (Nat.eqb_spec x 0); [congruence|now apply B].
  - cbn. destruct t; exact O.
Qed.

(* --- the switches --- *)
Lemma mask_sees j ev first : operates j = true -> (first = true -> DeviceM.is_data j = true) -> ends_kind ev (job_kind j) ->
  Z.land (flag ev) (mask j) <> 0 /\ Z.ldiff (flag ev) (mask j) = 0 /\
  result j first (flag ev) = (if first && match ev with EV_DATA_COMPLETE => true | _ => false end then None else Some (answer first ev)) /\
  answer first ev <> D_TIMEOUT.
Proof.
  intros O F (may & E & M). destruct j; try discriminate O; (destruct first; [try discriminate (F eq_refl)|]); destruct ev; cbn in E; try discriminate E; injection E as <-; try discriminate M;
  repeat split; try discriminate; vm_compute; try reflexivity; discriminate.
Qed.

Lemma wait_wakes j first d : waits j first d -> op_kind d = None -> Z.land (d_op d) (mask j) =? 0 = false.
Proof.
  intros (evs & _ & OP & F & [(_ & _ & Q)|(ev & _ & O & K & _)]) N; [congruence|].
  destruct (mask_sees j ev first OP F K) as (M & _). rewrite O. now apply Z.eqb_neq.
Qed.

Lemma sem_zero v d t : operator t d -> (match t with T_op j _ | T_queue j => v = negb (DeviceM.is_data j) | T_band _ => v = false | T_drop => False | _ => v = true end) -> operator t (set_sem v d).
Proof. destruct t; cbn; tauto. Qed.

Lemma done_zero j s v d : watched d -> (forall i, i <> 0%nat -> bystander (d_threads d i)) -> idle d -> d_sem d = negb (DeviceM.is_data j) ->
  (operates j = true -> told j s v (d_log d)) -> Inv (done 0 j s v d).
Proof.
  intros S B I Se T. unfold done. destruct (DeviceM.is_data j) eqn:D.
  - apply (set_zero _ (set_sem true d)); auto. cbn. auto.
  - apply set_zero; auto. cbn. auto.
Qed.

Theorem inv_step c x d : one_operator x -> Inv d -> Inv (dstep c x d).
Proof.
  intros X H. destruct x as [e|e t|i j|i e|i|i]; [| | | | |contradiction].
  - now apply inv_call.
  - now apply inv_call.
  - (* a method is called *)
    cbn [dstep]. destruct (in_method (d_threads d i)) eqn:IM; [exact H|]. destruct H as (S & B & O).
    destruct X as [->|X].
    + assert (idle d /\ d_sem d = true) as [I Se].
      { destruct (d_threads d 0%nat); try discriminate IM; cbn in O; tauto. }
      destruct (DeviceM.is_data j) eqn:D.
      * rewrite Se. apply (set_zero _ (set_sem false d)); auto. cbn. rewrite D. auto.
      * apply set_zero; auto. cbn. rewrite D. auto.
    + destruct (DeviceM.is_data j) eqn:D; [destruct j; discriminate|].
      destruct i as [|i].
      * apply set_zero; auto. cbn. rewrite D. destruct (d_threads d 0%nat); try discriminate IM; cbn in O; tauto.
      * apply set_other; [discriminate|repeat split; auto|exact X].
  - (* a request is served *)
    cbn [dstep]. pose proof H as (S & B & O). destruct (d_threads d i) as [|j|j f|j| |j s v] eqn:T; try exact H.
    + destruct (operates j) eqn:OP.
      * assert (i = 0%nat) as -> by (destruct i as [|i]; [reflexivity|]; specialize (B (Datatypes.S i) ltac:(discriminate)); rewrite T in B; cbn in B; congruence).
        rewrite T in O. destruct O as [[O0 Q] Se].
        destruct (call_operation c e j d S OP Q) as (S' & [s R] & L & O' & Q' & MP). cbv zeta in *.
        pose proof (call_same c e (job_call j) d) as (_ & Sem & Th & _). cbv zeta in *.
        set (d' := mac_call c e (job_call j) d) in *.
        assert (forall i, i <> 0%nat -> bystander (d_threads d' i)) as B' by (intros; rewrite Th; auto).
        rewrite R in L, Q', MP. rewrite Se in Sem. rewrite O0 in O'.
        assert (forall st, st <> STATUS_OK -> st <> STATUS_MACPRIORITY -> s = st -> Inv (done 0 j (D_mac (RStatus st)) 0 d')) as Ref.
        { intros st N1 N2 ->. apply done_zero; auto.
          - split; [exact O'|]. rewrite Q'. destruct st; auto; congruence.
          - intros _. exists (RStatus st), []. split; [exact L|]. destruct st; try (repeat split; reflexivity); congruence. }
        assert (s = STATUS_OK -> operator (T_op j false) (set_op 0 d')) as Ok.
        { intros ->. split; [|exact Sem]. exists []. split; [exact L|]. split; [exact OP|]. split; [discriminate|]. left. repeat split. exact Q'. }
        assert (s = STATUS_OK -> operator (T_op j false) d') as Ok'.
        { intros ->. split; [|exact Sem]. exists []. split; [exact L|]. split; [exact OP|]. split; [discriminate|]. left. repeat split; [exact O'|exact Q']. }
        unfold serve. rewrite R. fold d'.
        destruct j; try discriminate OP; (destruct s; try (apply Ref; (discriminate || reflexivity))).
        -- apply (set_zero _ (set_op 0 d')); auto.
        -- apply (set_zero _ (set_band false d')); auto. cbn. repeat split; auto.
        -- apply set_zero; auto. split; [|exact Sem]. exists []. split; [exact L|]. split; [exact OP|]. split; [auto|]. left. repeat split; [exact O'|exact Q'].
        -- apply (set_zero _ (set_op 0 d')); auto.
        -- exfalso. discriminate (MP eq_refl).
        -- apply set_zero; auto.
        -- exfalso. discriminate (MP eq_refl).
      * assert (operation (job_call j) = false) as K by (destruct j; try discriminate OP; reflexivity).
        pose proof (inv_call c e (job_call j) d H K) as (S' & B' & O').
        pose proof (threads_call c e (job_call j) d) as Th.
        assert (forall s, Inv (done i j s 0 (mac_call c e (job_call j) d))) as G.
        { intros s. destruct i as [|i].
          - rewrite Th, T in O'. destruct O' as [I Se]. apply done_zero; auto. congruence.
          - unfold done. destruct (DeviceM.is_data j) eqn:D; [destruct j; discriminate|].
            apply set_other; [discriminate|repeat split; auto|exact I]. }
        unfold serve. destruct j; try discriminate OP; apply G.
    + destruct i as [|i]; [rewrite T in O; destruct O|]. specialize (B (Datatypes.S i) ltac:(discriminate)). rewrite T in B. destruct B.
  - (* a wait ends *)
    cbn [dstep]. pose proof H as (S & B & O). destruct (d_threads d i) as [|j|j f|j| |j s v] eqn:T; try exact H.
    + destruct (Z.land (d_op d) (mask j) =? 0) eqn:Z0; [exact H|].
      assert (i = 0%nat) as -> by (destruct i as [|i]; [reflexivity|]; specialize (B (Datatypes.S i) ltac:(discriminate)); rewrite T in B; destruct B).
      rewrite T in O. destruct O as [(evs & L & OP & F & [(_ & O0 & _)|(ev & -> & O0 & K & Q & V)]) Se]; [rewrite O0 in Z0; discriminate|].
      destruct (mask_sees j ev f OP F K) as (M & LD & R & NT). cbv zeta. rewrite O0, LD, R.
      set (d1 := set_op 0 d). assert (idle d1) as I1 by (split; [reflexivity|exact Q]).
      destruct (f && match ev with EV_DATA_COMPLETE => true | _ => false end) eqn:FE.
      * apply (set_zero (T_queue j) d1); auto. split; auto.
      * assert (forall v, v = number ev -> Inv (done 0 j (answer f ev) v d1)) as G.
        { intros v ->. apply done_zero; auto. intros _. exists (RStatus (if f then STATUS_MACPRIORITY else STATUS_OK)), [ev]. split; [exact L|].
          destruct f; cbn [accepted_ret]; exists ev; repeat split; auto; try discriminate. intros _ ->. discriminate FE. }
        destruct (answer f ev) eqn:AE; try congruence; apply G; change (d_entropy d1) with (d_entropy d);
        destruct K as (may & E & Mk); destruct j; try discriminate OP; destruct ev; cbn in E; try discriminate E; injection E as <-; try discriminate Mk; try reflexivity; try discriminate AE;
        try (now apply V); now destruct f.
    + destruct (d_band d); [|exact H].
      assert (i = 0%nat) as -> by (destruct i as [|i]; [reflexivity|]; specialize (B (Datatypes.S i) ltac:(discriminate)); rewrite T in B; destruct B).
      rewrite T in O. destruct O as (I & Se & D & L). apply done_zero; auto; [cbn; now rewrite D|].
      intros _. exists (RStatus STATUS_NOCHANNEL), []. cbn. auto.
Qed.

Lemma inv_run c l : forall d, Forall one_operator l -> Inv d -> Inv (drun c l d).
Proof.
  induction l as [|x l IH]; intros d F H; [exact H|]. inversion F. subst. cbn [drun fold_left]. apply IH; auto. now apply inv_step.
Qed.

Lemma inv_start m : so (m_op m) (m_state m) = true -> m_op m = OP_NONE -> Inv (device_start m).
Proof. intros S O. split; [exact S|]. split; [intros; exact I|]. repeat split. unfold op_kind. cbn. now rewrite O. Qed.
Lemma inv_init c r a e l : Forall one_operator l -> Inv (drun c l (device_start (MAC_init c r a e))).
Proof.
  intros F. apply inv_run; [exact F|]. destruct (init_facts c r a e) as (O & S & _). cbv zeta in *. apply inv_start; [now rewrite O, S|exact O].
Qed.

Theorem results c r a e l j s v : Forall one_operator l ->
  let d := drun c l (device_start (MAC_init c r a e)) in
  d_threads d 0%nat = T_done j s v -> operates j = true -> told j s v (d_log d).
Proof.
  intros F d T OP. destruct (inv_init c r a e l F) as (_ & _ & O). fold d in O. rewrite T in O. now apply O.
Qed.

Theorem never_stuck c r a e l j first : Forall one_operator l ->
  let d := drun c l (device_start (MAC_init c r a e)) in
  d_threads d 0%nat = T_op j first ->
  SpecDevice.kind_of (m_op (d_mac d)) = Some (job_kind j) \/
  (exists s v, d_threads (dstep c (M_wake 0) d) 0%nat = T_done j s v) \/
  (first = true /\ d_threads (dstep c (M_wake 0) d) 0%nat = T_queue j).
Proof.
  intros F d T. destruct (inv_init c r a e l F) as (_ & _ & O). fold d in O. rewrite T in O. destruct O as [W Se].
  destruct (op_kind d) as [kd|] eqn:Q.
  - left. destruct W as (evs & _ & _ & _ & [(_ & _ & H)|(ev & _ & _ & _ & H & _)]); [exact H|]. congruence.
  - right. cbn [dstep]. rewrite T, (wait_wakes j first d W Q). cbv zeta.
    destruct W as (evs & _ & OP & Fi & [(_ & _ & H)|(ev & _ & O & K & _)]); [congruence|].
    destruct (mask_sees j ev first OP Fi K) as (_ & _ & R & NT). rewrite O, R.
    destruct first; cbn [andb]; [destruct ev|]; try (right; split; reflexivity); left;
    match goal with |- context [answer ?x ?y] => destruct (answer x y) eqn:AE; try congruence end; unfold done; destruct (DeviceM.is_data j); eexists; eexists; reflexivity.
Qed.

(* --- cancel() --- *)
Lemma forget_out c e m : kind_of (m_op m) <> None ->
  exists a b, new_out m (fst (step c e C_forget m)) = a ++ OEvent EV_OP_CANCELLED :: b /\ forallb inert a = true /\ forallb inert b = true.
Proof.
  intros K. cbn [step fst]. pose proof (forget_act c e m) as A.
  assert (forall k x, act c e m k RVoid x -> (k = C_cancel \/ k = C_forget) -> (k = C_forget -> s_joined (m_ctx m) = false) ->
    exists a, m_log x = m_log m ++ a ++ [OEvent EV_OP_CANCELLED] /\ forallb inert a = true) as Hc.
  { clear A. intros k x A [-> | ->] J; inversion A; subst;
    try (match goal with H : _ \/ exists _, _ |- _ => destruct H as [H|[? H]]; discriminate end); try contradiction.
    - rewrite H2. destruct (m_op m); try (now destruct K); eexists; (split; [reflexivity|]); now destruct (m_state m).
    - rewrite H2. destruct (m_op m); try (now destruct K); eexists; (split; [reflexivity|]); now destruct (m_state m).
    - rewrite (J eq_refl) in *. discriminate. }
  destruct (s_joined (m_ctx m)) eqn:J.
  - inversion A; subst; try (match goal with H : _ \/ exists _, _ |- _ => destruct H as [H|[? H]]; discriminate end); try contradiction.
    + destruct H as [H|[_ H]]; [discriminate|congruence].
    + destruct (Hc C_cancel x H) as (a & L & I); auto; [discriminate|]. exists a, [OEvent (EV_SESSION_UPDATED (forgotten (m_ctx m) (m_maxDutyCycle m) (c_txps c)))].
      split; [|auto]. apply new_out_app. match goal with H : m_log (MAC_forget c m) = _ |- _ => rewrite H end. rewrite L, <- !app_assoc. reflexivity.
  - destruct (Hc C_forget _ A) as (a & L & I); auto. exists a, []. split; [|auto]. apply new_out_app. exact L.
Qed.

Theorem cancel_ends c r a e l j first i e1 jc : Forall one_operator l -> i <> 0%nat -> jc = J_cancel \/ jc = J_forget ->
  let d := drun c l (device_start (MAC_init c r a e)) in
  d_threads d 0%nat = T_op j first -> SpecDevice.kind_of (m_op (d_mac d)) <> None -> d_threads d i = T_queue jc ->
  d_threads (drun c [M_serve i e1; M_wake 0] d) 0%nat = T_done j D_CANCELLED 0.
Proof.
  intros F N JC d T B Ti. destruct (inv_init c r a e l F) as (S & _ & O). fold d in S, O. rewrite T in O. destruct O as [W _].
  change SpecDevice.kind_of with EndP.kind_of in B.
  destruct W as (evs & L & OP & Fi & [(-> & O0 & Q)|(ev & _ & _ & _ & Q & _)]); [|unfold op_kind in Q; congruence].
  destruct (forget_out c e1 (d_mac d) B) as (x & y & E & Ia & Ib).
  set (d0 := mkDevice (fst (step c e1 C_forget (d_mac d))) (d_op d) (d_band d) (d_sem d) (d_entropy d) (d_threads d) (d_log d ++ step_items c e1 C_forget (d_mac d))).
  assert (mac_call c e1 C_forget d = handle_all (x ++ OEvent EV_OP_CANCELLED :: y) d0) as M by (unfold mac_call; rewrite E; reflexivity).
  destruct (handle_end x EV_OP_CANCELLED y d0 Ia Ib eq_refl) as [Op _]. destruct (handle_same (x ++ OEvent EV_OP_CANCELLED :: y) d0) as (_ & _ & Th & _). cbv zeta in Th.
  rewrite <- M in Op, Th. change (d_op d0) with (d_op d) in Op. rewrite O0 in Op. change (d_threads d0) with (d_threads d) in Th.
  set (d1 := mac_call c e1 C_forget d) in *.
  assert (dstep c (M_serve i e1) d = set_thread i (T_done jc (D_mac RVoid) 0) d1) as D1.
  { cbn [dstep]. rewrite Ti. destruct JC; subst jc; reflexivity. }
  cbn [drun fold_left]. rewrite D1. set (d2 := set_thread i _ d1).
  assert (d_threads d2 0%nat = T_op j first) as T2.
  { cbn. destruct i; [congruence|]. cbn. now rewrite Th. }
  assert (d_op d2 = flag EV_OP_CANCELLED) as O2 by (cbn; now rewrite Op).
  assert (ends_kind EV_OP_CANCELLED (job_kind j)) as EK by (eexists; split; reflexivity).
  destruct (mask_sees j EV_OP_CANCELLED first OP Fi EK) as (Mk & _ & R & _).
  cbn [dstep]. rewrite T2, O2. apply Z.eqb_neq in Mk. rewrite Mk, R. cbv zeta. rewrite andb_false_r. cbn [answer].
  unfold done. destruct j; try discriminate OP; reflexivity.
Qed.

Theorem cancel_forgets c e d i j : j = J_cancel \/ j = J_forget -> d_threads d i = T_queue j ->
  s_joined (m_ctx (d_mac (dstep c (M_serve i e) d))) = false.
Proof.
  intros J T.
  assert (dstep c (M_serve i e) d = set_thread i (T_done j (D_mac RVoid) 0) (mac_call c e C_forget d)) as -> by (cbn [dstep]; rewrite T; destruct J; subst j; reflexivity).
  change (d_mac (set_thread i (T_done j (D_mac RVoid) 0) (mac_call c e C_forget d))) with (d_mac (mac_call c e C_forget d)).
  destruct (call_same c e C_forget d) as (M & _). cbv zeta in M. rewrite M. cbn [step fst].
  open_def MAC_forget. cbv zeta. destruct (s_joined (m_ctx (MAC_cancel (d_mac d)))) eqn:JJ; [|exact JJ]. unfold pushSessionUpdate, forgetNetwork, notify, emit. ms. apply DataP.forgotten_facts.
Qed.

(* --- waiting for a band --- *)
Lemma serve_threads c e i j d x : x <> i -> d_threads (serve c e i j d) x = d_threads d x.
Proof.
  intros N. apply Nat.eqb_neq in N. pose proof (threads_call c e (job_call j) d) as T.
  assert (forall s v d', d_threads d' = d_threads d -> d_threads (done i j s v d') x = d_threads d x) as D.
  { intros s v d' E. unfold done. destruct (DeviceM.is_data j); cbn; rewrite N; cbn; now rewrite E. }
  unfold serve. cbv zeta. destruct j; try (apply D; exact T);
  destruct (snd _) as [|[]|]; try (apply D; exact T); cbn [set_thread d_threads]; rewrite N; exact (f_equal (fun f => f x) T).
Qed.
Theorem band_stays c x d i j : d_threads d i = T_band j ->
  d_threads (dstep c x d) i = T_band j \/ d_threads (dstep c x d) i = T_done j (D_mac (RStatus STATUS_NOCHANNEL)) 0.
Proof.
  intros H. destruct x as [e|e t|k jb|k e|k|k]; cbn [dstep]; try (left; rewrite threads_call; exact H);
  destruct (Nat.eq_dec i k) as [->|N]; try rewrite H; cbn [in_method]; auto.
  - left. assert (Nat.eqb i k = false) as E by now apply Nat.eqb_neq.
    destruct (in_method _); [exact H|]. destruct (DeviceM.is_data jb); [destruct (d_sem d)|]; cbn; now rewrite E.
  - left. destruct (d_threads d k); try exact H; [now rewrite serve_threads|].
    cbn. assert (Nat.eqb i k = false) as -> by now apply Nat.eqb_neq. now rewrite threads_call.
  - destruct (d_band d); [|auto]. right. unfold done. destruct (DeviceM.is_data j); cbn; now rewrite Nat.eqb_refl.
  - left. assert (Nat.eqb i k = false) as E by now apply Nat.eqb_neq.
    destruct (d_threads d k); try exact H.
    + destruct (_ =? 0); [exact H|]. cbv zeta. destruct (result _ _ _) as [[]|]; unfold done; try destruct (DeviceM.is_data j0); cbn; rewrite E; exact H.
    + destruct (d_band d); [|exact H]. unfold done. destruct (DeviceM.is_data j0); cbn; rewrite E; exact H.
  - left. assert (Nat.eqb i k = false) as E by now apply Nat.eqb_neq.
    destruct (d_threads d k) as [|?|[] ?|?| |? ? ?]; try exact H. cbn. rewrite E. exact H.
Qed.
