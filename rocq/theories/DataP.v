(* Uplink counters: handed to the application, then used for one message. *)
From Verif Require Import Lib StreamM FrameM CommandsM RegionM RadioM SmM MacStateM MacTac MacUtilM OpsM MacCmdM MacProcM MacApiM MacRw CoreP CaseP RxP SpecFrame SpecHist FrameP SmP AnswerP HistP EndP TxP UplinkP ReadyP JoinP.
From Coq Require Import Sorting.Sorted.

(* a session handed over has the same counter and belongs to the same network plan *)
Definition like (s : session) (u : Z) (t : session) : Prop := s_up t = u /\ s_magic t = s_magic s /\ s_region t = s_region s.
Definition hands (s : session) (u : Z) (o : out) : Prop := match o with OEvent (EV_SESSION_UPDATED t) => like s u t | _ => True end.
Definition no_sess (o : out) : bool := match o with OEvent (EV_SESSION_UPDATED _) => false | _ => true end.

Lemma no_sess_hands s u lo : forallb no_sess lo = true -> Forall (hands s u) lo.
Proof.
  intros H. apply Forall_forall. intros o Ho. apply (proj1 (forallb_forall _ _) H) in Ho. destruct o as [[]| | | |]; try discriminate; exact I.
Qed.
Lemma plain_no_sess lo : forallb plain lo = true -> forallb no_sess lo = true.
Proof.
  intros H. apply forallb_forall. intros o Ho. apply (proj1 (forallb_forall _ _) H) in Ho. destruct o as [[]| | | |]; try discriminate; reflexivity.
Qed.
Lemma told_no_sess lo : forallb told_rx lo = true -> forallb no_sess lo = true.
Proof.
  intros H. apply forallb_forall. intros o Ho. apply (proj1 (forallb_forall _ _) H) in Ho. destruct o as [[]| | | |]; try discriminate; reflexivity.
Qed.

(* what one action does to the counter: nothing, or it takes one *)
Definition up_step (k : call) (r : ret) (m m' : mac) (lo : list out) : Prop :=
  s_magic (m_ctx m') = s_magic (m_ctx m) /\ s_region (m_ctx m') = s_region (m_ctx m) /\
  ((s_up (m_ctx m') = s_up (m_ctx m) /\ Forall (hands (m_ctx m) (s_up (m_ctx m))) lo /\ existsb is_accepted (reqs k r) = false /\
    (is_data (m_op m') = true -> is_data (m_op m) = true /\ frame_of m' = frame_of m /\ tx_counter (m_tx m') = tx_counter (m_tx m))) \/
   (s_up (m_ctx m') = u32 (s_up (m_ctx m) + 1) /\ lo = [OEvent (EV_SESSION_UPDATED (m_ctx m'))] /\ reqs k r = [IReq k r] /\
    is_accepted (IReq k r) = true /\ is_data (m_op m) = false /\
    is_data (m_op m') = true /\ tx_counter (m_tx m') = s_up (m_ctx m))).

Lemma core_ctx m m' : core m' = core m -> m_ctx m' = m_ctx m.
Proof. intros C. apply core_fields in C. unfold same_core in C. tauto. Qed.
Lemma core_frame m m' : core m' = core m -> frame_of m' = frame_of m /\ tx_counter (m_tx m') = tx_counter (m_tx m).
Proof.
  intros C. apply core_fields in C. unfold same_core in C. destruct C as (_ & _ & _ & B & L & _ & _ & _ & _ & _ & _ & _ & _ & _ & _ & _ & _ & _ & _ & _ & _ & T & _).
  unfold frame_of. rewrite B, L. auto.
Qed.

Lemma up_keep k r m m' lo : core m' = core m -> Forall (hands (m_ctx m) (s_up (m_ctx m))) lo -> existsb is_accepted (reqs k r) = false -> up_step k r m m' lo.
Proof.
  intros C H A. destruct (core_frame _ _ C) as [F T]. unfold up_step. rewrite (core_ctx _ _ C), (core_op_eq _ _ C).
  split; [reflexivity|]. split; [reflexivity|]. left. repeat split; try assumption; reflexivity.
Qed.

Lemma up_end k r m m' lo s : m_ctx m' = s -> like (m_ctx m) (s_up (m_ctx m)) s -> is_data (m_op m') = false ->
  Forall (hands (m_ctx m) (s_up (m_ctx m))) lo -> existsb is_accepted (reqs k r) = false -> up_step k r m m' lo.
Proof.
  intros C (U & M & R) D H A. unfold up_step. rewrite C, D. split; [exact M|]. split; [exact R|]. left. repeat split; try assumption; discriminate.
Qed.

Lemma like_refl s : like s (s_up s) s. Proof. repeat split. Qed.

Lemma miss_up k r c e m m' lo : ready c m -> miss_case c e m m' -> m_log m' = m_log m ++ lo -> m_op m = OP_JOINING \/ is_data (m_op m) = true ->
  existsb is_accepted (reqs k r) = false -> up_step k r m m' lo.
Proof.
  intros R HM L HO A. destruct HM as [m2 D ? C S E|m2 D p C S E|m2 O ? C S E|m2 O ? C S E|D O].
  - rewrite E in L. apply same_log_tail in L. subst lo. destruct R as (_ & _ & _ & _ & RD & _). destruct (RD D) as (body & rest & HD).
    assert (holds_data c (next_trial m) body rest) as HD2.
    { unfold holds_data in *. rewrite (mic_word_same c m (next_trial m) body) by reflexivity. exact HD. }
    pose proof (mic_again _ _ _ _ HD2) as B. destruct (core_frame _ _ C) as [F T].
    unfold up_step. rewrite (core_ctx _ _ C), (core_op_eq _ _ C), F, T. split; [reflexivity|]. split; [reflexivity|]. left.
    split; [reflexivity|]. split; [constructor|]. split; [exact A|]. intros _. split; [exact D|]. split; [|reflexivity].
    unfold frame_of. rewrite B. reflexivity.
  - rewrite E in L. apply app_tail in L. subst lo.
    destruct (adaptRate_fields c (next_trial m)) as (s & n & b & E1 & E2 & _). cbv zeta in E1, E2. change (m_ctx (next_trial m)) with (m_ctx m) in E2.
    assert (like (m_ctx m) (s_up (m_ctx m)) s) as K by (destruct E2 as [->|[->|[->| ->]]]; repeat split; reflexivity).
    assert (m_ctx (fst p) = s) as EC by (subst p; rewrite E1; reflexivity).
    apply (up_end _ _ _ _ _ s); [rewrite (core_ctx _ _ C); exact EC|exact K|rewrite (core_op_eq _ _ C); reflexivity| |exact A].
    apply Forall_app. split; [|constructor; [destruct (m_op m); exact I|constructor]].
    destruct (snd p); [|constructor]. constructor; [|constructor]. cbn [hands]. rewrite EC. exact K.
  - rewrite E in L. apply app_tail in L. subst lo.
    destruct (fillJoin_fields c e (u16 (m_devNonce m)) (next_trial m)) as (t & buf & len & dn & E1 & _).
    pose proof (core_ctx _ _ C) as CC. rewrite E1 in CC.
    apply (up_end _ _ _ _ _ (set_s_devNonce dn (m_ctx m))); [exact CC|repeat split; reflexivity| |repeat constructor|exact A].
    rewrite (core_op_eq _ _ C). ms. rewrite fillJoin_op. change (m_op (next_trial m)) with (m_op m). rewrite O. reflexivity.
  - rewrite E in L. apply app_tail in L. subst lo.
    apply (up_end _ _ _ _ _ (m_ctx m)); [exact (core_ctx _ _ C)|apply like_refl|rewrite (core_op_eq _ _ C); reflexivity|repeat constructor|exact A].
  - destruct HO; congruence.
Qed.

Lemma up_more k r m x m' lo a : up_step k r m x lo -> existsb is_accepted (reqs k r) = false -> core m' = core x -> forallb no_sess a = true -> up_step k r m m' (lo ++ a).
Proof.
  intros (M & R & [(U & H & A & D)|(_ & _ & E & A & _)]) NA C NS.
  - destruct (core_frame _ _ C) as [F T]. unfold up_step. rewrite (core_ctx _ _ C), (core_op_eq _ _ C), F, T. split; [exact M|]. split; [exact R|]. left.
    split; [exact U|]. split; [apply Forall_app; split; [exact H|now apply no_sess_hands]|]. split; [exact A|exact D].
  - rewrite E in NA. cbn [existsb] in NA. rewrite A in NA. discriminate NA.
Qed.

Lemma filled_ctx c f x : m_ctx (data_filled c f x) = m_ctx x. Proof. reflexivity. Qed.
Lemma filled_counter c f x : tx_counter (m_tx (data_filled c f x)) = tx_counter (m_tx x). Proof. reflexivity. Qed.
Lemma sess_data_like c m : like (m_ctx m) (u32 (s_up (m_ctx m) + 1)) (sess_data c m).
Proof. unfold like, sess_data, clear_single_shot, clearPendingCommand. destruct (is_1_1 (c_l2 c)), (c_txps c); repeat split; reflexivity. Qed.

Lemma up_joined m x s lo jn net dev : m_ctx x = s -> m_op x = OP_NONE -> m_log x = m_log m ++ [OEvent (EV_JOIN_COMPLETE jn net dev)] ->
  s_up s = s_up (m_ctx m) -> s_magic s = s_magic (m_ctx m) -> s_region s = s_region (m_ctx m) ->
  m_log (pushSessionUpdate x) = m_log m ++ lo -> up_step C_process RVoid m (pushSessionUpdate x) lo.
Proof.
  intros CX O LG U MG RG L. unfold pushSessionUpdate, notify, emit in *. ms_in L. rewrite LG, <- !app_assoc in L. apply app_tail in L. subst lo.
  assert (like (m_ctx m) (s_up (m_ctx m)) s) as K by (repeat split; assumption).
  apply (up_end _ _ _ _ _ s); [exact CX|exact K|ms; rewrite O; reflexivity| |reflexivity].
  constructor; [exact I|]. constructor; [|constructor]. cbn [hands]. rewrite CX. exact K.
Qed.

Lemma act_up c e m k r m' lo : act c e m k r m' -> k <> C_forget -> m_log m' = m_log m ++ lo -> so (m_op m) (m_state m) = true -> ready c m ->
  up_step k r m m' lo.
Proof.
  intros HA NF L HS R. destruct HA.
  - apply same_log_tail in L. subst. apply up_keep; [reflexivity|constructor|]. destruct H as [->|[t ->]]; reflexivity.
  - destruct H as [C (l & E & P)]. rewrite E in L. apply app_tail in L. subst l. apply up_keep; [exact C| |reflexivity]. apply no_sess_hands, plain_no_sess, P.
  - rewrite H2 in L. apply app_tail in L. subst lo. apply up_keep; [assumption|repeat constructor|reflexivity].
  - rewrite H2 in L. apply app_tail in L. subst lo.
    apply (up_end _ _ _ _ _ (m_ctx m)); [exact (core_ctx _ _ H0)|apply like_refl|rewrite (core_op_eq _ _ H0); reflexivity|repeat constructor|reflexivity].
  - eapply miss_up; eauto. destruct (so_rx _ _ HS) as [D|D]; [tauto|auto|auto].
  - rewrite H3 in L. apply app_tail in L. subst lo.
    apply (up_end _ _ _ _ _ (m_ctx m)); [exact (core_ctx _ _ H1)|apply like_refl|rewrite (core_op_eq _ _ H1); reflexivity|repeat constructor|reflexivity].
  - destruct (miss_log _ _ _ _ H1) as (l1 & E1). rewrite H4, E1, <- app_assoc in L. apply app_tail in L. subst lo.
    apply (up_more _ _ m x); [eapply miss_up; eauto|reflexivity|assumption|reflexivity].
  - destruct (data_received_frame c e buf f m) as (s & l & C & CX & _ & LG & I & T). cbv zeta in *.
    set (x := data_received c e buf f m) in *. clearbody x. unfold pushSessionUpdate, notify, emit in *. ms_in L. rewrite LG, <- !app_assoc in L. apply app_tail in L. subst lo.
    assert (like (m_ctx m) (s_up (m_ctx m)) s) as K.
    { unfold same_ident in I. decompose [and] I. unfold syncDownCounter in *. destruct (_ && _) in *; repeat split; assumption. }
    apply (up_end _ _ _ _ _ s); [exact CX|exact K|ms; rewrite (core_op_eq _ _ C); reflexivity| |reflexivity].
    apply Forall_app. split; [apply no_sess_hands, told_no_sess, T|]. apply Forall_app. split.
    + apply no_sess_hands. unfold down_end. destruct (m_op m), (dn_ack f); reflexivity.
    + constructor; [|constructor]. cbn [hands]. rewrite CX. exact K.
  - destruct (join_accepted_frame c buf f m) as (s & l & C & CX & _ & LG & U & _ & _ & _ & _ & _ & _ & RG & MG & _). cbv zeta in *.
    apply (up_joined m (join_accepted c buf f m) s lo _ _ _ CX (core_op_eq _ _ C) LG U MG RG L).
  - subst m'. apply same_log_tail in L. subst lo. unfold up_step. split; [reflexivity|]. split; [reflexivity|]. left.
    split; [reflexivity|]. split; [constructor|]. split.
    + destruct k; try reflexivity; cbn [reqs existsb is_accepted starts]; unfold is_accepted; cbn [starts]; destruct st; try reflexivity; congruence.
    + intros D. split; [exact D|]. split; [reflexivity|exact H0].
  - rewrite H1 in L. apply same_log_tail in L. subst lo.
    apply (up_end _ _ _ _ _ (m_ctx m)); [exact (core_ctx _ _ H0)|apply like_refl|rewrite (core_op_eq _ _ H0); reflexivity|constructor|reflexivity].
  - rewrite H3 in L. apply app_tail in L. subst lo.
    destruct (fillJoin_fields c e (u16 (m_devNonce m)) (set_m_sm (m_sm m ++ sm) (set_m_trials 0 m))) as (t & buf & len & dn & E1 & _).
    pose proof (core_ctx _ _ H2) as CC. subst x. rewrite E1 in CC.
    apply (up_end _ _ _ _ _ (set_s_devNonce dn (m_ctx m))); [exact CC|repeat split; reflexivity| |repeat constructor|reflexivity].
    rewrite (core_op_eq _ _ H2). reflexivity.
  - rewrite H2 in L. apply same_log_tail in L. subst lo.
    eapply up_end; [exact (core_ctx _ _ H1)|repeat split; reflexivity|rewrite (core_op_eq _ _ H1); ms; rewrite H; reflexivity|constructor|reflexivity].
  - rewrite H7 in L. apply app_tail in L. subst lo. destruct (compose_op _ _ _ _ _ _ _ _ _ H5) as [D ST].
    assert (m_ctx m' = sess_data c m) as CC by (rewrite (core_ctx _ _ H6), filled_ctx; reflexivity).
    assert (tx_counter (m_tx m') = s_up (m_ctx m)) as T by (rewrite (proj2 (core_frame _ _ H6)), filled_counter; reflexivity).
    assert (m_op m' = op) as OO by (rewrite (core_op_eq _ _ H6), data_filled_op; reflexivity). clear H6 H5.
    destruct (sess_data_like c m) as (U & M & RG). revert CC U M RG. generalize (sess_data c m). intros sd CC U M RG. subst sd.
    unfold up_step. split; [exact M|]. split; [exact RG|]. right.
    split; [exact U|]. split; [reflexivity|]. split; [reflexivity|]. split; [destruct ST as [-> | ->]; reflexivity|]. split; [rewrite H; reflexivity|].
    split; [rewrite OO; exact D|exact T].
  - destruct H as [->|[-> _]]; [|congruence]. rewrite H2 in L. apply app_tail in L. subst lo.
    apply (up_end _ _ _ _ _ (m_ctx m)); [exact (core_ctx _ _ H0)|apply like_refl|rewrite (core_op_eq _ _ H0); reflexivity| |reflexivity].
    apply no_sess_hands. destruct (m_state m), (m_op m); reflexivity.
  - congruence.
  - destruct H as (r0 & p & a & dd & cc & kk & ->).
    assert (existsb is_accepted (reqs k r) = false) as A.
    { destruct H0 as [[b ->]|[->| ->]]; destruct k; try destruct H1; reflexivity. }
    pose proof (core_ctx _ _ H2) as CC. destruct (core_frame _ _ H2) as [F T].
    unfold up_step. rewrite CC, F, T, (core_op_eq _ _ H2). split; [reflexivity|]. split; [reflexivity|]. left. split; [reflexivity|].
    split; [|split; [exact A|intros D; split; [exact D|split; reflexivity]]].
    destruct H4 as [E|E]; rewrite E in L; [apply same_log_tail in L|apply app_tail in L]; subst lo; [constructor|].
    constructor; [|constructor]. repeat split; reflexivity.
Qed.

(* --- lists of outputs --- *)

Lemma saved_app u l l' : saved_up u (l ++ l') = saved_up (saved_up u l) l'.
Proof. apply fold_left_app. Qed.
Lemma saved_hands s u l : Forall (hands s u) l -> saved_up u l = u.
Proof.
  induction 1 as [|o l H _ IH]; [reflexivity|]. unfold saved_up in *. cbn [fold_left].
  destruct o as [[]| | | |]; try exact IH. cbn [hands] in H. destruct H as [H _]. rewrite H. exact IH.
Qed.
Lemma outs_app l l' : outs (l ++ l') = outs l ++ outs l'. Proof. apply flat_map_app. Qed.
Lemma outs_map lo : outs (map IOut lo) = lo.
Proof. induction lo as [|o lo IH]; cbn; [reflexivity|now rewrite <- IH at 2]. Qed.
Lemma outs_reqs k r : outs (reqs k r) = []. Proof. destruct k; reflexivity. Qed.

Lemma sends_app u l : forall l', sends u (l ++ l') = sends u l ++ sends (saved_up u l) l'.
Proof.
  revert u. induction l as [|o l IH]; intros u l'; [reflexivity|]. unfold saved_up in *. cbn [app sends fold_left].
  destruct o as [[]| | | |]; try apply IH. rewrite IH, app_assoc. reflexivity.
Qed.
Lemma sends_none u l : forallb no_tx l = true -> sends u l = [].
Proof.
  revert u. induction l as [|o l IH]; intros u H; [reflexivity|]. cbn [forallb] in H. apply andb_true_iff in H. destruct H as [H1 H2].
  cbn [sends]. destruct o as [[]| | | |]; try discriminate H1; now apply IH.
Qed.

Lemma newer_snoc l v f : StronglySorted newer l -> Forall (fun x => fst x <= v /\ (fst x = v -> snd x = f)) l -> StronglySorted newer (l ++ [(v, f)]).
Proof.
  induction l as [|[v0 f0] l IH]; intros S F; cbn [app]; [constructor; constructor|].
  inversion S; subst. inversion F as [|x y [Q1 Q2] Q3]; subst. cbn [fst snd] in Q1, Q2. constructor; [auto|]. apply Forall_app. split; [assumption|].
  constructor; [|constructor]. unfold newer. cbn [fst snd]. destruct (Z.eq_dec v0 v); [right; auto|left; lia].
Qed.

(* --- the invariant --- *)

Definition sent_ok (u0 : Z) (l : list out) (m : mac) : Prop :=
  u0 <= s_up (m_ctx m) /\
  StronglySorted newer (sends u0 l) /\
  Forall (fun x => u0 < fst x <= s_up (m_ctx m) /\ fcnt_of (snd x) = u16 (fst x - 1)) (sends u0 l) /\
  (is_data (m_op m) = true -> u0 < s_up (m_ctx m) /\ tx_counter (m_tx m) = s_up (m_ctx m) - 1 /\
    Forall (fun x => fst x = s_up (m_ctx m) -> snd x = frame_of m) (sends u0 l)).

Definition handed (s0 : session) (o : out) : Prop :=
  match o with OEvent (EV_SESSION_UPDATED t) => s_magic t = s_magic s0 /\ s_region t = s_region s0 /\ 0 <= s_up t < 4294967296 | _ => True end.

Definition ups_ok (c : cfg) (s0 : session) (l : list item) (m : mac) : Prop :=
  so (m_op m) (m_state m) = true /\ ready c m /\ 0 <= s_up (m_ctx m) < 4294967296 /\
  s_magic (m_ctx m) = s_magic s0 /\ s_region (m_ctx m) = s_region s0 /\
  saved_up (s_up s0) (outs l) = s_up (m_ctx m) /\ s_up (m_ctx m) = u32 (s_up s0 + accepted l) /\
  Forall (handed s0) (outs l) /\
  (not_last (s_up s0) (outs l) -> sent_ok (s_up s0) (outs l) m).

Lemma not_last_prefix u l l' : not_last u (l ++ l') -> not_last u l.
Proof. intros H p q E. apply (H p (q ++ l')). rewrite E, <- app_assoc. reflexivity. Qed.

Lemma accepted_app l l' : accepted (l ++ l') = accepted l + accepted l'.
Proof. unfold accepted, count. rewrite filter_app, app_length, Nat2Z.inj_add. reflexivity. Qed.
Lemma accepted_outs lo : accepted (map IOut lo) = 0.
Proof. unfold accepted, count. induction lo as [|o lo IH]; [reflexivity|]. cbn [map filter]. exact IH. Qed.
Lemma accepted_none l : existsb is_accepted l = false -> accepted l = 0.
Proof.
  unfold accepted, count. induction l as [|x l IH]; intros H; [reflexivity|]. cbn [existsb] in H. apply orb_false_iff in H. destruct H as [H1 H2].
  cbn [filter]. rewrite H1. now apply IH.
Qed.

Lemma hands_plan s0 s u lo : 0 <= u < 4294967296 -> s_magic s = s_magic s0 -> s_region s = s_region s0 -> Forall (hands s u) lo ->
  Forall (handed s0) lo.
Proof.
  intros U M R H. eapply Forall_impl; [|exact H]. intros [[]| | | |]; cbn [hands handed]; auto. unfold like. intros (E & A & B). rewrite E. repeat split; try congruence; lia.
Qed.

Lemma ups_quiet c s0 l m m' lo : ups_ok c s0 l m -> quiet m m' -> m_log m' = m_log m ++ lo -> forallb plain lo = true -> ups_ok c s0 (l ++ map IOut lo) m'.
Proof.
  intros (S & R & U & M & RG & SV & AC & PL & SO) Q _ P. assert (core m' = core m) as C by apply Q.
  destruct (core_frame _ _ C) as [F T]. pose proof (no_sess_hands (m_ctx m) (s_up (m_ctx m)) _ (plain_no_sess _ P)) as H.
  unfold ups_ok, sent_ok. rewrite outs_app, outs_map, saved_app, SV, (saved_hands _ _ _ H), accepted_app, accepted_outs, Z.add_0_r.
  rewrite sends_app, (sends_none _ lo), app_nil_r by now apply plain_no_tx.
  rewrite (core_ctx _ _ C), (core_op_eq _ _ C), (proj2 Q), F, T.
  split; [exact S|]. split; [eapply ready_quiet; eauto|]. split; [exact U|]. split; [exact M|]. split; [exact RG|]. split; [reflexivity|]. split; [exact AC|].
  split; [apply Forall_app; split; [exact PL|exact (hands_plan _ _ _ _ U M RG H)]|]. intros NL. apply not_last_prefix in NL. exact (SO NL).
Qed.

Lemma ups_act c s0 l m e k r m' lo : in_place c -> ups_ok c s0 l m -> not_forget k -> act c e m k r m' -> m_log m' = m_log m ++ lo ->
  ups_ok c s0 (l ++ reqs k r ++ map IOut lo) m'.
Proof.
  intros IP (S & R & U & M & RG & SV & AC & PL & SO) NF HA L.
  pose proof (act_so _ _ _ _ _ _ HA S) as S'. pose proof (ready_act _ _ _ _ _ _ IP S R HA) as R'.
  destruct (act_up _ _ _ _ _ _ _ HA NF L S R) as (M' & RG' & [(U' & H & NA & D)|(U' & -> & RQ & A & D0 & D & T)]).
  - unfold ups_ok. rewrite !outs_app, outs_reqs, outs_map. cbn [app].
    rewrite saved_app, SV, (saved_hands _ _ _ H), !accepted_app, accepted_outs, (accepted_none _ NA), U', !Z.add_0_r, M', RG'.
    split; [exact S'|]. split; [exact R'|]. split; [exact U|]. split; [exact M|]. split; [exact RG|]. split; [reflexivity|]. split; [exact AC|].
    split; [apply Forall_app; split; [exact PL|exact (hands_plan _ _ _ _ U M RG H)]|].
    intros NL. apply not_last_prefix in NL. destruct (SO NL) as (LO & SS & FF & DD). unfold sent_ok. rewrite U', sends_app, SV.
    destruct (act_tx _ _ _ _ _ _ _ HA L) as [NT|(_ & ST & ST' & C & ->)].
    + rewrite (sends_none _ _ NT), app_nil_r. split; [exact LO|]. split; [exact SS|]. split; [exact FF|].
      intros D'. destruct (D D') as (D1 & F & T). rewrite F, T. exact (DD D1).
    + change (sends (s_up (m_ctx m)) [transmit_of c m]) with ((if is_data_frame (frame_of m) then [(s_up (m_ctx m), frame_of m)] else []) ++ []).
      rewrite app_nil_r. destruct (core_frame _ _ C) as [F T]. rewrite (core_op_eq _ _ C), F, T.
      destruct R as (_ & EJ & ED & _ & RD & RJ).
      assert (m_op m = OP_JOINING \/ is_data (m_op m) = true) as [O|O] by (rewrite ST in S; destruct (m_op m); try discriminate S; auto).
      * destruct (RJ O) as (n & mic & rest & HJ). destruct (frame_join_kind _ _ _ _ _ EJ ED HJ) as (K1 & _).
        assert (is_data_frame (frame_of m) = false) as ->.
        { destruct (frame_of m) as [|b t]; [reflexivity|]. cbn [is_join_frame] in K1. destruct b; [reflexivity|discriminate K1|discriminate K1]. }
        rewrite app_nil_r. split; [exact LO|]. split; [exact SS|]. split; [exact FF|exact DD].
      * destruct (RD O) as (body & rest & HD). destruct (frame_data_kind _ _ _ _ HD) as (_ & K2 & K3). rewrite K2.
        destruct (DD O) as (D1 & D2 & D3).
        split; [exact LO|split; [|split]].
        -- apply newer_snoc; [exact SS|]. rewrite Forall_forall in *. intros x Ix. split; [apply FF in Ix; lia|apply D3; exact Ix].
        -- apply Forall_app. split; [exact FF|]. constructor; [|constructor]. cbn [fst snd]. split; [lia|]. rewrite K3, D2. reflexivity.
        -- intros _. split; [exact D1|]. split; [exact D2|]. apply Forall_app. split; [exact D3|]. constructor; [reflexivity|constructor].
  - unfold ups_ok. rewrite !outs_app, outs_reqs, outs_map. cbn [app].
    rewrite saved_app, SV, !accepted_app, accepted_outs, RQ, M', RG'.
    assert (accepted [IReq k r] = 1) as -> by (unfold accepted, count; cbn [filter]; rewrite A; reflexivity).
    change (saved_up (s_up (m_ctx m)) [OEvent (EV_SESSION_UPDATED (m_ctx m'))]) with (s_up (m_ctx m')).
    split; [exact S'|]. split; [exact R'|]. split; [rewrite U'; unfold u32; lia|]. split; [exact M|]. split; [exact RG|]. split; [reflexivity|].
    split; [rewrite U', AC; unfold u32; lia|].
    split; [apply Forall_app; split; [exact PL|]; constructor; [|constructor]; cbn [handed]; rewrite U'; repeat split; try congruence; unfold u32; lia|].
    intros NL. assert (s_up (m_ctx m) < 4294967295) as LT by (rewrite <- SV; apply (NL (outs l) _ eq_refl)).
    apply not_last_prefix in NL. destruct (SO NL) as (LO & SS & FF & _).
    assert (s_up (m_ctx m') = s_up (m_ctx m) + 1) as U1 by (rewrite U'; unfold u32; lia).
    unfold sent_ok. rewrite sends_app, (sends_none _ [OEvent _]), app_nil_r, U1 by reflexivity.
    split; [lia|]. split; [exact SS|]. rewrite Forall_forall in FF. split; [apply Forall_forall; intros x Ix; apply FF in Ix; lia|].
    intros _. split; [|split; [rewrite T; lia|]].
    + lia.
    + apply Forall_forall. intros x Ix E. apply FF in Ix. lia.
Qed.

(* the same for every prefix: a crash may fall between outputs of one action *)
Definition facts (u0 : Z) (p : list out) : Prop :=
  u0 <= saved_up u0 p /\ StronglySorted newer (sends u0 p) /\
  Forall (fun x => u0 < fst x <= saved_up u0 p /\ fcnt_of (snd x) = u16 (fst x - 1)) (sends u0 p).
Definition facts_all (u0 : Z) (l : list out) : Prop := forall p q, l = p ++ q -> not_last u0 p -> facts u0 p.

Lemma ups_facts c s0 l m : ups_ok c s0 l m -> not_last (s_up s0) (outs l) -> facts (s_up s0) (outs l).
Proof.
  intros (_ & _ & _ & _ & _ & SV & _ & _ & SO) NL. destruct (SO NL) as (A & B & C & _). unfold facts. rewrite SV. auto.
Qed.

Lemma prefix_cases {A} (l lo p q : list A) : l ++ lo = p ++ q ->
  (exists t, l = p ++ t) \/ (exists a b, lo = a ++ b /\ p = l ++ a).
Proof.
  intros E. apply app_eq_app in E. destruct E as (d & [[E1 E2]|[E1 E2]]); [left; eauto|right; eauto].
Qed.

Lemma facts_quiet s u0 l lo : facts_all u0 l -> Forall (hands s (saved_up u0 l)) lo -> forallb no_tx lo = true -> facts_all u0 (l ++ lo).
Proof.
  intros F H NT p q E NL. destruct (prefix_cases _ _ _ _ E) as [(t & Et)|(a & b & -> & ->)]; [exact (F p t Et NL)|].
  apply Forall_app in H. destruct H as [H _]. rewrite forallb_app in NT. apply andb_true_iff in NT. destruct NT as [NT _].
  destruct (F l [] (eq_sym (app_nil_r l)) (not_last_prefix _ _ _ NL)) as (A & B & C).
  unfold facts. rewrite saved_app, (saved_hands _ _ _ H), sends_app, (sends_none _ _ NT), app_nil_r. auto.
Qed.

Lemma facts_single u0 l o : facts_all u0 l -> (not_last u0 (l ++ [o]) -> facts u0 (l ++ [o])) -> facts_all u0 (l ++ [o]).
Proof.
  intros F G p q E NL. destruct (prefix_cases _ _ _ _ E) as [(t & Et)|(a & b & Eo & ->)]; [exact (F p t Et NL)|].
  destruct a as [|x a]; [|destruct a; [|discriminate Eo]; injection Eo as <- <-; auto].
  rewrite app_nil_r in *. apply (F l []); [now rewrite app_nil_r|exact NL].
Qed.

Lemma ups_start c m : so (m_op m) (m_state m) = true -> ready c m -> 0 <= s_up (m_ctx m) < 4294967296 -> is_data (m_op m) = false -> ups_ok c (m_ctx m) [] m.
Proof.
  intros S R U D. unfold ups_ok, sent_ok. rewrite D. change (outs []) with (@nil out). change (accepted []) with 0. cbn [sends].
  rewrite Z.add_0_r. split; [exact S|]. split; [exact R|]. split; [exact U|]. split; [reflexivity|]. split; [reflexivity|]. split; [reflexivity|].
  split; [unfold u32; lia|]. split; [constructor|]. intros _. split; [lia|]. split; [constructor|]. split; [constructor|discriminate].
Qed.

Theorem ups_always c h m : in_place c -> so (m_op m) (m_state m) = true -> ready c m -> 0 <= s_up (m_ctx m) < 4294967296 -> is_data (m_op m) = false ->
  Forall (fun x => not_forget (snd x)) h ->
  ups_ok c (m_ctx m) (items c h m) (run c h m) /\ facts_all (s_up (m_ctx m)) (outs (items c h m)).
Proof.
  intros IP S R U D NF.
  refine (hist_ind c (fun x => not_forget (snd x)) (fun l x => ups_ok c (m_ctx m) l x /\ facts_all (s_up (m_ctx m)) (outs l)) _ _ h [] m (conj (ups_start c m S R U D) _) NF).
  - intros l x x' lo [I F] Q L P. split; [eapply ups_quiet; eauto|]. rewrite outs_app, outs_map.
    apply (facts_quiet (m_ctx x)); [exact F| |now apply plain_no_tx]. apply no_sess_hands. now apply plain_no_sess.
  - intros l x e k r x' lo [I F] NFk A L. pose proof (ups_act _ _ _ _ _ _ _ _ _ IP I NFk A L) as I'. split; [exact I'|].
    pose proof (ups_facts _ _ _ _ I') as G. rewrite !outs_app, outs_reqs, outs_map in *. cbn [app] in *.
    destruct I as (Sx & Rx & _ & _ & _ & SV & _).
    destruct (act_tx _ _ _ _ _ _ _ A L) as [NT|(_ & _ & _ & _ & ->)]; [|now apply facts_single].
    destruct (act_up _ _ _ _ _ _ _ A NFk L Sx Rx) as (_ & _ & [(_ & H & _)|(_ & -> & _)]); [|now apply facts_single].
    apply (facts_quiet (m_ctx x)); [exact F| |exact NT]. rewrite SV. exact H.
  - intros p q E NL. destruct p; [|discriminate E]. unfold facts. change (saved_up (s_up (m_ctx m)) []) with (s_up (m_ctx m)). cbn [sends].
    split; [lia|]. split; constructor.
Qed.

(* --- the counter stays a 32-bit word over all histories --- *)

Lemma forgotten_facts s d t : s_up (forgotten s d t) = 0 /\ s_magic (forgotten s d t) = sessionMagicNumber /\ s_region (forgotten s d t) = s_region s /\
  s_joined (forgotten s d t) = false /\ s_devAddr (forgotten s d t) = 0.
Proof.
  unfold forgotten. cbv zeta. match goal with |- context [chan_steps ?x ?l] => pose proof (chan_steps_ident l x) as I end.
  unfold same_ident in I. decompose [and] I. repeat split; etransitivity; try eassumption; reflexivity.
Qed.

Definition up_ok (m : mac) : Prop := 0 <= s_up (m_ctx m) < 4294967296.

Lemma forget_up c e m x : act c e m C_cancel RVoid x -> m_ctx x = m_ctx m.
Proof.
  intros HA. remember C_cancel as k eqn:K. remember RVoid as r eqn:R. destruct HA; try discriminate K; try discriminate R.
  - reflexivity.
  - exact (core_ctx _ _ H0).
  - subst k. destruct H1.
Qed.

Theorem up_range c h m : in_place c -> so (m_op m) (m_state m) = true -> ready c m -> up_ok m ->
  up_ok (run c h m).
Proof.
  intros IP S R U.
  refine (proj2 (proj2 (hist_ind c (fun _ => True) (fun _ m => so (m_op m) (m_state m) = true /\ ready c m /\ up_ok m) _ _ h [] m (conj S (conj R U)) _))).
  - intros l x x' lo (S1 & R1 & U1) Q _ _. split; [eapply quiet_so; eauto|]. split; [eapply ready_quiet; eauto|].
    unfold up_ok. rewrite (core_ctx x x') by apply Q. exact U1.
  - intros l x e k r x' lo (S1 & R1 & U1) _ A L. split; [eapply act_so; eauto|]. split; [eapply ready_act; eauto|].
    assert (k = C_forget \/ k <> C_forget) as [->|NF] by (destruct k; auto; right; discriminate).
    + unfold up_ok in *. remember C_forget as k eqn:K. destruct A; try discriminate K; try (rewrite (core_ctx _ _ H0); exact U1).
      * exact U1.
      * subst m'. exact U1.
      * rewrite (core_ctx _ _ H0). change (m_ctx (forgetNetwork c x0)) with (forgotten (m_ctx x0) (m_maxDutyCycle x0) (c_txps c)). rewrite (proj1 (forgotten_facts _ _ _)). lia.
      * subst k. destruct H1.
    + destruct (act_up _ _ _ _ _ _ _ A NF L S1 R1) as (_ & _ & [(E & _)|(E & _)]); unfold up_ok in *; rewrite E; [exact U1|unfold u32; lia].
  - apply Forall_forall. auto.
Qed.

(* --- the session LDL_MAC_init starts with --- *)

Definition fresh (c : cfg) (r : region) : session :=
  set_s_adr true (set_s_power 0 (set_s_rate (MIN_RATE (c_noSF12 c)) (set_s_region r (forgotten session_zero 0 (c_txps c))))).

Lemma init_ctx c r a e : m_ctx (MAC_init c r a e) =
  match ia_session a with
  | Some s => if (s_magic s =? sessionMagicNumber) && region_eqb (s_region s) r then s else fresh c r
  | None => fresh c r
  end.
Proof.
  open_def MAC_init. cbv zeta. set (m0 := initSession c r (mac_zero a)).
  assert (m_ctx m0 = fresh c r) as E0 by reflexivity. 
  assert (m_ctx (restoreSession c r (ia_session a) m0) =
    match ia_session a with
    | Some s => if (s_magic s =? sessionMagicNumber) && region_eqb (s_region s) r then s else fresh c r
    | None => fresh c r
    end) as E1.
  { unfold restoreSession. destruct (ia_session a) as [s|]; [|exact E0]. destruct (_ && _); [|exact E0].
    destruct (deriveKeys_sm c (set_m_ctx s m0)) as (l & ->). reflexivity. }
  rewrite <- E1. clear E1 E0. generalize (restoreSession c r (ia_session a) m0). intros x. m_unf. unfold emit. ms. reflexivity.
Qed.

Lemma fresh_facts c r : s_up (fresh c r) = 0 /\ s_magic (fresh c r) = sessionMagicNumber /\ s_region (fresh c r) = r /\
  s_joined (fresh c r) = false /\ s_devAddr (fresh c r) = 0.
Proof. destruct (forgotten_facts session_zero 0 (c_txps c)) as (A & B & _ & C & D). unfold fresh. repeat split; assumption. Qed.

Lemma region_eqb_eq a b : region_eqb a b = true <-> a = b.
Proof. split; [|intros ->; destruct b; reflexivity]. destruct a, b; intros; try discriminate; reflexivity. Qed.

Lemma init_up c r a e : s_up (m_ctx (MAC_init c r a e)) = restart_up r (ia_session a) /\
  s_magic (m_ctx (MAC_init c r a e)) = sessionMagicNumber /\ s_region (m_ctx (MAC_init c r a e)) = r.
Proof.
  rewrite init_ctx. destruct (fresh_facts c r) as (A & B & C & _). unfold restart_up. destruct (ia_session a) as [s|]; [|auto].
  destruct (_ && _) eqn:E; [|auto]. apply andb_true_iff in E. destruct E as [E1 E2]. apply region_eqb_eq in E2. split; [reflexivity|]. split; [lia|exact E2].
Qed.

(* --- one power cycle after another --- *)

Lemma last_valid r so l : Forall (fun o => match o with OEvent (EV_SESSION_UPDATED t) => s_magic t = sessionMagicNumber /\ s_region t = r | _ => True end) l ->
  saved_up (restart_up r so) l = restart_up r (last_session so l).
Proof.
  revert so. induction l as [|o l IH]; intros so H; [reflexivity|]. inversion H as [|x y Q1 Q2]; subst. unfold saved_up, last_session in *. cbn [fold_left].
  destruct o as [[]| | | |]; try (now apply IH). destruct Q1 as [M R]. rewrite <- IH by exact Q2. f_equal. cbn [restart_up]. rewrite M, R, Z.eqb_refl.
  rewrite (proj2 (region_eqb_eq r r) eq_refl). reflexivity.
Qed.

Lemma outs_items c h m : m_log (run c h m) = m_log m ++ outs (items c h m). Proof. apply run_log. Qed.

Lemma newer_app l l' k : StronglySorted newer l -> StronglySorted newer l' -> Forall (fun x => fst x <= k) l -> Forall (fun x => k < fst x) l' ->
  StronglySorted newer (l ++ l').
Proof.
  induction l as [|a l IH]; intros S S' F F'; [exact S'|]. inversion S; subst. inversion F; subst. cbn [app]. constructor; [auto|].
  apply Forall_app. split; [assumption|]. eapply Forall_impl; [|exact F']. cbv beta. unfold newer. intros; left; lia.
Qed.

Lemma session_ok_up r so : session_ok so -> 0 <= restart_up r so < 4294967296.
Proof. destruct so as [s|]; cbn; [|lia]. intros H. destruct (_ && _); lia. Qed.

Lemma start_ups c r a e h : in_place c -> arg_ok a -> session_ok (ia_session a) -> Forall (fun x => not_forget (snd x)) h ->
  let m0 := MAC_init c r a e in ups_ok c (m_ctx m0) (items c h m0) (run c h m0) /\ facts_all (s_up (m_ctx m0)) (outs (items c h m0)) /\ outs (items c h m0) = m_log (run c h m0) /\
  s_up (m_ctx m0) = restart_up r (ia_session a) /\ s_magic (m_ctx m0) = sessionMagicNumber /\ s_region (m_ctx m0) = r.
Proof.
  cbv zeta. intros IP OK SO NF. destruct (init_up c r a e) as (E1 & E2 & E3).
  pose proof (ready_init c r a e OK) as R. destruct (init_facts c r a e) as (O & S & L & _). cbv zeta in *.
  apply (proj1 (and_assoc _ _ _)). split; [|split; [rewrite outs_items, L; reflexivity|auto]].
  apply ups_always; [exact IP|rewrite O, S; reflexivity|exact R| |rewrite O; reflexivity|exact NF].
  rewrite E1. now apply session_ok_up.
Qed.

Lemma sends_prefix u l l' : exists t, sends u (l ++ l') = sends u l ++ t.
Proof. rewrite sends_app. eauto. Qed.

Lemma newer_prefix l l' : StronglySorted newer (l ++ l') -> StronglySorted newer l.
Proof.
  induction l as [|a l IH]; intros S; [constructor|]. cbn [app] in S. inversion S; subst. constructor; [auto|]. apply Forall_app in H2. tauto.
Qed.


Lemma last_ok s0 so l : session_ok so -> Forall (handed s0) l -> session_ok (last_session so l).
Proof.
  revert so. induction l as [|o l IH]; intros so H F; [exact H|]. inversion F as [|x y Q1 Q2]; subst. unfold last_session in *. cbn [fold_left].
  destruct o as [[]| | | |]; apply IH; try assumption. cbn [handed] in Q1. cbn [session_ok]. tauto.
Qed.

Lemma not_last_app u l l' : not_last u (l ++ l') -> not_last (saved_up u l) l'.
Proof. intros H p q E. rewrite <- saved_app. apply (H (l ++ p) q). rewrite E, app_assoc. reflexivity. Qed.

Theorem session_lives_increase c r so l : in_place c -> session_ok so -> session_lives c r so l -> not_last (restart_up r so) l ->
  facts (restart_up r so) l.
Proof.
  intros IP OK H. revert OK. induction H as [so|so a e h pre post rest AO ES NF EL HL IH]; intros OK NL.
  - unfold facts. change (saved_up (restart_up r so) []) with (restart_up r so). cbn [sends]. split; [lia|]. split; constructor.
  - rewrite <- ES in OK. destruct (start_ups c r a e h IP AO OK NF) as ((_ & _ & _ & _ & _ & _ & _ & PL & _) & FA & EO & E1 & E2 & E3).
    rewrite EO, EL, E1, ES in *. apply Forall_app in PL. destruct PL as [PL _].
    assert (saved_up (restart_up r so) pre = restart_up r (last_session so pre)) as EV.
    { apply last_valid. eapply Forall_impl; [|exact PL]. intros [[]| | | |]; cbn [handed]; auto. rewrite E2, E3. tauto. }
    pose proof (FA pre post eq_refl (not_last_prefix _ _ _ NL)) as (F1 & F2 & F3).
    apply not_last_app in NL. rewrite EV in NL. 
    destruct (IH (last_ok _ _ _ OK PL) NL) as (G1 & G2 & G3). rewrite <- EV in *. rewrite Forall_forall in F3, G3.
    unfold facts. rewrite saved_app, sends_app. split; [lia|]. split.
    + apply (newer_app _ _ (saved_up (restart_up r so) pre)); [exact F2|exact G2| |]; apply Forall_forall; intros x Ix; [apply F3 in Ix|apply G3 in Ix]; lia.
    + apply Forall_app. split; apply Forall_forall; intros x Ix; [apply F3 in Ix|apply G3 in Ix]; (split; [lia|apply Ix]).
Qed.

(* --- statements --- *)

Theorem session_counters c r a e h0 h :
  let m0 := run c h0 (MAC_init c r a e) in
  let u0 := s_up (m_ctx m0) in
  let l := outs (items c h m0) in
  in_place c -> arg_ok a -> session_ok (ia_session a) -> is_data (m_op m0) = false ->
  Forall (fun x => not_forget (snd x)) h -> not_last u0 l ->
  StronglySorted newer (sends u0 l) /\
  Forall (fun x => u0 < fst x /\ fcnt_of (snd x) = (fst x - 1) mod 65536) (sends u0 l).
Proof.
  cbv zeta. intros IP OK SO D NF NL. destruct (init_facts c r a e) as (O & S & _). cbv zeta in *.
  assert (so (m_op (MAC_init c r a e)) (m_state (MAC_init c r a e)) = true) as S0 by (rewrite O, S; reflexivity).
  pose proof (ready_init c r a e OK) as R0. destruct (ready_always c h0 _ IP S0 R0) as [S1 R1].
  assert (up_ok (MAC_init c r a e)) as U0 by (unfold up_ok; rewrite (proj1 (init_up c r a e)); now apply session_ok_up).
  pose proof (up_range c h0 _ IP S0 R0 U0) as U1.
  destruct (ups_always c h _ IP S1 R1 U1 D NF) as [_ FA]. destruct (FA _ [] (eq_sym (app_nil_r _)) NL) as (_ & F2 & F3).
  split; [exact F2|]. eapply Forall_impl; [|exact F3]. cbv beta. intros x [H1 H2]. split; [lia|exact H2].
Qed.

Theorem session_accepted c r a e h0 h :
  let m0 := run c h0 (MAC_init c r a e) in
  in_place c -> arg_ok a -> session_ok (ia_session a) -> is_data (m_op m0) = false ->
  Forall (fun x => not_forget (snd x)) h ->
  s_up (m_ctx (run c h m0)) = (s_up (m_ctx m0) + accepted (items c h m0)) mod 4294967296.
Proof.
  cbv zeta. intros IP OK SO D NF. destruct (init_facts c r a e) as (O & S & _). cbv zeta in *.
  assert (so (m_op (MAC_init c r a e)) (m_state (MAC_init c r a e)) = true) as S0 by (rewrite O, S; reflexivity).
  pose proof (ready_init c r a e OK) as R0. destruct (ready_always c h0 _ IP S0 R0) as [S1 R1].
  assert (up_ok (MAC_init c r a e)) as U0 by (unfold up_ok; rewrite (proj1 (init_up c r a e)); now apply session_ok_up).
  pose proof (up_range c h0 _ IP S0 R0 U0) as U1.
  destruct (ups_always c h _ IP S1 R1 U1 D NF) as [(_ & _ & _ & _ & _ & _ & A & _) _]. exact A.
Qed.

Theorem crash_safe c r so l : in_place c -> session_ok so -> session_lives c r so l -> not_last (restart_up r so) l ->
  StronglySorted newer (sends (restart_up r so) l) /\
  Forall (fun x => restart_up r so < fst x /\ fcnt_of (snd x) = (fst x - 1) mod 65536) (sends (restart_up r so) l).
Proof.
  intros IP OK L NL. destruct (session_lives_increase c r so l IP OK L NL) as (_ & F2 & F3).
  split; [exact F2|]. eapply Forall_impl; [|exact F3]. cbv beta. intros x [H1 H2]. split; [lia|exact H2].
Qed.

Lemma last_in so l s : last_session so l = Some s -> so = Some s \/ In (OEvent (EV_SESSION_UPDATED s)) l.
Proof.
  revert so. induction l as [|o l IH]; intros so H; [auto|]. unfold last_session in *. cbn [fold_left] in H. apply IH in H.
  destruct H as [H|H]; [|right; now right]. destruct o as [[]| | | |]; auto. injection H as <-. right. now left.
Qed.

Theorem saved_resumes c r a e h s : in_place c -> arg_ok a -> session_ok (ia_session a) -> Forall (fun x => not_forget (snd x)) h ->
  last_session None (m_log (run c h (MAC_init c r a e))) = Some s ->
  forall a' e', ia_session a' = Some s -> m_ctx (MAC_init c r a' e') = s.
Proof.
  intros IP OK SO NF LS a' e' E. destruct (start_ups c r a e h IP OK SO NF) as ((_ & _ & _ & _ & _ & _ & _ & PL & _) & _ & EO & _ & E2 & E3).
  cbv zeta in *. rewrite EO in PL. apply last_in in LS. destruct LS as [LS|LS]; [discriminate LS|].
  rewrite Forall_forall in PL. specialize (PL _ LS). cbn [handed] in PL. rewrite E2, E3 in PL.
  rewrite init_ctx, E. destruct PL as (P1 & P2 & _). rewrite P1, P2, Z.eqb_refl, (proj2 (region_eqb_eq r r) eq_refl). reflexivity.
Qed.

Theorem fresh_values c r : let s := fresh c r in
  s_up s = 0 /\ s_appDown s = 0 /\ s_nwkDown s = 0 /\ s_joined s = false /\ s_devAddr s = 0 /\ s_region s = r /\
  s_magic s = 219 /\ s_adr s = true /\ s_power s = 0 /\ s_pending s = 0 /\ s_rate s = MIN_RATE (c_noSF12 c).
Proof. cbv zeta. unfold fresh. destruct (c_txps c); vm_compute; repeat split. Qed.

Lemma session_two c r a1 e1 h1 a2 e2 h2 :
  let l1 := m_log (run c h1 (MAC_init c r a1 e1)) in let l2 := m_log (run c h2 (MAC_init c r a2 e2)) in
  arg_ok a1 -> arg_ok a2 -> ia_session a2 = last_session (ia_session a1) l1 ->
  Forall (fun x => not_forget (snd x)) h1 -> Forall (fun x => not_forget (snd x)) h2 -> session_lives c r (ia_session a1) (l1 ++ l2).
Proof.
  cbv zeta. intros A1 A2 S N1 N2. apply (slife c r _ a1 e1 h1 _ [] _ A1 eq_refl N1 (eq_sym (app_nil_r _))).
  rewrite <- (app_nil_r (m_log (run c h2 _))).
  apply (slife c r _ a2 e2 h2 _ [] _ A2 S N2 (eq_sym (app_nil_r _))). constructor.
Qed.

Lemma join_two c r a1 e1 h1 a2 e2 h2 :
  let l1 := m_log (run c h1 (MAC_init c r a1 e1)) in let l2 := m_log (run c h2 (MAC_init c r a2 e2)) in
  arg_ok a1 -> arg_ok a2 -> ia_devNonce a2 = announced (ia_devNonce a1) l1 -> lives c (ia_devNonce a1) (l1 ++ l2).
Proof.
  cbv zeta. intros A1 A2 S. apply (life c _ r a1 e1 h1 _ [] _ A1 eq_refl (eq_sym (app_nil_r _))).
  rewrite <- (app_nil_r (m_log (run c h2 _))).
  apply (life c _ r a2 e2 h2 _ [] _ A2 S (eq_sym (app_nil_r _))). constructor.
Qed.
