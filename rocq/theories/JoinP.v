(* Join nonces: announced, then sent once, in increasing order. *)
From Verif Require Import Lib StreamM FrameM CommandsM RegionM RadioM SmM MacStateM MacTac MacUtilM OpsM MacCmdM MacProcM MacApiM MacRw CoreP CaseP RxP SpecFrame SpecHist FrameP SmP AnswerP HistP EndP TxP UplinkP ReadyP.
From Coq Require Import Sorting.Sorted.

(* states an operation goes through before its frame is handed to the radio *)
Definition before_tx (s : mac_state) : bool :=
  match s with ST_INIT | ST_RADIO_RESET | ST_RADIO_BOOT | ST_WAIT_OTAA | ST_WAIT_TX | ST_START_RADIO_FOR_TX => true | _ => false end.

Definition no_nonce (o : out) : bool := match o with OEvent (EV_DEV_NONCE_UPDATED _) => false | _ => true end.

Lemma announced_app d l l' : announced d (l ++ l') = announced (announced d l) l'.
Proof. apply fold_left_app. Qed.
Lemma announced_same d l : forallb no_nonce l = true -> announced d l = d.
Proof.
  revert d. induction l as [|o l IH]; intros d H; [reflexivity|]. cbn [forallb] in H. apply andb_true_iff in H. destruct H as [H1 H2].
  unfold announced in *. cbn [fold_left]. destruct o as [[]| | | |]; try discriminate H1; now apply IH.
Qed.
Lemma plain_no_nonce lo : forallb plain lo = true -> forallb no_nonce lo = true.
Proof.
  intros H. apply forallb_forall. intros o Ho. apply (proj1 (forallb_forall _ _) H) in Ho. destruct o as [[]| | | |]; try discriminate; reflexivity.
Qed.
Lemma told_no_nonce lo : forallb told_rx lo = true -> forallb no_nonce lo = true.
Proof.
  intros H. apply forallb_forall. intros o Ho. apply (proj1 (forallb_forall _ _) H) in Ho. destruct o as [[]| | | |]; try discriminate; reflexivity.
Qed.

(* what one action does to the nonce: nothing, or it takes a new one *)
Definition nonce_step (m m' : mac) (lo : list out) : Prop :=
  (m_devNonce m' = m_devNonce m /\ forallb no_nonce lo = true /\
   (m_op m' = OP_JOINING -> m_op m = OP_JOINING /\ (before_tx (m_state m') = true -> before_tx (m_state m) = true))) \/
  (m_devNonce m <= 65535 /\ m_devNonce m' = u32 (m_devNonce m + 1) /\ m_op m' = OP_JOINING /\
   exists b, lo = OEvent (EV_DEV_NONCE_UPDATED (m_devNonce m')) :: b /\ forallb no_nonce b = true /\ forallb no_tx b = true).

Lemma core_nonce m m' : core m' = core m -> m_devNonce m' = m_devNonce m.
Proof. intros C. apply core_fields in C. unfold same_core in C. tauto. Qed.

Lemma miss_nonce c e m m' lo : miss_case c e m m' -> m_log m' = m_log m ++ lo -> m_op m = OP_JOINING \/ is_data (m_op m) = true ->
  nonce_step m m' lo.
Proof.
  intros HM L HO. destruct HM as [m2 D ? C S E|m2 D p C S E|m2 O ? C S E|m2 O ? C S E|D O].
  - left. rewrite (core_nonce _ _ C), (core_op_eq _ _ C). rewrite E in L. apply same_log_tail in L. subst lo.
    split; [reflexivity|]. split; [reflexivity|]. intros J. change (m_op m = OP_JOINING) in J. rewrite J in D. discriminate D.
  - left. rewrite (core_nonce _ _ C), (core_op_eq _ _ C). ms. rewrite E in L. apply app_tail in L. subst lo.
    destruct (adaptRate_fields c (next_trial m)) as (s & n & b & E1 & _). cbv zeta in E1. 
    split; [subst p; rewrite E1; reflexivity|]. split; [|discriminate].
    rewrite forallb_app. destruct (snd p), (m_op m); reflexivity.
  - right. split; [assumption|]. rewrite (core_nonce _ _ C), (core_op_eq _ _ C). ms. rewrite fillJoin_op. rewrite E in L. apply app_tail in L. subst lo.
    split; [reflexivity|]. split; [exact O|]. exists []. repeat split.
  - left. rewrite (core_nonce _ _ C), (core_op_eq _ _ C). rewrite E in L. apply app_tail in L. subst lo.
    split; [reflexivity|]. split; [reflexivity|]. discriminate.
  - destruct HO; congruence.
Qed.

Lemma nonce_none m m' lo : m_devNonce m' = m_devNonce m -> forallb no_nonce lo = true -> m_op m' <> OP_JOINING -> nonce_step m m' lo.
Proof. intros. left. repeat split; try assumption; congruence. Qed.

Lemma nonce_keep m m' lo : m_devNonce m' = m_devNonce m -> forallb no_nonce lo = true -> m_op m' = m_op m ->
  (before_tx (m_state m') = true -> before_tx (m_state m) = true) -> nonce_step m m' lo.
Proof. intros. left. repeat split; try assumption; congruence. Qed.

Lemma nonce_more m x m' lo a : nonce_step m x lo -> m_devNonce m' = m_devNonce x -> m_op m' = m_op x ->
  (before_tx (m_state m') = true -> before_tx (m_state x) = true) \/ m_devNonce x <> m_devNonce m \/ m_op x <> OP_JOINING ->
  forallb no_nonce a = true -> forallb no_tx a = true -> nonce_step m m' (lo ++ a).
Proof.
  intros [(N & A & J)|(LE & N & J & b & -> & NB & T)] N' O' S PN PT.
  - left. rewrite N', O', forallb_app, A, PN. split; [exact N|]. split; [reflexivity|]. intros E. destruct (J E) as [J1 J2]. split; [exact J1|].
    intros B. destruct S as [S|[S|S]]; [auto|congruence|congruence].
  - right. rewrite N', O'. split; [exact LE|]. split; [exact N|]. split; [exact J|]. exists (b ++ a).
    rewrite !forallb_app, NB, T, PN, PT. repeat split.
Qed.

Lemma act_nonce c e m k r m' lo : act c e m k r m' -> m_log m' = m_log m ++ lo -> so (m_op m) (m_state m) = true -> nonce_step m m' lo.
Proof.
  intros HA. revert lo. induction HA; intros lo L HS.
  - apply same_log_tail in L. subst. now apply nonce_keep.
  - destruct H as [C (l & E & P)]. rewrite E in L. apply app_tail in L. subst l.
    apply nonce_keep; [now apply core_nonce|now apply plain_no_nonce|now apply core_op_eq|].
    revert H0. clear. destruct (m_state m), (m_state m'); cbn; intros; try reflexivity; try discriminate; destruct (m_op m); discriminate.
  - rewrite H2 in L. apply app_tail in L. subst lo. apply nonce_keep; [now apply core_nonce|reflexivity|now apply core_op_eq|].
    rewrite H0. discriminate.
  - rewrite H2 in L. apply app_tail in L. subst lo. apply nonce_none; [now rewrite (core_nonce _ _ H0)|reflexivity|].
    rewrite (core_op_eq _ _ H0). discriminate.
  - eapply miss_nonce; eauto. destruct (so_rx _ _ HS) as [D|D]; [tauto|auto|auto].
  - rewrite H3 in L. apply app_tail in L. subst lo. apply nonce_none; [now rewrite (core_nonce _ _ H1)|reflexivity|].
    rewrite (core_op_eq _ _ H1). discriminate.
  - destruct (miss_log _ _ _ _ H1) as (l1 & E1). rewrite H4, E1, <- app_assoc in L. apply app_tail in L. subst lo.
    apply (nonce_more m x); [eapply miss_nonce; eauto|now apply core_nonce|now apply core_op_eq| |reflexivity|reflexivity].
    right. destruct H1 as [m2 D ? C S E|m2 D p C S E|m2 O ? C S E|m2 O ? C S E|D O];
      [rewrite H0 in D; discriminate D|right|left|right|congruence].
    + rewrite (core_op_eq _ _ C). discriminate.
    + rewrite (core_nonce _ _ C). ms. unfold u32. lia.
    + rewrite (core_op_eq _ _ C). discriminate.
  - destruct (data_received_frame c e buf f m) as (s & l & C & _ & _ & LG & _ & T). cbv zeta in *.
    set (x := data_received c e buf f m) in *. clearbody x. unfold pushSessionUpdate, notify, emit in *. ms_in L. rewrite LG, <- !app_assoc in L. apply app_tail in L. subst lo.
    apply nonce_none; ms; [now rewrite (core_nonce _ _ C)| |rewrite (core_op_eq _ _ C); discriminate].
    rewrite !forallb_app, (told_no_nonce _ T). unfold down_end. destruct (m_op m), (dn_ack f); reflexivity.
  - destruct (join_accepted_frame c buf f m) as (s & l & C & _ & _ & LG & _). cbv zeta in *.
    set (x := join_accepted c buf f m) in *. clearbody x. unfold pushSessionUpdate, notify, emit in *. ms_in L. rewrite LG, <- !app_assoc in L. apply app_tail in L. subst lo.
    apply nonce_none; ms; [now rewrite (core_nonce _ _ C)|reflexivity|rewrite (core_op_eq _ _ C); discriminate].
  - subst m'. apply same_log_tail in L. subst. now apply nonce_keep.
  - rewrite H1 in L. apply same_log_tail in L. subst. apply nonce_none; [now rewrite (core_nonce _ _ H0)|reflexivity|].
    rewrite (core_op_eq _ _ H0). discriminate.
  - rewrite H3 in L. apply app_tail in L. subst lo. right. split; [exact H1|]. rewrite (core_nonce _ _ H2), (core_op_eq _ _ H2).
    split; [reflexivity|]. split; [reflexivity|]. exists []. repeat split.
  - rewrite H2 in L. apply same_log_tail in L. subst. apply nonce_none; [now rewrite (core_nonce _ _ H1)|reflexivity|].
    rewrite (core_op_eq _ _ H1). ms. rewrite H. discriminate.
  - rewrite H7 in L. apply app_tail in L. subst lo. apply nonce_none; [now rewrite (core_nonce _ _ H6)|reflexivity|].
    rewrite (core_op_eq _ _ H6), data_filled_op. destruct (compose_op _ _ _ _ _ _ _ _ _ H5) as [D _].
    change (m_op (data_base c o tx op m)) with op. intros ->. discriminate D.
  - rewrite H2 in L. apply app_tail in L. subst lo. apply nonce_none; [now rewrite (core_nonce _ _ H0)| |].
    + destruct (m_state m), (m_op m); reflexivity.
    + rewrite (core_op_eq _ _ H0). discriminate.
  - destruct (act_log _ _ _ _ _ _ HA) as (l1 & E1). rewrite H2, E1, <- app_assoc in L. apply app_tail in L. subst lo.
    apply (nonce_more m x); [now apply IHHA|now rewrite (core_nonce _ _ H0)|now rewrite (core_op_eq _ _ H0)| |reflexivity|reflexivity].
    right. right. rewrite (cancel_op _ _ _ _ HA). discriminate.
  - apply nonce_keep; [now rewrite (core_nonce _ _ H2)| |now rewrite (core_op_eq _ _ H2)|now rewrite H3].
    destruct H4 as [E|E]; rewrite E in L; [apply same_log_tail in L|apply app_tail in L]; subst; reflexivity.
Qed.

(* --- the invariant --- *)

Definition join_of (o : out) : list Z :=
  match o with OTransmit _ _ _ _ f => if is_join_frame f then [nonce_of f] else [] | _ => [] end.

Lemma join_nonces_app l l' : join_nonces (l ++ l') = join_nonces l ++ join_nonces l'.
Proof. apply flat_map_app. Qed.
Lemma join_nonces_none l : forallb no_tx l = true -> join_nonces l = [].
Proof.
  induction l as [|o l IH]; intros H; [reflexivity|]. cbn [forallb] in H. apply andb_true_iff in H. destruct H as [H1 H2].
  unfold join_nonces in *. cbn [flat_map]. rewrite (IH H2). destruct o as [[]| | | |]; try discriminate H1; reflexivity.
Qed.
Lemma join_of_none o : no_tx o = true -> join_of o = [].
Proof. destruct o as [[]| | | |]; try discriminate; reflexivity. Qed.

(* a join request is sent only after a larger value has been announced *)
Definition foretold (d0 : Z) (pre : list out) (o : out) : Prop :=
  forall n, In n (join_of o) -> n < announced d0 pre.

(* and the announced value never falls *)
Definition rises (d0 : Z) (pre : list out) (o : out) : Prop := announced d0 pre <= announced d0 (pre ++ [o]).

Definition nonces_ok (c : cfg) (d0 : Z) (m : mac) : Prop :=
  so (m_op m) (m_state m) = true /\ ready c m /\
  announced d0 (m_log m) = m_devNonce m /\ d0 <= m_devNonce m /\
  StronglySorted Z.lt (join_nonces (m_log m)) /\ Forall (fun n => d0 <= n < m_devNonce m) (join_nonces (m_log m)) /\
  (m_op m = OP_JOINING -> d0 < m_devNonce m /\
     (before_tx (m_state m) = true -> Forall (fun n => n < m_devNonce m - 1) (join_nonces (m_log m)))) /\
  each (foretold d0) (m_log m) /\ each (rises d0) (m_log m).

Lemma foretold_none d0 l lo : each (foretold d0) l -> forallb no_tx lo = true -> each (foretold d0) (l ++ lo).
Proof.
  intros E H. apply each_app; [exact E|]. intros pre o post Eo n I.
  rewrite join_of_none in I; [destruct I|]. apply (proj1 (forallb_forall _ _) H). rewrite Eo. apply in_or_app. right. now left.
Qed.

Lemma rises_none d0 l lo : each (rises d0) l -> forallb no_nonce lo = true -> each (rises d0) (l ++ lo).
Proof.
  intros E H. apply each_app; [exact E|]. intros pre o post Eo. unfold rises. rewrite !announced_app.
  rewrite Eo in H. rewrite forallb_app in H. apply andb_true_iff in H. destruct H as [H1 H2]. cbn [forallb] in H2. apply andb_true_iff in H2.
  rewrite (announced_same _ pre), (announced_same _ [o]); [lia| |assumption]. cbn [forallb]. now rewrite (proj1 H2).
Qed.

Lemma rises_new d0 l n b : each (rises d0) l -> announced d0 l <= n -> forallb no_nonce b = true ->
  each (rises d0) (l ++ OEvent (EV_DEV_NONCE_UPDATED n) :: b).
Proof.
  intros E LE H. change (OEvent (EV_DEV_NONCE_UPDATED n) :: b) with ([OEvent (EV_DEV_NONCE_UPDATED n)] ++ b). rewrite app_assoc.
  apply rises_none; [|exact H]. apply each_app; [exact E|]. intros pre o post Eo. destruct pre as [|p0 pre]; [|destruct pre; discriminate Eo].
  injection Eo as <- _. unfold rises. rewrite app_nil_r, announced_app. exact LE.
Qed.

Lemma sorted_snoc l n : StronglySorted Z.lt l -> Forall (fun x => x < n) l -> StronglySorted Z.lt (l ++ [n]).
Proof.
  induction l as [|a l IH]; intros S F; cbn [app]; [constructor; constructor|].
  inversion S; subst. inversion F; subst. constructor; [auto|]. apply Forall_app. split; [assumption|]. constructor; [assumption|constructor].
Qed.

Lemma nonces_quiet c d0 m m' lo : nonces_ok c d0 m -> quiet m m' -> m_log m' = m_log m ++ lo -> forallb plain lo = true -> nonces_ok c d0 m'.
Proof.
  intros (S & R & A & D & SS & F & J & E & RR) Q L P.
  pose proof (plain_no_tx _ P) as NT. pose proof (plain_no_nonce _ P) as NN.
  unfold nonces_ok. rewrite L, announced_app, join_nonces_app, (join_nonces_none _ NT), app_nil_r, (announced_same _ _ NN).
  rewrite (core_nonce m m') by apply Q. rewrite (quiet_op _ _ Q), (proj2 Q).
  split; [exact S|]. split; [eapply ready_quiet; eauto|]. split; [exact A|]. split; [exact D|]. split; [exact SS|]. split; [exact F|]. split; [exact J|].
  split; [now apply foretold_none|now apply rises_none].
Qed.

Lemma nonces_act c d0 m e k r m' lo : in_place c -> c_l2 c <> L2_1_0_3 -> nonces_ok c d0 m -> act c e m k r m' -> m_log m' = m_log m ++ lo -> nonces_ok c d0 m'.
Proof.
  intros IP L2 (S & R & A & D & SS & F & J & E & RR) HA L.
  pose proof (act_so _ _ _ _ _ _ HA S) as S'. pose proof (ready_act _ _ _ _ _ _ IP S R HA) as R'.
  assert (0 <= m_devNonce m < 4294967296) as N0 by apply R.
  destruct (act_nonce _ _ _ _ _ _ _ HA L S) as [(DN & NN & JJ)|(LE & DN & O & b & -> & NB & NT)].
  - destruct (act_tx _ _ _ _ _ _ _ HA L) as [NT|(_ & ST & ST' & C & ->)].
    + unfold nonces_ok. rewrite L, announced_app, join_nonces_app, (join_nonces_none _ NT), app_nil_r, (announced_same _ _ NN), DN.
      split; [exact S'|]. split; [exact R'|]. split; [exact A|]. split; [exact D|]. split; [exact SS|]. split; [exact F|].
      split; [|split; [now apply foretold_none|now apply rises_none]]. intros O. destruct (JJ O) as [O1 B]. destruct (J O1) as [J1 J2]. split; [exact J1|]. intros B'. auto.
    + unfold nonces_ok. rewrite L, announced_app, join_nonces_app, (announced_same _ _ NN), DN.
      assert (forall n, In n (join_of (transmit_of c m)) -> n = m_devNonce m - 1 /\ m_op m = OP_JOINING /\ join_of (transmit_of c m) = [n]) as TX.
      { change (join_of (transmit_of c m)) with (if is_join_frame (frame_of m) then [nonce_of (frame_of m)] else []).
        destruct R as (_ & EJ & ED & _ & RD & RJ).
        assert (m_op m = OP_JOINING \/ is_data (m_op m) = true) as [O|O] by (rewrite ST in S; destruct (m_op m); try discriminate S; auto).
        - destruct (RJ O) as (n & mic & rest & HJ). destruct (frame_join_kind _ _ _ _ _ EJ ED HJ) as (K1 & K2 & _).
          rewrite K1, K2. intros n' [<-|[]]. destruct HJ as (_ & _ & _ & HN). auto.
        - destruct (RD O) as (body & rest & HD). destruct (frame_data_kind _ _ _ _ HD) as (K1 & _). rewrite K1. intros n []. }
      change (join_nonces [transmit_of c m]) with (join_of (transmit_of c m) ++ []). rewrite app_nil_r.
      split; [exact S'|]. split; [exact R'|]. split; [exact A|]. split; [exact D|].
      assert (each (foretold d0) (m_log m ++ [transmit_of c m])) as EE.
      { apply each_app; [exact E|]. intros pre o post Eo n I. destruct pre as [|p0 pre]; [|destruct pre; discriminate Eo].
        injection Eo as <- _. destruct (TX n I) as (-> & _ & _). rewrite app_nil_r, A. lia. }
      assert (each (rises d0) (m_log m ++ [transmit_of c m])) as RE by now apply rises_none.
      assert (forall P : Prop, before_tx (m_state m') = true -> P) as NB by (rewrite ST'; discriminate).
      destruct (join_of (transmit_of c m)) as [|n t] eqn:EN.
      * rewrite app_nil_r. split; [exact SS|]. split; [exact F|]. split; [|split; [exact EE|exact RE]].
        intros O. destruct (JJ O) as [O1 _]. destruct (J O1) as [J1 _]. split; [exact J1|]. apply NB.
      * destruct (TX n (or_introl eq_refl)) as (Hn & O & [= ->]). destruct (J O) as [J1 J2].
        assert (before_tx (m_state m) = true) as B by (rewrite ST; reflexivity). specialize (J2 B). subst n.
        split; [now apply sorted_snoc|]. split; [apply Forall_app; split; [exact F|]; constructor; [lia|constructor]|].
        split; [|split; [exact EE|exact RE]]. intros _. split; [exact J1|apply NB].
  - assert (m_devNonce m' = m_devNonce m + 1) as DN' by (rewrite DN; unfold u32; lia). clear DN.
    unfold nonces_ok. rewrite L, announced_app, join_nonces_app, (join_nonces_none (_ :: b)), app_nil_r by (cbn [forallb no_tx]; exact NT).
    assert (forall d, announced d (OEvent (EV_DEV_NONCE_UPDATED (m_devNonce m')) :: b) = m_devNonce m') as AN
      by (intros d; exact (announced_same _ _ NB)).
    rewrite AN, DN'.
    split; [exact S'|]. split; [exact R'|]. split; [reflexivity|]. split; [lia|]. split; [exact SS|].
    split; [eapply Forall_impl; [|exact F]; cbv beta; intros; lia|]. split; [|split; [apply foretold_none; [exact E|exact NT]|apply rises_new; [exact RR|rewrite A; lia|exact NB]]].
    intros _. split; [lia|]. intros _. eapply Forall_impl; [|exact F]. cbv beta. intros; lia.
Qed.

Lemma nonces_init c r a e : arg_ok a -> nonces_ok c (ia_devNonce a) (MAC_init c r a e).
Proof.
  intros OK. pose proof (ready_init c r a e OK) as R. destruct (init_facts c r a e) as (O & S & L & DN & _). cbv zeta in *.
  unfold nonces_ok. rewrite O, S, L, DN. split; [reflexivity|]. split; [exact R|]. split; [reflexivity|]. split; [lia|]. split; [constructor|].
  split; [constructor|]. split; [discriminate|]. split; apply each_nil.
Qed.

Theorem nonces_always c r a e h : in_place c -> c_l2 c <> L2_1_0_3 -> arg_ok a ->
  nonces_ok c (ia_devNonce a) (run c h (MAC_init c r a e)).
Proof.
  intros IP L2 OK.
  refine (hist_ind c (fun _ => True) (fun _ m => nonces_ok c (ia_devNonce a) m) _ _ h [] _ (nonces_init c r a e OK) _).
  - intros. eapply nonces_quiet; eauto.
  - intros. eapply nonces_act; eauto.
  - apply Forall_forall. auto.
Qed.

(* --- one power cycle after another --- *)

Lemma sorted_app l l' k : StronglySorted Z.lt l -> StronglySorted Z.lt l' -> Forall (fun n => n < k) l -> Forall (fun n => k <= n) l' ->
  StronglySorted Z.lt (l ++ l').
Proof.
  induction l as [|a l IH]; intros S S' F F'; [exact S'|]. inversion S; subst. inversion F; subst. cbn [app]. constructor; [auto|].
  apply Forall_app. split; [assumption|]. eapply Forall_impl; [|exact F']. cbv beta. intros; lia.
Qed.
Lemma sorted_prefix l l' : StronglySorted Z.lt (l ++ l') -> StronglySorted Z.lt l.
Proof.
  induction l as [|a l IH]; intros S; [constructor|]. cbn [app] in S. inversion S; subst. constructor; [auto|].
  apply Forall_app in H2. tauto.
Qed.

(* every nonce sent is below the last value announced *)
Lemma prefix_below d pre post : each (foretold d) (pre ++ post) -> (forall p q, pre = p ++ q -> announced d p <= announced d pre) ->
  Forall (fun n => n < announced d pre) (join_nonces pre).
Proof.
  intros E M. apply Forall_forall. intros n I. unfold join_nonces in I. apply in_flat_map in I. destruct I as (o & Io & In).
  apply in_split in Io. destruct Io as (p & q & Eq). specialize (E p o (q ++ post)). rewrite Eq in E at 1. rewrite <- app_assoc in E.
  specialize (E eq_refl n In). specialize (M p (o :: q) Eq). lia.
Qed.

Lemma rises_prefix d l : each (rises d) l -> forall p q, l = p ++ q -> announced d p <= announced d l.
Proof.
  intros E p q. revert p. induction q as [|o q IH]; intros p Eq; [rewrite app_nil_r in Eq; subst; lia|].
  pose proof (E p o q Eq) as R. unfold rises in R. specialize (IH (p ++ [o])). rewrite <- app_assoc in IH. specialize (IH Eq). lia.
Qed.
Lemma each_prefix {A} (G : list A -> A -> Prop) p q : each G (p ++ q) -> each G p.
Proof. intros E pre x post Eq. apply (E pre x (post ++ q)). rewrite Eq, <- app_assoc. reflexivity. Qed.

Theorem lives_increase c d l : in_place c -> c_l2 c <> L2_1_0_3 -> lives c d l ->
  StronglySorted Z.lt (join_nonces l) /\ Forall (fun n => d <= n) (join_nonces l).
Proof.
  intros IP L2 H. induction H as [d|d r a e h pre post rest OK ED EL HL IH]; [split; constructor|].
  destruct (nonces_always c r a e h IP L2 OK) as (_ & _ & _ & _ & SS & F & _ & E & R). rewrite EL in *. rewrite ED in *. clear EL.
  rewrite join_nonces_app in *. apply sorted_prefix in SS as SS1. apply Forall_app in F. destruct F as [F _].
  pose proof (rises_prefix _ _ (each_prefix _ _ _ R)) as M. pose proof (prefix_below _ _ _ E M) as B.
  destruct IH as [IH1 IH2]. split; [now apply (sorted_app _ _ (announced d pre))|].
  apply Forall_app. split; [eapply Forall_impl; [|exact F]; cbv beta; intros; lia|].
  specialize (M [] pre eq_refl). change (announced d []) with d in M. eapply Forall_impl; [|exact IH2]. cbv beta. intros; lia.
Qed.

Theorem join_foretold c r a e h pre f bw sf p fr post : in_place c -> c_l2 c <> L2_1_0_3 -> arg_ok a ->
  m_log (run c h (MAC_init c r a e)) = pre ++ OTransmit f bw sf p fr :: post -> is_join_frame fr = true ->
  ia_devNonce a <= nonce_of fr < announced (ia_devNonce a) pre.
Proof.
  intros IP L2 OK EL J. destruct (nonces_always c r a e h IP L2 OK) as (_ & _ & _ & _ & _ & F & _ & E & _).
  assert (In (nonce_of fr) (join_of (OTransmit f bw sf p fr))) as I by (cbn [join_of]; rewrite J; now left).
  split; [|exact (E _ _ _ EL _ I)]. rewrite EL, join_nonces_app in F. apply Forall_app in F. destruct F as [_ F].
  unfold join_nonces in F. cbn [flat_map] in F. rewrite J in F. cbn [app] in F. inversion F; subst. lia.
Qed.

(* values run out *)
Theorem join_refused c r a e h e' : in_place c -> c_l2 c <> L2_1_0_3 -> arg_ok a ->
  let m := run c h (MAC_init c r a e) in
  65535 < announced (ia_devNonce a) (m_log m) -> refuses (snd (step c e' C_otaa m)) = true /\ fst (step c e' C_otaa m) = m.
Proof.
  cbv zeta. intros IP L2 OK. destruct (nonces_always c r a e h IP L2 OK) as (_ & _ & A & _). revert A. generalize (run c h (MAC_init c r a e)). intros m A H.
  rewrite A in H. cbn [step]. open_def MAC_otaa. destruct (s_joined (m_ctx m)); [split; reflexivity|]. destruct (m_op m); try (split; reflexivity).
  destruct (Z.leb_spec (m_devNonce m) 65535); [lia|]. split; reflexivity.
Qed.
