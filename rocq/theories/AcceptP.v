(* Join accepts: nonces increase, and no frame is accepted twice. *)
From Verif Require Import Lib StreamM FrameM CommandsM RegionM RadioM SmM MacStateM MacTac MacUtilM OpsM MacCmdM MacProcM MacApiM MacRw CoreP CaseP RxP SpecFrame SpecDecode SpecAes SpecSm SpecHist SpecRx FrameP FrameRtP SmP HistP EndP TxP UplinkP ReadyP JoinP DataP.
From Coq Require Import Sorting.Sorted.

Lemma rx_buffer_ok e : bytes_ok (e_rx e) -> bytes_ok (rx_buffer e).
Proof.
  intros H. unfold rx_buffer. apply Forall_forall. intros x Hx. 
  assert (In x (e_rx e ++ fill 0 255)) as I by (rewrite <- (firstn_skipn 255 (e_rx e ++ fill 0 255)); apply in_or_app; now left).
  apply in_app_or in I. destruct I as [I|I]; [exact (proj1 (Forall_forall _ _) H x I)|]. apply repeat_spec in I. subst x. unfold byte_ok. lia.
Qed.
(* the plain text of a join accept *)
Definition accept_plain (c : cfg) (m : mac) (buf : bytes) (len : Z) : bytes :=
  let b := ecb_at c m KEY_NWK 1 buf in
  if len =? Frame_sizeofJoinAccept true then ecb_at c m KEY_NWK (Z.to_nat (Frame_sizeofJoinAccept false)) b else b.

Lemma join_received c m e buf f : receiveFrame c m (rx_buffer e) (rx_len e) = (buf, Some f) -> is_rx_data f = false -> m_op m <> OP_REJOINING ->
  m_op m = OP_JOINING /\ dn_type f = FT_JOIN_ACCEPT /\
  Frame_decode (c_l2 c) (accept_plain c m (rx_buffer e) (rx_len e)) (rx_len e) = Some f /\
  (c_l2 c <> L2_1_0_3 -> m_joinNonce m <= dn_joinNonce f).
Proof.
  intros H D NR. pose proof (receiveFrame_op _ _ _ _ _ H) as O. rewrite D in O. destruct O as [[O|O] T]; [|congruence].
  split; [exact O|]. split; [exact T|]. revert H. unfold receiveFrame.
  destruct (Frame_decode (c_l2 c) (rx_buffer e) (rx_len e)) as [g|] eqn:E; [|discriminate].
  destruct (dn_type g) eqn:TG; try discriminate.
  - unfold receiveJoin. rewrite O. cbv zeta. fold (accept_plain c m (rx_buffer e) (rx_len e)).
    set (b2 := accept_plain c m (rx_buffer e) (rx_len e)). clearbody b2.
    destruct (Frame_decode (c_l2 c) b2 (rx_len e)) as [h|] eqn:D2; [|discriminate].
    destruct (match c_l2 c with L2_1_0_3 => _ | _ => _ end) eqn:OLD; [discriminate|].
    destruct (_ =? _); [|discriminate]. intros Q. apply (f_equal snd) in Q. cbn [snd] in Q. injection Q as <-.
    split; [reflexivity|]. intros V. destruct (c_l2 c); [congruence|lia|lia].
  - unfold receiveData. rewrite O. discriminate.
  - unfold receiveData. rewrite O. discriminate.
Qed.

Lemma accept_plain_ok c m e : octets c -> bytes_ok (e_rx e) -> let b := accept_plain c m (rx_buffer e) (rx_len e) in
  bytes_ok b /\ length b = 255%nat.
Proof.
  intros ((_ & IE) & OE) HB. unfold accept_plain. cbv zeta.
  assert (forall b i, bytes_ok b -> length b = 255%nat -> (i < 200)%nat -> bytes_ok (ecb_at c m KEY_NWK i b) /\ length (ecb_at c m KEY_NWK i b) = 255%nat) as G.
  { intros b i B L I. unfold ecb_at. split.
    - apply bytes_ok_splice; [exact B|]. apply OE. split; [apply slice_length; lia|now apply bytes_ok_slice].
    - rewrite splice_length; [exact L|]. rewrite IE; [lia|]. apply slice_length; lia. }
  destruct (G (rx_buffer e) 1%nat (rx_buffer_ok e HB) (rx_buffer_length e) ltac:(lia)) as [G1 G2].
  destruct (_ =? _); [|split; assumption]. apply G; try assumption. cbn. lia.
Qed.

Lemma nonce_range c m e buf f : octets c -> bytes_ok (e_rx e) -> receiveFrame c m (rx_buffer e) (rx_len e) = (buf, Some f) -> is_rx_data f = false -> m_op m <> OP_REJOINING ->
  0 <= dn_joinNonce f < 16777216.
Proof.
  intros OC HB H D NR. destruct (join_received _ _ _ _ _ H D NR) as (_ & T & E & _).
  destruct (accept_plain_ok c m e OC HB) as [B L]. cbv zeta in B, L.
  assert (0 <= rx_len e < 256 /\ rx_len e <= Z.of_nat (length (accept_plain c m (rx_buffer e) (rx_len e)))) as [L1 L2].
  { rewrite L. unfold rx_len. pose proof (firstn_le_length 255 (e_rx e)). lia. }
  destruct (join_sound (c_l2 c) _ (rx_len e) f (conj B (conj L1 L2)) E T) as (j & W & _ & R).
  unfold reports_accept in R. unfold accept_wf in W. destruct R as (_ & -> & _). change (2 ^ 24) with 16777216 in W. lia.
Qed.

(* --- one action --- *)

Definition no_join (o : out) : bool := match o with OEvent (EV_JOIN_COMPLETE _ _ _) => false | _ => true end.
Lemma plain_no_join lo : forallb plain lo = true -> forallb no_join lo = true.
Proof.
  intros H. apply forallb_forall. intros o Ho. apply (proj1 (forallb_forall _ _) H) in Ho. destruct o as [[]| | | |]; try discriminate; reflexivity.
Qed.
Lemma told_no_join lo : forallb told_rx lo = true -> forallb no_join lo = true.
Proof.
  intros H. apply forallb_forall. intros o Ho. apply (proj1 (forallb_forall _ _) H) in Ho. destruct o as [[]| | | |]; try discriminate; reflexivity.
Qed.
Lemma news_app l l' : join_news (l ++ l') = join_news l ++ join_news l'. Proof. apply flat_map_app. Qed.
Lemma news_none l : forallb no_join l = true -> join_news l = [].
Proof.
  induction l as [|o l IH]; intros H; [reflexivity|]. cbn [forallb] in H. apply andb_true_iff in H. destruct H as [H1 H2].
  unfold join_news in *. cbn [flat_map]. rewrite (IH H2). destruct o as [[]| | | |]; try discriminate H1; reflexivity.
Qed.
Lemma kept_app d l l' : join_kept d (l ++ l') = join_kept (join_kept d l) l'. Proof. apply fold_left_app. Qed.
Lemma kept_none d l : forallb no_join l = true -> join_kept d l = d.
Proof.
  revert d. induction l as [|o l IH]; intros d H; [reflexivity|]. cbn [forallb] in H. apply andb_true_iff in H. destruct H as [H1 H2].
  unfold join_kept in *. cbn [fold_left]. destruct o as [[]| | | |]; try discriminate H1; now apply IH.
Qed.

Definition accepted_here (c : cfg) (e : env) (m m' : mac) (lo : list out) (f : frame_down) (buf : bytes) : Prop :=
  receiveFrame c m (rx_buffer e) (rx_len e) = (buf, Some f) /\ is_rx_data f = false /\
  m_joinNonce m' = u32 (dn_joinNonce f + 1) /\ exists s, lo = [OEvent (EV_JOIN_COMPLETE (u32 (dn_joinNonce f + 1)) (dn_netID f) (dn_devAddr f)); OEvent (EV_SESSION_UPDATED s)].

Lemma core_jn m m' : core m' = core m -> m_joinNonce m' = m_joinNonce m.
Proof. intros C. apply core_fields in C. unfold same_core in C. tauto. Qed.

Lemma miss_join c e m m' lo : miss_case c e m m' -> m_log m' = m_log m ++ lo -> m_op m = OP_JOINING \/ is_data (m_op m) = true ->
  m_joinNonce m' = m_joinNonce m /\ forallb no_join lo = true.
Proof.
  intros HM L HO. destruct HM as [m2 D ? C S E|m2 D p C S E|m2 O ? C S E|m2 O ? C S E|D O].
  - rewrite (core_jn _ _ C). rewrite E in L. apply same_log_tail in L. subst lo. split; reflexivity.
  - rewrite (core_jn _ _ C). rewrite E in L. apply app_tail in L. subst lo.
    destruct (adaptRate_fields c (next_trial m)) as (s & n & b & E1 & _). cbv zeta in E1. 
    split; [subst p; rewrite E1; reflexivity|]. rewrite forallb_app. destruct (snd p), (m_op m); reflexivity.
  - rewrite (core_jn _ _ C). rewrite E in L. apply app_tail in L. subst lo.
    destruct (fillJoin_fields c e (u16 (m_devNonce m)) (next_trial m)) as (t & buf & len & dn & E1 & _).
    split; [|reflexivity]. rewrite E1. reflexivity.
  - rewrite (core_jn _ _ C). rewrite E in L. apply app_tail in L. subst lo. split; reflexivity.
  - destruct HO; congruence.
Qed.

Lemma act_join c e m k r m' lo : act c e m k r m' -> m_log m' = m_log m ++ lo -> so (m_op m) (m_state m) = true ->
  m_joinNonce m' = m_joinNonce m /\ forallb no_join lo = true \/ k = C_process /\ exists buf f, accepted_here c e m m' lo f buf.
Proof.
  intros HA. revert lo. induction HA; intros lo L HS.
  - apply same_log_tail in L. subst. left. split; reflexivity.
  - destruct H as [C (l & E & P)]. rewrite E in L. apply app_tail in L. subst l. left. split; [now apply core_jn|now apply plain_no_join].
  - rewrite H2 in L. apply app_tail in L. subst lo. left. split; [now apply core_jn|reflexivity].
  - rewrite H2 in L. apply app_tail in L. subst lo. left. split; [now rewrite (core_jn _ _ H0)|reflexivity].
  - left. eapply miss_join; eauto. destruct (so_rx _ _ HS) as [D|D]; [tauto|auto|auto].
  - rewrite H3 in L. apply app_tail in L. subst lo. left. split; [now rewrite (core_jn _ _ H1)|reflexivity].
  - destruct (miss_log _ _ _ _ H1) as (l1 & E1). rewrite H4, E1, <- app_assoc in L. apply app_tail in L. subst lo. left.
    destruct (miss_join c e m x l1 H1 E1 (or_introl H0)) as [A B]. split; [now rewrite (core_jn _ _ H2)|]. now rewrite forallb_app, B.
  - destruct (data_received_frame c e buf f m) as (s & l & C & _ & _ & LG & _ & T). cbv zeta in *.
    set (x := data_received c e buf f m) in *. clearbody x. unfold pushSessionUpdate, notify, emit in *. ms_in L. rewrite LG, <- !app_assoc in L. apply app_tail in L. subst lo.
    left. ms. split; [now rewrite (core_jn _ _ C)|].
    rewrite !forallb_app, (told_no_join _ T). unfold down_end. destruct (m_op m), (dn_ack f); reflexivity.
  - destruct (join_accepted_frame c buf f m) as (s & l & C & CX & _ & LG & _). cbv zeta in *. right. split; [reflexivity|]. exists buf, f. unfold accepted_here. split; [assumption|]. split; [assumption|].
    set (x := join_accepted c buf f m) in *. clearbody x. unfold pushSessionUpdate, notify, emit in *. ms_in L. rewrite LG, <- !app_assoc in L. apply app_tail in L. subst lo.
    split; [ms; now rewrite (core_jn _ _ C)|]. eexists. reflexivity.
  - subst m'. apply same_log_tail in L. subst. left. split; reflexivity.
  - rewrite H1 in L. apply same_log_tail in L. subst. left. split; [now rewrite (core_jn _ _ H0)|reflexivity].
  - rewrite H3 in L. apply app_tail in L. subst lo. left. rewrite (core_jn _ _ H2). split; [|reflexivity].
    destruct (fillJoin_fields c e (u16 (m_devNonce m)) (set_m_sm (m_sm m ++ sm) (set_m_trials 0 m))) as (t & buf & len & dn & E1 & _).
    subst x. rewrite E1. reflexivity.
  - rewrite H2 in L. apply same_log_tail in L. subst. left. split; [now rewrite (core_jn _ _ H1)|reflexivity].
  - rewrite H7 in L. apply app_tail in L. subst lo. left. split; [now rewrite (core_jn _ _ H6)|reflexivity].
  - rewrite H2 in L. apply app_tail in L. subst lo. left. split; [now rewrite (core_jn _ _ H0)|]. destruct (m_state m), (m_op m); reflexivity.
  - destruct (act_log _ _ _ _ _ _ HA) as (l1 & E1). rewrite H2, E1, <- app_assoc in L. apply app_tail in L. subst lo.
    destruct (IHHA l1 E1 HS) as [[A B]|(E & _)]; [|discriminate E]. left. split; [now rewrite (core_jn _ _ H0)|]. now rewrite forallb_app, B.
  - left. split; [now rewrite (core_jn _ _ H2)|].
    destruct H4 as [E|E]; rewrite E in L; [apply same_log_tail in L|apply app_tail in L]; subst; reflexivity.
Qed.

(* --- the invariant --- *)

Lemma so_not_rejoining op s : so op s = true -> op <> OP_REJOINING.
Proof. intros H ->. destruct s; discriminate H. Qed.

Lemma kept_last d l : join_kept d l = last (join_news l) d.
Proof.
  revert d. induction l as [|o l IH]; intros d; [reflexivity|]. unfold join_kept, join_news in *. cbn [fold_left flat_map].
  destruct o as [[]| | | |]; try apply IH. rewrite IH. cbn [app]. generalize (flat_map (fun o => match o with OEvent (EV_JOIN_COMPLETE n _ _) => [n] | _ => [] end) l).
  intros k. clear. revert joinNonce. induction k as [|x k IHk]; intros n; [reflexivity|]. destruct k; [reflexivity|]. exact (IHk n).
Qed.

Definition accepts_ok (d0 : Z) (l : list out) (m : mac) : Prop :=
  so (m_op m) (m_state m) = true /\ join_kept d0 l = m_joinNonce m /\ StronglySorted Z.lt (d0 :: join_news l).

Lemma sorted_last d l n : StronglySorted Z.lt (d :: l) -> last l d < n -> StronglySorted Z.lt (d :: l ++ [n]).
Proof.
  revert d. induction l as [|x l IH]; intros d S H; cbn [app].
  - constructor; [constructor; constructor|]. constructor; [exact H|constructor].
  - inversion S as [|? ? S1 F]; subst. inversion F; subst. assert (last (x :: l) d = last l x) as EL.
    { destruct l as [|y l]; [reflexivity|]. change (last (y :: l) d = last (y :: l) x). clear. revert y. induction l as [|z l IHl]; intros y; [reflexivity|]. exact (IHl z). }
    rewrite EL in H. specialize (IH x S1 H). constructor; [exact IH|]. constructor; [assumption|].
    apply Forall_app. split; [assumption|]. inversion IH as [|? ? _ FI]; subst. apply Forall_app in FI. destruct FI as [_ FI]. inversion FI; subst. constructor; [lia|constructor].
Qed.

Lemma accepts_step c d0 l m m' e k r lo : octets c -> c_l2 c <> L2_1_0_3 -> bytes_ok (e_rx e) -> accepts_ok d0 l m -> act c e m k r m' -> m_log m' = m_log m ++ lo ->
  accepts_ok d0 (l ++ lo) m'.
Proof.
  intros OC V HB (S & K & SS) HA L. unfold accepts_ok. split; [eapply act_so; eauto|]. rewrite kept_app, news_app.
  destruct (act_join _ _ _ _ _ _ _ HA L S) as [[A B]|(_ & buf & f & RF & D & JN & s & ->)].
  - rewrite (kept_none _ _ B), (news_none _ B), app_nil_r, A. auto.
  - pose proof (so_not_rejoining _ _ S) as NR. destruct (join_received _ _ _ _ _ RF D NR) as (_ & _ & _ & LE). specialize (LE V).
    pose proof (nonce_range _ _ _ _ _ OC HB RF D NR) as RG. split; [now rewrite JN|]. cbn [join_news flat_map List.app].
    apply sorted_last; [exact SS|]. rewrite <- kept_last, K. unfold u32. lia.
Qed.

Theorem accepts_always c r a e h : octets c -> c_l2 c <> L2_1_0_3 -> air_ok h ->
  let m := run c h (MAC_init c r a e) in accepts_ok (ia_joinNonce a) (m_log m) m.
Proof.
  intros OC V AIR m. subst m. set (m0 := MAC_init c r a e).
  destruct (init_facts c r a e) as (E1 & E2 & LG & _ & E5 & _). cbv zeta in *. fold m0 in E1, E2, E5, LG.
  assert (m_log (run c h m0) = outs (items c h m0)) as EL by (rewrite outs_items, LG; reflexivity). rewrite EL.
  refine (hist_ind c (fun x => bytes_ok (e_rx (fst x))) (fun l m => accepts_ok (ia_joinNonce a) (outs l) m) _ _ h [] m0 _ AIR).
  - intros l x x' lo (S & K & SS) Q L P. rewrite outs_app, outs_map. unfold accepts_ok.
    split; [eapply quiet_so; eauto|]. pose proof (plain_no_join _ P) as B. rewrite kept_app, news_app, (kept_none _ _ B), (news_none _ B), app_nil_r.
    rewrite (core_jn x x') by apply Q. auto.
  - intros l x e1 k ret x' lo I OK AC L. rewrite !outs_app, outs_reqs, outs_map. cbn [List.app fst] in *. eapply accepts_step; eauto.
  - unfold accepts_ok. rewrite E1, E2. split; [reflexivity|]. split; [symmetry; exact E5|]. constructor; constructor.
Qed.

Lemma sorted_split d A B : StronglySorted Z.lt (d :: A ++ B) -> StronglySorted Z.lt (d :: A).
Proof. intros H. exact (sorted_prefix (d :: A) B H). Qed.
Lemma sorted_join d A B : StronglySorted Z.lt (d :: A) -> StronglySorted Z.lt (last A d :: B) -> StronglySorted Z.lt (d :: A ++ B).
Proof.
  revert A. induction B as [|x B IH] using rev_ind; intros A SA SB; [rewrite app_nil_r; exact SA|].
  rewrite app_assoc. apply sorted_last; [apply IH; [exact SA|exact (sorted_prefix (last A d :: B) [x] SB)]|].
  destruct B as [|y B].
  - rewrite app_nil_r. inversion SB as [|? ? _ F]; subst. inversion F; subst. assumption.
  - assert (last (A ++ y :: B) d = last (y :: B) d) as ->.
    { clear. induction A as [|a A IHA]; [reflexivity|]. cbn [app]. rewrite <- IHA. destruct (A ++ y :: B) eqn:E; [destruct A; discriminate E|reflexivity]. }
    cbn [app] in SB. inversion SB as [|? ? S1 _]; subst. clear - S1.
    assert (forall y B d x, StronglySorted Z.lt (y :: B ++ [x]) -> last (y :: B) d < x) as G; [|exact (G y B d x S1)].
    clear. intros y B. revert y. induction B as [|z B IH]; intros y d x S.
    + inversion S as [|? ? _ F]; subst. inversion F; subst. assumption.
    + change (last (z :: B) d < x). cbn [app] in S. inversion S; subst. now apply IH.
Qed.

Theorem accepts_increase c d l : octets c -> c_l2 c <> L2_1_0_3 -> accept_lives c d l -> StronglySorted Z.lt (d :: join_news l).
Proof.
  intros OC V H. induction H as [d|d r a e h pre post rest OK ED AIR EL HL IH]; [constructor; constructor|].
  destruct (accepts_always c r a e h OC V AIR) as (_ & _ & SS). rewrite EL, ED, news_app in SS. apply sorted_split in SS.
  rewrite news_app. apply sorted_join; [exact SS|]. rewrite <- kept_last. exact IH.
Qed.

(* --- the same frame again --- *)

Lemma plain_fixed c m m' buf len : fixed_root c -> accept_plain c m buf len = accept_plain c m' buf len.
Proof. intros F. unfold accept_plain, ecb_at. rewrite !(F (m_sm m) (m_sm m')). reflexivity. Qed.

Lemma step_accepts c e k m : so (m_op m) (m_state m) = true -> existsb (fun o => negb (no_join o)) (new_out m (fst (step c e k m))) = true ->
  exists m1 f buf, m_joinNonce m1 = m_joinNonce m /\ m_op m1 <> OP_REJOINING /\ receiveFrame c m1 (rx_buffer e) (rx_len e) = (buf, Some f) /\ is_rx_data f = false /\
    m_joinNonce (fst (step c e k m)) = u32 (dn_joinNonce f + 1).
Proof.
  intros S H. destruct (step_cases c e k m) as (m1 & m2 & Q1 & A & Q2 & _).
  destruct (quiet_log _ _ Q1) as (l1 & L1 & P1). destruct (quiet_log _ _ Q2) as (l2 & L2 & P2). destruct (act_log _ _ _ _ _ _ A) as (la & LA).
  assert (so (m_op m1) (m_state m1) = true) as S1 by (eapply quiet_so; eauto).
  assert (new_out m (fst (step c e k m)) = l1 ++ la ++ l2) as EN.
  { unfold new_out. rewrite L2, LA, L1, <- !app_assoc. rewrite skipn_app, skipn_all, Nat.sub_diag. reflexivity. }
  rewrite EN in H. destruct (act_join _ _ _ _ _ _ _ A LA S1) as [[_ B]|(_ & buf & f & RF & D & JN & _)].
  - exfalso. assert (forallb no_join (l1 ++ la ++ l2) = true) as G by (rewrite !forallb_app, B, (plain_no_join _ P1), (plain_no_join _ P2); reflexivity).
    apply existsb_exists in H. destruct H as (o & I & N). apply (proj1 (forallb_forall _ _) G) in I. rewrite I in N. discriminate N.
  - exists m1, f, buf. split; [apply core_jn, Q1|]. split; [now apply (so_not_rejoining _ (m_state m1))|]. split; [exact RF|]. split; [exact D|].
    rewrite (core_jn m2 (fst (step c e k m))) by apply Q2. exact JN.
Qed.

Lemma jn_mono c h m : octets c -> c_l2 c <> L2_1_0_3 -> air_ok h -> so (m_op m) (m_state m) = true -> m_joinNonce m <= m_joinNonce (run c h m).
Proof.
  intros OC V AIR S.
  refine (proj2 (hist_ind c (fun x => bytes_ok (e_rx (fst x))) (fun _ x => so (m_op x) (m_state x) = true /\ m_joinNonce m <= m_joinNonce x) _ _ h [] m _ AIR)).
  - intros l x x' lo (S1 & LE) Q _ _. split; [eapply quiet_so; eauto|]. rewrite (core_jn x x') by apply Q. exact LE.
  - intros l x e k r x' lo (S1 & LE) HB A L. split; [eapply act_so; eauto|]. cbn [fst] in HB.
    destruct (act_join _ _ _ _ _ _ _ A L S1) as [[E _]|(_ & buf & f & RF & D & JN & _)]; [rewrite E; exact LE|].
    pose proof (so_not_rejoining _ _ S1) as NR. destruct (join_received _ _ _ _ _ RF D NR) as (_ & _ & _ & LJ). specialize (LJ V).
    pose proof (nonce_range _ _ _ _ _ OC HB RF D NR) as RG. rewrite JN. unfold u32. lia.
  - split; [exact S|lia].
Qed.

Lemma news_some l : join_news l <> [] <-> existsb (fun o => negb (no_join o)) l = true.
Proof.
  induction l as [|o l IH]; [split; [intros H; exfalso; apply H; reflexivity|discriminate]|]. unfold join_news in *. cbn [flat_map existsb].
  destruct o as [[]| | | |]; cbn [no_join negb orb List.app]; try exact IH. split; [reflexivity|discriminate].
Qed.

(* m' is any later state, of this life or another *)
Lemma accepted_before c e1 k1 m1 m' h2 e2 k2 : octets c -> fixed_root c -> c_l2 c <> L2_1_0_3 -> so (m_op m1) (m_state m1) = true -> so (m_op m') (m_state m') = true ->
  air_ok h2 -> bytes_ok (e_rx e1) -> e_rx e2 = e_rx e1 ->
  let m1' := fst (step c e1 k1 m1) in
  let m2 := run c h2 m' in
  m_joinNonce m1' <= m_joinNonce m' -> join_news (new_out m1 m1') <> [] -> join_news (new_out m2 (fst (step c e2 k2 m2))) = [].
Proof.
  intros OC FX V S1 S1' A2 HB EQ m1' m2 LL J1.
  assert (so (m_op m2) (m_state m2) = true) as S2 by (apply so_always, S1').
  destruct (join_news (new_out m2 (fst (step c e2 k2 m2)))) as [|n t] eqn:J2; [reflexivity|exfalso].
  apply news_some in J1. assert (join_news (new_out m2 (fst (step c e2 k2 m2))) <> []) as J2' by congruence. apply news_some in J2'.
  destruct (step_accepts c e1 k1 m1 S1 J1) as (x1 & f1 & b1 & N1 & R1 & RF1 & D1 & JN1). fold m1' in JN1.
  destruct (step_accepts c e2 k2 m2 S2 J2') as (x2 & f2 & b2 & N2 & R2 & RF2 & D2 & JN2).
  assert (rx_buffer e2 = rx_buffer e1 /\ rx_len e2 = rx_len e1) as [EB EN] by (unfold rx_buffer, rx_len; rewrite EQ; auto).
  destruct (join_received _ _ _ _ _ RF1 D1 R1) as (_ & _ & F1 & _). destruct (join_received _ _ _ _ _ RF2 D2 R2) as (_ & _ & F2 & LE). specialize (LE V).
  rewrite (plain_fixed c x2 x1) in F2 by exact FX. rewrite EB, EN, F1 in F2. injection F2 as <-.
  pose proof (nonce_range _ _ _ _ _ OC HB RF1 D1 R1) as RG. pose proof (jn_mono c h2 m' OC V A2 S1') as MM. fold m2 in MM.
  rewrite JN1 in LL. rewrite N2 in LE. unfold u32 in LL. lia.
Qed.

Lemma run_app c h h' m : run c (h ++ h') m = run c h' (run c h m).
Proof. revert m. induction h as [|[e k] h IH]; intros m; [reflexivity|]. cbn [List.app run]. apply IH. Qed.

Lemma init_so c r a e h : let m := run c h (MAC_init c r a e) in so (m_op m) (m_state m) = true.
Proof. cbv zeta. apply so_always. destruct (init_facts c r a e) as (E1 & E2 & _). cbv zeta in *. rewrite E1, E2. reflexivity. Qed.

Theorem accepted_once c r a e0 h1 e1 k1 h2 e2 k2 : octets c -> fixed_root c -> c_l2 c <> L2_1_0_3 -> air_ok h2 -> bytes_ok (e_rx e1) -> e_rx e2 = e_rx e1 ->
  let m1 := run c h1 (MAC_init c r a e0) in
  let m1' := fst (step c e1 k1 m1) in
  let m2 := run c h2 m1' in
  join_news (new_out m1 m1') <> [] -> join_news (new_out m2 (fst (step c e2 k2 m2))) = [].
Proof.
  intros OC FX V A2 HB EQ m1 m1' m2 J1. apply (accepted_before c e1 k1 m1 m1'); auto; [apply init_so| |fold m1'; lia].
  apply (so_always c [(e1, k1)] m1), init_so.
Qed.

(* the second life is started with at least the value last reported *)
Theorem accepted_once_restart c r a e0 h1 e1 k1 r' a' e0' h2 e2 k2 : octets c -> fixed_root c -> c_l2 c <> L2_1_0_3 -> air_ok h1 -> air_ok h2 -> bytes_ok (e_rx e1) -> e_rx e2 = e_rx e1 ->
  let m1 := run c h1 (MAC_init c r a e0) in
  let m1' := fst (step c e1 k1 m1) in
  let m2 := run c h2 (MAC_init c r' a' e0') in
  join_kept (ia_joinNonce a) (m_log m1') <= ia_joinNonce a' ->
  join_news (new_out m1 m1') <> [] -> join_news (new_out m2 (fst (step c e2 k2 m2))) = [].
Proof.
  intros OC FX V A1 A2 HB EQ m1 m1' m2 LE J1. apply (accepted_before c e1 k1 m1 (MAC_init c r' a' e0')); auto.
  - apply init_so.
  - exact (init_so c r' a' e0' []).
  - destruct (init_facts c r' a' e0') as (_ & _ & _ & _ & E5 & _). cbv zeta in E5. rewrite E5. fold m1'.
    destruct (accepts_always c r a e0 (h1 ++ [(e1, k1)]) OC V) as (_ & K & _).
    { apply Forall_app. split; [exact A1|]. repeat constructor. exact HB. }
    rewrite run_app in K. cbn [run] in K. fold m1 in K. fold m1' in K. lia.
Qed.

