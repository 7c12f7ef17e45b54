(* The channel a data request is given. *)
From Verif Require Import Lib StreamM FrameM CommandsM RegionM RadioM SmM MacStateM MacTac MacUtilM OpsM MacCmdM MacProcM MacApiM MacRw SpecRegion SpecValid SpecChan RegionP ChanP CoreP CaseP RxP SpecHist SpecSend HistP EndP TxP UplinkP ReadyP ReqP DataP AcceptP CtxP DownP SelectP ValidP SentP.

Lemma required_near d lo hi : lo <= hi -> lo <= requiredRate d lo hi <= hi /\ forall x, lo <= x <= hi -> Z.abs (requiredRate d lo hi - d) <= Z.abs (x - d).
Proof. intros L. unfold requiredRate. destruct (d <? lo) eqn:A; [|destruct (d >? hi) eqn:B]; (split; [lia|intros x Hx; lia]). Qed.

(* channels that may be chosen: open, and not the one used last unless it is the only one *)
Definition may_choose (m : mac) (wait ch : Z) : Prop :=
  open_channel m wait ch /\ (ch = tx_chIndex (m_tx m) -> forall x, open_channel m wait x -> x = ch).

Lemma open_range m w ch : open_channel m w ch -> 0 <= ch < numChannels (s_region (m_ctx m)).
Proof. intros H. exact (proj1 H). Qed.

Lemma in_available m w ch : mask_room (m_ctx m) -> In ch (filter (fun x => isAvailable m x w) (channels (s_region (m_ctx m)))) <-> open_channel m w ch.
Proof.
  intros R. rewrite filter_In, channels_in. split.
  - intros [I A]. now apply available_open.
  - intros O. pose proof (open_range _ _ _ O) as B. split; [exact B|]. now apply available_open.
Qed.

Lemma left_over_spec m w ch : mask_room (m_ctx m) -> In ch (left_over m w) <-> may_choose m w ch.
Proof.
  intros R. unfold left_over, may_choose. cbv zeta.
  pose proof (fun x => in_available m w x R) as IA. set (l := filter (fun x => isAvailable m x w) (channels (s_region (m_ctx m)))) in *.
  assert (NoDup l) as ND by (apply NoDup_filter, channels_nodup).
  assert (forall x, existsb (Z.eqb x) l = true <-> open_channel m w x) as EX.
  { intros x. rewrite <- IA, existsb_exists. split; [intros (y & I & E); apply Z.eqb_eq in E; now subst|]. intros I. exists x. split; [exact I|apply Z.eqb_refl]. }
  destruct (existsb _ l) eqn:X; cbn [andb].
  - apply EX in X. destruct (2 <=? _) eqn:L2.
    + rewrite filter_In, IA. split.
      * intros [O NE]. split; [exact O|]. intros ->. rewrite Z.eqb_refl in NE. discriminate NE.
      * intros [O U]. split; [exact O|]. destruct (ch =? tx_chIndex (m_tx m)) eqn:E; [|reflexivity]. exfalso. apply Z.eqb_eq in E. specialize (U E).
        assert (forall x, In x l -> x = ch) as ALL by (intros x I; apply U, IA, I).
        destruct l as [|a [|b l']]; [cbn in L2; lia|cbn in L2; lia|]. rewrite (ALL a), (ALL b) in ND by (cbn; auto). inversion ND as [|? ? NI]. apply NI. now left.
    + rewrite IA. split; [|tauto]. intros O. split; [exact O|]. intros _ x OX. apply IA in O. apply IA in OX.
      destruct l as [|a [|b l']]; [destruct O|destruct O as [O|[]], OX as [OX|[]]; congruence|cbn [length] in L2; lia].
  - rewrite IA. split; [|tauto]. intros O. split; [exact O|]. intros E. rewrite <- E in X. apply EX in O. congruence.
Qed.

Lemma some_open m w : mask_room (m_ctx m) -> left_over m w <> [] <-> exists ch, open_channel m w ch.
Proof.
  intros R. split.
  - intros N. destruct (left_over m w) as [|a l] eqn:E; [congruence|]. exists a. assert (In a (left_over m w)) as I by (rewrite E; now left). apply left_over_spec in I; [exact (proj1 I)|exact R].
  - intros [ch O] E.
    assert (exists x, may_choose m w x) as [x M].
    { destruct (Z.eq_dec ch (tx_chIndex (m_tx m))) as [EC|NE]; [|exists ch; split; [exact O|congruence]].
      destruct (existsb (fun x => isAvailable m x w && negb (x =? ch)) (channels (s_region (m_ctx m)))) eqn:X.
      - apply existsb_exists in X. destruct X as (x & I & H). apply andb_true_iff in H. destruct H as [A B]. exists x.
        split; [apply available_open; [exact R|now apply channels_in|exact A]|]. intros ->. rewrite EC, Z.eqb_refl in B. discriminate B.
      - exists ch. split; [exact O|]. intros _ x OX. destruct (Z.eq_dec x ch) as [|NE]; [assumption|exfalso].
        enough (existsb (fun x => isAvailable m x w && negb (x =? ch)) (channels (s_region (m_ctx m))) = true) by congruence.
        apply existsb_exists. exists x. pose proof (open_range _ _ _ OX) as B. split; [now apply channels_in|]. apply andb_true_iff. split; [now apply available_open|]. apply Z.eqb_neq in NE. now rewrite NE. }
    apply left_over_spec in M; [|exact R]. rewrite E in M. destruct M.
Qed.

Lemma select_found m d w rnd tx : mask_room (m_ctx m) -> 0 <= rnd ->
  (snd (selectChannel m d w rnd tx) = true <-> exists ch, open_channel m w ch) /\
  (snd (selectChannel m d w rnd tx) = true ->
     may_choose m w (tx_chIndex (fst (selectChannel m d w rnd tx))) /\
     tuned_to (m_ctx m) (tx_chIndex (fst (selectChannel m d w rnd tx))) d (fst (selectChannel m d w rnd tx))).
Proof.
  intros R RN. rewrite <- some_open by exact R. pose proof (select_spec m w R d rnd tx RN) as E. cbv zeta in E. rewrite E. clear E.
  pose proof (fun ch => left_over_spec m w ch R) as LS. destruct (left_over m w) as [|a l] eqn:L; [cbn; split; [split; [discriminate|congruence]|discriminate]|].
  set (n := Z.of_nat (length (a :: l))). set (ch := nth (Z.to_nat (rnd mod n)) (a :: l) 0).
  assert (In ch (a :: l)) as I. { apply nth_In. assert (0 < n) as P by (unfold n; cbn [length]; lia). pose proof (Z.mod_pos_bound rnd n P) as MB. unfold n in *. clear - MB. generalize dependent (rnd mod Z.of_nat (length (a :: l))). intros z H. lia. }
  clearbody ch. apply LS in I. pose proof I as [(_ & _ & f & lo & hi & b & G & _) _]. rewrite G.
  split; [split; [intros _; discriminate|reflexivity]|]. intros _. cbn [fst tx_chIndex set_tx_rate set_tx_chIndex set_tx_freq]. split; [exact I|].
  split; [reflexivity|]. exists f, lo, hi. split; [exact G|]. split; [reflexivity|]. intros LH. cbn [tx_rate set_tx_rate]. now apply required_near.
Qed.

(* any channel that may be chosen is chosen with some random number *)
Lemma select_any m d w tx ch : mask_room (m_ctx m) -> may_choose m w ch ->
  exists rnd, 0 <= rnd < 72 /\ tx_chIndex (fst (selectChannel m d w rnd tx)) = ch /\ snd (selectChannel m d w rnd tx) = true.
Proof.
  intros R M. pose proof (proj2 (left_over_spec m w ch R) M) as I. destruct (In_nth _ _ 0 I) as (i & LI & E).
  assert (length (left_over m w) <= 72)%nat as LL.
  { unfold left_over. cbv zeta. etransitivity; [|etransitivity; [apply (filter_le (fun x => isAvailable m x w) (channels (s_region (m_ctx m))))|]].
    - destruct (_ && _); [apply filter_le|reflexivity].
    - pose proof (channels_length (s_region (m_ctx m))). pose proof (channels_few (s_region (m_ctx m))). lia. }
  exists (Z.of_nat i). split; [lia|]. pose proof (select_spec m w R d (Z.of_nat i) tx ltac:(lia)) as S. cbv zeta in S. rewrite S. clear S.
  destruct (left_over m w) as [|a l] eqn:L; [destruct I|]. rewrite Z.mod_small by lia. rewrite Nat2Z.id, E.
  pose proof M as [(_ & _ & f & lo & hi & b & G & _) _]. rewrite G. split; reflexivity.
Qed.

(* --- data requests --- *)

Lemma act_data_inv c e m cf port d o r m' : act c e m (C_data cf port d o) r m' -> starts (IReq (C_data cf port d o) r) = Some KData ->
  exists tx f op st, r = RStatus st /\ m_op m = OP_NONE /\ s_joined (m_ctx m) = true /\ 0 < port <= 223 /\ band_global m = 0 /\
    selectChannel (sel_start c m) (s_rate (m_ctx m)) 0 (e_rand e RND_CHANNEL) (m_tx (sel_start c m)) = (tx, true) /\
    len_of d + Frame_dataOverhead <= rate_mtu (s_region (m_ctx m)) (s_rate (m_ctx m)) /\
    compose cf port d (rate_mtu (s_region (m_ctx m)) (s_rate (m_ctx m))) (mac_bytes (mac_commands c (m_ctx m) (opts_of o))) (frame0 cf port m) = (f, op, st) /\
    core m' = core (data_filled c f (data_base c o tx op m)).
Proof.
  intros A. remember (C_data cf port d o) as k eqn:K. intros ST. destruct A; try discriminate K.
  - subst k. destruct H as [X|[t X]]; discriminate X.
  - subst k. cbn [starts] in ST. destruct st; try discriminate ST; congruence.
  - injection K as -> -> -> ->. exists tx, f, op, st. auto 12.
  - subst k. destruct H as [X|[X _]]; discriminate X.
  - subst k. destruct H1.
Qed.

Lemma sess_region c m : s_region (sess_data c m) = s_region (m_ctx m).
Proof. unfold sess_data, clear_single_shot, clearPendingCommand. destruct (is_1_1 (c_l2 c)), (c_txps c); reflexivity. Qed.

Lemma accepted_choice c e m cf port d o : mask_room (m_ctx m) -> 0 <= e_rand e RND_CHANNEL ->
  let k := C_data cf port d o in let m' := fst (step c e k m) in
  starts (IReq k (snd (step c e k m))) = Some KData ->
  band_global m = 0 /\ may_choose m 0 (tx_chIndex (m_tx m')) /\ tuned_to (m_ctx m) (tx_chIndex (m_tx m')) (s_rate (m_ctx m)) (m_tx m') /\
  s_region (m_ctx m') = s_region (m_ctx m).
Proof.
  intros R RN k m' ST. destruct (step_cases c e k m) as (m1 & m2 & Q1 & A & Q2 & E1). assert (m1 = m) as -> by (apply E1; discriminate). clear Q1 E1. fold m' in Q2.
  destruct Q2 as [[C2 _] _]. destruct (act_data_inv _ _ _ _ _ _ _ _ _ A ST) as (tx & f & op & st & _ & _ & _ & _ & G & SEL & _ & _ & C).
  destruct (select_found (sel_start c m) (s_rate (m_ctx m)) 0 (e_rand e RND_CHANNEL) (m_tx (sel_start c m)) R RN) as [_ SF].
  rewrite SEL in SF. cbn [fst snd] in SF. destruct (SF eq_refl) as [MC TT].
  pose proof (core_send _ _ C2) as (_ & _ & _ & F1 & F2 & F3 & _ & _ & _ & _ & RG & _).
  pose proof (core_send _ _ C) as (_ & _ & _ & G1 & G2 & G3 & _ & _ & _ & _ & RG2 & _).
  change (tx_freq (m_tx m2) = tx_freq tx) in G1. change (tx_chIndex (m_tx m2) = tx_chIndex tx) in G2. change (tx_rate (m_tx m2) = tx_rate tx) in G3.
  change (s_region (m_ctx m2) = s_region (sess_data c m)) in RG2.
  split; [assumption|]. split; [rewrite F2, G2; exact MC|]. split.
  - rewrite F2, G2. destruct TT as (_ & f0 & lo & hi & X & Y & Z). split; [congruence|]. exists f0, lo, hi. rewrite F1, G1, F3, G3. auto.
  - rewrite RG, RG2. apply sess_region.
Qed.

Lemma nochannel_exact c e m cf port d o : mask_room (m_ctx m) -> 0 <= e_rand e RND_CHANNEL ->
  s_joined (m_ctx m) = true -> m_op m = OP_NONE -> 1 <= port <= 223 ->
  snd (step c e (C_data cf port d o) m) = RStatus STATUS_NOCHANNEL <-> (band_global m <> 0 \/ forall ch, ~ open_channel m 0 ch).
Proof.
  intros R RN J O P. pose proof (data_status c e cf port d o m) as S. cbv zeta in S. rewrite J, O in S. cbn [negb] in S.
  replace (negb ((1 <=? port) && (port <=? 223))) with false in S by lia.
  cbn [step]. unfold st_ret. cbn [snd]. destruct (select_found (sel_start c m) (s_rate (m_ctx m)) 0 (e_rand e RND_CHANNEL) (m_tx (sel_start c m)) R RN) as [SF _].
  change (open_channel (sel_start c m) 0) with (open_channel m 0) in SF.
  destruct (band_global m =? 0) eqn:G; cbn [negb] in S.
  - destruct S as (S1 & S2 & S3 & S4 & S5). split.
    + intros E. right. intros ch OC. assert (snd (MAC_data c e cf port d o m) = STATUS_NOCHANNEL) as E' by congruence. apply S4 in E'.
      rewrite (proj2 SF) in E'; [discriminate E'|eauto].
    + intros [N|N]; [lia|]. f_equal.
      assert (snd (selectChannel (sel_start c m) (s_rate (m_ctx m)) 0 (e_rand e RND_CHANNEL) (m_tx (sel_start c m))) = false) as E.
      { apply not_true_is_false. intros E. destruct (proj1 SF E) as [ch OC]. exact (N ch OC). }
      clear - J O P G E. open_def MAC_data. rewrite J, O. cbn [negb]. replace ((port >? 0) && (port <=? 223)) with true by lia. rewrite G. fold (sel_start c m). cbv zeta.
      revert E. destruct (selectChannel (sel_start c m) _ _ _ _) as [tx fd]. cbn [snd]. intros ->. reflexivity.
  - split; [intros _; left; lia|]. intros _. now rewrite S.
Qed.

(* --- histories --- *)

Lemma valid_room r s : valid_settings r s -> mask_room s.
Proof. intros (_ & [_ L] & _). unfold mask_room. rewrite L. destruct (s_region s); vm_compute; discriminate. Qed.

(* the random number generator returns a uint32_t *)

Lemma start_facts c r a e0 h : in_place c -> arg_ok a -> valid_start r (ia_session a) -> Forall (fun x => power_arg (snd x)) h ->
  let m := run c h (MAC_init c r a e0) in so (m_op m) (m_state m) = true /\ ready c m /\ valid_settings r (m_ctx m).
Proof.
  intros IP OK V PA m. destruct (valid_always c r a e0 h V PA) as [VS _]. fold m in VS.
  destruct (ready_always c h (MAC_init c r a e0) IP (init_so c r a e0 []) (ready_init c r a e0 OK)) as [S R]. auto.
Qed.

Lemma init_idle c r a e0 : is_data (m_op (MAC_init c r a e0)) = false.
Proof. rewrite (proj1 (init_facts c r a e0)). reflexivity. Qed.

Lemma data_sent_prefix c r a e0 h f bw sf p fr : in_place c -> arg_ok a -> valid_start r (ia_session a) -> Forall (fun x => power_arg (snd x)) h ->
  In (OTransmit f bw sf p fr) (m_log (run c h (MAC_init c r a e0))) -> is_data_frame fr = true ->
  exists h1 e k h2 e' h3, h = h1 ++ (e, k) :: h2 ++ (e', C_process) :: h3 /\ sending c (MAC_init c r a e0) h1 e k h2 /\
    OTransmit f bw sf p fr = transmit_of c (run c h2 (fst (step c e k (run c h1 (MAC_init c r a e0))))).
Proof.
  intros IP OK V PA. apply data_sent; [exact IP|exact (init_so c r a e0 [])|now apply ready_init|apply init_idle| |apply init_log].
  intros h0 h' E. rewrite E in PA. apply Forall_app in PA. destruct (valid_always c r a e0 h0 V (proj1 PA)) as [(_ & _ & _ & _ & N) _]. apply N.
Qed.

Theorem data_channel c r a e0 h f bw sf p fr : in_place c -> arg_ok a -> valid_start r (ia_session a) ->
  Forall (fun x => power_arg (snd x)) h -> Forall rand_ok h ->
  In (OTransmit f bw sf p fr) (m_log (run c h (MAC_init c r a e0))) -> is_data_frame fr = true ->
  exists h1 e cf port d o h2, h = h1 ++ (e, C_data cf port d o) :: h2 /\
    let m := run c h1 (MAC_init c r a e0) in
    starts (IReq (C_data cf port d o) (snd (step c e (C_data cf port d o) m))) = Some KData /\
    band_global m = 0 /\ exists ch lo hi, open_channel m 0 ch /\ getChannel (m_ctx m) ch = Some (f, lo, hi) /\
      (lo <= hi -> exists rate, lo <= rate <= hi /\ bw = rate_bw r rate /\ sf = rate_sf r rate).
Proof.
  intros IP OK V PA RA I F. destruct (data_sent_prefix _ _ _ _ _ _ _ _ _ _ IP OK V PA I F) as (h1 & e & k & h2 & e' & h3 & E & SD & T).
  destruct SD as ((cf & port & d & o & -> & _) & ST & _ & SS & _). exists h1, e, cf, port, d, o, (h2 ++ (e', C_process) :: h3). split; [exact E|].
  set (m := run c h1 (MAC_init c r a e0)) in *. cbv zeta. split; [exact ST|].
  rewrite E in PA, RA. apply Forall_app in PA. apply Forall_app in RA. destruct RA as [_ RA]. inversion RA as [|x y RK _]; subst x y.
  destruct (start_facts c r a e0 h1 IP OK V (proj1 PA)) as (_ & _ & VS). fold m in VS.
  destruct (accepted_choice c e m cf port d o (valid_room _ _ VS) RK ST) as (G & [OC _] & (_ & f0 & lo & hi & GC & EF & RT) & RG). split; [exact G|].
  set (m' := fst (step c e (C_data cf port d o) m)) in *. set (m2 := run c h2 m') in *.
  destruct SS as (_ & _ & _ & S1 & _ & S2 & _ & _ & _ & _ & S3 & _).
  assert (s_region (m_ctx m2) = r) as RR by (rewrite S3, RG; exact (proj1 VS)).
  unfold transmit_of in T. cbv zeta in T. rewrite S1, S2, RR, EF in T.
  exists (tx_chIndex (m_tx m')), lo, hi. split; [exact OC|]. split; [assert (f = f0) as -> by congruence; exact GC|].
  intros LH. exists (tx_rate (m_tx m')). split; [exact (proj1 (RT LH))|]. split; congruence.
Qed.

(* --- the channel used last --- *)


Lemma core_index m m' : core m' = core m -> tx_chIndex (m_tx m') = tx_chIndex (m_tx m).
Proof. intros C. apply core_send in C. apply C. Qed.

Lemma miss_index c e m m' : miss_case c e m m' -> m_op m <> OP_JOINING -> m_op m' <> OP_JOINING /\ tx_chIndex (m_tx m') = tx_chIndex (m_tx m).
Proof.
  intros HM N. destruct HM as [m2 D ? C S E|m2 D p C S E|m2 O ? C S E|m2 O ? C S E|D O]; try congruence.
  - rewrite (core_op_eq _ _ C), (core_index _ _ C). split; [exact N|reflexivity].
  - rewrite (core_op_eq _ _ C), (core_index _ _ C). split; [discriminate|].
    change (tx_chIndex (m_tx (fst p)) = tx_chIndex (m_tx m)). unfold p, adaptRate. cbv zeta. ms.
    destruct (s_adr _); [|reflexivity]. destruct (_ <? 255); [|reflexivity]. destruct (_ >=? _); [|reflexivity]. destruct (_ && _); [|reflexivity]. destruct (_ =? 0); [|reflexivity]. destruct (_ >? _); reflexivity.
  - split; [exact N|reflexivity].
Qed.

Lemma cancel_index c e m x : act c e m C_cancel RVoid x -> tx_chIndex (m_tx x) = tx_chIndex (m_tx m).
Proof.
  intros A. remember C_cancel as k eqn:K. remember RVoid as r eqn:R. destruct A; try discriminate K; try discriminate R.
  - reflexivity.
  - exact (core_index _ _ H0).
  - subst k. destruct H1.
Qed.

Lemma act_index c e m k r m' : act c e m k r m' -> no_choice k -> (forall st, r <> RStatus st) -> m_op m <> OP_JOINING ->
  m_op m' <> OP_JOINING /\ tx_chIndex (m_tx m') = tx_chIndex (m_tx m).
Proof.
  intros HA NC NS NJ. destruct HA; try (exfalso; eapply NS; reflexivity); try (destruct NC).
  - auto.
  - destruct H as [C _]. rewrite (core_op_eq _ _ C), (core_index _ _ C). auto.
  - rewrite (core_op_eq _ _ H1), (core_index _ _ H1). auto.
  - rewrite (core_op_eq _ _ H0), (core_index _ _ H0). split; [discriminate|reflexivity].
  - eapply miss_index; eauto.
  - rewrite (core_op_eq _ _ H1), (core_index _ _ H1). split; [discriminate|reflexivity].
  - congruence.
  - destruct (data_received_frame c e buf f m) as (s & l & C & _). cbv zeta in C.
    rewrite (core_op_eq _ _ (push_core _)), (core_op_eq _ _ C), (core_index _ _ (push_core _)), (core_index _ _ C). split; [discriminate|reflexivity].
  - destruct (join_accepted_frame c buf f m) as (s & l & C & _). cbv zeta in C.
    rewrite (core_op_eq _ _ (push_core _)), (core_op_eq _ _ C), (core_index _ _ (push_core _)), (core_index _ _ C). split; [discriminate|reflexivity].
  - rewrite (core_op_eq _ _ H0), (core_index _ _ H0). split; [discriminate|reflexivity].
  - rewrite (core_op_eq _ _ H0), (core_index _ _ H0). change (m_op (forgetNetwork c x)) with (m_op x). change (m_tx (forgetNetwork c x)) with (m_tx x).
    rewrite (cancel_op _ _ _ _ HA). split; [discriminate|].
    exact (cancel_index _ _ _ _ HA).
  - rewrite (core_op_eq _ _ H2), (core_index _ _ H2). split; [exact NJ|reflexivity].
Qed.

Lemma step_index c e k m : no_choice k -> m_op m <> OP_JOINING ->
  m_op (fst (step c e k m)) <> OP_JOINING /\ tx_chIndex (m_tx (fst (step c e k m))) = tx_chIndex (m_tx m).
Proof.
  intros NC NJ.
  assert ((forall st, snd (step c e k m) <> RStatus st) -> m_op (fst (step c e k m)) <> OP_JOINING /\ tx_chIndex (m_tx (fst (step c e k m))) = tx_chIndex (m_tx m)) as HA.
  { intros NS. destruct (step_cases c e k m) as (m1 & m2 & Q1 & A & Q2 & _). destruct Q1 as [[C1 _] _]. destruct Q2 as [[C2 _] _].
    rewrite <- (core_op_eq _ _ C1) in NJ. destruct (act_index _ _ _ _ _ _ A NC NS NJ) as [X Y]. rewrite (core_op_eq _ _ C2), (core_index _ _ C2). rewrite (core_index _ _ C1) in Y. auto. }
  destruct k; try (apply HA; intros st; discriminate); try destruct NC; clear HA; cbn [step]; unfold st_ret; cbn [fst].
  - open_def MAC_entropy. destruct (m_op m) eqn:O; cbn [fst]; try (rewrite O; split; [discriminate|reflexivity]); try congruence. cbv zeta.
    destruct (m_state (set_m_op OP_ENTROPY m)); (split; [discriminate|reflexivity]).
  - open_def MAC_abp. destruct (s_joined _); [auto|]. destruct (m_op m) eqn:O; cbn [fst]; auto; rewrite ?O; (split; [try discriminate|reflexivity]); cbv zeta; ms; rewrite O; discriminate.
  - open_def MAC_setRate. destruct (rateSettingIsValid _ _); auto.
  - open_def MAC_setPower. destruct (validateTXPower _ _); auto.
Qed.

Theorem index_kept c h : forall m, Forall (fun x => no_choice (snd x)) h -> m_op m <> OP_JOINING ->
  tx_chIndex (m_tx (run c h m)) = tx_chIndex (m_tx m).
Proof.
  induction h as [|[e k] h IH]; intros m F NJ; [reflexivity|]. inversion F as [|x y F1 F2]; subst. cbn [run].
  destruct (step_index c e k m F1 NJ) as [A B]. rewrite IH by assumption. exact B.
Qed.

Theorem next_channel c r a e0 h1 e1 cf1 p1 d1 o1 h2 e2 cf2 p2 d2 o2 : in_place c -> arg_ok a -> valid_start r (ia_session a) ->
  let k1 := C_data cf1 p1 d1 o1 in let k2 := C_data cf2 p2 d2 o2 in
  Forall (fun x => power_arg (snd x)) (h1 ++ (e1, k1) :: h2) -> 0 <= e_rand e2 RND_CHANNEL -> Forall (fun x => no_choice (snd x)) h2 ->
  let m1 := run c h1 (MAC_init c r a e0) in let m1' := fst (step c e1 k1 m1) in
  let m2 := run c h2 m1' in let m2' := fst (step c e2 k2 m2) in
  starts (IReq k1 (snd (step c e1 k1 m1))) = Some KData -> starts (IReq k2 (snd (step c e2 k2 m2))) = Some KData ->
  (exists ch, open_channel m2 0 ch /\ ch <> tx_chIndex (m_tx m1')) -> tx_chIndex (m_tx m2') <> tx_chIndex (m_tx m1').
Proof.
  intros IP OK V k1 k2 PA RN NC m1 m1' m2 m2' S1 S2 (ch & OC & NE) EQ.
  destruct (start_facts c r a e0 (h1 ++ (e1, k1) :: h2) IP OK V PA) as (_ & _ & VS).
  rewrite run_app in VS. cbn [run] in VS. fold m1 in VS. fold m1' in VS. fold m2 in VS.
  destruct (accepted_choice c e2 m2 cf2 p2 d2 o2 (valid_room _ _ VS) RN S2) as (_ & [_ U] & _). fold k2 m2' in U.
  assert (m_op m1' <> OP_JOINING) as NJ.
  { destruct (step_cases c e1 k1 m1) as (x1 & x2 & _ & A & Q2 & _). fold m1' in Q2. destruct Q2 as [[C2 _] _]. rewrite (core_op_eq _ _ C2).
    destruct (act_data_inv _ _ _ _ _ _ _ _ _ A S1) as (tx & f & op & st & _ & _ & _ & _ & _ & _ & _ & CO & C). rewrite (core_op_eq _ _ C), data_filled_op.
    destruct (compose_op _ _ _ _ _ _ _ _ _ CO) as [D _]. intros X. change (op = OP_JOINING) in X. rewrite X in D. discriminate D. }
  assert (tx_chIndex (m_tx m2) = tx_chIndex (m_tx m1')) as E by (apply index_kept; assumption).
  apply NE. rewrite <- EQ. apply U; [congruence|exact OC].
Qed.

(* over histories *)
Theorem nochannel_always c r a e0 h e cf port d o : valid_start r (ia_session a) ->
  Forall (fun x => power_arg (snd x)) h -> 0 <= e_rand e RND_CHANNEL ->
  let m := run c h (MAC_init c r a e0) in
  s_joined (m_ctx m) = true -> m_op m = OP_NONE -> 1 <= port <= 223 ->
  snd (step c e (C_data cf port d o) m) = RStatus STATUS_NOCHANNEL <-> (band_global m <> 0 \/ forall ch, ~ open_channel m 0 ch).
Proof. intros V PA RN m. destruct (valid_always c r a e0 h V PA) as [VS _]. apply nochannel_exact; [exact (valid_room _ _ VS)|exact RN]. Qed.

Theorem select_other m rate tx ch : mask_room (m_ctx m) -> open_channel m 0 ch -> ch <> tx_chIndex (m_tx m) ->
  exists rnd, 0 <= rnd < 72 /\ tx_chIndex (fst (selectChannel m rate 0 rnd tx)) = ch /\ snd (selectChannel m rate 0 rnd tx) = true.
Proof. intros R O N. apply select_any; [exact R|]. split; [exact O|]. intros E. congruence. Qed.
