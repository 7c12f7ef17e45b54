(* The power of transmissions and the channels of join requests. *)
From Verif Require Import Lib StreamM FrameM CommandsM RegionM RadioM SmM MacStateM MacTac MacUtilM OpsM MacCmdM MacProcM MacApiM MacRw CoreP CaseP RxP SpecHist SpecRegion SpecChan SpecValid SpecSend SpecEirp
  HistP EndP TxP UplinkP ReadyP DataP AcceptP CtxP DownP RegionP ValidP SelectP SentP ChoiceP JoinChanP SpecRadio SpecSize AirP SizeP.

Lemma level_spec r p : 0 <= p <= top_power r -> getTXPower r p = power_level r p.
Proof. destruct r; cbn [top_power]; intros H; unfold getTXPower, power_level, max_eirp; destruct (_ <=? _) eqn:E; lia. Qed.

Lemma eirp_spec c s p : 0 <= p <= top_power (s_region s) -> tx_eirp c s p = eirp_of c (s_region s) (s_tx_param s) p.
Proof.
  intros H. unfold tx_eirp, eirp_of. rewrite (level_spec _ _ H).
  destruct (s_region s); cbn [txParamSetupImplemented]; rewrite ?andb_false_r; try reflexivity. rewrite andb_true_r.
  destruct (c_txps c); [|reflexivity]. unfold network_eirp. change max_eirp_codes with maxEIRP. rewrite (land15 (s_tx_param s)).
  generalize (nth (Z.to_nat (s_tx_param s mod 16)) maxEIRP 0). intros z. destruct (_ >? _) eqn:E; lia.
Qed.

(* --- data --- *)
Lemma sel_pick_power s mk ex sel d chs : forall j t, tx_power (fst (sel_pick s mk ex sel d chs j t)) = tx_power t.
Proof.
  induction chs as [|ch l IH]; intros j t; cbn [sel_pick]; [reflexivity|].
  destruct (_ && _); [|apply IH]. destruct (_ =? _); [|apply IH]. destruct (getChannel s ch) as [[[? ?] ?]|]; [reflexivity|apply IH].
Qed.
Lemma select_power m d w rnd t : tx_power (fst (selectChannel m d w rnd t)) = tx_power t.
Proof.
  unfold selectChannel. destruct (sel_scan m w) as [[mask av] ex]. destruct (av >? 0); [|reflexivity].
  destruct (if negb (ex =? 255) then _ else _) as [e1 a1]. apply sel_pick_power.
Qed.
Lemma sess_param c m : s_tx_param (sess_data c m) = s_tx_param (m_ctx m).
Proof. unfold sess_data, clear_single_shot, clearPendingCommand. destruct (is_1_1 (c_l2 c)), (c_txps c); reflexivity. Qed.

Lemma accepted_power c e m cf port d o : let k := C_data cf port d o in let m' := fst (step c e k m) in
  starts (IReq k (snd (step c e k m))) = Some KData ->
  tx_power (m_tx m') = s_power (m_ctx m) /\ s_region (m_ctx m') = s_region (m_ctx m) /\ s_tx_param (m_ctx m') = s_tx_param (m_ctx m).
Proof.
  intros k m' ST. destruct (step_cases c e k m) as (m1 & m2 & Q1 & A & Q2 & E1). assert (m1 = m) as -> by (apply E1; discriminate). clear Q1 E1. fold m' in Q2.
  destruct Q2 as [[C2 _] _]. destruct (act_data_inv _ _ _ _ _ _ _ _ _ A ST) as (tx & f & op & st & _ & _ & _ & _ & G & SEL & _ & _ & C).
  pose proof (select_power (sel_start c m) (s_rate (m_ctx m)) 0 (e_rand e RND_CHANNEL) (m_tx (sel_start c m))) as SP. rewrite SEL in SP. cbn [fst] in SP.
  change (tx_power tx = s_power (m_ctx m)) in SP.
  pose proof (core_send _ _ C2) as (_ & _ & _ & _ & _ & _ & F3 & _ & _ & _ & RG & TP).
  pose proof (core_send _ _ C) as (_ & _ & _ & _ & _ & _ & G3 & _ & _ & _ & RG2 & TP2).
  change (tx_power (m_tx m2) = tx_power tx) in G3. change (s_region (m_ctx m2) = s_region (sess_data c m)) in RG2. change (s_tx_param (m_ctx m2) = s_tx_param (sess_data c m)) in TP2.
  rewrite sess_region in RG2. rewrite sess_param in TP2. repeat split; congruence.
Qed.

Theorem data_power c r a e0 h f bw sf p fr : in_place c -> arg_ok a -> valid_start r (ia_session a) -> Forall (fun x => power_arg (snd x)) h ->
  In (OTransmit f bw sf p fr) (m_log (run c h (MAC_init c r a e0))) -> is_data_frame fr = true ->
  exists h1 e cf port d o h2, h = h1 ++ (e, C_data cf port d o) :: h2 /\
    let m := run c h1 (MAC_init c r a e0) in
    starts (IReq (C_data cf port d o) (snd (step c e (C_data cf port d o) m))) = Some KData /\
    p = eirp_of c r (s_tx_param (m_ctx m)) (s_power (m_ctx m)) /\ 0 <= s_power (m_ctx m) <= top_power r.
Proof.
  intros IP OK V PA I F. destruct (data_sent_prefix _ _ _ _ _ _ _ _ _ _ IP OK V PA I F) as (h1 & e & k & h2 & e' & h3 & E & SD & T).
  destruct SD as ((cf & port & d & o & -> & _) & ST & _ & SS & _). exists h1, e, cf, port, d, o, (h2 ++ (e', C_process) :: h3). split; [exact E|].
  set (m := run c h1 (MAC_init c r a e0)) in *. cbv zeta. split; [exact ST|].
  rewrite E in PA. apply Forall_app in PA. destruct (start_facts c r a e0 h1 IP OK V (proj1 PA)) as (_ & _ & VS). fold m in VS.
  destruct (accepted_power c e m cf port d o ST) as (W1 & W2 & W3).
  destruct VS as (R & _ & _ & PW & _). split; [|exact PW].
  set (m' := fst (step c e (C_data cf port d o) m)) in *. set (m2 := run c h2 m') in *.
  destruct SS as (_ & _ & _ & _ & _ & _ & S2 & _ & _ & _ & S3 & S4).
  assert (p = tx_eirp c (m_ctx m2) (tx_power (m_tx m2))) as -> by (unfold transmit_of in T; cbv zeta in T; congruence).
  rewrite eirp_spec by (rewrite S2, W1, S3, W2, R; exact PW). rewrite S2, W1, S3, W2, S4, W3, R. reflexivity.
Qed.

(* --- join requests --- *)
Definition join_tx (r : region) (t : mac_tx) : Prop :=
  tx_power t = 0 /\ (isDynamic r = false -> exists ch lo hi, 0 <= ch < 72 /\ fixed_channel r ch = Some (tx_freq t, lo, hi) /\
    lo <= tx_rate t <= hi /\ (r = AU_915_928 -> tx_rate t = 2 \/ tx_rate t = 6)).
Definition joining_ok (m : mac) : Prop := m_op m = OP_JOINING -> join_tx (s_region (m_ctx m)) (m_tx m).

Lemma index_range r trial rnd : isDynamic r = false -> 0 <= getJoinIndex r trial rnd < 72.
Proof.
  intros D. unfold getJoinIndex. destruct r; try discriminate D; (destruct (_ <? _); unfold u8; set (q := Z.shiftr trial 1 mod 8); assert (0 <= q < 8) by (apply Z.mod_pos_bound; lia)).
  all: try (rewrite Z.mod_small; lia). all: set (w := rnd mod 8); assert (0 <= w < 8) by (apply Z.mod_pos_bound; lia); rewrite Z.mod_small; lia.
Qed.
Lemma dwell_join c s trial : dwellRate c s (getJoinRate (c_noSF12 c) AU_915_928 trial) = 2.
Proof. unfold dwellRate, applyUplinkDwell. cbn [getJoinRate]. destruct (c_txps c); [|reflexivity]. destruct (s_region s); try reflexivity. destruct (uplinkDwell _); reflexivity. Qed.

Lemma select_join c e m : tx_power (m_tx m) = 0 \/ True -> let t := m_tx (selectJoinChannelAndRate c e m) in
  tx_power t = tx_power (m_tx m) /\ (tx_power (m_tx m) = 0 -> join_tx (s_region (m_ctx m)) t) /\ join_tx (s_region (m_ctx m)) (set_tx_power 0 t).
Proof.
  intros _ t. destruct (selectJoin_fields c e m) as (t' & E & _ & P & _). assert (t = t') as ET by (unfold t; rewrite E; reflexivity).
  split; [congruence|].
  assert (isDynamic (s_region (m_ctx m)) = false -> exists ch lo hi, 0 <= ch < 72 /\ fixed_channel (s_region (m_ctx m)) ch = Some (tx_freq t, lo, hi) /\
    lo <= tx_rate t <= hi /\ (s_region (m_ctx m) = AU_915_928 -> tx_rate t = 2 \/ tx_rate t = 6)) as K.
  { intros D. unfold t, selectJoinChannelAndRate. cbv zeta. rewrite D. set (ch := getJoinIndex _ _ _).
    assert (0 <= ch < 72) as CH by (apply index_range; exact D). rewrite fixed_spec by lia.
    destruct (fixed_channel (s_region (m_ctx m)) ch) as [[[f lo] hi]|] eqn:FC.
    - exists ch, lo, hi. split; [exact CH|]. split; [rewrite FC; reflexivity|].
      pose proof (fixed_lohi _ _ _ _ _ FC) as LH.
      set (dd := dwellRate c (m_ctx m) _). change (tx_rate (m_tx (on_tx (fun t0 => set_tx_rate (requiredRate dd lo hi) (set_tx_freq f (set_tx_chIndex ch t0))) m))) with (requiredRate dd lo hi).
      split; [apply (required_near dd lo hi LH)|]. intros AU. assert (dd = 2) as -> by (unfold dd; rewrite AU; apply dwell_join).
      rewrite AU in FC. cbn [fixed_channel] in FC. unfold requiredRate. destruct (ch <? 64); [|destruct (ch <? 72); [|discriminate FC]]; apply some3_inj in FC; destruct FC as (_ & <- & <-); [left|right]; reflexivity.
    - exfalso. exact (fixed_some _ _ D CH FC). }
  split; [intros Z0; split; [rewrite ET; congruence|exact K]|split; [reflexivity|exact K]].
Qed.
Lemma fill_join c e n m : let x := fillJoinBuffer c e n m in s_region (m_ctx x) = s_region (m_ctx m) /\ m_op x = m_op m /\
  (tx_power (m_tx m) = 0 -> join_tx (s_region (m_ctx m)) (m_tx x)) /\ join_tx (s_region (m_ctx m)) (set_tx_power 0 (m_tx x)).
Proof.
  intros x. destruct (fillJoin_fields c e n m) as (t & buf & len & dn & E & _). split; [unfold x; rewrite E; reflexivity|]. split; [unfold x; rewrite E; reflexivity|].
  unfold x. open_def fillJoinBuffer. set (d := match c_l2 c with L2_1_0_3 => _ | _ => n end). cbv zeta. destruct (prepareJoinRequest _ _ _ _ _) as [b l].
  exact (proj2 (select_join c e (set_m_bufferLen l (set_m_buffer b (on_ctx (set_s_devNonce d) m))) (or_intror I))).
Qed.

Lemma core_joining m m' : core m' = core m -> joining_ok m -> joining_ok m'.
Proof.
  intros C J O. pose proof (core_op_eq _ _ C) as EO. destruct (core_send _ _ C) as (_ & _ & _ & F1 & _ & F2 & F3 & _ & _ & _ & RG & _).
  rewrite RG. destruct (J ltac:(congruence)) as [P K]. unfold join_tx. rewrite F1, F2, F3. auto.
Qed.
Lemma not_joining m : m_op m <> OP_JOINING -> joining_ok m. Proof. intros H O. congruence. Qed.

Lemma nonce_joining n x : join_tx (s_region (m_ctx x)) (m_tx x) -> joining_ok (set_m_devNonce n x).
Proof. intros H _. exact H. Qed.
Lemma miss_joining c e m m' : miss_case c e m m' -> joining_ok m -> joining_ok m'.
Proof.
  intros HM J. destruct HM as [m2 D ? C S E|m2 D p C S E|m2 O ? C S E|m2 O ? C S E|D O].
  - apply (core_joining _ _ C). intros X. change (m_op m = OP_JOINING) in X. rewrite X in D. discriminate D.
  - apply (core_joining _ _ C). apply not_joining. discriminate.
  - apply (core_joining _ _ C), nonce_joining. destruct (fill_join c e (u16 (m_devNonce m)) (next_trial m)) as (X1 & X2 & X3 & _).
    rewrite X1. apply X3. exact (proj1 (J O)).
  - apply (core_joining _ _ C). apply not_joining. discriminate.
  - apply not_joining. exact O.
Qed.

Lemma act_joining c e m k r m' : act c e m k r m' -> joining_ok m -> joining_ok m'.
Proof.
  intros HA J. destruct HA.
  - exact J.
  - destruct H as [C _]. exact (core_joining _ _ C J).
  - exact (core_joining _ _ H1 J).
  - apply (core_joining _ _ H0). apply not_joining. discriminate.
  - exact (miss_joining _ _ _ _ H0 J).
  - apply (core_joining _ _ H1). apply not_joining. discriminate.
  - apply (core_joining _ _ H2). exact (miss_joining _ _ _ _ H1 J).
  - destruct (data_received_frame c e buf f m) as (s & l & C & _). cbv zeta in C. apply (core_joining _ _ (push_core _)), (core_joining _ _ C), not_joining. discriminate.
  - destruct (join_accepted_frame c buf f m) as (s & l & C & _). cbv zeta in C. apply (core_joining _ _ (push_core _)), (core_joining _ _ C), not_joining. discriminate.
  - subst m'. intros O. change (m_op m = OP_JOINING) in O. assert (tx = m_tx m) as -> by (apply H3; congruence). exact (J O).
  - apply (core_joining _ _ H0). apply not_joining. discriminate.
  - apply (core_joining _ _ H2). intros _. destruct (fill_join c e (u16 (m_devNonce m)) (set_m_sm (m_sm m ++ sm) (set_m_trials 0 m))) as (X1 & X2 & _ & X4). fold x in X1, X2, X4. clearbody x.
    change (join_tx (s_region (m_ctx x)) (set_tx_power 0 (m_tx x))). rewrite X1. exact X4.
  - apply (core_joining _ _ H1). apply not_joining. change (m_op m <> OP_JOINING). congruence.
  - apply (core_joining _ _ H6). apply not_joining. destruct (compose_op _ _ _ _ _ _ _ _ _ H5) as [D ST]. change (op <> OP_JOINING). intros X. rewrite X in D. discriminate D.
  - apply (core_joining _ _ H0). apply not_joining. discriminate.
  - apply (core_joining _ _ H0). apply not_joining. change (m_op x <> OP_JOINING). rewrite (cancel_op _ _ _ _ HA). discriminate.
  - apply (core_joining _ _ H2). intros O. change (m_op m = OP_JOINING) in O. destruct H as (r0 & p & a & dd & cc & kk & ->). exact (J O).
Qed.

Lemma step_joining c e k m : joining_ok m -> joining_ok (fst (step c e k m)).
Proof.
  intros J. destruct (step_cases c e k m) as (m1 & m2 & Q1 & A & Q2 & _). destruct Q1 as [[C1 _] _]. destruct Q2 as [[C2 _] _].
  exact (core_joining _ _ C2 (act_joining _ _ _ _ _ _ A (core_joining _ _ C1 J))).
Qed.
Lemma run_joining c h : forall m, joining_ok m -> joining_ok (run c h m).
Proof. induction h as [|[e k] h IH]; intros m J; [exact J|]. cbn [run]. apply IH, step_joining, J. Qed.

Theorem join_sent c r a e0 h f bw sf p fr : in_place c -> arg_ok a -> valid_start r (ia_session a) -> Forall (fun x => power_arg (snd x)) h ->
  In (OTransmit f bw sf p fr) (m_log (run c h (MAC_init c r a e0))) -> is_data_frame fr = false ->
  exists h1 e h2, h = h1 ++ (e, C_process) :: h2 /\ p = eirp_of c r (s_tx_param (m_ctx (run c h1 (MAC_init c r a e0)))) 0 /\
  (isDynamic r = false -> exists ch lo hi rate, 0 <= ch < 72 /\ fixed_channel r ch = Some (f, lo, hi) /\ lo <= rate <= hi /\
     bw = rate_bw r rate /\ sf = rate_sf r rate /\ (r = AU_915_928 -> rate = 2 \/ rate = 6)).
Proof.
  intros IP OK V PA I F. destruct (run_split_log _ _ _ _ I) as [X|(h0 & e' & k' & h3 & E & X)]; [rewrite init_log in X; destruct X|].
  destruct (ready_always c h0 (MAC_init c r a e0) IP (init_so c r a e0 []) (ready_init c r a e0 OK)) as [S R].
  assert (joining_ok (run c h0 (MAC_init c r a e0))) as J.
  { apply run_joining, not_joining. destruct (init_facts c r a e0) as (F1 & F2 & _). congruence. }
  rewrite E in PA. apply Forall_app in PA. destruct (start_facts c r a e0 h0 IP OK V (proj1 PA)) as (_ & _ & VS).
  set (m := run c h0 (MAC_init c r a e0)) in *.
  destruct (step_tx c e' k' m S) as [N|(l1 & l2 & EL & P1 & P2 & EK & ST & SS & _)]; [now apply no_tx_in in X|].
  rewrite EL in X. apply in_app_or in X. destruct X as [X|X]; [now apply no_tx_in in X|]. apply in_app_or in X. destruct X as [[X|[]]|X]; [|now apply no_tx_in in X].
  assert (m_op m = OP_JOINING) as O.
  { assert (fr = frame_of m) as EF by (unfold transmit_of in X; cbv zeta in X; unfold frame_of; congruence). rewrite EF in F.
    rewrite ST in S. destruct R as (L & JJ & D & _ & HD & HJ). destruct (m_op m) eqn:O; try discriminate S; [reflexivity|..].
    all: destruct (HD eq_refl) as (body & rest & B); destruct (frame_data_kind _ _ _ _ B) as (_ & K & _); congruence. }
  destruct (J O) as [JP JF]. destruct VS as (RG & _). rewrite RG in JF.
  exists h0, e', h3. rewrite <- EK. split; [exact E|]. fold m. unfold transmit_of in X. cbv zeta in X. rewrite RG in X. split.
  - assert (p = tx_eirp c (m_ctx m) (tx_power (m_tx m))) as -> by congruence. rewrite JP, eirp_spec, RG; [reflexivity|destruct (s_region (m_ctx m)); cbn; lia].
  - intros D. destruct (JF D) as (ch & lo & hi & A1 & A2 & A3 & A4). exists ch, lo, hi, (tx_rate (m_tx m)).
    injection X as X1 X2 X3 X4 X5. rewrite <- X1. split; [exact A1|]. split; [exact A2|]. split; [exact A3|]. split; [symmetry; exact X2|]. split; [symmetry; exact X3|exact A4].
Qed.

(* --- air time --- *)
Lemma air_mono b sf s1 s2 : 7 <= sf <= 12 -> s1 <= s2 -> packet_us (bwToNumber b) sf 0 s1 1 <= packet_us (bwToNumber b) sf 0 s2 1.
Proof.
  intros H1 H. pose proof (symbols_mono (bwToNumber b) sf 0 s1 s2 1 H1 (bw_hz b) H) as M. pose proof (symbol_pos (bwToNumber b) sf H1 (bw_hz b)) as HS.
  unfold packet_us. nia.
Qed.

Lemma join_dwell c r a e0 h f bw sf p fr : in_place c -> arg_ok a -> valid_start r (ia_session a) -> Forall (fun x => power_arg (snd x)) h ->
  isDynamic r = false ->
  In (OTransmit f bw sf p fr) (m_log (run c h (MAC_init c r a e0))) -> is_data_frame fr = false ->
  packet_us (bwToNumber bw) sf 0 (Z.of_nat (length fr)) 1 <= dwell_us.
Proof.
  intros IP OK V PA D I F. rewrite (join_size c r a e0 h f bw sf p fr IP OK I F).
  destruct (join_sent c r a e0 h f bw sf p fr IP OK V PA I F) as (_ & _ & _ & _ & _ & K).
  destruct (K D) as (ch & lo & hi & rate & C & FC & R & -> & -> & AU). clear K I V.
  destruct r; try discriminate D.
  - assert (0 <= rate <= 4) as Q. { cbn [fixed_channel] in FC. destruct (ch <? 64); [|destruct (ch <? 72); [|discriminate FC]]; apply some3_inj in FC; lia. }
    assert (rate = 0 \/ rate = 1 \/ rate = 2 \/ rate = 3 \/ rate = 4) as [->|[->|[->|[->| ->]]]] by lia; vm_compute; discriminate.
  - destruct (AU eq_refl) as [-> | ->]; vm_compute; discriminate.
Qed.

Lemma us_fits rate n : 0 <= rate <= 4 -> n <= max_frame US_902_928 (rate_bw US_902_928 rate) (rate_sf US_902_928 rate) ->
  packet_us (bwToNumber (rate_bw US_902_928 rate)) (rate_sf US_902_928 rate) 0 n 1 <= dwell_us.
Proof.
  intros H N. assert (rate = 0 \/ rate = 1 \/ rate = 2 \/ rate = 3 \/ rate = 4) as [->|[->|[->|[->| ->]]]] by lia;
  (eapply Z.le_trans; [apply air_mono; [vm_compute; split; discriminate|exact N]|vm_compute; discriminate]).
Qed.

(* --- settings after init and forget --- *)
Lemma forgotten_defaults old mdc t : has_defaults (s_region old) (forgotten old mdc t).
Proof.
  destruct (s_region old) eqn:E; unfold forgotten; rewrite E; unfold has_defaults.
  all: repeat match goal with |- _ /\ _ => split end; try reflexivity.
  all: try match goal with |- Forall _ _ => vm_compute; repeat constructor end.
  all: intros D; try discriminate D; intros ch H.
  all: assert (ch = 0 \/ ch = 1 \/ ch = 2 \/ ch = 3 \/ ch = 4 \/ ch = 5 \/ ch = 6 \/ ch = 7 \/ ch = 8 \/ ch = 9 \/ ch = 10 \/ ch = 11 \/ ch = 12 \/ ch = 13 \/ ch = 14 \/ ch = 15) as K by lia;
    repeat (destruct K as [->|K]; [vm_compute; reflexivity|]); subst ch; vm_compute; reflexivity.
Qed.

Theorem us_data c a e0 h f bw sf p fr : in_place c -> arg_ok a -> valid_start US_902_928 (ia_session a) ->
  Forall (fun x => power_arg (snd x)) h -> Forall rand_ok h ->
  In (OTransmit f bw sf p fr) (m_log (run c h (MAC_init c US_902_928 a e0))) -> is_data_frame fr = true ->
  exists h1 e cf port d o h2, h = h1 ++ (e, C_data cf port d o) :: h2 /\
    let m := run c h1 (MAC_init c US_902_928 a e0) in let ret := snd (step c e (C_data cf port d o) m) in
    starts (IReq (C_data cf port d o) ret) = Some KData /\
    (ret = RStatus STATUS_OK \/ s_rate (m_ctx m) <> 0 -> packet_us (bwToNumber bw) sf 0 (Z.of_nat (length fr)) 1 <= dwell_us).
Proof.
  intros IP OK V PA RA I F. destruct (data_size_rate c US_902_928 a e0 h f bw sf p fr IP OK V PA RA I F) as (h1 & e & cf & port & d & o & h2 & E & ST & Z1 & Z2 & ch & lo & hi & OC & GC & U & RT).
  exists h1, e, cf, port, d, o, h2. split; [exact E|]. cbv zeta. split; [exact ST|]. intros NB. set (m := run c h1 (MAC_init c US_902_928 a e0)) in *.
  assert (s_region (m_ctx m) = US_902_928) as RM. { rewrite E in PA. apply Forall_app in PA. destruct (start_facts c US_902_928 a e0 h1 IP OK V (proj1 PA)) as (_ & _ & VS). exact (proj1 VS). }
  destruct OC as (CH & _). fold m in CH. rewrite RM in CH. change (0 <= ch < 72) in CH.
  unfold getChannel in GC. rewrite RM in GC. cbn [isDynamic] in GC. rewrite fixed_spec in GC by lia.
  destruct (RT (fixed_lohi _ _ _ _ _ GC)) as (x & -> & -> & X & N). apply us_fits.
  { cbn [fixed_channel] in GC. destruct (ch <? 64); [|destruct (ch <? 72); [|discriminate GC]]; apply some3_inj in GC; lia. }
  eapply Z.le_trans; [|exact (fixed_room US_902_928 _ _ _ _ _ _ eq_refl (proj1 CH) GC U X N)]. rewrite (rate_room _ _ U).
  assert (snd (step c e (C_data cf port d o) m) = RStatus STATUS_OK \/ snd (step c e (C_data cf port d o) m) <> RStatus STATUS_OK) as [O|O].
  { destruct (snd (step c e (C_data cf port d o) m)) as [|s|]; [right; discriminate|destruct s; [left; reflexivity|right; discriminate..]|right; discriminate]. }
  - apply Z1. exact O.
  - specialize (Z2 O). destruct (small_rates _ _ U) as [[_ EZ]|W]; [|lia]. exfalso. destruct NB as [NB|NB]; [exact (O NB)|exact (NB EZ)].
Qed.

Lemma defaults_set r s a p d : has_defaults r s -> has_defaults r (set_s_adr a (set_s_power p (set_s_rate d (set_s_region r s)))).
Proof.
  intros H. assert (set_s_region r s = s) as -> by (destruct H as (E & _); rewrite <- E; destruct s; reflexivity). exact H.
Qed.

Theorem forget_defaults c e m : s_joined (m_ctx m) = true -> has_defaults (s_region (m_ctx m)) (m_ctx (fst (step c e C_forget m))).
Proof.
  intros J. destruct (step_cases c e C_forget m) as (m1 & m2 & Q1 & A & Q2 & E1). assert (m1 = m) as -> by (apply E1; discriminate). clear Q1 E1.
  destruct Q2 as [[C2 _] _]. rewrite (DataP.core_ctx _ _ C2). clear C2.
  assert (snd (step c e C_forget m) = RVoid) as R by reflexivity. rewrite R in A. clear R. remember C_forget as k eqn:EK. remember RVoid as rv eqn:ER.
  destruct A; try discriminate EK; try discriminate ER.
  - destruct H as [H|[t H]]; congruence.
  - destruct H as [H|[_ H]]; congruence.
  - rewrite (DataP.core_ctx _ _ H0). assert (m_ctx x = m_ctx m) as EX.
    { clear - A. remember C_cancel as k eqn:EK. remember RVoid as rv eqn:ER. destruct A; try discriminate EK; try discriminate ER; try reflexivity.
      - exact (DataP.core_ctx _ _ H0).
      - subst k. contradiction. }
    change (m_ctx (forgetNetwork c x)) with (forgotten (m_ctx x) (m_maxDutyCycle x) (c_txps c)). rewrite <- EX. apply forgotten_defaults.
  - subst k. contradiction.
Qed.

Theorem init_defaults c a e : match ia_session a with None => True | Some s => s_magic s <> sessionMagicNumber \/ s_region s <> EU_863_870 end ->
  has_defaults EU_863_870 (m_ctx (MAC_init c EU_863_870 a e)).
Proof.
  intros H. rewrite init_ctx. assert (has_defaults EU_863_870 (fresh c EU_863_870)) as K.
  { unfold fresh. apply defaults_set. pose proof (forgotten_defaults session_zero 0 (c_txps c)) as K. change (s_region session_zero) with EU_863_870 in K. exact K. }
  destruct (ia_session a) as [s|]; [|exact K]. destruct (_ && _) eqn:E; [|exact K]. apply andb_prop in E. destruct E as [E1 E2]. apply region_eqb_eq in E2. apply Z.eqb_eq in E1. destruct H; contradiction.
Qed.

Theorem join_plan c r a e0 h f bw sf p fr : in_place c -> arg_ok a -> valid_start r (ia_session a) ->
  Forall (fun x => power_arg (snd x)) h -> isDynamic r = false ->
  In (OTransmit f bw sf p fr) (m_log (run c h (MAC_init c r a e0))) -> is_data_frame fr = false ->
  exists ch lo hi rate, 0 <= ch < 72 /\ fixed_channel r ch = Some (f, lo, hi) /\ lo <= rate <= hi /\
     bw = rate_bw r rate /\ sf = rate_sf r rate /\ (r = AU_915_928 -> rate = 2 \/ rate = 6).
Proof. intros IP OK V PA D I F. destruct (join_sent c r a e0 h f bw sf p fr IP OK V PA I F) as (_ & _ & _ & _ & _ & K). exact (K D). Qed.

Lemma dwell_spec dwell rate : applyUplinkDwell AU_915_928 dwell rate = (if dwell then Z.max 2 rate else rate).
Proof. cbn [applyUplinkDwell]. destruct dwell; [|reflexivity]. cbn [andb]. destruct (rate <? 2) eqn:E; lia. Qed.

Theorem join_power c r a e0 h f bw sf p fr : in_place c -> arg_ok a -> valid_start r (ia_session a) ->
  Forall (fun x => power_arg (snd x)) h ->
  In (OTransmit f bw sf p fr) (m_log (run c h (MAC_init c r a e0))) -> is_data_frame fr = false ->
  exists h1 e h2, h = h1 ++ (e, C_process) :: h2 /\ p = eirp_of c r (s_tx_param (m_ctx (run c h1 (MAC_init c r a e0)))) 0.
Proof.
  intros IP OK V PA I F. destruct (join_sent c r a e0 h f bw sf p fr IP OK V PA I F) as (h1 & e & h2 & E & P & _). exists h1, e, h2. auto.
Qed.
