(* The MAC stays within what the radio drivers accept. *)
From Verif Require Import Lib FrameM CommandsM RegionM RadioM SmM MacStateM MacTac MacUtilM OpsM MacCmdM MacProcM MacApiM MacRw
  CoreP CaseP RxP ExecP SpecHist HistP ReadyP AcceptP ChipM SpecModes SpecChip.

(* a call with a rate of LoRaWAN and a frame that fits the chip *)
Definition rate_okb (b : bw) (sf : Z) : bool := (7 <=? sf) && (sf <=? 12) && negb (match b with BW_250 => sf =? 12 | _ => false end).
Definition sane (o : out) : bool :=
  match o with
  | OTransmit _ b sf _ d => rate_okb b sf && (Z.of_nat (length d) <=? 255)
  | OReceive _ b sf _ _ => rate_okb b sf
  | _ => true
  end.
Lemma rates_ok r rate : rate_okb (rate_bw r rate) (rate_sf r rate) = true.
Proof.
  unfold rate_bw, rate_sf, convertRate.
  destruct r; repeat (match goal with |- context [match ?x with _ => _ end] => is_var x; destruct x end); reflexivity.
Qed.
Fixpoint smodes (d : radio_mode) (l : list out) : option radio_mode :=
  match l with
  | [] => Some d
  | o :: l => if sane o then match next_mode d o with Some d => smodes d l | None => None end else None
  end.
Lemma smodes_spec l : forall d d', smodes d l = Some d' -> modes d l = Some d' /\ forallb sane l = true.
Proof.
  induction l as [|o l IH]; intros d d' H; [auto|]. cbn [smodes modes forallb] in *. destruct (sane o); [|discriminate].
  destruct (next_mode d o); [|discriminate]. apply IH in H. exact H.
Qed.
Lemma smodes_app l1 : forall d l2, smodes d (l1 ++ l2) = match smodes d l1 with Some x => smodes x l2 | None => None end.
Proof. induction l1 as [|o l1 IH]; intros d l2; [reflexivity|]. cbn [app smodes]. destruct (sane o); [|reflexivity]. destruct (next_mode d o); [apply IH|reflexivity]. Qed.

Definition evo (o : out) : bool := match o with OEvent _ => true | _ => false end.
Lemma smodes_evo l : forallb evo l = true -> forall d, smodes d l = Some d.
Proof. induction l as [|o l IH]; intros H d; [reflexivity|]. cbn [forallb] in H. apply andb_true_iff in H. destruct H as [A B].
  destruct o; try discriminate A. cbn [smodes sane next_mode]. auto. Qed.

(* the smodes the radio can be in, by the state of the MAC *)
Definition fits (s : mac_state) (d : radio_mode) : bool :=
  match s, d with
  | ST_INIT, _ => true
  | ST_RADIO_RESET, MODE_RESET => true
  | ST_RADIO_BOOT, (MODE_BOOT | MODE_SLEEP) => true
  | (ST_IDLE | ST_WAIT_ENTROPY | ST_WAIT_OTAA | ST_WAIT_TX | ST_RX2_LOCKOUT), MODE_SLEEP => true
  | (ST_START_RADIO_FOR_ENTROPY | ST_ENTROPY | ST_START_RADIO_FOR_RX1 | ST_RX1 | ST_START_RADIO_FOR_RX2 | ST_RX2), MODE_RX => true
  | (ST_START_RADIO_FOR_TX | ST_TX), MODE_TX => true
  | (ST_WAIT_RX1 | ST_WAIT_RX2), MODE_HOLD => true
  | _, _ => false
  end.

Definition in_mode (d0 : radio_mode) (m : mac) : Prop :=
  exists d, smodes d0 (m_log m) = Some d /\ fits (m_state m) d = true.

Lemma drive_out d0 m m' l : in_mode d0 m -> m_log m' = m_log m ++ l ->
  (forall d, fits (m_state m) d = true -> exists d', smodes d l = Some d' /\ fits (m_state m') d' = true) -> in_mode d0 m'.
Proof.
  intros (d & M & F) L H. destruct (H d F) as (d' & M' & F'). exists d'. rewrite L, smodes_app, M. auto.
Qed.
Lemma drive_same d0 m m' : in_mode d0 m -> m_log m' = m_log m -> m_state m' = m_state m -> in_mode d0 m'.
Proof. intros (d & M & F) L S. exists d. rewrite L, S. auto. Qed.
Lemma drive_quiet d0 m m' : in_mode d0 m -> (exists l, m_log m' = m_log m ++ l /\ forallb evo l = true) -> m_state m' = m_state m -> in_mode d0 m'.
Proof. intros H (l & L & E) S. eapply drive_out; [exact H|exact L|]. intros d F. exists d. rewrite (smodes_evo _ E), S. auto. Qed.

Ltac by_state S := intros d F; rewrite S in F; destruct d; try discriminate F; (eexists; split; [reflexivity|try reflexivity]).

Lemma bands_evo e m : exists l, m_log (fst (processBands e m)) = m_log m ++ l /\ forallb evo l = true.
Proof.
  unfold processBands. destruct (mt_parked _); [exists []; now rewrite app_nil_r|].
  destruct (elapsed _ _). cbv zeta. destruct (_ && _); cbn [fst]; [eexists; split; reflexivity|exists []; now rewrite app_nil_r].
Qed.
Lemma timerCheck_log e i m : m_log (fst (timerCheck e i m)) = m_log m /\ m_state (fst (timerCheck e i m)) = m_state m.
Proof. unfold timerCheck. cbv zeta. destruct (tm_armed _); [destruct (_ <? _)|]; split; reflexivity. Qed.
Lemma inputCheck_log e m : m_log (fst (inputCheck e m)) = m_log m /\ m_state (fst (inputCheck e m)) = m_state m.
Proof. unfold inputCheck. destruct (in_state _); split; reflexivity. Qed.
Lemma next_event_log e m b : m_log (fst (fst (next_event e m b))) = m_log m /\ m_state (fst (fst (next_event e m b))) = m_state m.
Proof.
  unfold next_event.
  pose proof (inputCheck_log e m) as H1. destruct (inputCheck e m) as [m1 [lag|]]; cbn [fst] in *; [exact H1|]. destruct H1 as [A1 B1].
  pose proof (timerCheck_log e WAITA m1) as H2. destruct (timerCheck e WAITA m1) as [m2 [lag|]]; cbn [fst] in *; destruct H2 as [A2 B2];
    [split; congruence|].
  pose proof (timerCheck_log e WAITB m2) as H3. destruct (timerCheck e WAITB m2) as [m3 [lag|]]; cbn [fst] in *; destruct H3; split; congruence.
Qed.
Lemma setNext_log e m : m_log (setNextBandEvent e m) = m_log m /\ m_state (setNextBandEvent e m) = m_state m.
Proof. unfold setNextBandEvent. cbv zeta. destruct (_ <? _); split; reflexivity. Qed.
Lemma registerTime_log m : m_log (registerTime m) = m_log m /\ m_state (registerTime m) = m_state m.
Proof. unfold registerTime. cbv zeta. destruct (getBand _ _); destruct (m_op m); try (destruct (_ >? _)); split; reflexivity. Qed.

(* an unsuccessful exchange ends asleep, or with everything as it was *)
Lemma miss_evo c e m m' : miss_case c e m m' -> m_op m = OP_JOINING \/ is_data (m_op m) = true ->
  (exists l, m_log m' = m_log m ++ l /\ forallb evo l = true) /\
  (m_state m' = ST_WAIT_TX \/ m_state m' = ST_IDLE \/ m_state m' = ST_WAIT_OTAA).
Proof.
  intros H O. destruct H as [m2 ? ? ? S L|m2 ? p ? S L|m2 ? ? ? S L|m2 ? ? ? S L|N1 N2].
  - split; [exists []; rewrite app_nil_r; auto|auto].
  - split; [|auto]. eexists. split; [exact L|]. destruct (snd p); reflexivity.
  - split; [|auto]. eexists. split; [exact L|reflexivity].
  - split; [|auto]. eexists. split; [exact L|reflexivity].
  - exfalso. destruct O as [O|O]; [now apply N2|congruence].
Qed.
Lemma down_end_evo m f : forallb evo (down_end m f) = true.
Proof. unfold down_end. destruct (m_op m); try destruct (dn_ack f); reflexivity. Qed.
Lemma told_evo l : forallb told_rx l = true -> forallb evo l = true.
Proof.
  induction l as [|o l IH]; [reflexivity|]. cbn [forallb]. intros H. apply andb_true_iff in H. destruct H as [A B].
  rewrite (IH B), andb_true_r. destruct o; try reflexivity; discriminate A.
Qed.

Lemma packet_mode d0 c e m : in_mode d0 m -> in_rx (m_state m) = true -> so (m_op m) (m_state m) = true -> in_mode d0 (rx_packet c e m).
Proof.
  intros H R O.
  assert (m_op m = OP_JOINING \/ is_data (m_op m) = true) as O2.
  { destruct (m_state m); try discriminate R; destruct (m_op m); try discriminate O; auto. }
  open_def rx_packet. cbv zeta. set (m1 := set_m_rx_snr _ _).
  assert (m_log m1 = m_log m ++ [OMode MODE_SLEEP]) as L1 by reflexivity.
  assert (m_op m1 = m_op m) as O1 by reflexivity. clearbody m1.
  assert (forall m' l, m_log m' = m_log m1 ++ l -> forallb evo l = true ->
    m_state m' = ST_WAIT_TX \/ m_state m' = ST_IDLE \/ m_state m' = ST_WAIT_OTAA -> in_mode d0 m') as K.
  { intros m' l L E S. rewrite L1, <- app_assoc in L. eapply drive_out; [exact H|exact L|].
    intros d F. exists MODE_SLEEP. split.
    - destruct (m_state m); try discriminate R; destruct d; try discriminate F; cbn [app smodes next_mode change_ok]; now apply smodes_evo.
    - destruct S as [-> | [-> | ->]]; reflexivity. }
  destruct (receiveFrame c m1 (rx_buffer e) (rx_len e)) as [buf [f|]].
  - assert (exists x l, pushSessionUpdate x = pushSessionUpdate (match dn_type f with FT_CONF_DOWN | FT_UNCONF_DOWN => data_received c e buf f m1 | _ => join_accepted c buf f m1 end) /\
        m_log x = m_log m1 ++ l /\ forallb evo l = true /\ m_state x = ST_IDLE) as (x & l & E & L & V & S).
    { assert (exists l, m_log (data_received c e buf f m1) = m_log m1 ++ l /\ forallb evo l = true /\ m_state (data_received c e buf f m1) = ST_IDLE) as D.
      { destruct (data_received_frame c e buf f m1) as (s & l & _ & _ & S & L & _ & T). exists (l ++ down_end m1 f).
        split; [exact L|]. split; [rewrite forallb_app, (told_evo _ T); apply down_end_evo|exact S]. }
      assert (exists l, m_log (join_accepted c buf f m1) = m_log m1 ++ l /\ forallb evo l = true /\ m_state (join_accepted c buf f m1) = ST_IDLE) as J.
      { destruct (join_accepted_frame c buf f m1) as (s & l & _ & _ & S & L & _). eexists. split; [exact L|]. split; [reflexivity|exact S]. }
      destruct D as (l1 & D), J as (l2 & J). destruct (dn_type f); eauto. }
    rewrite <- E. apply (K _ (l ++ [OEvent (EV_SESSION_UPDATED (m_ctx x))])).
    + unfold pushSessionUpdate, notify, emit. ms. rewrite L, app_assoc. reflexivity.
    + rewrite forallb_app, V. reflexivity.
    + right; left. exact S.
  - destruct (miss_evo c e m1 _ (missing_cases c e m1)) as [(l & L & V) S]; [rewrite O1; exact O2|]. eapply K; eauto.
Qed.

Lemma error_mode d0 c e m : in_mode d0 m -> in_mode d0 (handleRadioError c e m).
Proof.
  intros H. open_def handleRadioError. cbv zeta. set (x := timerClear WAITB (timerClear WAITA (inputDisarm m))).
  assert (m_log x = m_log m) as XL by reflexivity. clearbody x.
  assert (forall y l, m_log y = m_log m ++ l -> forallb evo l = true ->
    in_mode d0 (timerSet e WAITA (m_tps y / 1024) (emit (OMode MODE_RESET) (set_m_state ST_RADIO_RESET y)))) as K.
  { intros y l L E. apply (drive_out d0 m _ (l ++ [OMode MODE_RESET])); [exact H| |].
    - unfold timerSet, emit. ms. rewrite L, app_assoc. reflexivity.
    - intros d _. exists MODE_RESET. rewrite smodes_app, (smodes_evo _ E). split; reflexivity. }
  destruct (m_op x) eqn:O; try (apply (K _ [OEvent EV_OP_ERROR]); [unfold notify, emit; ms; rewrite XL; reflexivity|reflexivity]).
  destruct (miss_evo c e x _ (missing_cases c e x)) as [(l & L & V) _]; [auto|]. apply (K _ l); [congruence|exact V].
Qed.

Lemma dispatch_mode d0 c e ev lag m : in_mode d0 m -> so (m_op m) (m_state m) = true -> length (m_buffer m) = 255%nat -> in_mode d0 (dispatch c e ev lag m).
Proof.
  intros H O LB. unfold dispatch. destruct (m_state m) eqn:S; try exact H.
  - apply (drive_out d0 m _ [OMode MODE_RESET] H); [reflexivity|]. by_state S.
  - destruct ev; try exact H. apply (drive_out d0 m _ [OMode MODE_BOOT] H); [reflexivity|]. by_state S.
  - destruct ev; try exact H. apply (drive_out d0 m _ [OMode MODE_SLEEP] H).
    + cbv [processRadioBoot]. change (m_op (emit (OMode MODE_SLEEP) m)) with (m_op m). destruct (m_op m); reflexivity.
    + intros d F. rewrite S in F. exists MODE_SLEEP. split; [destruct d; try discriminate F; reflexivity|].
      cbv [processRadioBoot]. change (m_op (emit (OMode MODE_SLEEP) m)) with (m_op m). destruct (m_op m); reflexivity.
  - destruct ev; try exact H; (apply (drive_out d0 m _ [OMode MODE_RX] H); [cbv [processWait]; rewrite S; reflexivity|];
      by_state S; cbv [processWait]; rewrite S; reflexivity).
  - destruct ev; try exact H. apply (drive_out d0 m _ [OReceiveEntropy] H); [reflexivity|]. by_state S.
  - destruct ev; try exact H. apply (drive_out d0 m _ [OMode MODE_SLEEP; OEvent (EV_ENTROPY (e_entropy e))] H);
      [unfold processEntropy, notify, emit; ms; rewrite <- app_assoc; reflexivity|]. by_state S.
  - unfold processWaitOTAA. destruct (_ =? _); [|exact H]. cbv zeta. apply (drive_out d0 m _ [] H); [symmetry; apply app_nil_r|].
    by_state S.
  - destruct ev; try exact H; (apply (drive_out d0 m _ [OMode MODE_TX] H); [cbv [processWait]; rewrite S; reflexivity|];
      by_state S; cbv [processWait]; rewrite S; reflexivity).
  - destruct ev; try exact H. eapply (drive_out d0 m _ [_] H); [unfold processStartRadioForTX, timerSet, emit; ms; reflexivity|].
    intros d F. rewrite S in F. destruct d; try discriminate F.
    exists MODE_TX. split; [|reflexivity]. cbn [smodes sane]. rewrite rates_ok.
    match goal with |- (if true && ?b then _ else _) = _ => replace b with true; [reflexivity|] end.
    symmetry. apply Z.leb_le. unfold slice. rewrite firstn_length, skipn_length.
    match goal with |- context [length (m_buffer ?x)] => change (m_buffer x) with (m_buffer m) end. lia.
  - assert (in_mode d0 (registerTime m)) as H2 by (eapply drive_same; [exact H|apply registerTime_log|apply registerTime_log]).
    unfold processTX. destruct ev; try exact H; [now apply error_mode|]. destruct (e_st_tx e); [|now apply error_mode].
    apply (drive_out d0 (registerTime m) _ [OMode MODE_HOLD] H2).
    + set (x := registerTime m). clearbody x. open_def tx_done. cbv zeta.
      destruct (window _ _ _ _) as [sym1 marg1]. destruct (window _ _ _ _) as [sym2 marg2].
      unfold emit. ms. f_equal. destruct (_ <=? _); [destruct (_ <=? _)|]; reflexivity.
    + rewrite (proj2 (registerTime_log m)). intros d F. rewrite S in F. exists MODE_HOLD.
      split; [destruct d; try discriminate F; reflexivity|].
      destruct (tx_done_state c e lag (registerTime m)) as [-> | ->]; reflexivity.
  - destruct ev; try exact H; (apply (drive_out d0 m _ [OMode MODE_RX] H); [cbv [processWait]; rewrite S; reflexivity|];
      by_state S; cbv [processWait]; rewrite S; reflexivity).
  - destruct ev; try exact H. eapply (drive_out d0 m _ [_] H); [unfold processStartRadioForRX1, timerSet, emit; ms; reflexivity|].
    intros d F. rewrite S in F. destruct d; try discriminate F.
    exists MODE_RX. split; [|reflexivity]. cbn [smodes sane]. rewrite rates_ok. reflexivity.
  - unfold processRX. destruct ev; try exact H; [now apply error_mode|].
    destruct (e_st_rx e) eqn:R; [apply packet_mode; [exact H|now rewrite S|now rewrite S]|].
    destruct (e_st_timeout e); [|now apply error_mode].
    apply (drive_out d0 m _ [OMode MODE_HOLD] H); [unfold rx_timeout; rewrite S; reflexivity|]. by_state S. unfold rx_timeout. rewrite S. reflexivity.
  - destruct ev; try exact H; (apply (drive_out d0 m _ [OMode MODE_RX] H); [cbv [processWait]; rewrite S; reflexivity|];
      by_state S; cbv [processWait]; rewrite S; reflexivity).
  - destruct ev; try exact H. eapply (drive_out d0 m _ [_] H); [unfold processStartRadioForRX2, timerSet, emit; ms; reflexivity|].
    intros d F. rewrite S in F. destruct d; try discriminate F.
    exists MODE_RX. split; [|reflexivity]. cbn [smodes sane]. rewrite rates_ok. reflexivity.
  - unfold processRX. destruct ev; try exact H; [now apply error_mode|].
    destruct (e_st_rx e) eqn:R; [apply packet_mode; [exact H|now rewrite S|now rewrite S]|].
    destruct (e_st_timeout e); [|now apply error_mode].
    apply (drive_out d0 m _ [OMode MODE_SLEEP] H); [unfold rx_timeout; rewrite S; reflexivity|]. by_state S. unfold rx_timeout. rewrite S. reflexivity.
  - unfold processRX2Lockout. destruct ev; try exact H.
    destruct (miss_evo c e m _ (missing_cases c e m)) as [(l & L & V) X].
    { destruct (m_op m); try discriminate O; auto. }
    apply (drive_out d0 m _ l H L). intros d F. rewrite S in F. destruct d; try discriminate F. exists MODE_SLEEP. rewrite (smodes_evo _ V).
    split; [reflexivity|]. destruct X as [-> | [-> | ->]]; reflexivity.
Qed.

Lemma start_fits s w : fits w MODE_SLEEP = true -> forall d, fits s d = true -> fits (start_state s w) d = true.
Proof. intros W d F. destruct s; try exact F. destruct d; try discriminate F. exact W. Qed.

(* requests only report, or reset the radio *)
Definition outside (k : call) : bool := match k with C_process => false | C_radioEvent _ => false | _ => true end.
Lemma cancel_fits s d o : fits s d = true -> exists d',
  smodes d ((match s with ST_INIT | ST_RADIO_RESET | ST_RADIO_BOOT => [] | _ => [OMode MODE_RESET] end)
           ++ (match o with OP_NONE => [] | _ => [OEvent EV_OP_CANCELLED] end)) = Some d' /\
  fits (match s with ST_INIT | ST_RADIO_RESET | ST_RADIO_BOOT => s | _ => ST_RADIO_RESET end) d' = true.
Proof. intros F. destruct s, d; try discriminate F; destruct o; eexists; split; reflexivity. Qed.

Lemma act_mode d0 c e m k r m' : act c e m k r m' -> outside k = true -> in_mode d0 m -> in_mode d0 m'.
Proof.
  intros A. induction A as
    [k r K R|? ? ?|? ? ? ? ?|? ? ? ? ?|? ? ?|? ? ? ? ? ?|? ? ? ? ? ? ? ?|? ? ? ? ?|? ? ? ? ?
    |k st m' tx E _ _ _ _|m' _ _ L S|sm m' _ _ _ x _ L S _|a m' _ _ _ L S|cf port data o tx f op st m' _ _ _ _ _ mtu _ _ _ L S
    |k m' K _ S L|x m' A IH _ _ S L|k r s d m' _ _ _ _ S L _]; intros NP HM; try discriminate NP.
  - destruct K as [->|(t & ->)]; discriminate NP.
  - rewrite E. exact HM.
  - apply (drive_out d0 m _ [] HM); [rewrite L; symmetry; apply app_nil_r|]. intros d F. exists d. split; [reflexivity|].
    rewrite S. destruct (m_state m), d; try discriminate F; reflexivity.
  - clear x. eapply (drive_out d0 m _ _ HM); [exact L|]. intros d F. exists d. split; [reflexivity|].
    rewrite S. destruct (m_state m), d; try discriminate F; reflexivity.
  - eapply drive_same; [exact HM|exact L|exact S].
  - clear mtu. eapply (drive_out d0 m _ _ HM); [exact L|]. intros d F. exists d. split; [reflexivity|].
    rewrite S. destruct (m_state m), d; try discriminate F; reflexivity.
  - eapply (drive_out d0 m _ _ HM); [exact L|]. intros d F. rewrite S. apply cancel_fits. exact F.
  - eapply (drive_out d0 x _ _); [apply IH; [reflexivity|exact HM]|exact L|]. intros d F. exists d. split; [reflexivity|].
    rewrite S. exact F.
  - apply (drive_quiet d0 m); [exact HM| |exact S].
    destruct L as [L|L]; rewrite L; [exists []; now rewrite app_nil_r|eexists; split; reflexivity].
Qed.

Lemma step_mode d0 c e k m : in_mode d0 m -> so (m_op m) (m_state m) = true -> length (m_buffer m) = 255%nat -> in_mode d0 (fst (step c e k m)).
Proof.
  intros H O LB. assert (k = C_process \/ k <> C_process) as [->|N] by (destruct k; auto; right; discriminate).
  - cbn [step fst]. open_def MAC_process.
    pose proof (bands_evo e m) as HB. pose proof (processBands_quiet e m) as QB.
    destruct (processBands e m) as [ma ready]. cbn [fst] in HB, QB.
    assert (in_mode d0 ma) as Ha by (eapply drive_quiet; [exact H|exact HB|apply QB]).
    pose proof (quiet_so _ _ QB O) as Oa.
    pose proof (next_event_log e ma ready) as HN. pose proof (next_event_quiet e ma ready) as QN.
    destruct (next_event e ma ready) as [[mb ev] lag]. cbn [fst] in HN, QN.
    assert (in_mode d0 mb) as Hb by (eapply drive_same; [exact Ha|apply HN|apply HN]).
    pose proof (quiet_so _ _ QN Oa) as Ob.
    eapply drive_same; [|apply setNext_log|apply setNext_log].
    assert (length (m_buffer mb) = 255%nat) as Lb.
    { destruct QB as [[CB _] _], QN as [[CN _] _]. rewrite <- LB.
      apply (f_equal (@length Z)). transitivity (m_buffer ma); [exact (f_equal m_buffer CN)|exact (f_equal m_buffer CB)]. }
    destruct ev; try exact Hb; now apply dispatch_mode.
  - assert (act c e m k (snd (step c e k m)) (fst (step c e k m)) /\ outside k = true \/ exists t, k = C_radioEvent t) as [[A K]|(t & ->)].
    { destruct k; try (left; split; [now apply tune_act|reflexivity]).
      - now destruct N.
      - left. split; [apply entropy_act|reflexivity].
      - left. split; [apply otaa_act|reflexivity].
      - left. split; [apply abp_act|reflexivity].
      - left. split; [apply data_act|reflexivity].
      - left. split; [apply cancel_act; auto|reflexivity].
      - left. split; [apply forget_act|reflexivity].
      - right. eauto. }
    + exact (act_mode _ _ _ _ _ _ _ A K H).
    + cbn [step fst]. unfold inputSignal. destruct (_ && _); [|exact H]. eapply drive_same; [exact H|reflexivity|reflexivity].
Qed.

(* from the initialisation on *)
Theorem in_mode_always c h r a e0 : in_place c -> arg_ok a -> in_mode MODE_RESET (run c h (MAC_init c r a e0)).
Proof.
  intros IP OK.
  assert (forall h m, so (m_op m) (m_state m) = true -> ready c m -> in_mode MODE_RESET m -> in_mode MODE_RESET (run c h m)) as K.
  { clear h. induction h as [|[e k] h IH]; intros m S R H; [exact H|]. cbn [run].
    destruct (ready_always c [(e, k)] m IP S R) as [S1 R1]. cbn [run] in S1, R1. apply IH; [exact S1|exact R1|].
    apply step_mode; [exact H|exact S|apply R]. }
  apply K; [apply (init_so c r a e0 [])|now apply ready_init|].
  destruct (init_facts c r a e0) as (_ & S & L & _). exists MODE_RESET. rewrite L, S. split; reflexivity.
Qed.

Lemma sane_spec o : sane o = true -> match o with
  | OTransmit _ b sf _ d => rate_ok b sf /\ Z.of_nat (length d) <= 255
  | OReceive _ b sf _ _ => rate_ok b sf
  | _ => True end.
Proof.
  assert (forall b sf, rate_okb b sf = true -> rate_ok b sf) as R.
  { intros b sf H. unfold rate_okb in H. split; [lia|]. intros [-> ->]. discriminate H. }
  destruct o; cbn [sane]; auto. intros H. apply andb_true_iff in H. destruct H as [A B]. split; [auto|lia].
Qed.

Theorem calls_always c h r a e0 : in_place c -> arg_ok a -> let l := m_log (run c h (MAC_init c r a e0)) in
  (exists d, modes MODE_RESET l = Some d) /\ Forall (fun o => sane o = true) l.
Proof.
  intros IP OK l. destruct (in_mode_always c h r a e0 IP OK) as (d & M & _). apply smodes_spec in M. destruct M as [M F].
  split; [eauto|]. apply Forall_forall. intros o I. rewrite forallb_forall in F. auto.
Qed.
