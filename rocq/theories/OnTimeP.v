From Verif Require EffectP.
(* From the end of a transmission to its windows. *)
From Verif Require Import Lib DataP IntP FrameM CommandsM RegionM RadioM SmM MacStateM MacTac MacUtilM OpsM MacCmdM MacProcM MacApiM MacRw CoreP CaseP RxP SpecHist SpecTime SpecWait SpecValid HistP EndP TxP TimeP StuckP AcceptP TimersP SpecInput InputP SpecEnds EndsP SpecRetry RetryP SpecWindow WindowP OpenP SpecOnTime.

Definition waiting (s : mac_state) : bool :=
  match s with ST_WAIT_RX1 | ST_START_RADIO_FOR_RX1 | ST_WAIT_RX2 | ST_START_RADIO_FOR_RX2 => true | _ => false end.
Definition due_after (t0 t : Z) (x : timer) : Prop := tm_armed x = false \/ exists D, x = mkTimer (u32 D) true /\ t <= D <= t0 + (2 ^ 31 - 1).

Record held (s : mac_state) (a b : timer) (y1 y2 : Z) (m : mac) : Prop := {
  hd_state : m_state m = s;
  hd_A : get_timer m WAITA = a;
  hd_B : get_timer m WAITB = b;
  hd_rest : at_rest m;
  hd_1 : m_rx1_symbols m = y1;
  hd_2 : m_rx2_symbols m = y2 }.

Lemma not_due e i t0 t n m x : get_timer m i = x -> due_after t0 t x -> e_now e = u32 n -> t0 <= n < t -> timerCheck e i m = (m, None).
Proof.
  intros G [O|(D & -> & R)] N B.
  - apply check_off. unfold armed. now rewrite G.
  - apply (check_early e i D n m G N). lia.
Qed.
Lemma bands_sym e m : m_rx1_symbols (fst (processBands e m)) = m_rx1_symbols m /\ m_rx2_symbols (fst (processBands e m)) = m_rx2_symbols m.
Proof. unfold processBands. destruct (mt_parked _); [split; reflexivity|]. destruct (elapsed _ _). cbv zeta. destruct (_ && _); split; reflexivity. Qed.
Lemma next_sym e m : m_rx1_symbols (setNextBandEvent e m) = m_rx1_symbols m /\ m_rx2_symbols (setNextBandEvent e m) = m_rx2_symbols m.
Proof. unfold setNextBandEvent. cbv zeta. destruct (_ <? _); split; reflexivity. Qed.

Lemma silent_calm m m' : calm m m' -> silent m m'.
Proof. intros [_ L]. now apply not_started. Qed.
Lemma silent_trans a b c : (exists l, m_log b = m_log a ++ l) -> (exists l, m_log c = m_log b ++ l) -> silent a b -> silent b c -> silent a c.
Proof.
  intros (l1 & L1) (l2 & L2). unfold silent. assert (m_log c = m_log a ++ (l1 ++ l2)) as L3 by (rewrite L2, L1, app_assoc; reflexivity).
  rewrite (new_out_app _ _ _ L1), (new_out_app _ _ _ L2), (new_out_app _ _ _ L3), existsb_app. now intros -> ->.
Qed.

Lemma hold_process c e s a b y1 y2 t0 t n m : waiting s = true -> held s a b y1 y2 m -> due_after t0 t a -> due_after t0 t b ->
  e_now e = u32 n -> t0 <= n < t -> held s a b y1 y2 (MAC_process c e m) /\ silent m (MAC_process c e m).
Proof.
  intros WS [S TA TB [I1 I2] Y1 Y2] DA DB N R. unfold MAC_process. pose proof (processBands_calm e m) as BC. pose proof BC as [BI _].
  destruct (bands_fields e m) as (BT & BS & _). pose proof (bands_sym e m) as [B1 B2]. cbv zeta in *.
  destruct (processBands e m) as [m1 rd]. cbn [fst] in *. unfold next_event, inputCheck. rewrite BI, I1.
  assert (get_timer m1 WAITA = a) as TA1 by (rewrite (timer_get _ m m1 BT); exact TA).
  assert (get_timer m1 WAITB = b) as TB1 by (rewrite (timer_get _ m m1 BT); exact TB).
  rewrite (not_due e WAITA t0 t n m1 a TA1 DA N R), (not_due e WAITB t0 t n m1 b TB1 DB N R).
  assert (rd = true -> dispatch c e SME_BAND 0 m1 = m1) as H.
  { intros _. unfold dispatch. rewrite BS, S. destruct s; try discriminate WS; reflexivity. }
  assert (held s a b y1 y2 (setNextBandEvent e m1) /\ silent m (setNextBandEvent e m1)) as W.
  { split.
    - destruct (band_event_state e m1) as (E1 & E2 & _). destruct (next_sym e m1) as [N1 N2]. constructor; try congruence.
      + rewrite setNext_A by discriminate. exact TA1.
      + rewrite setNext_A by discriminate. exact TB1.
      + unfold at_rest. destruct (setNext_calm e m1) as [-> _]. rewrite BI. auto.
    - apply silent_calm. eapply calm_trans; [exact BC|apply setNext_calm]. }
  destruct rd; cbv beta iota; [rewrite (H eq_refl)|]; exact W.
Qed.

Lemma api_sym c e k m : k <> C_process -> not_stop k ->
  m_rx1_symbols (fst (step c e k m)) = m_rx1_symbols m /\ m_rx2_symbols (fst (step c e k m)) = m_rx2_symbols m.
Proof.
  intros NP [N1 N2].
  destruct k; try congruence; cbn [step]; unfold st_ret, bool_ret; cbn [fst].
  - unfold MAC_entropy. destruct (m_op m); try (split; reflexivity). cbv zeta. cbn [fst]. destruct (m_state _); split; reflexivity.
  - open_def MAC_otaa. destruct (s_joined (m_ctx m)); [split; reflexivity|]. destruct (m_op m); try (split; reflexivity).
    destruct (m_devNonce m <=? 65535); [|split; reflexivity]. cbv zeta. cbn [fst].
    match goal with |- context [fillJoinBuffer c e ?n ?x] =>
      assert (m_rx1_symbols x = m_rx1_symbols m /\ m_rx2_symbols x = m_rx2_symbols m) as [E1 E2] by (destruct (is_1_1 (c_l2 c)); split; reflexivity);
      destruct (fillJoin_fields c e n x) as (t & buf & len & dn & -> & _); revert E1 E2; generalize x end.
    intros x E1 E2. unfold emit, notify, on_tx. ms. destruct (m_state x); ms; auto.
  - unfold MAC_abp. destruct (s_joined (m_ctx m)); [split; reflexivity|]. destruct (m_op m); split; reflexivity.
  - open_def MAC_data. destruct (negb _); [split; reflexivity|]. destruct (m_op m); try (split; reflexivity).
    destruct (_ && _); [|split; reflexivity]. destruct (band_global m =? 0); [|split; reflexivity]. cbv zeta. fold (sel_start c m).
    destruct (selectChannel _ _ _ _ _) as [tx fd]. destruct fd; [|split; reflexivity].
    destruct (_ <=? _); [|split; reflexivity]. destruct (compose _ _ _ _ _ _) as [[f op] sta].
    match goal with |- context [prepareData c ?y f ?d ?n] => assert (m_rx1_symbols y = m_rx1_symbols m /\ m_rx2_symbols y = m_rx2_symbols m) as [E1 E2] by (split; reflexivity);
      revert E1 E2; generalize y; intros x E1 E2 end.
    destruct (prepareData _ _ _ _ _) as [buf n]. unfold micDataFrame. cbv zeta. cbn [fst].
    match goal with |- context [match m_state ?z with _ => _ end] => assert (m_rx1_symbols z = m_rx1_symbols x) as E3 by reflexivity; assert (m_rx2_symbols z = m_rx2_symbols x) as E4 by reflexivity; revert E3 E4; generalize z; intros z' E3 E4 end.
    destruct (m_state z'); cbn [timerSet set_timer]; unfold timerSet, set_timer; ms; split; congruence.
  - unfold MAC_setRate. destruct (rateSettingIsValid _ _); split; reflexivity.
  - unfold MAC_setPower. destruct (validateTXPower _ _); split; reflexivity.
  - split; reflexivity.
  - split; reflexivity.
  - unfold MAC_addChannel. destruct (setChannel _ _ _ _ _). split; reflexivity.
  - unfold MAC_maskChannel. destruct (maskChannel _ _ _). split; reflexivity.
  - unfold MAC_unmaskChannel. destruct (unmaskChannel _ _ _). split; reflexivity.
  - unfold inputSignal. destruct (_ && _); split; reflexivity.
Qed.

Lemma hold_api c e k s a b y1 y2 m : k <> C_process -> not_stop k -> waiting s = true -> held s a b y1 y2 m ->
  held s a b y1 y2 (fst (step c e k m)) /\ silent m (fst (step c e k m)).
Proof.
  intros NP NS WS [S TA TB [I1 I2] Y1 Y2]. assert (m_state m <> ST_IDLE) as NI by (intros X; rewrite <- S, X in WS; discriminate WS).
  destruct (api_sym c e k m NP NS) as [A1 A2].
  destruct (api_timers c e k m NP NI) as [[TM E]|([X|X] & _)]; cbv zeta in *; [|now destruct NS|now destruct NS].
  assert (at_rest (fst (step c e k m)) /\ silent m (fst (step c e k m))) as [AR SI].
  { unfold at_rest. destruct (is_signal k) eqn:KS.
    - destruct k; try discriminate KS. rewrite signal_off by exact I2. split; [auto|]. apply silent_calm, calm_refl.
    - assert (is_process k = false) as KP by (destruct k; try reflexivity; congruence).
      assert (on_air m) as AIR by (intros H; congruence).
      destruct (request_input c e k m KP KS AIR) as (U1 & _ & U3 & _ & U5). split; [|exact U5]. split; [congruence|].
      apply not_true_iff_false. intros AR. specialize (U3 AR). congruence. }
  split; [|exact SI]. constructor; try congruence; try exact AR.
  - rewrite (timer_get _ m _ TM). exact TA.
  - rewrite (timer_get _ m _ TM). exact TB.
Qed.

Theorem hold_until c s a b y1 y2 t0 t h : waiting s = true -> due_after t0 t a -> due_after t0 t b -> during t0 t h ->
  forall m, held s a b y1 y2 m -> held s a b y1 y2 (run c h m) /\ silent m (run c h m).
Proof.
  intros WS DA DB. induction h as [|[e k] h IH]; intros F m W.
  - split; [exact W|]. apply silent_calm, calm_refl.
  - inversion F as [|x l [(n & R & N) NS] F']; subst. cbn [fst snd] in *. cbn [run].
    assert (held s a b y1 y2 (fst (step c e k m)) /\ silent m (fst (step c e k m))) as [W' Q].
    { assert (k = C_process \/ k <> C_process) as [->|NP] by (destruct k; first [now left|right; discriminate]).
      - cbn [step fst]. now apply (hold_process c e s a b y1 y2 t0 t n).
      - now apply hold_api. }
    destruct (IH F' _ W') as [H1 H2]. split; [exact H1|].
    apply (silent_trans m (fst (step c e k m))); auto; [apply EffectP.step_log_grows|]. eexists. apply run_log.
Qed.

(* --- a timer comes due --- *)

Lemma upd_other i j x m : i <> j -> get_timer (set_timer j x m) i = get_timer m i.
Proof. intros N. unfold get_timer, set_timer. ms. rewrite nth_upd. destruct (Nat.eqb_spec i j); [congruence|reflexivity]. Qed.

Lemma fire_A c e a b y1 y2 t n m : held ST_WAIT_RX1 a b y1 y2 m -> a = mkTimer (u32 t) true -> e_now e = u32 n -> 0 <= n - t < 2 ^ 31 - 1 ->
  let m' := MAC_process c e m in get_timer m' WAITB = b /\ at_rest m' /\ m_rx1_symbols m' = y1 /\ m_rx2_symbols m' = y2 /\ silent m m'.
Proof.
  intros [S TA TB [I1 I2] Y1 Y2] EA N D. cbv zeta. unfold MAC_process. pose proof (processBands_calm e m) as BC. pose proof BC as [BI _].
  destruct (bands_fields e m) as (BT & BS & _). pose proof (bands_sym e m) as [B1 B2]. cbv zeta in *.
  destruct (processBands e m) as [m1 rd]. cbn [fst] in *. unfold next_event, inputCheck. rewrite BI, I1.
  assert (get_timer m1 WAITA = mkTimer (u32 t) true) as TA1 by (rewrite (timer_get _ m m1 BT); congruence).
  destruct (check_late e WAITA t n m1 TA1 N D) as (d & ->). cbv beta iota zeta.
  set (m2 := set_timer WAITA _ m1).
  assert (m_state m2 = ST_WAIT_RX1 /\ m_inputs m2 = m_inputs m /\ m_rx1_symbols m2 = y1 /\ m_rx2_symbols m2 = y2 /\ get_timer m2 WAITB = b /\ calm m1 m2) as (S2 & I & Z1 & Z2 & TB2 & C2).
  { unfold m2. split; [change (m_state m1 = ST_WAIT_RX1); congruence|]. split; [exact BI|]. split; [change (m_rx1_symbols m1 = y1); congruence|].
    split; [change (m_rx2_symbols m1 = y2); congruence|]. split; [rewrite upd_other by discriminate; rewrite (timer_get _ m m1 BT); exact TB|]. split; [reflexivity|]. exists []. split; [symmetry; apply app_nil_r|reflexivity]. }
  clearbody m2. unfold dispatch. rewrite S2. unfold processWait. rewrite S2. cbv beta iota zeta.
  set (v := if d >? _ then _ else _). set (y := timerAppend WAITA v _).
  assert (get_timer y WAITB = b /\ m_inputs y = m_inputs m /\ m_rx1_symbols y = y1 /\ m_rx2_symbols y = y2 /\ calm m2 y) as (TBy & Iy & Y1y & Y2y & Cy).
  { unfold y, timerAppend. split; [rewrite upd_other by discriminate; exact TB2|]. split; [exact I|]. split; [exact Z1|]. split; [exact Z2|]. split; [reflexivity|]. exists [OMode MODE_RX]. split; reflexivity. }
  clearbody y. destruct (next_sym e y) as [N1 N2]. split; [rewrite setNext_A by discriminate; exact TBy|].
  split; [unfold at_rest; destruct (setNext_calm e y) as [-> _]; rewrite Iy; auto|]. split; [congruence|]. split; [congruence|].
  apply silent_calm. eapply calm_trans; [exact BC|]. eapply calm_trans; [exact C2|]. eapply calm_trans; [exact Cy|apply setNext_calm].
Qed.

Lemma open_A c e a b y1 y2 t n m : held ST_START_RADIO_FOR_RX1 a b y1 y2 m -> a = mkTimer (u32 t) true -> e_now e = u32 n -> 0 <= n - t < 2 ^ 31 - 1 ->
  let m' := MAC_process c e m in m_state m' = ST_RX1 /\ get_timer m' WAITB = b /\ m_rx2_symbols m' = y2 /\ told_to_listen y1 (new_out m m').
Proof.
  intros [S TA TB [I1 I2] Y1 Y2] EA N D. cbv zeta. unfold MAC_process. pose proof (processBands_calm e m) as [BI (l & BL & _)].
  destruct (bands_fields e m) as (BT & BS & _). pose proof (bands_sym e m) as [B1 B2]. cbv zeta in *.
  destruct (processBands e m) as [m1 rd]. cbn [fst] in *. unfold next_event, inputCheck. rewrite BI, I1.
  assert (get_timer m1 WAITA = mkTimer (u32 t) true) as TA1 by (rewrite (timer_get _ m m1 BT); congruence).
  destruct (check_late e WAITA t n m1 TA1 N D) as (d & ->). cbv beta iota zeta.
  set (m2 := set_timer WAITA _ m1).
  assert (m_state m2 = ST_START_RADIO_FOR_RX1 /\ m_rx1_symbols m2 = y1 /\ m_rx2_symbols m2 = y2 /\ get_timer m2 WAITB = b /\ m_log m2 = m_log m ++ l) as (S2 & Z1 & Z2 & TB2 & L2).
  { unfold m2. split; [change (m_state m1 = ST_START_RADIO_FOR_RX1); congruence|]. split; [change (m_rx1_symbols m1 = y1); congruence|].
    split; [change (m_rx2_symbols m1 = y2); congruence|]. split; [rewrite upd_other by discriminate; rewrite (timer_get _ m m1 BT); exact TB|]. exact BL. }
  clearbody m2. unfold dispatch. rewrite S2. unfold processStartRadioForRX1. cbv zeta.
  set (f := getRX1Freq _ _ _). set (bw0 := rate_bw _ _). set (sf := rate_sf _ _). set (len := u8 _). set (tm := u32 (Z.shiftl _ _)).
  change (m_rx1_symbols (inputArm (set_m_state ST_RX1 m2))) with (m_rx1_symbols m2). rewrite Z1. clearbody f bw0 sf len tm.
  set (y := timerSet e WAITA tm _).
  assert (m_state y = ST_RX1 /\ get_timer y WAITB = b /\ m_rx2_symbols y = y2 /\ m_log y = m_log m ++ (l ++ [OReceive f bw0 sf y1 len])) as (Sy & TBy & Y2y & Ly).
  { unfold y, timerSet. split; [reflexivity|]. split; [rewrite upd_other by discriminate; exact TB2|]. split; [exact Z2|]. rewrite app_assoc, <- L2. reflexivity. }
  clearbody y. destruct (next_sym e y) as [N1 N2]. destruct (band_event_state e y) as (E1 & _).
  split; [congruence|]. split; [rewrite setNext_A by discriminate; exact TBy|]. split; [congruence|].
  destruct (setNext_calm e y) as [_ (l2 & L3 & _)]. rewrite Ly, <- app_assoc in L3. rewrite (new_out_app _ _ _ L3).
  exists f, bw0, sf, len. rewrite !in_app_iff. left. right. left. reflexivity.
Qed.

Lemma second_soon c m T0 T : sane c m -> computable m -> T0 <= T -> second_timer c m (seen_end T0 T) - T <= 300000000.
Proof.
  intros (R1 & R2 & R3 & R4 & R5 & R6 & R7) [_ P2] LE. unfold second_timer, prepare.
  destruct (ticks_spec m (c_xtal c) R1 R6) as [_ K].
  assert (0 <= lead_at m (first_delay m + 1) (rx2_rate m)) as Q.
  { unfold lead_at, lead. unfold symbol_at in P2. cbv zeta in *. apply Z.div_pos; [|lia]. unfold extra_symbols. nia. }
  assert ((first_delay m + 1) * m_tps m <= 256 * 1000000) by nia.
  assert (seen_end T0 T <= T0 + 1) by (unfold seen_end; destruct (wraps T0 T); lia). lia.
Qed.

Theorem first_on_time c r a e0 h e T0 T h1 e1 T1 h2 e2 T2 : 0 < ia_tps a ->
  let m := run c h (MAC_init c r a e0) in
  end_served m e T0 T -> sane c m -> computable m ->
  let A := first_timer c m (seen_end T0 T) in let B := second_timer c m (seen_end T0 T) in
  T <= A -> during T A h1 -> e_now e1 = clock T1 -> A <= T1 ->
  let L := listen_at c m A T1 in
  during T1 L h2 -> e_now e2 = clock T2 -> L <= T2 -> T1 <= T2 -> T2 < B ->
  let m4 := run c h2 (MAC_process c e1 (run c h1 (MAC_process c e m))) in let m5 := MAC_process c e2 m4 in
  silent m m4 /\ m_state m5 = ST_RX1 /\ told_to_listen (listen_for m (first_delay m) (rx1_rate m)) (new_out m4 m5) /\
  get_timer m5 WAITB = mkTimer (clock B) true /\ m_rx2_symbols m5 = listen_for m (first_delay m + 1) (rx2_rate m).
Proof.
  intros P m ES SN CO A B TA D1 N1 G1 L D2 N2 G2 G3 G4.
  pose proof (always_tl c r a e0 h P) as (L3 & _ & TP). cbv zeta in L3, TP. fold m in L3, TP.
  assert (0 < m_tps m) as TPP by (rewrite TP; exact P).
  pose proof (second_soon c m T0 T SN CO) as SS. destruct ES as (I & S & ST & IT & N & R). specialize (SS (proj1 R)).
  destruct (windows_planned c e m T0 T (conj I (conj S (conj ST (conj IT (conj N R))))) SN CO L3) as (W1 & _ & _ & _ & Y1 & Y2). cbn [step fst] in *.
  fold A in W1. fold B in W1, SS. assert (A <= B) as AB by lia.
  destruct (W1 TA ltac:(lia)) as (S1 & TA1 & TB1). unfold ticking in TA1, TB1.
  destruct (process_signalled c e m I) as [PI PS]. unfold starts_radio in PS. cbn [step fst] in PS.
  set (m1 := MAC_process c e m) in *.
  assert (held ST_WAIT_RX1 (mkTimer (clock A) true) (mkTimer (clock B) true) (m_rx1_symbols m1) (m_rx2_symbols m1) m1) as H1.
  { constructor; auto. unfold at_rest. rewrite PI. auto. }
  change (2 ^ 31) with 2147483648 in *.
  assert (due_after T A (mkTimer (clock A) true)) as DA by (right; exists A; split; [reflexivity|change (2 ^ 31) with 2147483648; lia]).
  assert (due_after T A (mkTimer (clock B) true)) as DB by (right; exists B; split; [reflexivity|change (2 ^ 31) with 2147483648; lia]).
  destruct (hold_until c ST_WAIT_RX1 _ _ _ _ T A h1 eq_refl DA DB D1 m1 H1) as [H2 Q2]. set (m2 := run c h1 m1) in *.
  assert (m_tps m1 = m_tps m) as TP1 by (exact (step_tps c e C_process m)).
  assert (tl m m1) as TL1 by (destruct (run_tl c [(e, C_process)] m TPP) as [X _]; exact X).
  destruct (run_tl c h1 m1 ltac:(lia)) as [TL2 TP2]. fold m2 in TL2, TP2.
  assert (length (m_timers m2) = 3%nat) as L32 by (rewrite (proj1 TL2), (proj1 TL1); exact L3).
  pose proof SN as (R1 & _ & _ & _ & _ & R6 & _). destruct (ticks_spec m2 (c_xtal c) ltac:(lia) R6) as [K1 K2].
  assert (inputPending m2 = false) as IP2 by (exact (proj1 (hd_rest _ _ _ _ _ _ H2))).
  destruct (listen_planned c e1 A T1 m2 (hd_state _ _ _ _ _ _ H2) IP2 (hd_A _ _ _ _ _ _ H2) ltac:(rewrite L32; repeat constructor) N1 ltac:(lia) ltac:(lia)) as (S3 & _ & TA3).
  cbv zeta in TA3. unfold ticking in TA3.
  destruct (fire_A c e1 _ _ _ _ A T1 m2 H2 eq_refl N1 ltac:(change (2 ^ 31) with 2147483648; lia)) as (TB3 & AR3 & Y13 & Y23 & Q3). cbv zeta in *.
  set (m3 := MAC_process c e1 m2) in *.
  assert (get_timer m3 WAITA = mkTimer (clock L) true) as TA3'.
  { rewrite TA3. unfold L, listen_at, lateness. rewrite K1, TP2, TP1. reflexivity. }
  assert (held ST_START_RADIO_FOR_RX1 (mkTimer (clock L) true) (mkTimer (clock B) true) (m_rx1_symbols m1) (m_rx2_symbols m1) m3) as H3 by (constructor; auto).
  pose proof (lateness_pos A T1 ltac:(lia)) as LP.
  assert (A <= L <= A + 1000001) as LB by (unfold L, listen_at; rewrite TP2, TP1 in K2; lia).
  assert (due_after T1 L (mkTimer (clock L) true)) as DA3 by (right; exists L; split; [reflexivity|change (2 ^ 31) with 2147483648; lia]).
  assert (due_after T1 L (mkTimer (clock B) true)) as DB3 by (right; exists B; split; [reflexivity|change (2 ^ 31) with 2147483648; lia]).
  destruct (hold_until c ST_START_RADIO_FOR_RX1 _ _ _ _ T1 L h2 eq_refl DA3 DB3 D2 m3 H3) as [H4 Q4].
  destruct (open_A c e2 _ _ _ _ L T2 _ H4 eq_refl N2 ltac:(change (2 ^ 31) with 2147483648; lia)) as (S5 & TB5 & Z5 & O5). cbv zeta in *. rewrite Y1 in O5. rewrite Y2 in Z5.
  split; [|split; [exact S5|split; [exact O5|split; [exact TB5|exact Z5]]]].
  assert (forall x y k, exists l, m_log (fst (step c y k x)) = m_log x ++ l) as SG by (intros; apply EffectP.step_log_grows).
  assert (forall x y, exists l, m_log (MAC_process c y x) = m_log x ++ l) as PG by (intros x y; exact (SG x y C_process)).
  assert (forall x hh, exists l, m_log (run c hh x) = m_log x ++ l) as RG by (intros; eexists; apply run_log).
  assert (silent m m3) as Q13.
  { apply (silent_trans m m2); [|apply PG| |exact Q3].
    - destruct (PG m e) as (l1 & E1). destruct (RG m1 h1) as (l2 & E2). exists (l1 ++ l2). unfold m2. rewrite E2. unfold m1. rewrite E1, app_assoc. reflexivity.
    - apply (silent_trans m m1); [apply PG|apply RG|exact PS|exact Q2]. }
  apply (silent_trans m m3); [|apply RG|exact Q13|exact Q4].
  destruct (PG m e) as (l1 & E1). destruct (RG m1 h1) as (l2 & E2). destruct (PG m2 e1) as (l3 & E3).
  exists (l1 ++ l2 ++ l3). unfold m3. rewrite E3. unfold m2. rewrite E2. unfold m1. rewrite E1, !app_assoc. reflexivity.
Qed.

Lemma fire_B c e a b y1 y2 t n m : held ST_WAIT_RX2 a b y1 y2 m -> tm_armed a = false -> b = mkTimer (u32 t) true -> e_now e = u32 n -> 0 <= n - t < 2 ^ 31 - 1 ->
  let m' := MAC_process c e m in get_timer m' WAITA = a /\ at_rest m' /\ m_rx1_symbols m' = y1 /\ m_rx2_symbols m' = y2 /\ silent m m'.
Proof.
  intros [S TA TB [I1 I2] Y1 Y2] EO EB N D. cbv zeta. unfold MAC_process. pose proof (processBands_calm e m) as BC. pose proof BC as [BI _].
  destruct (bands_fields e m) as (BT & BS & _). pose proof (bands_sym e m) as [B1 B2]. cbv zeta in *.
  destruct (processBands e m) as [m1 rd]. cbn [fst] in *. unfold next_event, inputCheck. rewrite BI, I1.
  rewrite check_off by (unfold armed; rewrite (timer_get _ m m1 BT); congruence).
  assert (get_timer m1 WAITB = mkTimer (u32 t) true) as TB1 by (rewrite (timer_get _ m m1 BT); congruence).
  destruct (check_late e WAITB t n m1 TB1 N D) as (d & ->). cbv beta iota zeta.
  set (m2 := set_timer WAITB _ m1).
  assert (m_state m2 = ST_WAIT_RX2 /\ m_inputs m2 = m_inputs m /\ m_rx1_symbols m2 = y1 /\ m_rx2_symbols m2 = y2 /\ get_timer m2 WAITA = a /\ calm m1 m2) as (S2 & I & Z1 & Z2 & TB2 & C2).
  { unfold m2. split; [change (m_state m1 = ST_WAIT_RX2); congruence|]. split; [exact BI|]. split; [change (m_rx1_symbols m1 = y1); congruence|].
    split; [change (m_rx2_symbols m1 = y2); congruence|]. split; [rewrite upd_other by discriminate; rewrite (timer_get _ m m1 BT); exact TA|]. split; [reflexivity|]. exists []. split; [symmetry; apply app_nil_r|reflexivity]. }
  clearbody m2. unfold dispatch. rewrite S2. unfold processWait. rewrite S2. cbv beta iota zeta.
  set (v := if d >? _ then _ else _). set (y := timerAppend WAITB v _).
  assert (get_timer y WAITA = a /\ m_inputs y = m_inputs m /\ m_rx1_symbols y = y1 /\ m_rx2_symbols y = y2 /\ calm m2 y) as (TBy & Iy & Y1y & Y2y & Cy).
  { unfold y, timerAppend. split; [rewrite upd_other by discriminate; exact TB2|]. split; [exact I|]. split; [exact Z1|]. split; [exact Z2|]. split; [reflexivity|]. exists [OMode MODE_RX]. split; reflexivity. }
  clearbody y. destruct (next_sym e y) as [N1 N2]. split; [rewrite setNext_A by discriminate; exact TBy|].
  split; [unfold at_rest; destruct (setNext_calm e y) as [-> _]; rewrite Iy; auto|]. split; [congruence|]. split; [congruence|].
  apply silent_calm. eapply calm_trans; [exact BC|]. eapply calm_trans; [exact C2|]. eapply calm_trans; [exact Cy|apply setNext_calm].
Qed.

Lemma open_B c e a b y1 y2 t n m : held ST_START_RADIO_FOR_RX2 a b y1 y2 m -> tm_armed a = false -> b = mkTimer (u32 t) true -> e_now e = u32 n -> 0 <= n - t < 2 ^ 31 - 1 ->
  let m' := MAC_process c e m in m_state m' = ST_RX2 /\ told_to_listen y2 (new_out m m').
Proof.
  intros [S TA TB [I1 I2] Y1 Y2] EO EB N D. cbv zeta. unfold MAC_process. pose proof (processBands_calm e m) as [BI (l & BL & _)].
  destruct (bands_fields e m) as (BT & BS & _). pose proof (bands_sym e m) as [B1 B2]. cbv zeta in *.
  destruct (processBands e m) as [m1 rd]. cbn [fst] in *. unfold next_event, inputCheck. rewrite BI, I1.
  rewrite check_off by (unfold armed; rewrite (timer_get _ m m1 BT); congruence).
  assert (get_timer m1 WAITB = mkTimer (u32 t) true) as TB1 by (rewrite (timer_get _ m m1 BT); congruence).
  destruct (check_late e WAITB t n m1 TB1 N D) as (d & ->). cbv beta iota zeta.
  set (m2 := set_timer WAITB _ m1).
  assert (m_state m2 = ST_START_RADIO_FOR_RX2 /\ m_rx1_symbols m2 = y1 /\ m_rx2_symbols m2 = y2 /\ get_timer m2 WAITA = a /\ m_log m2 = m_log m ++ l) as (S2 & Z1 & Z2 & TB2 & L2).
  { unfold m2. split; [change (m_state m1 = ST_START_RADIO_FOR_RX2); congruence|]. split; [change (m_rx1_symbols m1 = y1); congruence|].
    split; [change (m_rx2_symbols m1 = y2); congruence|]. split; [rewrite upd_other by discriminate; rewrite (timer_get _ m m1 BT); exact TA|]. exact BL. }
  clearbody m2. unfold dispatch. rewrite S2. unfold processStartRadioForRX2. cbv zeta.
  set (f := s_rx2Freq _). set (bw0 := rate_bw _ _). set (sf := rate_sf _ _). set (len := u8 _). set (tm := u32 (_ * 4)).
  change (m_rx2_symbols (inputArm (set_m_state ST_RX2 m2))) with (m_rx2_symbols m2). rewrite Z2. clearbody f bw0 sf len tm.
  set (y := timerSet e WAITA tm _).
  assert (m_state y = ST_RX2 /\ m_log y = m_log m ++ (l ++ [OReceive f bw0 sf y2 len])) as (Sy & Ly).
  { unfold y, timerSet. split; [reflexivity|]. rewrite app_assoc, <- L2. reflexivity. }
  clearbody y. destruct (next_sym e y) as [N1 N2]. destruct (band_event_state e y) as (E1 & _).
  split; [congruence|].
  destruct (setNext_calm e y) as [_ (l2 & L3 & _)]. rewrite Ly, <- app_assoc in L3. rewrite (new_out_app _ _ _ L3).
  exists f, bw0, sf, len. rewrite !in_app_iff. left. right. left. reflexivity.
Qed.


Lemma close_1 c e m b : m_state m = ST_RX1 -> inputPending m = true -> e_st_rx e = false -> e_st_timeout e = true -> get_timer m WAITB = b ->
  exists a, tm_armed a = false /\ held ST_WAIT_RX2 a b (m_rx1_symbols m) (m_rx2_symbols m) (MAC_process c e m) /\ silent m (MAC_process c e m).
Proof.
  intros S I X1 X2 TB. destruct (process_signalled c e m I) as [PI PS]. unfold starts_radio in PS. cbn [step fst] in PS.
  assert (tm_armed (get_timer (MAC_process c e m) WAITA) = false /\ m_state (MAC_process c e m) = ST_WAIT_RX2 /\ get_timer (MAC_process c e m) WAITB = b /\
    m_rx1_symbols (MAC_process c e m) = m_rx1_symbols m /\ m_rx2_symbols (MAC_process c e m) = m_rx2_symbols m) as (H1 & H2 & H3 & H4 & H5).
  { clear PI PS. unfold MAC_process. pose proof (processBands_calm e m) as [BI _].
    destruct (bands_fields e m) as (BT & BS & _). pose proof (bands_sym e m) as [B1 B2]. cbv zeta in *.
    destruct (processBands e m) as [m1 rd]. cbn [fst] in *. unfold next_event, inputCheck. unfold inputPending in I. rewrite BI, I. cbv beta iota zeta.
    set (m2 := set_m_inputs _ m1).
    assert (m_state m2 = ST_RX1 /\ m_timers m2 = m_timers m /\ m_rx1_symbols m2 = m_rx1_symbols m /\ m_rx2_symbols m2 = m_rx2_symbols m) as (S2 & T2 & Y1 & Y2).
    { unfold m2. split; [change (m_state m1 = ST_RX1); congruence|]. split; [exact BT|]. split; [exact B1|exact B2]. }
    clearbody m2. unfold dispatch. rewrite S2. unfold processRX. rewrite X1, X2. unfold rx_timeout. rewrite S2.
    set (y := set_m_state ST_WAIT_RX2 _).
    assert (tm_armed (get_timer y WAITA) = false) as A1 by (exact (clear_runs WAITA WAITA (emit (OMode MODE_HOLD) m2))).
    assert (m_state y = ST_WAIT_RX2) as A2 by reflexivity.
    assert (get_timer y WAITB = b) as A3.
    { change (get_timer (timerClear WAITA (emit (OMode MODE_HOLD) m2)) WAITB = b). unfold timerClear. rewrite upd_other by discriminate.
      change (get_timer m2 WAITB = b). rewrite (timer_get _ m m2 T2). exact TB. }
    assert (m_rx1_symbols y = m_rx1_symbols m /\ m_rx2_symbols y = m_rx2_symbols m) as [A4 A5] by (split; [exact Y1|exact Y2]).
    clearbody y. destruct (next_sym e y) as [N1 N2]. destruct (band_event_state e y) as (E1 & _).
    rewrite !setNext_A by discriminate. repeat split; congruence. }
  eexists. split; [exact H1|]. split; [constructor; auto; unfold at_rest; rewrite PI; auto|exact PS].
Qed.

Theorem second_on_time c r a e0 h e T B h1 e1 T1 h2 e2 T2 : 1000 <= ia_tps a <= 1000000 -> 0 <= c_xtal c <= 1000 ->
  let m := run c h (MAC_init c r a e0) in
  m_state m = ST_RX1 -> inputPending m = true -> e_st_rx e = false -> e_st_timeout e = true -> e_now e = clock T ->
  get_timer m WAITB = mkTimer (clock B) true -> B - T <= 2 ^ 31 - 1 ->
  during T B h1 -> e_now e1 = clock T1 -> B <= T1 < B + 2 ^ 31 - 1 ->
  let L := listen_at c m B T1 in
  during T1 L h2 -> e_now e2 = clock T2 -> L <= T2 < B + 2 ^ 31 - 1 ->
  let m4 := run c h2 (MAC_process c e1 (run c h1 (MAC_process c e m))) in let m5 := MAC_process c e2 m4 in
  silent m m4 /\ m_state m5 = ST_RX2 /\ told_to_listen (m_rx2_symbols m) (new_out m4 m5).
Proof.
  intros RT RX m S I X1 X2 N TB RB D1 N1 G1 L D2 N2 G2.
  pose proof (always_tl c r a e0 h ltac:(lia)) as (L3 & _ & TP). cbv zeta in L3, TP. fold m in L3, TP.
  assert (0 < m_tps m) as TPP by lia.
  destruct (close_1 c e m _ S I X1 X2 TB) as (x & XO & H1 & Q1).
  assert (m_tps (MAC_process c e m) = m_tps m) as TP1 by (exact (step_tps c e C_process m)).
  assert (tl m (MAC_process c e m)) as TL1 by (destruct (run_tl c [(e, C_process)] m TPP) as [Z _]; exact Z).
  change (2 ^ 31) with 2147483648 in *.
  set (m1 := MAC_process c e m) in *.
  assert (forall t0 t, due_after t0 t x) as DX by (intros; left; exact XO).
  assert (due_after T B (mkTimer (clock B) true)) as DB by (right; exists B; split; [reflexivity|change (2 ^ 31) with 2147483648; lia]).
  destruct (hold_until c ST_WAIT_RX2 _ _ _ _ T B h1 eq_refl (DX T B) DB D1 m1 H1) as [H2 Q2].
  destruct (run_tl c h1 m1 ltac:(lia)) as [TL2 TP2]. set (m2 := run c h1 m1) in *.
  assert (length (m_timers m2) = 3%nat) as L32 by (rewrite (proj1 TL2), (proj1 TL1); exact L3).
  destruct (ticks_spec m2 (c_xtal c) ltac:(lia) RX) as [K1 K2].
  assert (inputPending m2 = false) as IP2 by (exact (proj1 (hd_rest _ _ _ _ _ _ H2))).
  assert (tm_armed (get_timer m2 WAITA) = false) as AO by (rewrite (hd_A _ _ _ _ _ _ H2); exact XO).
  destruct (listen_planned2 c e1 B T1 m2 (hd_state _ _ _ _ _ _ H2) IP2 AO (hd_B _ _ _ _ _ _ H2) ltac:(rewrite L32; repeat constructor) N1 ltac:(lia) ltac:(lia)) as (S3 & _ & TB3).
  cbv zeta in TB3. unfold ticking in TB3.
  destruct (fire_B c e1 _ _ _ _ B T1 m2 H2 XO eq_refl N1 ltac:(change (2 ^ 31) with 2147483648; lia)) as (TA3 & AR3 & Y13 & Y23 & Q3). cbv zeta in *.
  set (m3 := MAC_process c e1 m2) in *.
  assert (get_timer m3 WAITB = mkTimer (clock L) true) as TB3'.
  { rewrite TB3. unfold L, listen_at. rewrite K1, TP2, TP1. reflexivity. }
  assert (held ST_START_RADIO_FOR_RX2 x (mkTimer (clock L) true) (m_rx1_symbols m) (m_rx2_symbols m) m3) as H3 by (constructor; auto).
  pose proof (lateness_pos B T1 ltac:(lia)) as LP.
  assert (B <= L <= B + 1000001) as LB by (unfold L, listen_at; rewrite TP2, TP1 in K2; lia).
  assert (due_after T1 L (mkTimer (clock L) true)) as DL by (right; exists L; split; [reflexivity|change (2 ^ 31) with 2147483648; lia]).
  destruct (hold_until c ST_START_RADIO_FOR_RX2 _ _ _ _ T1 L h2 eq_refl (DX T1 L) DL D2 m3 H3) as [H4 Q4].
  destruct (open_B c e2 _ _ _ _ L T2 _ H4 XO eq_refl N2 ltac:(change (2 ^ 31) with 2147483648; lia)) as (S5 & O5). cbv zeta in *.
  split; [|split; [exact S5|exact O5]].
  assert (forall z y, exists l, m_log (MAC_process c y z) = m_log z ++ l) as PG by (intros z y; exact (EffectP.step_log_grows c y C_process z)).
  assert (forall z hh, exists l, m_log (run c hh z) = m_log z ++ l) as RG by (intros; eexists; apply run_log).
  assert (silent m m3) as Q13.
  { apply (silent_trans m m2); [|apply PG| |exact Q3].
    - destruct (PG m e) as (l1 & E1). destruct (RG m1 h1) as (l2 & E2). exists (l1 ++ l2). unfold m2. rewrite E2. unfold m1. rewrite E1, app_assoc. reflexivity.
    - apply (silent_trans m m1); [apply PG|apply RG|exact Q1|exact Q2]. }
  apply (silent_trans m m3); [|apply RG|exact Q13|exact Q4].
  destruct (PG m e) as (l1 & E1). destruct (RG m1 h1) as (l2 & E2). destruct (PG m2 e1) as (l3 & E3).
  exists (l1 ++ l2 ++ l3). unfold m3. rewrite E3. unfold m2. rewrite E2. unfold m1. rewrite E1, !app_assoc. reflexivity.
Qed.

Lemma prompt c m D : 0 <= c_xtal c * m_tps m -> listen_at c m D D = D + ceil_div (c_xtal c * m_tps m) 1000.
Proof.
  intros P. unfold listen_at, lateness. assert (wraps D D = false) as -> by (unfold wraps; lia).
  assert (0 <= ceil_div (c_xtal c * m_tps m) 1000) by (unfold ceil_div; apply Z.div_pos; lia). lia.
Qed.
Theorem prompt_first c m Te : 0 <= c_xtal c * m_tps m ->
  listen_at c m (first_timer c m Te) (first_timer c m Te) = Te + first_delay m * m_tps m - m_advance m - lead_at m (first_delay m) (rx1_rate m).
Proof. intros P. rewrite prompt by exact P. unfold first_timer, prepare. lia. Qed.
Theorem prompt_second c m Te : 0 <= c_xtal c * m_tps m ->
  listen_at c m (second_timer c m Te) (second_timer c m Te) = Te + (first_delay m + 1) * m_tps m - m_advance m - lead_at m (first_delay m + 1) (rx2_rate m).
Proof. intros P. rewrite prompt by exact P. unfold second_timer, prepare. lia. Qed.

Theorem covers m secs rate x : 0 < symbol_at m rate -> 0 <= clock_error m secs -> 2 * Z.abs x <= clock_error m secs ->
  let r := s_region (m_ctx m) in let extra := extra_symbols m secs (rate_sf r rate) (rate_bw r rate) in
  - lead_at m secs rate <= x /\ x + 5 * symbol_at m rate <= (5 + extra) * symbol_at m rate - lead_at m secs rate.
Proof.
  intros P E X. cbv zeta. unfold lead_at, lead, symbol_at in *. cbv zeta in *.
  set (s := symbol_ticks _ _ _) in *. unfold extra_symbols. fold s. set (k := Z.max 3 _).
  assert (clock_error m secs <= k * s) as K.
  { assert (ceil_div (clock_error m secs) s <= k) as A by (unfold k; lia).
    assert (clock_error m secs <= ceil_div (clock_error m secs) s * s) as B.
    { unfold ceil_div. pose proof (Z.div_mod (clock_error m secs + s - 1) s ltac:(lia)). pose proof (Z.mod_pos_bound (clock_error m secs + s - 1) s P). nia. }
    nia. }
  set (E0 := k * s) in *. assert ((5 + k) * s = 5 * s + E0) as -> by (unfold E0; ring). clearbody E0. lia.
Qed.
