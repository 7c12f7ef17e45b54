(* Every operation ends. *)
From Verif Require Import Lib FrameM CommandsM RegionM RadioM SmM MacStateM MacTac MacUtilM OpsM MacCmdM MacProcM MacApiM MacRw CoreP CaseP RxP SpecHist SpecTime SpecWait SpecValid HistP EndP TxP TimeP StuckP ValidP AcceptP TimersP SpecEnds.
From Verif Require BandP.

Lemma set_runs e i j v m : (j < length (m_timers m))%nat -> runs i (timerSet e j v m) = if Nat.eqb i j then true else runs i m.
Proof.
  intros L. unfold runs, timerSet, set_timer, get_timer. ms. rewrite nth_upd. apply Nat.ltb_lt in L. rewrite L, andb_true_r. destruct (Nat.eqb i j); reflexivity.
Qed.
Lemma append_runs i j v m : (j < length (m_timers m))%nat -> runs i (timerAppend j v m) = if Nat.eqb i j then true else runs i m.
Proof.
  intros L. unfold runs, timerAppend, set_timer, get_timer. ms. rewrite nth_upd. apply Nat.ltb_lt in L. rewrite L, andb_true_r. destruct (Nat.eqb i j); reflexivity.
Qed.
Lemma clear_runs i j m : runs i (timerClear j m) = if Nat.eqb i j then false else runs i m.
Proof. exact (clear_armed i j m). Qed.
Lemma runs_timers i m m' : m_timers m' = m_timers m -> runs i m' = runs i m.
Proof. exact (armed_timers i m m'). Qed.

(* --- the event --- *)

Record event_case (e : env) (m : mac) (rd : bool) (m2 : mac) (ev : sme) : Prop := {
  ec_quiet : quiet m m2;
  ec_band : m_band m2 = m_band m;
  ec_len : length (m_timers m2) = length (m_timers m);
  ec_A : runs WAITA m2 = match ev with SME_TIMER_A => false | _ => runs WAITA m end;
  ec_B : runs WAITB m2 = match ev with SME_TIMER_B => false | _ => runs WAITB m end;
  ec_A' : ev = SME_TIMER_A -> runs WAITA m = true;
  ec_ready : rd = true -> ev <> SME_NONE }.

Lemma check_case e i m : let '(m2, r) := timerCheck e i m in
  m_band m2 = m_band m /\ length (m_timers m2) = length (m_timers m) /\
  (forall j, runs j m2 = match r with Some _ => if Nat.eqb j i then false else runs j m | None => runs j m end) /\ (r <> None -> runs i m = true).
Proof.
  unfold timerCheck. cbv zeta. destruct (tm_armed (get_timer m i)) eqn:A; [destruct (_ <? _)|].
  - split; [reflexivity|]. split; [apply set_timers|]. split; [|intros _; exact A].
    intros j. exact (clear_runs j i m).
  - split; [reflexivity|]. split; [reflexivity|]. split; [reflexivity|]. congruence.
  - split; [reflexivity|]. split; [reflexivity|]. split; [reflexivity|]. congruence.
Qed.
Lemma event_cases e m rd : let '(m2, ev, lag) := next_event e m rd in event_case e m rd m2 ev.
Proof.
  unfold next_event, inputCheck. destruct (in_state (m_inputs m)).
  - constructor; try reflexivity; try discriminate. split; [split; [reflexivity|exists []; split; [symmetry; apply app_nil_r|reflexivity]]|reflexivity].
  - pose proof (check_case e WAITA m) as CA. pose proof (timerCheck_quiet e WAITA m) as QA. destruct (timerCheck e WAITA m) as [ma [la|]]; cbn [fst] in QA; destruct CA as (A1 & A2 & A3 & A4).
    + constructor; auto; [rewrite A3; reflexivity|rewrite A3; reflexivity|intros _; apply A4; discriminate|discriminate].
    + pose proof (check_case e WAITB ma) as CB. pose proof (timerCheck_quiet e WAITB ma) as QB. destruct (timerCheck e WAITB ma) as [mb [lb|]]; cbn [fst] in QB; destruct CB as (B1 & B2 & B3 & B4).
      * constructor; try congruence; [eapply quiet_trans; eauto|rewrite B3; cbn; apply A3|rewrite B3; reflexivity].
      * constructor; try congruence; [eapply quiet_trans; eauto| | | |destruct rd; discriminate].
        -- rewrite B3, A3. destruct rd; reflexivity.
        -- rewrite B3, A3. destruct rd; reflexivity.
        -- destruct rd; discriminate.
Qed.

Lemma bands_global e m : 0 <= band_global m -> let '(m1, rd) := processBands e m in
  0 <= band_global m1 /\ (0 < band_global m -> band_global m1 = 0 -> rd = true).
Proof.
  intros N. unfold processBands. destruct (mt_parked _); [split; [exact N|lia]|].
  destruct (elapsed _ _) as [u rem]. cbv zeta. set (m3 := set_m_band _ _).
  assert (band_global m3 = fst (updateDownCounter (band_global m) u)) as E.
  { unfold band_global. change (m_band m3) with (map (fun b => fst (updateDownCounter b u)) (m_band m)).
    change 0 with (fst (updateDownCounter 0 u)) at 1. apply (map_nth (fun b => fst (updateDownCounter b u))). }
  clearbody m3. revert E. unfold updateDownCounter at 1. destruct (band_global m >? 0) eqn:P.
  - destruct (band_global m <=? u) eqn:U; cbn [fst]; intros E.
    + assert (existsb (fun b => snd (updateDownCounter b u)) (m_band m) = true) as ->.
      { apply existsb_exists. exists (band_global m). split.
        - unfold band_global in *. apply nth_In. destruct (Nat.lt_ge_cases BAND_GLOBAL (length (m_band m))) as [L|L]; [exact L|].
          rewrite nth_overflow in P by exact L. discriminate P.
        - unfold updateDownCounter. rewrite P, U. reflexivity. }
      rewrite E. cbn [andb Z.eqb]. split; [change (0 <= band_global m3); lia|reflexivity].
    + destruct (_ && _) eqn:B.
      * apply andb_true_iff in B. lia.
      * split; lia.
  - cbn [fst]. intros E. destruct (_ && _); (split; [|lia]); [change (0 <= band_global m3); lia|lia].
Qed.

(* --- the steps of the state machine --- *)

Definition is_three (m : mac) : Prop := length (m_timers m) = 3%nat.
Lemma three_A m : is_three m -> (WAITA < length (m_timers m))%nat. Proof. intros ->. cbv. lia. Qed.
Lemma three_B m : is_three m -> (WAITB < length (m_timers m))%nat. Proof. intros ->. cbv. lia. Qed.

Lemma missing_runs c e m : is_three m ->
  is_data (m_op m) = true \/ m_op m = OP_JOINING ->
  let m' := downlinkMissing c e m in
  m_state m' = ST_IDLE \/ ((m_state m' = ST_WAIT_TX \/ m_state m' = ST_WAIT_OTAA) /\ runs WAITA m' = true).
Proof.
  intros L K. cbv zeta. open_def downlinkMissing. cbv zeta. change (set_m_trials (u32 (m_trials m + 1)) m) with (next_trial m).
  assert (is_three (next_trial m)) as N by exact L.
  assert (m_op (next_trial m) = m_op m) as -> by reflexivity.
  assert (forall ev, m_state (let (m0, changed) := adaptRate c (next_trial m) in complete ev (if changed then pushSessionUpdate m0 else m0)) = ST_IDLE) as HD
    by (intros ev; destruct (adaptRate c (next_trial m)) as [m0 ch]; reflexivity).
  assert (forall x v s, is_three x -> runs WAITA (set_m_state s (timerSet e WAITA v x)) = true) as HR.
  { intros x v s X. rewrite (runs_timers WAITA (timerSet e WAITA v x)) by reflexivity. rewrite set_runs by now apply three_A. reflexivity. }
  assert (forall x v s, is_three x -> runs WAITA (timerSet e WAITA v (set_m_state s x)) = true) as HR2.
  { intros x v s X. rewrite set_runs by now apply three_A. reflexivity. }
  destruct (m_op m); try (destruct K as [K|K]; discriminate K).
  - destruct (_ <=? _); [|left; reflexivity]. right.
    destruct (fillJoin_fields c e (u16 (m_devNonce (next_trial m))) (next_trial m)) as (t & buf & len & dn & E & _).
    assert (is_three (fillJoinBuffer c e (u16 (m_devNonce (next_trial m))) (next_trial m))) as HF by (rewrite E; exact N).
    clear E. revert HF. generalize (fillJoinBuffer c e (u16 (m_devNonce (next_trial m))) (next_trial m)). intros x HF.
    split; [right; reflexivity|]. apply HR2. exact HF.
  - destruct (_ && _); [|left; apply HD]. right. split; [left; reflexivity|]. apply HR. exact N.
  - destruct (_ && _); [|left; apply HD]. right. split; [left; reflexivity|]. apply HR. exact N.
Qed.

Lemma error_runs c e m : is_three m -> let m' := handleRadioError c e m in m_state m' = ST_RADIO_RESET /\ runs WAITA m' = true.
Proof.
  intros L. pose proof (error_tl c e m) as [T _]. cbv zeta. revert T. open_def handleRadioError. cbv zeta.
  set (m2 := match m_op _ with OP_JOINING => _ | _ => _ end). intros T. split; [reflexivity|].
  rewrite set_runs; [reflexivity|]. unfold timerSet in T. rewrite set_timers in T. unfold is_three in L. rewrite T, L. cbv. lia.
Qed.

(* awaits, of the timers and the off-time *)
Definition aw (s : mac_state) (A B : bool) (g : Z) : Prop :=
  match s with
  | ST_IDLE => True
  | ST_WAIT_OTAA => A = true \/ 0 < g
  | ST_WAIT_RX1 | ST_START_RADIO_FOR_RX1 | ST_RX1 => A = true /\ B = true
  | ST_WAIT_RX2 | ST_START_RADIO_FOR_RX2 => B = true /\ A = false
  | _ => A = true
  end.
Lemma awaits_aw m : awaits m <-> aw (m_state m) (runs WAITA m) (runs WAITB m) (band_global m).
Proof. unfold awaits, aw. destruct (m_state m); tauto. Qed.

Definition off_A (ev : sme) (A : bool) : bool := match ev with SME_TIMER_A => false | _ => A end.
Definition off_B (ev : sme) (B : bool) : bool := match ev with SME_TIMER_B => false | _ => B end.

Record found (ev : sme) (A B : bool) (m : mac) : Prop := {
  fd_three : is_three m;
  fd_so : so (m_op m) (m_state m) = true;
  fd_global : 0 <= band_global m;
  fd_aw : aw (m_state m) A B (band_global m) \/ (m_state m = ST_WAIT_OTAA /\ band_global m = 0 /\ ev <> SME_NONE);
  fd_A : runs WAITA m = off_A ev A;
  fd_B : runs WAITB m = off_B ev B;
  fd_A' : ev = SME_TIMER_A -> A = true;
  fd_due : ev = SME_TIMER_B -> second_due (m_state m) = true }.

Lemma aw_of m s A B : m_state m = s -> runs WAITA m = A -> runs WAITB m = B -> (forall g, aw s A B g) -> awaits m.
Proof. intros E1 E2 E3 H. apply awaits_aw. rewrite E1, E2, E3. apply H. Qed.

Lemma missing_awaits c e m : is_three m -> is_data (m_op m) = true \/ m_op m = OP_JOINING -> awaits (downlinkMissing c e m).
Proof.
  intros L K. apply awaits_aw. destruct (missing_runs c e m L K) as [S|[[S|S] R]]; cbv zeta in *; revert S; try (revert R); generalize (downlinkMissing c e m); intros x; intros; rewrite ?S; try rewrite S; cbn; auto.
Qed.
Lemma error_awaits c e m : is_three m -> awaits (handleRadioError c e m).
Proof. intros L. apply awaits_aw. destruct (error_runs c e m L) as [S R]. cbv zeta in *. rewrite S, R. reflexivity. Qed.
Lemma idle_awaits m : m_state m = ST_IDLE -> awaits m.
Proof. intros S. unfold awaits. now rewrite S. Qed.

Lemma packet_awaits c e m : is_three m -> is_data (m_op m) = true \/ m_op m = OP_JOINING -> awaits (rx_packet c e m).
Proof.
  intros L K. open_def rx_packet. cbv zeta.
  set (m1 := set_m_rx_snr _ _). assert (is_three m1) as L1. { unfold m1, is_three, emit, timerClear, set_timer. ms. rewrite !upd_length. exact L. }
  assert (m_op m1 = m_op m) as O by reflexivity. clearbody m1.
  destruct (receiveFrame c m1 (rx_buffer e) (rx_len e)) as [buf [f|]].
  - apply idle_awaits. destruct (dn_type f); reflexivity.
  - apply missing_awaits; [exact L1|]. now rewrite O.
Qed.

Lemma r_emit i o x : runs i (emit o x) = runs i x. Proof. reflexivity. Qed.
Lemma r_state i s x : runs i (set_m_state s x) = runs i x. Proof. reflexivity. Qed.
Lemma r_arm i x : runs i (inputArm x) = runs i x. Proof. reflexivity. Qed.
Lemma r_tx i f x : runs i (on_tx f x) = runs i x. Proof. reflexivity. Qed.
Ltac three := unfold is_three, emit, timerSet, timerAppend, timerClear, set_timer, inputArm, on_tx in *; ms; rewrite ?upd_length; assumption.
Ltac rr := repeat first [rewrite r_emit | rewrite r_state | rewrite r_arm | rewrite r_tx].
Ltac rs := rr; repeat (first [rewrite set_runs by (first [apply three_A|apply three_B]; three) | rewrite append_runs by (first [apply three_A|apply three_B]; three) | rewrite clear_runs]; cbn [Nat.eqb WAITA WAITB]; rr).

Lemma tx_done_awaits c e lag m : is_three m -> awaits (tx_done c e lag m).
Proof.
  intros L. open_def tx_done. cbv zeta. destruct (window _ _ _ _) as [sym1 marg1]. destruct (window _ _ _ _) as [sym2 marg2].
  set (x := set_m_rx2_symbols _ _). assert (is_three x) as X by exact L. clearbody x. apply awaits_aw.
  destruct (_ <=? _); [destruct (_ <=? _)|]; rs; split; reflexivity.
Qed.

Lemma register_three m : is_three m -> is_three (registerTime m).
Proof. intros L. unfold is_three. rewrite (proj1 (registerTime_tl m)). exact L. Qed.

Lemma dispatch_awaits c e ev lag A B m : ev <> SME_NONE -> found ev A B m -> awaits (dispatch c e ev lag m).
Proof.
  intros NE [L S G W RA RB FA DU].
  assert (forall s o, m_state m = s -> aw s A B (band_global m) -> (s = ST_WAIT_OTAA -> off_A ev A = true) -> ev <> SME_TIMER_A -> ev <> SME_TIMER_B -> o = m -> awaits o) as ST.
  { intros s o E1 E2 E3 E4 E5 ->. apply awaits_aw. rewrite E1, RA, RB. destruct ev; try congruence; exact E2. }
  assert (forall v x, is_three x -> runs WAITA (timerSet e WAITA v x) = true) as SA.
  { intros v x X. rewrite set_runs by now apply three_A. reflexivity. }
  assert (forall v x, is_three x -> runs WAITB (timerSet e WAITA v x) = runs WAITB x) as SB.
  { intros v x X. rewrite set_runs by now apply three_A. reflexivity. }
  assert (ev <> SME_TIMER_A -> ev <> SME_TIMER_B -> awaits m \/ (m_state m = ST_WAIT_OTAA /\ band_global m = 0)) as SAME.
  { intros NA NB. destruct W as [W|(W1 & W2 & _)]; [left; apply awaits_aw; rewrite RA, RB; destruct ev; auto; congruence|right; auto]. }
  unfold dispatch. destruct (m_state m) eqn:E.
  Ltac st SAME := destruct SAME as [SAME|[SAME _]]; [discriminate|discriminate|exact SAME|discriminate SAME].
  Ltac stx ev SAME DU := destruct ev; try congruence; try (specialize (DU eq_refl); discriminate DU); try (st SAME).
  - apply awaits_aw. unfold processInit. rs. reflexivity.
  - unfold processRadioReset. stx ev SAME DU. apply awaits_aw. rs. reflexivity.
  - unfold processRadioBoot. stx ev SAME DU. change (m_op (emit (OMode MODE_SLEEP) m)) with (m_op m).
    destruct (m_op m); try (apply idle_awaits; reflexivity); apply awaits_aw; rs; first [reflexivity|left; reflexivity].
  - apply idle_awaits. exact E.
  - unfold processWait. rewrite E. stx ev SAME DU. cbv zeta. apply awaits_aw. rs. reflexivity.
  - unfold processStartRadioForEntropy. stx ev SAME DU. apply awaits_aw. rs. reflexivity.
  - unfold processEntropy. stx ev SAME DU. apply idle_awaits. reflexivity.
  - unfold processWaitOTAA. destruct (band_global m =? 0) eqn:Z.
    + cbv zeta. apply awaits_aw. rs. reflexivity.
    + apply awaits_aw. rewrite E. right. lia.
  - unfold processWait. rewrite E. stx ev SAME DU. cbv zeta. apply awaits_aw. rs. reflexivity.
  - unfold processStartRadioForTX. cbv zeta. stx ev SAME DU. apply awaits_aw. rs. reflexivity.
  - unfold processTX. pose proof (register_three m L) as L'. stx ev SAME DU.
    + now apply error_awaits.
    + destruct (e_st_tx e); [now apply tx_done_awaits|now apply error_awaits].
  - destruct W as [[W1 W2]|[W _]]; [|discriminate W]. unfold processWait. rewrite E. stx ev SAME DU. cbv zeta. apply awaits_aw. rs. rewrite RB, W2. split; reflexivity.
  - destruct W as [[W1 W2]|[W _]]; [|discriminate W]. unfold processStartRadioForRX1. cbv zeta. stx ev SAME DU. apply awaits_aw. rs. rewrite RB, W2. split; reflexivity.
  - destruct W as [[W1 W2]|[W _]]; [|discriminate W]. unfold processRX. stx ev SAME DU.
    + now apply error_awaits.
    + assert (is_data (m_op m) = true \/ m_op m = OP_JOINING) as K by (destruct (m_op m); try discriminate S; auto).
      destruct (e_st_rx e); [now apply packet_awaits|]. destruct (e_st_timeout e); [|now apply error_awaits].
      unfold rx_timeout. rewrite E. apply awaits_aw. rs. rewrite RB, W2. split; reflexivity.
  - destruct W as [[W1 W2]|[W _]]; [|discriminate W]. unfold processWait. rewrite E. destruct ev; try congruence; try (st SAME); cbv zeta.
    + specialize (FA eq_refl). congruence.
    + apply awaits_aw. rs. rewrite RA, W2. split; reflexivity.
  - destruct W as [[W1 W2]|[W _]]; [|discriminate W]. unfold processStartRadioForRX2. cbv zeta. destruct ev; try congruence; try (st SAME).
    + specialize (FA eq_refl). congruence.
    + apply awaits_aw. rs. reflexivity.
  - unfold processRX. stx ev SAME DU.
    + now apply error_awaits.
    + assert (is_data (m_op m) = true \/ m_op m = OP_JOINING) as K by (destruct (m_op m); try discriminate S; auto).
      destruct (e_st_rx e); [now apply packet_awaits|]. destruct (e_st_timeout e); [|now apply error_awaits].
      unfold rx_timeout. rewrite E. cbv zeta. apply awaits_aw. rs. reflexivity.
  - assert (is_data (m_op m) = true \/ m_op m = OP_JOINING) as K by (destruct (m_op m); try discriminate S; auto).
    unfold processRX2Lockout. stx ev SAME DU. now apply missing_awaits.
Qed.

(* --- the steps that are left --- *)

Definition counted (m : mac) : Prop :=
  match m_op m with
  | OP_DATA_UNCONFIRMED | OP_DATA_CONFIRMED => 0 <= m_trials m < tries_allowed m /\ tries_allowed m <= 15
  | OP_JOINING => 0 <= m_devNonce m
  | _ => True
  end.

Lemma core_count m m' : core m' = core m -> m_op m' = m_op m /\ (counted m -> counted m') /\ tries_left m' = tries_left m.
Proof.
  intros H. apply core_fields in H. destruct H as (O & _ & _ & _ & _ & D & _ & C & _ & _ & _ & T & P & _).
  unfold counted, tries_left, tries_allowed. rewrite O, D, C, T, P. auto.
Qed.

Definition fewer (m m' : mac) : Prop :=
  m_op m' = OP_NONE \/ (m_op m' = m_op m /\ counted m' /\ (steps_left m' < steps_left m)%nat).

Lemma fewer_moved m m' : core m' = core m -> counted m -> (rank (m_state m') < rank (m_state m))%nat -> fewer m m'.
Proof.
  intros H K R. destruct (core_count m m' H) as (O & C & T). right. split; [exact O|]. split; [auto|]. unfold steps_left. rewrite T. lia.
Qed.

Lemma mic_op c x : m_op (micDataFrame c x) = m_op x. Proof. reflexivity. Qed.
Lemma mic_allowed c x : tries_allowed (micDataFrame c x) = tries_allowed x. Proof. reflexivity. Qed.
Lemma mic_trials c x : m_trials (micDataFrame c x) = m_trials x. Proof. reflexivity. Qed.
Lemma next_op x : m_op (next_trial x) = m_op x. Proof. reflexivity. Qed.
Lemma next_allowed x : tries_allowed (next_trial x) = tries_allowed x. Proof. reflexivity. Qed.
Lemma next_trials x : m_trials (next_trial x) = u32 (m_trials x + 1). Proof. reflexivity. Qed.
Lemma op_dn d x : m_op (set_m_devNonce d x) = m_op x. Proof. reflexivity. Qed.
Lemma dn_dn d x : m_devNonce (set_m_devNonce d x) = d. Proof. reflexivity. Qed.
Lemma op_op o x : m_op (set_m_op o x) = o. Proof. reflexivity. Qed.

Lemma retry_fewer m x m' : is_data (m_op m) = true -> counted m -> m_op x = m_op m -> tries_allowed x = tries_allowed m -> m_trials x = u32 (m_trials m + 1) ->
  u32 (m_trials m + 1) < tries_allowed m -> core m' = core x ->
  m_op m' = m_op m /\ counted m' /\ (tries_left m' < tries_left m)%nat.
Proof.
  intros D K XO XA XT T C. destruct (core_count _ _ C) as (CO & CK & CT). split; [congruence|].
  assert (0 <= m_trials m < tries_allowed m /\ tries_allowed m <= 15) as K' by (unfold counted in K; destruct (m_op m); first [exact K|discriminate D]).
  assert (u32 (m_trials m + 1) = m_trials m + 1) as U by (unfold u32; apply Z.mod_small; lia).
  rewrite U in *. rewrite CT. split.
  - apply CK. unfold counted. rewrite XO, XA, XT. destruct (m_op m); try discriminate D; lia.
  - unfold tries_left. rewrite XO, XA, XT. destruct (m_op m); try discriminate D; lia.
Qed.
Lemma rejoin_fewer m x m' : m_op m = OP_JOINING -> counted m -> m_op x = OP_JOINING -> m_devNonce x = u32 (m_devNonce m + 1) ->
  m_devNonce m <= 65535 -> core m' = core x ->
  m_op m' = m_op m /\ counted m' /\ (tries_left m' < tries_left m)%nat.
Proof.
  intros J K XO XD N C. destruct (core_count _ _ C) as (CO & CK & CT). split; [congruence|].
  assert (0 <= m_devNonce m) as K' by (unfold counted in K; rewrite J in K; exact K).
  assert (u32 (m_devNonce m + 1) = m_devNonce m + 1) as U by (unfold u32; apply Z.mod_small; lia).
  rewrite U in *. rewrite CT. split.
  - apply CK. unfold counted. rewrite XO, XD. lia.
  - unfold tries_left. rewrite XO, XD, J. lia.
Qed.
Lemma miss_fewer c e m m' : miss_case c e m m' -> counted m -> is_data (m_op m) = true \/ m_op m = OP_JOINING ->
  m_op m' = OP_NONE \/ (m_op m' = m_op m /\ counted m' /\ (tries_left m' < tries_left m)%nat /\ (rank (m_state m') <= 11)%nat).
Proof.
  intros HM K O. destruct HM as [m2 D T C S L|m2 D p C S L|m2 J N C S L|m2 J N C S L|D J].
  - right. destruct (retry_fewer m (micDataFrame c (next_trial m)) m2 D K) as (A1 & A2 & A3).
    + rewrite mic_op. apply next_op.
    + rewrite mic_allowed. apply next_allowed.
    + rewrite mic_trials. apply next_trials.
    + exact T.
    + exact C.
    + split; [exact A1|]. split; [exact A2|]. split; [exact A3|]. rewrite S. cbn. lia.
  - left. apply core_op_eq in C. rewrite op_op in C. exact C.
  - right. remember (fillJoinBuffer c e (u16 (m_devNonce m)) (next_trial m)) as x eqn:X.
    assert (m_op x = OP_JOINING) as XO by (rewrite X, fillJoin_op, next_op; exact J). clear X.
    destruct (rejoin_fewer m (set_m_devNonce (u32 (m_devNonce m + 1)) x) m2 J K) as (A1 & A2 & A3).
    + rewrite op_dn. exact XO.
    + apply dn_dn.
    + exact N.
    + exact C.
    + split; [exact A1|]. split; [exact A2|]. split; [exact A3|]. rewrite S. cbn. lia.
  - left. apply core_op_eq in C. rewrite op_op in C. exact C.
  - destruct O; congruence.
Qed.
Lemma missing_fewer c e m : counted m -> is_data (m_op m) = true \/ m_op m = OP_JOINING ->
  m_op (downlinkMissing c e m) = OP_NONE \/ (m_op (downlinkMissing c e m) = m_op m /\ counted (downlinkMissing c e m) /\
    (tries_left (downlinkMissing c e m) < tries_left m)%nat /\ (rank (m_state (downlinkMissing c e m)) <= 11)%nat).
Proof. exact (miss_fewer c e m _ (missing_cases c e m)). Qed.

Lemma error_fewer c e m : counted m -> is_data (m_op m) = true \/ m_op m = OP_JOINING -> fewer m (handleRadioError c e m).
Proof.
  intros K O. open_def handleRadioError. cbv zeta. set (m1 := timerClear WAITB _).
  assert (core m1 = core m) as C by reflexivity. clearbody m1. destruct (core_count _ _ C) as (CO & CK & CT). rewrite CO.
  assert (forall x y, core y = core x -> m_op x = OP_NONE -> fewer m y) as HN by (intros x y HC HO; left; rewrite (core_op_eq _ _ HC); exact HO).
  destruct (m_op m) eqn:OM; try (destruct O as [O|O]; discriminate O).
  - destruct (missing_fewer c e m1 (CK K)) as [F|(F1 & F2 & F3 & F4)]; [rewrite CO; auto| |].
    + revert F. generalize (downlinkMissing c e m1). intros x F. apply (HN x); [reflexivity|exact F].
    + revert F1 F2 F3 F4. generalize (downlinkMissing c e m1). intros x F1 F2 F3 F4. right.
      match goal with |- m_op ?y = _ /\ _ => assert (core y = core x) as CY by reflexivity; assert (m_state y = ST_RADIO_RESET) as SY by reflexivity; revert CY SY; generalize y end.
      intros y CY SY. destruct (core_count _ _ CY) as (YO & YK & YT). split; [congruence|]. split; [auto|].
      unfold steps_left. rewrite SY, YT. cbn [rank]. lia.
  - apply (HN (set_m_op OP_NONE m1)); reflexivity.
  - apply (HN (set_m_op OP_NONE m1)); reflexivity.
Qed.

Lemma packet_fewer c e m : counted m -> is_data (m_op m) = true \/ m_op m = OP_JOINING -> fewer m (rx_packet c e m).
Proof.
  intros K O. open_def rx_packet. cbv zeta.
  set (m1 := set_m_rx_snr _ _). assert (core m1 = core m) as C by reflexivity. clearbody m1.
  destruct (core_count _ _ C) as (CO & CK & CT).
  destruct (receiveFrame c m1 (rx_buffer e) (rx_len e)) as [buf [f|]].
  - left. destruct (dn_type f); reflexivity.
  - destruct (missing_fewer c e m1 (CK K)) as [F|(F1 & F2 & F3 & F4)]; [rewrite CO; auto|left; exact F|].
    right. split; [congruence|]. split; [exact F2|]. unfold steps_left. lia.
Qed.

Lemma tx_done_core c e lag m : core (tx_done c e lag m) = core m /\ (m_state (tx_done c e lag m) = ST_WAIT_RX1 \/ m_state (tx_done c e lag m) = ST_WAIT_RX2).
Proof.
  open_def tx_done. cbv zeta. destruct (window _ _ _ _) as [sym1 marg1]. destruct (window _ _ _ _) as [sym2 marg2].
  destruct (_ <=? _); [destruct (_ <=? _)|]; (split; [reflexivity|]); [left|right|right]; reflexivity.
Qed.

Lemma dispatch_still c e ev lag m : acts_on (m_state m) ev (band_global m =? 0) = false -> ev <> SME_NONE -> dispatch c e ev lag m = m.
Proof.
  intros H NE. unfold dispatch. destruct (m_state m) eqn:S; try reflexivity;
    try (destruct ev; try congruence; try discriminate H;
      unfold processRadioReset, processRadioBoot, processWait, processStartRadioForEntropy, processEntropy, processStartRadioForTX, processTX, processStartRadioForRX1, processStartRadioForRX2, processRX, processRX2Lockout; reflexivity).
  unfold processWaitOTAA. destruct (band_global m =? 0); [destruct ev; try discriminate H; congruence|reflexivity].
Qed.

Lemma dispatch_fewer c e ev lag m : acts_on (m_state m) ev (band_global m =? 0) = true -> so (m_op m) (m_state m) = true -> counted m -> fewer m (dispatch c e ev lag m).
Proof.
  intros H S K.
  assert (forall y, core y = core (registerTime m) -> core y = core m) as RG by (intros y ->; apply registerTime_quiet).
  assert (m_op (registerTime m) = m_op m) as RO by (apply core_op_eq, registerTime_quiet).
  assert (m_state (registerTime m) = m_state m) as RS by apply registerTime_quiet.
  assert (counted (registerTime m)) as RK by (apply (core_count m); [apply registerTime_quiet|exact K]).
  assert (steps_left (registerTime m) = steps_left m) as RL by (unfold steps_left; rewrite RS; f_equal; f_equal; apply core_count, registerTime_quiet).
  assert (forall y, fewer (registerTime m) y -> fewer m y) as RF by (intros y [F|(F1 & F2 & F3)]; [left; exact F|right; split; [congruence|split; [exact F2|lia]]]).
  unfold dispatch. destruct (m_state m) eqn:E; try (destruct ev; discriminate H).
  - apply fewer_moved; [reflexivity|exact K|rewrite E; cbn; lia].
  - destruct ev; try discriminate H. apply fewer_moved; [reflexivity|exact K|rewrite E; cbn; lia].
  - destruct ev; try discriminate H. unfold processRadioBoot. cbv zeta. change (m_op (emit (OMode MODE_SLEEP) m)) with (m_op m).
    destruct (m_op m) eqn:O; try discriminate S; try (apply fewer_moved; [reflexivity|exact K|rewrite E; cbn; lia]). 
  - unfold processWait. rewrite E. destruct ev; try discriminate H; cbv zeta; (apply fewer_moved; [reflexivity|exact K|rewrite E; cbn; lia]).
  - destruct ev; try discriminate H. apply fewer_moved; [reflexivity|exact K|rewrite E; cbn; lia].
  - destruct ev; try discriminate H. left. reflexivity.
  - unfold processWaitOTAA. assert (band_global m =? 0 = true) as -> by (destruct ev; first [exact H|discriminate H]). cbv zeta.
    apply fewer_moved; [reflexivity|exact K|rewrite E; cbn; lia].
  - unfold processWait. rewrite E. destruct ev; try discriminate H; cbv zeta; (apply fewer_moved; [reflexivity|exact K|rewrite E; cbn; lia]).
  - destruct ev; try discriminate H. apply fewer_moved; [reflexivity|exact K|rewrite E; cbn; lia].
  - assert (is_data (m_op m) = true \/ m_op m = OP_JOINING) as O by (destruct (m_op m); try discriminate S; auto).
    unfold processTX. destruct ev; try discriminate H.
    + apply RF, error_fewer; [exact RK|now rewrite RO].
    + destruct (e_st_tx e); [|apply RF, error_fewer; [exact RK|now rewrite RO]].
      destruct (tx_done_core c e lag (registerTime m)) as [C SS]. apply fewer_moved; [now apply RG|exact K|].
      rewrite E. destruct SS as [-> | ->]; cbn; lia.
  - unfold processWait. rewrite E. destruct ev; try discriminate H; cbv zeta; (apply fewer_moved; [reflexivity|exact K|rewrite E; cbn; lia]).
  - destruct ev; try discriminate H. apply fewer_moved; [reflexivity|exact K|rewrite E; cbn; lia].
  - assert (is_data (m_op m) = true \/ m_op m = OP_JOINING) as O by (destruct (m_op m); try discriminate S; auto).
    unfold processRX. destruct ev; try discriminate H; [now apply error_fewer|].
    destruct (e_st_rx e); [now apply packet_fewer|]. destruct (e_st_timeout e); [|now apply error_fewer].
    unfold rx_timeout. rewrite E. apply fewer_moved; [reflexivity|exact K|rewrite E; cbn; lia].
  - unfold processWait. rewrite E. destruct ev; try discriminate H; cbv zeta; (apply fewer_moved; [reflexivity|exact K|rewrite E; cbn; lia]).
  - destruct ev; try discriminate H. apply fewer_moved; [reflexivity|exact K|rewrite E; cbn; lia].
  - assert (is_data (m_op m) = true \/ m_op m = OP_JOINING) as O by (destruct (m_op m); try discriminate S; auto).
    unfold processRX. destruct ev; try discriminate H; [now apply error_fewer|].
    destruct (e_st_rx e); [now apply packet_fewer|]. destruct (e_st_timeout e); [|now apply error_fewer].
    unfold rx_timeout. rewrite E. cbv zeta. apply fewer_moved; [reflexivity|exact K|rewrite E; cbn; lia].
  - assert (is_data (m_op m) = true \/ m_op m = OP_JOINING) as O by (destruct (m_op m); try discriminate S; auto).
    unfold processRX2Lockout. destruct ev; try discriminate H.
    destruct (missing_fewer c e m K O) as [F|(F1 & F2 & F3 & F4)]; [left; exact F|].
    right. split; [exact F1|]. split; [exact F2|]. unfold steps_left. lia.
Qed.

(* --- LDL_MAC_process --- *)

Lemma found_none A B m : found SME_NONE A B m -> awaits m.
Proof.
  intros [L S G W RA RB FA DU]. apply awaits_aw. rewrite RA, RB. destruct W as [W|(_ & _ & W)]; [exact W|congruence].
Qed.

Lemma steps_same m m' : core m' = core m -> m_state m' = m_state m -> m_op m' = m_op m /\ (counted m -> counted m') /\ steps_left m' = steps_left m.
Proof. intros C S. destruct (core_count _ _ C) as (A1 & A2 & A3). unfold steps_left. rewrite A3, S. auto. Qed.
Lemma fewer_steps m x y : fewer m x -> m_op y = m_op x -> (counted x -> counted y) -> steps_left y = steps_left x -> fewer m y.
Proof. intros [F|(F1 & F2 & F3)] O C T; [left; congruence|right]. split; [congruence|]. split; [auto|lia]. Qed.
Lemma fewer_from m x y : fewer x y -> m_op x = m_op m -> steps_left x = steps_left m -> fewer m y.
Proof. intros [F|(F1 & F2 & F3)] O T; [left; exact F|right]. split; [congruence|]. split; [auto|lia]. Qed.

Record settled (m : mac) : Prop := {
  sd_three : is_three m;
  sd_so : so (m_op m) (m_state m) = true;
  sd_global : 0 <= band_global m }.

Lemma next_band e m : band_global (setNextBandEvent e m) = band_global m.
Proof. unfold setNextBandEvent. cbv zeta. destruct (_ <? _); reflexivity. Qed.

Lemma process_ends c e m : settled m -> awaits m -> counted m -> timely_call e C_process m = true ->
  let m' := MAC_process c e m in
  awaits m' /\ (acts_at e m = true -> fewer m m') /\ (acts_at e m = false -> m_op m' = m_op m /\ counted m' /\ steps_left m' = steps_left m).
Proof.
  intros [L S G] W K T. cbv zeta. cbn [timely_call] in T. unfold acts_at, event_at in *. unfold MAC_process.
  pose proof (bands_global e m G) as BG. pose proof (processBands_quiet e m) as BQ. destruct (bands_fields e m) as (BT & _ & _ & _). cbv zeta in BT.
  destruct (processBands e m) as [m1 rd]. cbn [fst snd] in *. destruct BG as [G1 BG].
  pose proof (event_cases e m1 rd) as EC. destruct (next_event e m1 rd) as [[m2 ev] lag]. cbn [fst snd] in *.
  destruct EC as [Q2 B2 T2 A2 C2 A2' R2].
  assert (quiet m m2) as Q by (eapply quiet_trans; eauto). destruct Q as [[QC _] QS].
  destruct (steps_same m m2 QC QS) as (O2 & K2 & N2).
  assert (band_global m2 = band_global m1) as B2' by (unfold band_global; now rewrite B2).
  assert (runs WAITA m1 = runs WAITA m /\ runs WAITB m1 = runs WAITB m) as [RA RB] by (split; now apply runs_timers).
  assert (found ev (runs WAITA m) (runs WAITB m) m2) as F.
  { constructor.
    - unfold is_three in *. congruence.
    - rewrite O2, QS. exact S.
    - lia.
    - apply (proj1 (awaits_aw m)) in W. rewrite QS, B2'. revert W. destruct (m_state m); intros W; try (left; exact W).
      destruct W as [W|W]; [left; left; exact W|]. destruct (Z.eq_dec (band_global m1) 0) as [Z|Z]; [|left; right; lia].
      right. auto.
    - rewrite A2, RA. destruct ev; reflexivity.
    - rewrite C2, RB. destruct ev; reflexivity.
    - intros X. rewrite <- RA. auto.
    - intros ->. rewrite QS. exact T. }
  assert (forall y, awaits y -> awaits (setNextBandEvent e y)) as AN.
  { intros y. rewrite !awaits_aw. destruct (band_event_state e y) as (-> & _ & _). rewrite next_band.
    unfold runs. change (tm_armed (get_timer (setNextBandEvent e y) WAITA)) with (armed WAITA (setNextBandEvent e y)).
    change (tm_armed (get_timer (setNextBandEvent e y) WAITB)) with (armed WAITB (setNextBandEvent e y)).
    rewrite !band_timer_armed by discriminate. auto. }
  assert (forall y, core (setNextBandEvent e y) = core y) as CN by (intros y; apply setNext_quiet).
  assert (forall y, m_state (setNextBandEvent e y) = m_state y) as SN by (intros y; apply setNext_quiet).
  assert (forall y, fewer m2 y -> fewer m (setNextBandEvent e y)) as FN.
  { intros y H. destruct (steps_same y _ (CN y) (SN y)) as (E1 & E2 & E3).
    apply (fewer_steps m y); auto. apply (fewer_from m m2); auto. }
  assert (m_op (setNextBandEvent e m2) = m_op m /\ counted (setNextBandEvent e m2) /\ steps_left (setNextBandEvent e m2) = steps_left m) as SM.
  { destruct (steps_same m2 _ (CN m2) (SN m2)) as (E1 & E2 & E3). split; [congruence|]. split; [auto|congruence]. }
  rewrite <- B2', <- QS. assert (ev = SME_NONE \/ ev <> SME_NONE) as [->|NE] by (destruct ev; first [now left|right; discriminate]).
  - split; [apply AN; eapply found_none; exact F|]. split; [destruct (m_state m2); discriminate|]. intros _. exact SM.
  - assert ((match ev with SME_NONE => m2 | _ => dispatch c e ev lag m2 end) = dispatch c e ev lag m2) as -> by (destruct ev; congruence).
    split; [apply AN; eapply dispatch_awaits; eauto|]. split; intros H.
    + apply FN. apply dispatch_fewer; [exact H|apply F|auto].
    + rewrite dispatch_still by assumption. exact SM.
Qed.

(* --- the other calls --- *)

Lemma api_band c e k m : k <> C_process -> not_stop k -> m_op m <> OP_NONE -> m_band (fst (step c e k m)) = m_band m.
Proof.
  intros NP [N1 N2] O. destruct k; try congruence; cbn [step]; unfold st_ret, bool_ret; cbn [fst].
  - unfold MAC_entropy. destruct (m_op m); try reflexivity. congruence.
  - unfold MAC_otaa. destruct (s_joined (m_ctx m)); [reflexivity|]. destruct (m_op m); try reflexivity. congruence.
  - unfold MAC_abp. destruct (s_joined (m_ctx m)); [reflexivity|]. destruct (m_op m); try reflexivity. congruence.
  - unfold MAC_data. destruct (negb _); [reflexivity|]. destruct (m_op m); try reflexivity. congruence.
  - unfold MAC_setRate. destruct (rateSettingIsValid _ _); reflexivity.
  - unfold MAC_setPower. destruct (validateTXPower _ _); reflexivity.
  - reflexivity.
  - reflexivity.
  - unfold MAC_addChannel. destruct (setChannel _ _ _ _ _). reflexivity.
  - unfold MAC_maskChannel. destruct (maskChannel _ _ _). reflexivity.
  - unfold MAC_unmaskChannel. destruct (unmaskChannel _ _ _). reflexivity.
  - unfold inputSignal. destruct (_ && _); reflexivity.
Qed.

Lemma api_idle c e k m : k <> C_process -> not_stop k -> m_state m = ST_IDLE -> is_three m ->
  let m' := fst (step c e k m) in
  m_state m' = ST_IDLE \/ ((m_state m' = ST_RADIO_BOOT \/ m_state m' = ST_WAIT_OTAA \/ m_state m' = ST_WAIT_TX) /\ runs WAITA m' = true).
Proof.
  intros NP [N1 N2] S L. cbv zeta.
  assert (forall v x s, is_three x -> runs WAITA (timerSet e WAITA v (set_m_state s x)) = true) as HR.
  { intros v x s X. rewrite set_runs by now apply three_A. reflexivity. }
  destruct k; try congruence; cbn [step]; unfold st_ret, bool_ret; cbn [fst].
  - unfold MAC_entropy. destruct (m_op m); try (left; exact S). cbv zeta. ms. rewrite S. right. split; [left; reflexivity|]. cbn [fst]. now apply HR.
  - open_def MAC_otaa. destruct (s_joined (m_ctx m)); [left; exact S|]. destruct (m_op m); try (left; exact S).
    destruct (m_devNonce m <=? 65535); [|left; exact S]. cbv zeta. cbn [fst].
    match goal with |- context [fillJoinBuffer c e ?n ?x] =>
      assert (m_timers x = m_timers m /\ m_state x = m_state m) as [E1 E2] by (destruct (is_1_1 (c_l2 c)); split; reflexivity);
      destruct (fillJoin_fields c e n x) as (t & buf & len & dn & -> & _); revert E1 E2; generalize x end.
    intros x E1 E2. unfold emit, notify, on_tx. ms. rewrite E2, S. right. split; [right; left; reflexivity|]. apply HR. unfold is_three. ms. rewrite E1. exact L.
  - unfold MAC_abp. left. destruct (s_joined (m_ctx m)); [exact S|]. destruct (m_op m); exact S.
  - open_def MAC_data. destruct (negb _); [left; exact S|]. destruct (m_op m); try (left; exact S).
    destruct (_ && _); [|left; exact S]. destruct (band_global m =? 0); [|left; exact S]. cbv zeta. fold (sel_start c m).
    destruct (selectChannel _ _ _ _ _) as [tx fd]. destruct fd; [|left; exact S].
    destruct (_ <=? _); [|left; exact S]. destruct (compose _ _ _ _ _ _) as [[f op] st].
    match goal with |- context [prepareData c ?y f ?d ?n] => assert (m_timers y = m_timers m /\ m_state y = m_state m) as [E1 E2] by (split; reflexivity);
      revert E1 E2; generalize y; intros x E1 E2 end.
    destruct (prepareData _ _ _ _ _) as [buf n]. unfold micDataFrame. cbv zeta. cbn [fst].
    match goal with |- context [match m_state ?z with _ => _ end] => assert (m_state z = m_state x) as E3 by reflexivity; assert (m_timers z = m_timers x) as E4 by reflexivity; revert E3 E4; generalize z; intros z' E3 E4 end.
    rewrite E3, E2, S. right. split; [right; right; reflexivity|]. apply HR. unfold is_three. rewrite E4, E1. exact L.
  - unfold MAC_setRate. left. destruct (rateSettingIsValid _ _); exact S.
  - unfold MAC_setPower. left. destruct (validateTXPower _ _); exact S.
  - left. exact S.
  - left. exact S.
  - unfold MAC_addChannel. left. destruct (setChannel _ _ _ _ _). exact S.
  - unfold MAC_maskChannel. left. destruct (maskChannel _ _ _). exact S.
  - unfold MAC_unmaskChannel. left. destruct (unmaskChannel _ _ _). exact S.
  - unfold inputSignal. left. destruct (_ && _); exact S.
Qed.

Lemma api_awaits c e k m : k <> C_process -> not_stop k -> settled m -> awaits m -> awaits (fst (step c e k m)).
Proof.
  intros NP NS [L S G] W. assert (m_state m = ST_IDLE \/ m_state m <> ST_IDLE) as [I|I] by (destruct (m_state m); first [now left|right; discriminate]).
  - apply awaits_aw. destruct (api_idle c e k m NP NS I L) as [E|[[E|[E|E]] R]]; cbv zeta in *; rewrite E; try rewrite R; cbn; auto.
  - destruct (api_timers c e k m NP I) as [[T E]|([X|X] & _)]; cbv zeta in *; [|now destruct NS|now destruct NS].
    apply awaits_aw. apply (proj1 (awaits_aw m)) in W. rewrite E, !(runs_timers _ m _ T).
    revert W. destruct (m_state m) eqn:SS; intros W; try exact W. destruct W as [W|W]; [left; exact W|right].
    unfold band_global. rewrite api_band; auto. intros O. rewrite O in S. discriminate S.
Qed.

Lemma allowed_of m n : tries_allowed m = (if do_nbTrans (m_opts m) >? 0 then do_nbTrans (m_opts m) else if n >? 0 then n else 1) -> n <= 15 -> do_nbTrans (m_opts m) <= 15 ->
  1 <= tries_allowed m <= 15.
Proof. intros ->. destruct (_ >? _) eqn:A; [lia|]. destruct (n >? 0) eqn:B; lia. Qed.

Lemma data_allowed c f o tx op m : s_nbTrans (m_ctx m) <= 15 ->
  1 <= tries_allowed (data_filled c f (data_base c o tx op m)) <= 15 /\ m_trials (data_filled c f (data_base c o tx op m)) = 0.
Proof.
  intros N. split; [|reflexivity]. apply (allowed_of _ (s_nbTrans (m_ctx m))).
  - unfold tries_allowed. assert (s_nbTrans (m_ctx (data_filled c f (data_base c o tx op m))) = s_nbTrans (sess_data c m)) as -> by reflexivity.
    assert (s_nbTrans (sess_data c m) = s_nbTrans (m_ctx m)) as -> by (unfold sess_data, clear_single_shot; destruct (is_1_1 _), (c_txps c); reflexivity).
    reflexivity.
  - exact N.
  - assert (do_nbTrans (m_opts (data_filled c f (data_base c o tx op m))) = do_nbTrans (opts_of o)) as -> by reflexivity.
    unfold opts_of. cbn [do_nbTrans]. change 15 with (Z.ones 4) at 1. rewrite Z.land_ones by lia. change (2 ^ 4) with 16. lia.
Qed.

Lemma act_counts c e m k r m' : act c e m k r m' -> k <> C_process -> not_stop k -> s_nbTrans (m_ctx m) <= 15 -> counted m ->
  counted m' /\ (m_op m <> OP_NONE -> m_op m' = m_op m /\ steps_left m' = steps_left m).
Proof.
  intros HA NP [N1 N2] NB K. destruct HA; try congruence.
  - split; [exact K|auto].
  - subst m'. split; [exact K|]. intros _. split; reflexivity.
  - split; [|congruence]. unfold counted. rewrite (core_op_eq _ _ H0). exact I.
  - split; [|congruence]. assert (m_op m' = OP_JOINING) as E by (rewrite (core_op_eq _ _ H2); apply op_op).
    apply core_fields in H2. destruct H2 as (_ & _ & _ & _ & _ & D & _). unfold counted. rewrite E, D.
    change (0 <= u32 (m_devNonce m + 1)). unfold u32. apply Z.mod_pos_bound. reflexivity.
  - split; [|congruence]. unfold counted. rewrite (core_op_eq _ _ H1). ms. rewrite H. exact I.
  - split; [|congruence]. destruct (core_count _ _ H6) as (_ & CK & _). apply CK.
    destruct (data_allowed c f o tx op m NB) as [A T]. destruct (compose_op _ _ _ _ _ _ _ _ _ H5) as [D _].
    unfold counted. rewrite T. assert (m_op (data_filled c f (data_base c o tx op m)) = op) as -> by reflexivity.
    destruct op; try discriminate D; lia.
  - destruct H; [congruence|]. destruct H; congruence.
  - destruct (core_count _ _ H2) as (O & CK & CT). destruct H as (r0 & p & a0 & dd & cc & kk & ->).
    split.
    + apply CK. exact K.
    + intros _. split; [exact O|]. unfold steps_left. rewrite H3, CT. reflexivity.
Qed.

Lemma api_counts c e k m : k <> C_process -> not_stop k -> s_nbTrans (m_ctx m) <= 15 -> counted m ->
  counted (fst (step c e k m)) /\ (m_op m <> OP_NONE -> m_op (fst (step c e k m)) = m_op m /\ steps_left (fst (step c e k m)) = steps_left m).
Proof.
  intros NP NS NB K. destruct (step_cases c e k m) as (m1 & m2 & Q1 & HA & Q2 & E). rewrite (E NP) in HA.
  destruct (act_counts _ _ _ _ _ _ HA NP NS NB K) as [C H]. destruct Q2 as [[QC _] QS]. destruct (steps_same _ _ QC QS) as (O & CK & N).
  split; [auto|]. intros X. destruct (H X). split; congruence.
Qed.

(* --- histories --- *)

Lemma timely_app c h h' : forall m, timely c (h ++ h') m = timely c h m && timely c h' (run c h m).
Proof. induction h as [|[e k] h IH]; intros m; [reflexivity|]. cbn [List.app timely run]. rewrite IH. apply andb_assoc. Qed.

Lemma init_runs c r a e0 : runs WAITA (MAC_init c r a e0) = true.
Proof.
  destruct (init_tl c r a e0) as [L _]. cbv zeta in L. revert L. open_def MAC_init. cbv zeta. intros L.
  rewrite set_runs; [reflexivity|]. unfold timerSet in L. rewrite set_timers in L. rewrite L. cbv. lia.
Qed.

Lemma step_settles c e k m : timely_call e k m = true -> settled m -> awaits m -> counted m -> s_nbTrans (m_ctx m) <= 15 ->
  awaits (fst (step c e k m)) /\ counted (fst (step c e k m)) /\
  (m_op m <> OP_NONE -> m_op (fst (step c e k m)) = OP_NONE \/
    (m_op (fst (step c e k m)) = m_op m /\
     (steps_left (fst (step c e k m)) + match k with C_process => if acts_at e m then 1 else 0 | _ => 0 end <= steps_left m)%nat)).
Proof.
  intros T S W K N. assert (k = C_process \/ k <> C_process) as [->|NP] by (destruct k; first [now left|right; discriminate]).
  - cbn [step fst]. destruct (process_ends c e m S W K T) as (A & F & NF). cbv zeta in *. split; [exact A|].
    destruct (acts_at e m).
    + destruct (F eq_refl) as [O|(O & C & L)]; [split; [unfold counted; rewrite O; exact I|auto]|]. split; [exact C|]. intros _. right. split; [exact O|]. lia.
    + destruct (NF eq_refl) as (O & C & L). split; [exact C|]. intros _. right. split; [exact O|]. lia.
  - assert (not_stop k) as NS by (split; intros ->; discriminate T).
    split; [now apply api_awaits|]. destruct (api_counts c e k m NP NS N K) as [C H]. split; [exact C|].
    intros O. right. destruct (H O) as [H1 H2]. split; [exact H1|]. destruct k; try congruence; lia.
Qed.

Lemma settled_always c r a e0 h : 0 < ia_tps a -> settled (run c h (MAC_init c r a e0)).
Proof.
  intros P. constructor.
  - apply (always_tl c r a e0 h P).
  - apply (init_so c r a e0 h).
  - destruct (BandP.bands_run c h _ (BandP.bands_init c r a e0)) as [_ R]. apply (BandP.range_nth _ BAND_GLOBAL) in R. apply R.
Qed.

Lemma trans_always c r a e0 h : valid_start r (ia_session a) -> Forall (fun x => power_arg (snd x)) h -> s_nbTrans (m_ctx (run c h (MAC_init c r a e0))) <= 15.
Proof. intros V P. destruct (valid_always c r a e0 h V P) as [H _]. cbv zeta in H. apply H. Qed.

Theorem always_awaits c r a e0 h : 0 < ia_tps a -> valid_start r (ia_session a) -> Forall (fun x => power_arg (snd x)) h ->
  timely c h (MAC_init c r a e0) = true -> let m := run c h (MAC_init c r a e0) in awaits m /\ counted m.
Proof.
  intros P V. cbv zeta. induction h as [|[e k] h IH] using rev_ind; intros F T.
  - cbn [run]. destruct (init_facts c r a e0) as (O & S & _). cbv zeta in *. split.
    + apply awaits_aw. rewrite S, init_runs. reflexivity.
    + unfold counted. rewrite O. exact I.
  - rewrite timely_app in T. apply andb_true_iff in T. destruct T as [T1 T2]. apply Forall_app in F. destruct F as [F1 F2].
    destruct (IH F1 T1) as [W K]. rewrite run_app. cbn [timely run] in *. rewrite andb_true_r in T2.
    destruct (step_settles c e k _ T2 (settled_always c r a e0 h P) W K (trans_always c r a e0 h V F1)) as (A & B & _). auto.
Qed.

Lemma counts_down c r a e0 : 0 < ia_tps a -> valid_start r (ia_session a) -> forall h2 h, Forall (fun x => power_arg (snd x)) (h ++ h2) ->
  timely c (h ++ h2) (MAC_init c r a e0) = true -> let m := run c h (MAC_init c r a e0) in m_op m <> OP_NONE ->
  (exists h3 h4, h2 = h3 ++ h4 /\ m_op (run c h3 m) = OP_NONE) \/
  (m_op (run c h2 m) = m_op m /\ (steps_left (run c h2 m) + served c h2 m <= steps_left m)%nat).
Proof.
  intros P V. induction h2 as [|[e k] h2 IH]; intros h F T; cbv zeta; intros O.
  - right. cbn. split; [reflexivity|lia].
  - assert (h ++ (e, k) :: h2 = (h ++ [(e, k)]) ++ h2) as E by (rewrite <- app_assoc; reflexivity).
    rewrite E in F, T. pose proof (IH (h ++ [(e, k)]) F T) as IH'. cbv zeta in IH'. rewrite run_app in IH'. cbn [run] in IH'.
    rewrite <- E in F, T. rewrite timely_app in T. apply andb_true_iff in T. destruct T as [T1 T2]. apply Forall_app in F. destruct F as [F1 F2].
    cbn [timely] in T2. apply andb_true_iff in T2. destruct T2 as [T2 _].
    destruct (always_awaits c r a e0 h P V F1 T1) as [W K]. cbv zeta in *.
    destruct (step_settles c e k _ T2 (settled_always c r a e0 h P) W K (trans_always c r a e0 h V F1)) as (_ & _ & H).
    cbn [run served]. revert IH' H. generalize (run c h (MAC_init c r a e0)), O. clear. intros m O IH' H.
    destruct (H O) as [Z|[Z1 Z2]].
    + left. exists [(e, k)], h2. split; [reflexivity|exact Z].
    + destruct IH' as [(h3 & h4 & -> & Z)|[Z3 Z4]]; [congruence| |].
      * left. exists ((e, k) :: h3), h4. split; [reflexivity|exact Z].
      * right. split; [congruence|]. lia.
Qed.

Lemma some_left op m : m_op m = op -> op <> OP_NONE -> so (m_op m) (m_state m) = true -> (0 < steps_left m)%nat.
Proof. intros E N S. unfold steps_left. rewrite E in S. destruct (m_state m); cbn [rank]; try lia. destruct op; try discriminate S. congruence. Qed.

Theorem operation_ends c r a e0 h h2 k : 0 < ia_tps a -> valid_start r (ia_session a) -> Forall (fun x => power_arg (snd x)) (h ++ h2) ->
  timely c (h ++ h2) (MAC_init c r a e0) = true ->
  in_progress (items c h (MAC_init c r a e0)) = Some (Some k) ->
  (steps_left (run c h (MAC_init c r a e0)) <= served c h2 (run c h (MAC_init c r a e0)))%nat ->
  exists h3 h4, h2 = h3 ++ h4 /\ in_progress (items c (h ++ h3) (MAC_init c r a e0)) = Some None.
Proof.
  intros P V F T O L. rewrite progress_init in O. apply (f_equal (fun x => match x with Some y => y | None => None end)) in O. cbv beta iota in O.
  assert (m_op (run c h (MAC_init c r a e0)) <> OP_NONE) as N by (intros E; rewrite E in O; discriminate O).
  destruct (counts_down c r a e0 P V h2 h F T N) as [(h3 & h4 & E & Z)|[Z1 Z2]].
  - exists h3, h4. split; [exact E|]. rewrite progress_init, run_app, Z. reflexivity.
  - exfalso. assert (0 < steps_left (run c h2 (run c h (MAC_init c r a e0))))%nat as X.
    { apply (some_left _ _ Z1 N). rewrite <- run_app. apply (init_so c r a e0 (h ++ h2)). }
    lia.
Qed.

Theorem steps_bound c r a e0 h k : 0 < ia_tps a -> valid_start r (ia_session a) -> Forall (fun x => power_arg (snd x)) h ->
  timely c h (MAC_init c r a e0) = true -> in_progress (items c h (MAC_init c r a e0)) = Some (Some k) ->
  Z.of_nat (steps_left (run c h (MAC_init c r a e0))) <= match k with KEntropy => 14 | KData => 254 | KJoin => 14 + 16 * 65536 end.
Proof.
  intros P V F T O. rewrite progress_init in O. apply (f_equal (fun x => match x with Some y => y | None => None end)) in O. cbv beta iota in O.
  destruct (always_awaits c r a e0 h P V F T) as [_ K]. cbv zeta in K. revert K O. generalize (run c h (MAC_init c r a e0)). intros m K O.
  assert (rank (m_state m) <= 14)%nat as R by (destruct (m_state m); cbn; lia).
  unfold steps_left, tries_left, counted in *. destruct (m_op m); try discriminate O; apply (f_equal (fun x => match x with Some y => y | None => KEntropy end)) in O; cbn in O; subst k; lia.
Qed.

(* --- when the awaited comes --- *)

Lemma expired_timers e i m m' : m_timers m' = m_timers m -> expired e i m' = expired e i m.
Proof. unfold expired, timerCheck, get_timer. intros ->. cbv zeta. destruct (tm_armed _); [destruct (_ <? _)|]; reflexivity. Qed.

Theorem come_acts e m : awaits m -> in_state (m_inputs m) = false -> come e m = true -> acts_at e m = true.
Proof.
  intros W N C. unfold acts_at, event_at. destruct (bands_fields e m) as (BT & BS & _). destruct (BandP.bands_kept e m) as (_ & _ & BI & _). cbv zeta in *.
  pose proof (bands_global e m) as BG. unfold come in C.
  destruct (processBands e m) as [m1 rd]. cbn [fst snd] in *.
  pose proof (expired_timers e WAITA m m1 BT) as XA. pose proof (expired_timers e WAITB m m1 BT) as XB.
  assert (in_state (m_inputs m1) = false) as N1 by now rewrite BI.
  assert (expired e WAITA m1 = true -> snd (fst (next_event e m1 rd)) = SME_TIMER_A) as EA.
  { unfold next_event, inputCheck. rewrite N1. unfold expired. destruct (timerCheck e WAITA m1) as [y [lag|]]; cbn [snd]; [reflexivity|discriminate]. }
  assert (runs WAITA m = false -> expired e WAITB m1 = true -> snd (fst (next_event e m1 rd)) = SME_TIMER_B) as EB.
  { intros RA. unfold next_event, inputCheck. rewrite N1, (check_off e WAITA m1) by (rewrite (armed_timers _ m m1 BT); exact RA).
    unfold expired. destruct (timerCheck e WAITB m1) as [y [lag|]]; cbn [snd]; [reflexivity|discriminate]. }
  assert (rd = true -> snd (fst (next_event e m1 rd)) <> SME_NONE) as ER.
  { intros R. pose proof (event_cases e m1 rd) as EC. destruct (next_event e m1 rd) as [[m2 ev] lag]. cbn [fst snd]. apply EC. exact R. }
  unfold awaits in W. destruct (m_state m); try discriminate C; try (rewrite EA by congruence; reflexivity).
  - apply andb_true_iff in C. destruct C as [C1 C2]. apply Z.eqb_eq in C1. rewrite C1. change (0 =? 0) with true.
    apply orb_true_iff in C2. destruct C2 as [C2|C2].
    + rewrite EA by congruence. reflexivity.
    + assert (rd = true) as R by (apply BG; lia). specialize (ER R). destruct (snd (fst (next_event e m1 rd))); try reflexivity. congruence.
  - rewrite EB by (destruct W; congruence). reflexivity.
  - rewrite EB by (destruct W; congruence). reflexivity.
Qed.
