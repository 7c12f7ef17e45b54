(* The counters of off-time over histories. *)
From Verif Require Import Lib FrameM CommandsM RegionM RadioM SmM MacStateM MacTac MacUtilM OpsM MacCmdM MacProcM MacApiM MacRw
  CoreP CaseP RxP ExecP SpecHist HistP StuckP SpecTime TimeP SpecWait SpecChan SpecRegion SpecValid ValidP AcceptP ChoiceP.

(* sub-band counters do not go down, the clock is as it was *)
Definition grows (l l' : list Z) : Prop :=
  length l' = length l /\ (in_range l -> in_range l' /\ forall b, (b < BAND_GLOBAL)%nat -> nth b l 0 <= nth b l' 0).
Definition held (m m' : mac) : Prop := m_time m' = m_time m /\ m_tps m' = m_tps m /\ grows (m_band m) (m_band m').

Lemma grows_refl l : grows l l. Proof. split; [reflexivity|]. intros R. split; [exact R|]. intros; lia. Qed.
Lemma grows_trans a b c : grows a b -> grows b c -> grows a c.
Proof.
  intros [A1 A2] [B1 B2]. split; [congruence|]. intros R. destruct (A2 R) as [R1 G1]. destruct (B2 R1) as [R2 G2].
  split; [exact R2|]. intros i I. specialize (G1 i I). specialize (G2 i I). lia.
Qed.
Lemma held_refl m : held m m. Proof. split; [reflexivity|split; [reflexivity|apply grows_refl]]. Qed.
Lemma held_trans a b c : held a b -> held b c -> held a c.
Proof. intros (A1 & A2 & A3) (B1 & B2 & B3). split; [congruence|split; [congruence|eapply grows_trans; eauto]]. Qed.
Lemma held_same m m' : m_time m' = m_time m -> m_tps m' = m_tps m -> m_band m' = m_band m -> held m m'.
Proof. intros A B C. split; [exact A|split; [exact B|rewrite C; apply grows_refl]]. Qed.
Lemma held_ends m x y : m_time y = m_time x -> m_tps y = m_tps x -> m_band y = m_band x -> held m x -> held m y.
Proof. intros A B C H. eapply held_trans; [exact H|now apply held_same]. Qed.
Ltac hs := now apply held_same.
Ltac he H := eapply held_ends; [| | |exact H]; reflexivity.
Lemma held_notify m x ev : held m x -> held m (notify ev x).
Proof. intros H. he H. Qed.

Lemma range_upd l i v : in_range l -> 0 <= v <= UINT32_MAX -> in_range (upd l i v).
Proof. intros R V. revert i. induction R as [|x l X R IH]; intros [|i]; cbn; try constructor; auto. apply IH. Qed.
Lemma range_nth l i : in_range l -> 0 <= nth i l 0 <= UINT32_MAX.
Proof.
  intros R. destruct (Nat.lt_ge_cases i (length l)) as [L|L]; [|rewrite nth_overflow by lia; unfold UINT32_MAX; lia].
  apply (proj1 (Forall_forall _ _) R). now apply nth_In.
Qed.
Lemma held_set m x i v : held m x -> (in_range (m_band x) -> 0 <= v <= UINT32_MAX /\ ((i < BAND_GLOBAL)%nat -> nth i (m_band x) 0 <= v)) -> held m (band_set i v x).
Proof.
  intros H V. eapply held_trans; [exact H|]. split; [reflexivity|split; [reflexivity|]].
  change (m_band (band_set i v x)) with (upd (m_band x) i v). split; [apply upd_length|]. intros R. destruct (V R) as [V1 V2].
  split; [now apply range_upd|]. intros b B. rewrite nth_upd. destruct (b =? i)%nat eqn:E; cbn [andb]; [|lia].
  apply Nat.eqb_eq in E. subst b. destruct (_ <? _)%nat; [auto|lia].
Qed.
Lemma sat_range x y : 0 <= x <= UINT32_MAX -> 0 <= sat_add x y <= UINT32_MAX /\ x <= sat_add x y.
Proof. intros X. unfold sat_add, u32, UINT32_MAX in *. destruct (_ <? _) eqn:E; lia. Qed.

Lemma registerTime_held m : held m (registerTime m).
Proof.
  unfold registerTime. cbv zeta.
  set (m1 := match getBand _ _ with Some _ => _ | None => m end).
  assert (held m m1) as H1.
  { unfold m1. destruct (getBand _ _) as [b|]; [|apply held_refl]. apply held_set; [apply held_refl|]. intros R. unfold band_get.
    pose proof (sat_range (nth (Z.to_nat b) (m_band m) 0) (u32 (tx_airTime (m_tx m) * getOffTimeFactor (s_region (m_ctx m)) b)) (range_nth _ _ R)). tauto. }
  clearbody m1.
  assert (forall v, held m (band_set BAND_GLOBAL (sat_add (band_global m1) v) m1)) as H2.
  { intros v. apply held_set; [exact H1|]. intros R. pose proof (sat_range (band_global m1) v (range_nth _ _ R)). split; [tauto|]. lia. }
  destruct (m_op m); try (destruct (_ >? _)); auto.
Qed.
Lemma timerCheck_held e i m : held m (fst (timerCheck e i m)).
Proof. unfold timerCheck. cbv zeta. destruct (tm_armed _); [destruct (_ <? _)|]; cbn [fst]; try apply held_refl. hs. Qed.

Lemma missing_held c e m : held m (downlinkMissing c e m).
Proof.
  open_def downlinkMissing. cbv zeta. change (set_m_trials (u32 (m_trials m + 1)) m) with (next_trial m).
  assert (held m (next_trial m)) as N by hs.
  assert (forall ev, held m (let (m0, changed) := adaptRate c (next_trial m) in complete ev (if changed then pushSessionUpdate m0 else m0))) as HD.
  { intros ev. pose proof (adaptRate_fields c (next_trial m)) as H. cbv zeta in H. destruct (adaptRate c (next_trial m)) as [m0 ch].
    destruct H as (s & n & b & E & _). cbn [fst] in E.
    assert (held m m0) as H0 by (rewrite E; he N). clear E.
    unfold complete. eapply held_ends; [reflexivity|reflexivity|reflexivity|]. apply held_notify. destruct ch; [|exact H0]. now apply held_notify. }
  destruct (m_op (next_trial m)); try exact N.
  - destruct (_ <=? _).
    + destruct (fillJoin_fields c e (u16 (m_devNonce (next_trial m))) (next_trial m)) as (t & buf & len & dn & E & _).
      assert (held m (fillJoinBuffer c e (u16 (m_devNonce (next_trial m))) (next_trial m))) as HF by (rewrite E; he N).
      clear E. revert HF. generalize (fillJoinBuffer c e (u16 (m_devNonce (next_trial m))) (next_trial m)). intros x HF.
      eapply held_ends; [reflexivity|reflexivity|reflexivity|]. apply held_notify. he HF.
    + unfold complete. eapply held_ends; [reflexivity|reflexivity|reflexivity|]. now apply held_notify.
  - destruct (_ && _); [|apply HD]. he N.
  - destruct (_ && _); [|apply HD]. he N.
Qed.

Lemma do_command_held c e d last m0 m st : held m0 m -> held m0 (fst (do_command c e d last m st)).
Proof.
  intros H. destruct d; cbn [do_command fst] in *; try (now apply held_notify); try exact H; try (he H).
  1: { destruct (do_linkADR _ _ _ _ _ _ _ _) as [s st']. he H. }
  all: try (destruct (isDynamic _); [|exact H]); cbv zeta; cbn [fst]; try exact H; try (he H).
  all: try (destruct (device_time _ _ _ _ _); now apply held_notify).
  all: repeat match goal with |- context [if ?b then _ else _] => destruct b end; try exact H; try (he H).
  all: repeat match goal with |- context [let (_,_) := ?b in _] => destruct b end; try exact H; try (he H).
Qed.
Lemma commands_held c e l m : held m (processCommands c e l m).
Proof. apply (processCommands_inv c e (held m)); [intros; now apply do_command_held|hs|intros m' H; he H]. Qed.

Lemma data_held c e buf f m : held m (data_received c e buf f m).
Proof.
  open_def data_received. cbv zeta.
  set (m1 := set_m_adrAckReq false _). assert (held m m1) as H1 by hs. clearbody m1.
  set (m2 := match dn_opts f with Some off => _ | None => m1 end).
  assert (held m m2) as H2 by (unfold m2; destruct (dn_opts f); [eapply held_trans; [exact H1|apply commands_held]|exact H1]). clearbody m2. clear H1 m1.
  set (m3 := match dn_data f with Some off => _ | None => m2 end).
  assert (held m m3) as H3.
  { unfold m3. destruct (dn_data f); [|exact H2]. destruct (_ =? 0); [eapply held_trans; [exact H2|apply commands_held]|now apply held_notify]. }
  clearbody m3. clear H2 m2.
  eapply held_ends; [reflexivity|reflexivity|reflexivity|]. destruct (m_op m3); try exact H3; now apply held_notify.
Qed.
Lemma keys_held c m : held m (deriveKeys c m).
Proof. destruct (deriveKeys_sm c m) as (sm & E). rewrite E. hs. Qed.
Lemma join_held c buf f m : held m (join_accepted c buf f m).
Proof.
  open_def join_accepted. cbv zeta.
  match goal with |- held m (notify ?v (set_m_op _ (set_m_state _ (set_m_day _ (band_set _ _ (set_m_joinNonce _ (deriveKeys c (set_m_ctx ?s m)))))))) =>
    generalize v; intros ev; generalize s; intros s0 end.
  apply held_notify. eapply held_ends; [reflexivity|reflexivity|reflexivity|]. apply held_set; [|intros _; unfold UINT32_MAX; split; lia].
  eapply held_ends; [reflexivity|reflexivity|reflexivity|]. eapply held_trans; [|apply (keys_held c (set_m_ctx s0 m))]. hs.
Qed.
Lemma tx_done_held c e lag m : held m (tx_done c e lag m).
Proof.
  open_def tx_done. cbv zeta. destruct (window _ _ _ _) as [sym1 marg1]. destruct (window _ _ _ _) as [sym2 marg2].
  apply held_same; unfold emit; ms; (destruct (_ <=? _); [destruct (_ <=? _)|]; reflexivity).
Qed.
Lemma rx_timeout_held e m : held m (rx_timeout e m).
Proof. unfold rx_timeout. destruct (m_state m); hs. Qed.
Lemma rx_packet_held c e m : held m (rx_packet c e m).
Proof.
  open_def rx_packet. cbv zeta. set (m1 := set_m_rx_snr _ _). assert (held m m1) as H1 by hs. clearbody m1.
  destruct (receiveFrame c m1 (rx_buffer e) (rx_len e)) as [buf [f|]].
  - apply held_notify. eapply held_trans; [exact H1|]. destruct (dn_type f); first [apply data_held|apply join_held].
  - eapply held_trans; [exact H1|apply missing_held].
Qed.
Lemma error_held c e m : held m (handleRadioError c e m).
Proof.
  open_def handleRadioError. cbv zeta. set (m1 := timerClear WAITB _). assert (held m m1) as H1 by hs. clearbody m1.
  set (m2 := match m_op m1 with OP_JOINING => _ | _ => _ end).
  assert (held m1 m2) as H2. { unfold m2. destruct (m_op m1); try apply missing_held; hs. }
  clearbody m2. eapply held_trans; [exact H1|]. he H2.
Qed.

Lemma dispatch_held c e ev lag m : held m (dispatch c e ev lag m).
Proof.
  assert (held m m) as R by apply held_refl. unfold dispatch. destruct (m_state m) eqn:S; try exact R;
  cbv [processRadioReset processRadioBoot processWait processStartRadioForEntropy processEntropy processStartRadioForTX processStartRadioForRX1 processStartRadioForRX2 processRX2Lockout];
  rewrite ?S; try (destruct ev; try exact R; hs); try hs.
  - destruct ev; try exact R. change (m_op (emit (OMode MODE_SLEEP) m)) with (m_op m). destruct (m_op m); hs.
  - unfold processWaitOTAA. destruct (_ =? 0); [hs|exact R].
  - unfold processTX. pose proof (registerTime_held m) as C. destruct ev; try exact R; [eapply held_trans; [exact C|apply error_held]|].
    eapply held_trans; [exact C|]. destruct (e_st_tx e); [apply tx_done_held|apply error_held].
  - unfold processRX. destruct ev; try exact R; [apply error_held|]. destruct (e_st_rx e); [apply rx_packet_held|].
    destruct (e_st_timeout e); [apply rx_timeout_held|apply error_held].
  - unfold processRX. destruct ev; try exact R; [apply error_held|]. destruct (e_st_rx e); [apply rx_packet_held|].
    destruct (e_st_timeout e); [apply rx_timeout_held|apply error_held].
  - destruct ev; try exact R. apply missing_held.
Qed.

Lemma next_event_held e m rd : held m (fst (fst (next_event e m rd))).
Proof.
  unfold next_event, inputCheck. destruct (in_state (m_inputs m)); [hs|].
  pose proof (timerCheck_held e WAITA m) as T1. destruct (timerCheck e WAITA m) as [m2 [lag|]]; cbn [fst] in *; [exact T1|].
  pose proof (timerCheck_held e WAITB m2) as T2. destruct (timerCheck e WAITB m2) as [m3 [lag|]]; cbn [fst] in *; eapply held_trans; eauto.
Qed.

(* process: the update, something that holds, the next event *)
Lemma process_held c e m : exists m3, held (fst (processBands e m)) m3 /\ MAC_process c e m = setNextBandEvent e m3.
Proof.
  unfold MAC_process. destruct (processBands e m) as [m1 rd]. cbn [fst].
  pose proof (next_event_held e m1 rd) as N. destruct (next_event e m1 rd) as [[m2 ev] lag]. cbn [fst] in N.
  exists (match ev with SME_NONE => m2 | _ => dispatch c e ev lag m2 end). split; [|reflexivity].
  eapply held_trans; [exact N|]. destruct ev; try apply dispatch_held. apply held_refl.
Qed.

(* --- the other calls --- *)

Lemma cancel_held m : held m (MAC_cancel m).
Proof.
  unfold MAC_cancel. cbv zeta. change (m_state (set_m_op OP_NONE m)) with (m_state m).
  set (x := match m_state m with ST_INIT => _ | _ => _ end).
  assert (held m x) as H by (unfold x; destruct (m_state m); hs). clearbody x.
  set (y := match m_state x with ST_TX => _ | _ => _ end).
  assert (held m y) as H' by (unfold y; destruct (m_state x); try exact H; eapply held_trans; [exact H|apply registerTime_held]). clearbody y.
  destruct (m_op m); try exact H'; now apply held_notify.
Qed.
Lemma data_start_held c e cf p d o m : held m (fst (MAC_data c e cf p d o m)).
Proof.
  open_def MAC_data. destruct (negb _); [apply held_refl|].
  destruct (m_op m); try apply held_refl.
  destruct (_ && _); [|apply held_refl]. destruct (_ =? 0); [|apply held_refl]. cbv zeta. fold (sel_start c m).
  destruct (selectChannel _ _ _ _ _) as [tx [|]]; [|hs].
  destruct (_ <=? _); [|hs].
  destruct (compose _ _ _ _ _ _) as [[f op] st].
  match goal with |- context [prepareData c ?y f ?d ?n] => assert (held m y) as H by hs; revert H; generalize y; intros x H end.
  destruct (prepareData _ _ _ _ _) as [buf n]. cbn [fst].
  match goal with |- held m (match m_state ?z with _ => _ end) => set (y := z) end. assert (held m y) as H' by (he H). clearbody y. destruct (m_state y); try exact H'.
Qed.
Lemma otaa_held c e m : held m (fst (MAC_otaa c e m)).
Proof.
  open_def MAC_otaa. cbv zeta. destruct (s_joined _); [apply held_refl|].
  destruct (m_op m); try apply held_refl. destruct (_ <=? _); [|apply held_refl].
  set (m1 := if is_1_1 _ then _ else _). assert (held m m1) as H1 by (unfold m1; destruct (is_1_1 _); hs). clearbody m1.
  destruct (fillJoin_fields c e (u16 (m_devNonce m1)) m1) as (t & buf & len & dn & E & _).
  assert (held m (fillJoinBuffer c e (u16 (m_devNonce m1)) m1)) as H3 by (rewrite E; he H1).
  clear E. revert H3. generalize (fillJoinBuffer c e (u16 (m_devNonce m1)) m1). intros x H3.
  match goal with |- held m (fst (match m_state ?x with _ => _ end, _)) => set (y := x); assert (held m y) as H5 end.
  { eapply held_ends; [reflexivity|reflexivity|reflexivity|]. apply held_notify. he H3. }
  clearbody y. cbn [fst]. destruct (m_state y); try exact H5.
Qed.
Lemma request_held c e k m : k <> C_process -> held m (fst (step c e k m)).
Proof.
  intros NP. destruct k; try congruence; cbn [step st_ret bool_ret fst snd].
  - unfold MAC_entropy. destruct (m_op m); cbn [fst]; try apply held_refl. change (m_state (set_m_op OP_ENTROPY m)) with (m_state m). destruct (m_state m); hs.
  - apply otaa_held.
  - unfold MAC_abp. destruct (s_joined _); [apply held_refl|]. destruct (m_op m); cbn [fst]; try apply held_refl.
    eapply held_ends; [reflexivity|reflexivity|reflexivity|]. apply held_set; [hs|]. intros _. unfold UINT32_MAX. split; lia.
  - apply data_start_held.
  - apply cancel_held.
  - unfold MAC_forget. cbv zeta. pose proof (cancel_held m) as H. destruct (s_joined _); [|exact H]. apply held_notify.
    eapply held_ends; [reflexivity|reflexivity|reflexivity|]. apply held_set; [exact H|]. intros _. unfold UINT32_MAX. split; lia.
  - unfold MAC_setRate. destruct (rateSettingIsValid _ _); cbn [fst]; [hs|apply held_refl].
  - unfold MAC_setPower. destruct (validateTXPower _ _); cbn [fst]; [hs|apply held_refl].
  - hs.
  - hs.
  - unfold MAC_addChannel. destruct (setChannel _ _ _ _ _); hs.
  - unfold MAC_maskChannel. destruct (maskChannel _ _ _); hs.
  - unfold MAC_unmaskChannel. destruct (unmaskChannel _ _ _); hs.
  - unfold inputSignal. destruct (_ && _); [hs|apply held_refl].
Qed.

(* --- the clock --- *)

Lemma elapsed_bound m T T' : 0 < m_tps m -> mt_ticks (m_time m) = clock T -> T <= T' -> 0 <= mt_remainder (m_time m) < m_tps m ->
  let '(u, rem) := elapsed m (clock T') in 0 <= u /\ 0 <= rem < m_tps m /\ u * m_tps m + rem <= 256 * (T' - T) + mt_remainder (m_time m).
Proof.
  intros Hp Ht HT Hr. unfold elapsed. rewrite Ht. rewrite timerDelta_spec by apply clock_range.
  set (s := (clock T' - clock T) mod 4294967296 - (if clock T' <? clock T then 1 else 0)).
  assert (0 <= s <= T' - T) as Hs.
  { unfold s. pose proof (clock_range T). pose proof (clock_range T').
    assert ((clock T' - clock T) mod 4294967296 = (T' - T) mod 4294967296) as -> by (unfold clock; rewrite p32; lia).
    split; [|destruct (_ <? _); lia]. destruct (clock T' <? clock T) eqn:E; [|lia]. unfold clock in *. rewrite p32 in *. lia. }
  clearbody s. set (p := m_tps m) in *. set (rem := mt_remainder (m_time m)) in *. unfold timeTPS. cbv zeta.
  assert (0 <= s mod p < p) by (apply Z.mod_pos_bound; lia). assert (0 <= s / p) by (apply Z.div_pos; lia).
  assert (s = p * (s / p) + s mod p) as Edm by (apply Z.div_mod; lia).
  assert (forall x, 0 <= x -> 0 <= u32 x <= x) as U by (intros x X; unfold u32; lia).
  pose proof (U (s mod p * 256) ltac:(lia)) as U1. set (f1 := u32 (s mod p * 256)) in *.
  pose proof (U (f1 + rem) ltac:(lia)) as U2. set (f := u32 (f1 + rem)) in *.
  pose proof (U (s / p * 256) ltac:(lia)) as U3. set (g := u32 (s / p * 256)) in *.
  assert (0 <= f / p) by (apply Z.div_pos; lia). assert (f = p * (f / p) + f mod p) as Ef by (apply Z.div_mod; lia).
  assert (0 <= f mod p < p) by (apply Z.mod_pos_bound; lia).
  pose proof (U (g + f / p) ltac:(lia)) as U4. set (u := u32 (g + f / p)) in *. clearbody u g f f1. nia.
Qed.

Lemma fold_min l : forall acc b, In b l -> 0 < b -> fold_left (fun acc b => if (b >? 0) && (b <? acc) then b else acc) l acc <= b.
Proof.
  assert (forall l acc, fold_left (fun acc b => if (b >? 0) && (b <? acc) then b else acc) l acc <= acc) as L.
  { intros k. induction k as [|x k IH]; intros acc; cbn [fold_left]; [lia|]. eapply Z.le_trans; [apply IH|]. destruct (_ && _) eqn:E; lia. }
  induction l as [|x l IH]; intros acc b I P; [contradiction|]. cbn [fold_left]. destruct I as [->|I].
  - eapply Z.le_trans; [apply L|]. destruct (_ && _) eqn:E; lia.
  - now apply IH.
Qed.
Lemma next_time m b : In b (m_band m) -> 0 < b < UINT32_MAX -> band_global m < UINT32_MAX -> nextBandTime m < UINT32_MAX.
Proof.
  intros I B G. unfold nextBandTime. pose proof (fold_min (m_band m) UINT32_MAX b I ltac:(lia)) as F.
  set (t := fold_left _ _ _) in *. clearbody t. cbv zeta. destruct (t <=? band_global m) eqn:E.
  - destruct (_ && _) eqn:E2; lia.
  - destruct (_ && _) eqn:E2; lia.
Qed.

Lemma range_drain l u : in_range l -> 0 <= u -> in_range (map (fun x => fst (updateDownCounter x u)) l).
Proof.
  intros R U. apply Forall_forall. intros x I. apply in_map_iff in I. destruct I as (y & <- & I). apply (proj1 (Forall_forall _ _) R) in I. cbv beta in I.
  rewrite down_counter by lia. unfold drain. lia.
Qed.

Section Owed.
  Variables (V rem0 T0 : Z) (b : nat).
  Hypothesis Hb : (b < BAND_GLOBAL)%nat.
  Definition passed (tps P : Z) : Prop := V * tps <= 256 * (P - T0) + rem0.
  (* P: time of the last call of process *)
  Definition owed (P : Z) (m : mac) : Prop :=
    length (m_band m) = 6%nat /\ in_range (m_band m) /\ 0 < m_tps m /\
    (passed (m_tps m) P \/ (clock_runs P m /\ (V - nth b (m_band m) 0) * m_tps m + mt_remainder (m_time m) <= 256 * (P - T0) + rem0)).

  Lemma passed_later tps P P' : P <= P' -> passed tps P -> passed tps P'.
  Proof. unfold passed. lia. Qed.

  Lemma owed_held P m m' : held m m' -> owed P m -> owed P m'.
  Proof.
    intros (H1 & H2 & H3 & H4) (L & R & T & O). destruct (H4 R) as [R' G]. split; [congruence|]. split; [exact R'|]. rewrite H2. split; [exact T|].
    destruct O as [O|[C O]]; [now left|]. right. unfold clock_runs in *. rewrite H1, H2. split; [exact C|]. specialize (G b Hb). nia.
  Qed.

  Lemma owed_bands P P' e m : P <= P' -> e_now e = clock P' -> owed P m -> owed P' (fst (processBands e m)).
  Proof.
    intros LE N (L & R & T & O). destruct (mt_parked (m_time m)) eqn:PK.
    - unfold processBands. rewrite PK. cbn [fst]. split; [exact L|]. split; [exact R|]. split; [exact T|].
      destruct O as [O|[(C & _) _]]; [left; eapply passed_later; eauto|congruence].
    - destruct (elapsed m (e_now e)) as [u rem] eqn:E. destruct (processBands_state e m u rem PK E) as (B1 & B2 & B3 & _). cbv zeta in *.
      assert (0 <= u) as U.
      { unfold elapsed in E. injection E as E1 E2. subst u. unfold u32. apply Z.mod_pos_bound. lia. }
      split; [rewrite B3, map_length; exact L|]. split; [rewrite B3; now apply range_drain|]. rewrite B2. split; [exact T|].
      destruct O as [O|[(C1 & C2 & C3) O]]; [left; eapply passed_later; eauto|].
      pose proof (elapsed_bound m P P' T C2 LE C3) as X. rewrite <- N, E in X. destruct X as (_ & X1 & X2).
      unfold clock_runs, passed. rewrite B1, B2, B3. cbn [mt_parked mt_ticks mt_remainder].
      set (p := m_tps m) in *. pose proof (range_nth (m_band m) b R) as RB.
      assert (nth b (map (fun x => fst (updateDownCounter x u)) (m_band m)) 0 = drain (nth b (m_band m) 0) u) as ->.
      { transitivity (nth b (map (fun x => fst (updateDownCounter x u)) (m_band m)) (fst (updateDownCounter 0 u))); [reflexivity|].
        rewrite (map_nth (fun x => fst (updateDownCounter x u))). apply down_counter; lia. }
      unfold drain. destruct (Z.le_gt_cases u (nth b (m_band m) 0)) as [D|D].
      + right. split; [auto|]. replace (Z.max 0 (nth b (m_band m) 0 - u)) with (nth b (m_band m) 0 - u) by lia. nia.
      + left. nia.
  Qed.
  Lemma owed_next P e m : Forall (fun x => x < UINT32_MAX) (m_band m) -> owed P m -> owed P (setNextBandEvent e m).
  Proof.
    intros S (L & R & T & O). unfold setNextBandEvent. cbv zeta. destruct (nextBandTime m <? UINT32_MAX) eqn:E.
    - split; [exact L|]. split; [exact R|]. split; [exact T|]. destruct O as [O|[(C1 & C2 & C3) O]]; [now left|]. right. split; [repeat split; try exact C2; apply C3|]. exact O.
    - split; [exact L|]. split; [exact R|]. split; [exact T|]. destruct O as [O|[(C1 & C2 & C3) O]]; [now left|]. left.
      change (passed (m_tps m) P). unfold passed.
      assert (nth b (m_band m) 0 = 0) as Z0; [|rewrite Z0 in O; lia].
      assert (In (nth b (m_band m) 0) (m_band m)) as I by (apply nth_In; unfold BAND_GLOBAL in *; lia).
      pose proof (proj1 (Forall_forall _ _) S _ I) as I1. cbv beta in I1. pose proof (range_nth (m_band m) b R) as RB.
      destruct (Z.eq_dec (nth b (m_band m) 0) 0) as [|NZ]; [assumption|exfalso].
      assert (band_global m < UINT32_MAX) as G.
      { unfold band_global. apply (proj1 (Forall_forall _ _) S). apply nth_In. rewrite L. unfold BAND_GLOBAL. lia. }
      pose proof (next_time m _ I ltac:(lia) G). lia.
  Qed.

  Lemma owed_step c e k m P P' : P <= P' -> e_now e = clock P' -> Forall (fun x => x < UINT32_MAX) (m_band (fst (step c e k m))) ->
    owed P m -> exists Q, P <= Q <= P' /\ owed Q (fst (step c e k m)).
  Proof.
    intros LE N S O. assert (k = C_process \/ k <> C_process) as [->|NP] by (destruct k; first [now left|right; discriminate]).
    - cbn [step fst] in *. destruct (process_held c e m) as (m3 & H & E). rewrite E in *. exists P'. split; [lia|].
      apply owed_next.
      + revert S. unfold setNextBandEvent. cbv zeta. destruct (_ <? _); intros S; exact S.
      + eapply owed_held; [exact H|]. eapply owed_bands; eauto.
    - exists P. split; [lia|]. eapply owed_held; [|exact O]. now apply request_held.
  Qed.
  Lemma owed_run c h : forall m P T Ts, P <= T -> timed T h Ts -> unsaturated c h m -> owed P m -> exists Q, P <= Q <= List.last Ts T /\ owed Q (run c h m).
  Proof.
    induction h as [|[e k] h IH]; intros m P T Ts LE TI U O.
    - destruct Ts; [|contradiction]. exists P. split; [cbn [List.last]; lia|exact O].
    - destruct Ts as [|T' Ts]; [contradiction|]. cbn [timed] in TI. destruct TI as (T1 & T2 & T3). cbn [unsaturated] in U. cbv zeta in U. destruct U as [U1 U2].
      destruct (owed_step c e k m P T' ltac:(lia) T2 U1 O) as (Q & Q1 & Q2).
      destruct (IH _ Q T' Ts ltac:(lia) T3 U2 Q2) as (Q' & Q3 & Q4). exists Q'. cbn [run].
      assert (List.last (T' :: Ts) T = List.last Ts T') as -> by (destruct Ts as [|x Ts]; [reflexivity|cbn [List.last]; clear; revert x; induction Ts as [|y Ts IH]; intros x; [reflexivity|]; cbn [List.last] in *; apply IH]).
      split; [lia|exact Q4].
  Qed.
End Owed.

(* A counter that holds V when the clock is read at T0 does not come to zero
   before V units have passed, whatever calls are made. *)
Theorem waits c h m T0 Ts b : (b < BAND_GLOBAL)%nat -> length (m_band m) = 6%nat -> in_range (m_band m) -> clock_runs T0 m ->
  timed T0 h Ts -> unsaturated c h m -> nth b (m_band (run c h m)) 0 = 0 ->
  nth b (m_band m) 0 * m_tps m < 256 * (List.last Ts T0 - T0) + m_tps m.
Proof.
  intros B L R C TI U Z0. set (V := nth b (m_band m) 0).
  assert (0 < m_tps m) as TP by (destruct C as (_ & _ & C); lia).
  assert (owed V (mt_remainder (m_time m)) T0 b T0 m) as O.
  { split; [exact L|]. split; [exact R|]. split; [exact TP|]. right. split; [exact C|]. fold V. lia. }
  assert (m_tps (run c h m) = m_tps m) as TPS.
  { clear. revert m. induction h as [|[e k] h IH]; intros m; [reflexivity|]. cbn [run]. rewrite IH.
    assert (k = C_process \/ k <> C_process) as [->|NP] by (destruct k; first [now left|right; discriminate]).
    - cbn [step fst]. destruct (process_held c e m) as (m3 & (_ & H & _) & E). rewrite E.
      transitivity (m_tps m3); [unfold setNextBandEvent; cbv zeta; destruct (_ <? _); reflexivity|]. rewrite H.
      unfold processBands. destruct (mt_parked _); [reflexivity|]. destruct (elapsed _ _). cbv zeta. destruct (_ && _); reflexivity.
    - now apply (request_held c e k m NP). }
  destruct (owed_run V (mt_remainder (m_time m)) T0 b B c h m T0 T0 Ts ltac:(lia) TI U O) as (Q & Q1 & (_ & _ & _ & O')).
  destruct C as (_ & _ & C3).
  destruct O' as [O'|[(_ & _ & C') O']]; [unfold passed in O'; rewrite TPS in O'; lia|].
  rewrite Z0, TPS in O'. rewrite TPS in C'. lia.
Qed.

(* --- what a transmission costs --- *)

Lemma sat_ge x y : 0 <= x <= UINT32_MAX -> 0 <= y <= UINT32_MAX -> y <= sat_add x y.
Proof. intros X Y. unfold sat_add, u32, UINT32_MAX in *. destruct (_ <? _) eqn:E; lia. Qed.
Lemma register_charge m b : getBand (s_region (m_ctx m)) (tx_freq (m_tx m)) = Some b -> length (m_band m) = 6%nat -> in_range (m_band m) ->
  u32 (tx_airTime (m_tx m) * getOffTimeFactor (s_region (m_ctx m)) b) <= nth (Z.to_nat b) (m_band (registerTime m)) 0.
Proof.
  intros G L R. unfold registerTime. cbv zeta. rewrite G. set (off := u32 _). pose proof (getBand_range _ _ _ G) as B.
  assert (0 <= off <= UINT32_MAX) as O by (unfold off, u32, UINT32_MAX; pose proof (Z.mod_pos_bound (tx_airTime (m_tx m) * getOffTimeFactor (s_region (m_ctx m)) b) (2 ^ 32)); lia).
  clearbody off. set (m1 := band_set _ _ m).
  assert (off <= nth (Z.to_nat b) (m_band m1) 0) as H.
  { unfold m1. rewrite band_nth, Nat.eqb_refl. replace (Z.to_nat b <? length (m_band m))%nat with true by lia. cbn [andb].
    apply sat_ge; [apply range_nth; exact R|exact O]. }
  assert (forall v, off <= nth (Z.to_nat b) (m_band (band_set BAND_GLOBAL v m1)) 0) as H2.
  { intros v. rewrite band_nth. replace (Z.to_nat b =? BAND_GLOBAL)%nat with false by (unfold BAND_GLOBAL; lia). exact H. }
  destruct (m_op m); try (destruct (_ >? _)); auto.
Qed.

Lemma bands_kept e m : m_ctx (fst (processBands e m)) = m_ctx m /\ m_tx (fst (processBands e m)) = m_tx m /\ m_inputs (fst (processBands e m)) = m_inputs m /\
  m_state (fst (processBands e m)) = m_state m /\ length (m_band (fst (processBands e m))) = length (m_band m) /\ (in_range (m_band m) -> in_range (m_band (fst (processBands e m)))).
Proof.
  unfold processBands. destruct (mt_parked _); [repeat split; auto|]. destruct (elapsed m (e_now e)) as [u rem] eqn:E.
  assert (0 <= u) as U. { unfold elapsed in E. injection E as E1 E2. subst u. unfold u32. apply Z.mod_pos_bound. lia. }
  cbv zeta. destruct (_ && _); cbn [fst]; (split; [reflexivity|]); (split; [reflexivity|]); (split; [reflexivity|]); (split; [reflexivity|]);
  change (m_band (notify EV_CHANNEL_READY ?x)) with (m_band x); mred; (split; [apply map_length|]); intros R; now apply range_drain.
Qed.

Theorem charged c e m b : tx_ends m e -> getBand (s_region (m_ctx m)) (tx_freq (m_tx m)) = Some b -> length (m_band m) = 6%nat -> in_range (m_band m) ->
  u32 (tx_airTime (m_tx m) * getOffTimeFactor (s_region (m_ctx m)) b) <= nth (Z.to_nat b) (m_band (MAC_process c e m)) 0.
Proof.
  intros (S & I & X) G L R. destruct (bands_kept e m) as (K1 & K2 & K3 & K4 & K5 & K6). unfold MAC_process.
  destruct (processBands e m) as [m1 rd]. cbn [fst] in *. specialize (K6 R).
  unfold next_event, inputCheck. rewrite K3. unfold inputPending in I. rewrite I. cbv zeta.
  set (m2 := set_m_inputs _ m1). set (lag := timerDelta _ _). clearbody lag.
  assert (dispatch c e SME_INTERRUPT lag m2 = tx_done c e lag (registerTime m2)) as ->.
  { unfold dispatch. change (m_state m2) with (m_state m1). rewrite K4, S. unfold processTX. rewrite X. reflexivity. }
  assert (m_ctx m2 = m_ctx m /\ m_tx m2 = m_tx m /\ length (m_band m2) = 6%nat /\ in_range (m_band m2)) as (E1 & E2 & E3 & E4) by (unfold m2; mred; repeat split; auto; congruence).
  clearbody m2. assert (forall y, m_band (setNextBandEvent e y) = m_band y) as SB by (intros y; unfold setNextBandEvent; cbv zeta; destruct (_ <? _); reflexivity).
  rewrite SB. destruct (tx_done_held c e lag (registerTime m2)) as (_ & _ & _ & H).
  destruct (registerTime_held m2) as (_ & _ & _ & H'). destruct (H' E4) as [R2 _]. destruct (H R2) as [_ H2].
  pose proof (getBand_range _ _ _ G) as B. specialize (H2 (Z.to_nat b) ltac:(unfold BAND_GLOBAL; lia)).
  pose proof (register_charge m2 b) as RC. rewrite E1, E2 in RC. specialize (RC G E3 E4). lia.
Qed.

(* --- from the start --- *)

Lemma bands_step c e k m : length (m_band m) = 6%nat /\ in_range (m_band m) ->
  length (m_band (fst (step c e k m))) = 6%nat /\ in_range (m_band (fst (step c e k m))).
Proof.
  intros [L R]. assert (k = C_process \/ k <> C_process) as [->|NP] by (destruct k; first [now left|right; discriminate]).
  - cbn [step fst]. destruct (process_held c e m) as (m3 & (_ & _ & H1 & H2) & E). rewrite E.
    assert (m_band (setNextBandEvent e m3) = m_band m3) as -> by (unfold setNextBandEvent; cbv zeta; destruct (_ <? _); reflexivity).
    destruct (bands_kept e m) as (_ & _ & _ & _ & K5 & K6). split; [congruence|]. apply H2. auto.
  - destruct (request_held c e k m NP) as (_ & _ & H1 & H2). split; [congruence|]. now apply H2.
Qed.
Lemma bands_run c h : forall m, length (m_band m) = 6%nat /\ in_range (m_band m) -> length (m_band (run c h m)) = 6%nat /\ in_range (m_band (run c h m)).
Proof. induction h as [|[e k] h IH]; intros m H; [exact H|]. cbn [run]. apply IH. now apply bands_step. Qed.
Lemma bands_init c r a e0 : length (m_band (MAC_init c r a e0)) = 6%nat /\ in_range (m_band (MAC_init c r a e0)).
Proof.
  assert (exists v, 0 <= v <= UINT32_MAX /\ m_band (MAC_init c r a e0) = upd (repeat 0 6) BAND_GLOBAL v) as (v & V & ->).
  { exists (msToTime (c_startup c)). split; [unfold msToTime, u32, UINT32_MAX; pose proof (Z.mod_pos_bound) as M; split; [apply M; lia|apply Zlt_succ_le, M; lia]|].
    open_def MAC_init. cbv zeta. set (m0 := restoreSession c r (ia_session a) _).
    assert (m_band m0 = repeat 0 6) as E; [|revert E; generalize m0; intros y E; rewrite <- E; reflexivity].
    unfold m0, restoreSession. destruct (ia_session a) as [s|]; [|reflexivity]. destruct (_ && _); [|reflexivity].
    destruct (deriveKeys_sm c (set_m_ctx s (initSession c r (mac_zero a)))) as (sm & ->). reflexivity. }
  split; [rewrite upd_length; reflexivity|]. apply range_upd; [|exact V]. repeat constructor; unfold UINT32_MAX; lia.
Qed.

Lemma process_clock c e m P T : clock_runs P m -> P <= T -> e_now e = clock T -> length (m_band m) = 6%nat ->
  Forall (fun x => x < UINT32_MAX) (m_band (MAC_process c e m)) -> (exists x, In x (m_band (MAC_process c e m)) /\ 0 < x) -> clock_runs T (MAC_process c e m).
Proof.
  intros (C1 & C2 & C3) LE N L U (x & I & X). destruct (process_held c e m) as (m3 & (H1 & H2 & H3 & _) & E). rewrite E in *.
  destruct (elapsed m (e_now e)) as [u rem] eqn:EL. destruct (processBands_state e m u rem C1 EL) as (B1 & B2 & B3 & _). cbv zeta in *.
  pose proof (elapsed_bound m P T ltac:(lia) C2 LE C3) as EB. rewrite <- N, EL in EB. destruct EB as (_ & EB & _).
  assert (m_band (setNextBandEvent e m3) = m_band m3) as SB by (unfold setNextBandEvent; cbv zeta; destruct (_ <? _); reflexivity). rewrite SB in *.
  assert (length (m_band m3) = 6%nat) as L3 by (rewrite H3, B3, map_length; exact L).
  assert (band_global m3 < UINT32_MAX) as G by (apply (proj1 (Forall_forall _ _) U), nth_In; rewrite L3; unfold BAND_GLOBAL; lia).
  pose proof (proj1 (Forall_forall _ _) U x I) as XM. cbv beta in XM.
  pose proof (next_time m3 x I ltac:(lia) G) as NT.
  unfold setNextBandEvent. cbv zeta. replace (nextBandTime m3 <? UINT32_MAX) with true by lia.
  unfold clock_runs. unfold timerSet, set_timer. mred. cbn [mt_parked mt_ticks mt_remainder]. rewrite H1, H2, B1, B2. cbn [mt_ticks mt_remainder]. auto.
Qed.

Lemma last_cons {A} (l : list A) : forall x y, List.last (x :: l) y = List.last l x.
Proof. induction l as [|z l IH]; intros x y; [reflexivity|]. change (List.last (x :: z :: l) y) with (List.last (z :: l) y). rewrite !IH. reflexivity. Qed.
Lemma timed_last h : forall T Ts, timed T h Ts -> T <= List.last Ts T.
Proof.
  induction h as [|[e k] h IH]; intros T [|T' Ts] H; try contradiction; [cbn [List.last]; lia|]. cbn [timed] in H. destruct H as (H1 & _ & H2).
  rewrite last_cons. specialize (IH _ _ H2). lia.
Qed.

Theorem next_request c r a e0 h0 e1 T0 P h Ts e cf port d o b : valid_start r (ia_session a) ->
  Forall (fun x => power_arg (snd x)) (h0 ++ (e1, C_process) :: h) -> 0 <= e_rand e RND_CHANNEL ->
  let m := run c h0 (MAC_init c r a e0) in let m2 := run c h (fst (step c e1 C_process m)) in
  tx_ends m e1 -> clock_runs P m -> P <= T0 -> e_now e1 = clock T0 -> getBand r (tx_freq (m_tx m)) = Some b ->
  timed T0 h Ts -> unsaturated c ((e1, C_process) :: h) m ->
  let k := C_data cf port d o in starts (IReq k (snd (step c e k m2))) = Some KData -> getBand r (tx_freq (m_tx (fst (step c e k m2)))) = Some b ->
  let off := tx_airTime (m_tx m) * getOffTimeFactor r b in 0 <= off < 2 ^ 32 ->
  off * m_tps m < 256 * (List.last Ts T0 - T0) + m_tps m.
Proof.
  intros VS PA RN m m2 TE CR LE N G TI US k ST G2 off OFF.
  destruct (bands_run c h0 _ (bands_init c r a e0)) as [L R]. fold m in L, R.
  apply Forall_app in PA. destruct PA as [PA1 PA2].
  assert (s_region (m_ctx m) = r) as RG by (exact (proj1 (proj1 (valid_always c r a e0 h0 VS PA1)))).
  pose proof (charged c e1 m b TE ltac:(rewrite RG; exact G) L R) as CH. rewrite RG in CH. fold off in CH.
  unfold u32 in CH. rewrite Z.mod_small in CH by exact OFF.
  pose proof (timed_last _ _ _ TI) as TL. assert (0 < m_tps m) as TP by (destruct CR as (_ & _ & CR); lia).
  destruct (Z.eq_dec off 0) as [Z0|NZ]; [rewrite Z0; lia|].
  cbn [unsaturated step fst] in US. cbv zeta in US. destruct US as [US1 US2]. cbn [step fst] in m2.
  pose proof (getBand_range _ _ _ G) as BR.
  destruct (bands_step c e1 C_process m (conj L R)) as [L1 R1]. cbn [step fst] in L1, R1.
  set (m1 := MAC_process c e1 m) in *.
  assert (clock_runs T0 m1) as CR1.
  { apply (process_clock c e1 m P T0 CR LE N L US1). exists (nth (Z.to_nat b) (m_band m1) 0). fold m1. split; [apply nth_In; rewrite L1; lia|lia]. }
  assert (valid_settings r (m_ctx m2)) as V2.
  { pose proof (valid_always c r a e0 (h0 ++ (e1, C_process) :: h) VS ltac:(apply Forall_app; split; auto)) as [V _].
    rewrite run_app in V. cbn [run step fst] in V. exact V. }
  destruct (accepted_choice c e m2 cf port d o (valid_room r _ V2) RN ST) as (_ & (OC & _) & TT & _).
  assert (s_region (m_ctx m2) = r) as RG2 by exact (proj1 V2).
  assert (nth (Z.to_nat b) (m_band m2) 0 <= 0) as Z2.
  { destruct OC as (_ & _ & f & lo & hi & bb & GC & _ & GB & LB). destruct TT as (_ & TT).
    destruct TT as (f' & lo' & hi' & GC' & TF & _). fold k in GC, GC', TF. rewrite GC in GC'. injection GC' as <- <- <-.
    rewrite RG2 in GB. fold k in G2. rewrite TF, GB in G2. injection G2 as <-. exact LB. }
  destruct (bands_run c h m1 (conj L1 R1)) as [_ R2]. pose proof (range_nth _ (Z.to_nat b) R2) as RR. fold m2 in RR.
  pose proof (waits c h m1 T0 Ts (Z.to_nat b) ltac:(unfold BAND_GLOBAL; lia) L1 R1 CR1 TI US2 ltac:(fold m2; lia)) as W.
  assert (m_tps m1 = m_tps m) as TPS.
  { unfold m1. destruct (process_held c e1 m) as (m3 & (_ & H & _) & E). rewrite E.
    transitivity (m_tps m3); [unfold setNextBandEvent; cbv zeta; destruct (_ <? _); reflexivity|]. rewrite H.
    unfold processBands. destruct (mt_parked _); [reflexivity|]. destruct (elapsed _ _). cbv zeta. destruct (_ && _); reflexivity. }
  rewrite TPS in W. nia.
Qed.
