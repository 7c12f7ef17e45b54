(* The channel a join request is given where channels are defined by the
   network. *)
From Verif Require Import Lib StreamM FrameM CommandsM RegionM RadioM SmM MacStateM MacTac MacUtilM OpsM MacCmdM MacProcM MacApiM MacRw SpecRegion SpecValid SpecChan RegionP ChanP CoreP CaseP RxP SpecHist SpecSend HistP EndP TxP UplinkP ReadyP ReqP DataP AcceptP CtxP DownP SelectP ValidP SentP ChoiceP.

Lemma fold_min (f : Z -> Z) l : forall a,
  let w := fold_left (fun acc ch => if acc >? f ch then f ch else acc) l a in
  w <= a /\ (forall ch, In ch l -> w <= f ch) /\ (w = a \/ exists ch, In ch l /\ w = f ch).
Proof.
  induction l as [|x l IH]; intros a; cbv zeta; cbn [fold_left]; [split; [lia|]; split; [intros ch []|auto]|].
  destruct (IH (if a >? f x then f x else a)) as (A & B & C). cbv zeta in A, B, C. set (w := fold_left _ l _) in *.
  destruct (a >? f x) eqn:E.
  - split; [lia|]. split; [intros ch [<-|I]; [lia|now apply B]|]. right. destruct C as [C|(ch & I & C)]; [exists x; split; [now left|exact C]|exists ch; split; [now right|exact C]].
  - split; [lia|]. split; [intros ch [<-|I]; [lia|now apply B]|]. destruct C as [C|(ch & I & C)]; [auto|right; exists ch; split; [now right|exact C]].
Qed.

(* off-time left before channel ch can be used *)
Lemma until_open m ch w : mask_room (m_ctx m) -> 0 <= ch < numChannels (s_region (m_ctx m)) -> w < UINT32_MAX ->
  timeUntilAvailable m ch <= w <-> open_channel m w ch /\ band_global m <= w.
Proof.
  intros R B W. rewrite <- available_open by assumption. unfold timeUntilAvailable, isAvailable. cbv zeta.
  destruct (negb _); [|split; [lia|intros [X _]; discriminate X]].
  destruct (getChannel (m_ctx m) ch) as [[[f lo] hi]|]; [|split; [lia|intros [X _]; discriminate X]].
  destruct (f >? 0); [|split; [lia|intros [X _]; discriminate X]].
  destruct (getBand _ f) as [b|]; [|split; [lia|intros [X _]; discriminate X]].
  rewrite Z.leb_le. destruct (_ >? _) eqn:E; lia.
Qed.

Lemma until_least m : mask_room (m_ctx m) -> (exists ch w, open_channel m w ch /\ w < UINT32_MAX) -> band_global m < UINT32_MAX ->
  let w := timeUntilNextChannel m in
  w < UINT32_MAX /\ (exists ch, open_channel m w ch) /\ forall x y, open_channel m y x -> y < UINT32_MAX -> w <= Z.max y (band_global m).
Proof.
  intros R (c0 & w0 & O0 & W0) G w.
  destruct (fold_min (timeUntilAvailable m) (channels (s_region (m_ctx m))) UINT32_MAX) as (A & B & C). cbv zeta in A, B, C.
  change (fold_left _ (channels (s_region (m_ctx m))) UINT32_MAX) with w in A, B, C.
  assert (forall x y, open_channel m y x -> y < UINT32_MAX -> w <= Z.max y (band_global m)) as LE.
  { intros x y O Y. pose proof (open_range _ _ _ O) as RG. etransitivity; [apply B, channels_in; exact RG|].
    apply until_open; [exact R|exact RG|lia|]. split; [|lia]. destruct O as (X1 & X2 & f & lo & hi & b & X3 & X4 & X5 & X6). split; [exact X1|]. split; [exact X2|]. exists f, lo, hi, b. repeat split; try assumption. lia. }
  pose proof (LE c0 w0 O0 W0) as L0. assert (w < UINT32_MAX) as WM by lia.
  split; [exact WM|]. split; [|exact LE]. destruct C as [C|(ch & I & C)]; [lia|]. exists ch. apply channels_in in I.
  assert (timeUntilAvailable m ch <= w) as X by lia. apply until_open in X; [exact (proj1 X)|exact R|exact I|exact WM].
Qed.

Lemma pick_same s s' mask ex sel d chs : s_region s' = s_region s -> (forall ch, getChannel s' ch = getChannel s ch) -> forall j tx,
  sel_pick s' mask ex sel d chs j tx = sel_pick s mask ex sel d chs j tx.
Proof.
  intros R G. induction chs as [|ch l IH]; intros j tx; cbn [sel_pick]; [reflexivity|]. rewrite R, G, !IH. reflexivity.
Qed.

Lemma join_choice c e n m : mask_room (m_ctx m) -> 0 <= e_rand e RND_CHANNEL -> isDynamic (s_region (m_ctx m)) = true ->
  (exists ch w, open_channel m w ch /\ w < UINT32_MAX) -> band_global m < UINT32_MAX ->
  let tx := m_tx (fillJoinBuffer c e n m) in
  soonest m (tx_chIndex tx) /\ tuned_to (m_ctx m) (tx_chIndex tx) (dwellRate c (m_ctx m) (getJoinRate (c_noSF12 c) (s_region (m_ctx m)) (m_trials m))) tx /\
  ((exists x, open_channel m (timeUntilNextChannel m) x /\ x <> tx_chIndex (m_tx m)) -> tx_chIndex tx <> tx_chIndex (m_tx m)).
Proof.
  intros R RN DY EX G. cbv zeta. destruct (until_least m R EX G) as (W & E1 & LE).
  destruct (select_found m (dwellRate c (m_ctx m) (getJoinRate (c_noSF12 c) (s_region (m_ctx m)) (m_trials m))) (timeUntilNextChannel m) (e_rand e RND_CHANNEL) (m_tx m) R RN) as [SF1 SF2].
  destruct (SF2 (proj2 SF1 E1)) as [[OC U] TT].
  assert (m_tx (fillJoinBuffer c e n m) = fst (selectChannel m (dwellRate c (m_ctx m) (getJoinRate (c_noSF12 c) (s_region (m_ctx m)) (m_trials m))) (timeUntilNextChannel m) (e_rand e RND_CHANNEL) (m_tx m))) as ->.
  { clear - DY. open_def fillJoinBuffer. set (dn := match c_l2 c with L2_1_0_3 => _ | _ => n end). cbv zeta.
    destruct (prepareJoinRequest _ _ _ _ _) as [buf len]. set (x := set_m_bufferLen len (set_m_buffer buf (on_ctx (set_s_devNonce dn) m))).
    unfold selectJoinChannelAndRate. cbv zeta. change (isDynamic (s_region (m_ctx x))) with (isDynamic (s_region (m_ctx m))). rewrite DY.
    change (m_tx (set_m_tx (fst (selectChannel x (dwellRate c (m_ctx x) (getJoinRate (c_noSF12 c) (s_region (m_ctx x)) (m_trials x))) (timeUntilNextChannel x) (e_rand e RND_CHANNEL) (m_tx x))) x))
      with (fst (selectChannel x (dwellRate c (m_ctx x) (getJoinRate (c_noSF12 c) (s_region (m_ctx x)) (m_trials x))) (timeUntilNextChannel x) (e_rand e RND_CHANNEL) (m_tx x))).
    assert (timeUntilNextChannel x = timeUntilNextChannel m) as -> by reflexivity.
    assert (forall d w r t, selectChannel x d w r t = selectChannel m d w r t) as ->.
    { intros d w r t. unfold selectChannel. assert (sel_scan x w = sel_scan m w) as -> by reflexivity. change (s_region (m_ctx x)) with (s_region (m_ctx m)).
      destruct (sel_scan m w) as [[mask av] ex]. destruct (av >? 0); [|reflexivity]. destruct (if negb (ex =? 255) then _ else _) as [e1 a1]. apply pick_same; reflexivity. }
    reflexivity. }
  split; [exists (timeUntilNextChannel m); split; [exact OC|exact LE]|]. split; [exact TT|].
  intros (x & OX & NX) E. rewrite E in U. specialize (U eq_refl x OX). congruence.
Qed.

Lemma open_mono m w w' ch : w <= w' -> open_channel m w ch -> open_channel m w' ch.
Proof. intros L (X1 & X2 & f & lo & hi & b & X3 & X4 & X5 & X6). split; [exact X1|]. split; [exact X2|]. exists f, lo, hi, b. repeat split; try assumption. lia. Qed.

Lemma soonest_least m x : mask_room (m_ctx m) -> (exists ch w, open_channel m w ch /\ w < UINT32_MAX) -> band_global m < UINT32_MAX ->
  soonest m x -> open_channel m (timeUntilNextChannel m) x.
Proof.
  intros R EX G (w & O & LE). destruct (until_least m R EX G) as (W & (ch & E1) & _). apply open_mono with w; [|exact O].
  specialize (LE _ _ E1 W). enough (band_global m <= timeUntilNextChannel m) by lia.
  destruct (fold_min (timeUntilAvailable m) (channels (s_region (m_ctx m))) UINT32_MAX) as (_ & _ & C). cbv zeta in C.
  change (fold_left _ (channels (s_region (m_ctx m))) UINT32_MAX) with (timeUntilNextChannel m) in C.
  destruct C as [C|(y & I & C)]; [lia|]. apply channels_in in I. apply (until_open m y (timeUntilNextChannel m) R I W). lia.
Qed.

Lemma open_same m m' w ch : m_ctx m' = m_ctx m -> m_band m' = m_band m -> open_channel m' w ch <-> open_channel m w ch.
Proof. intros E1 E2. unfold open_channel. rewrite E1, E2. reflexivity. Qed.
Lemma soonest_same m m' ch : m_ctx m' = m_ctx m -> m_band m' = m_band m -> soonest m' ch <-> soonest m ch.
Proof.
  intros E1 E2. unfold soonest, band_global, band_get. rewrite E2. split; intros (w & O & L); exists w; (split; [now apply (open_same m m' w ch E1 E2)|]);
  intros x y OX; apply (L x y); now apply (open_same m m' y x E1 E2).
Qed.
Lemma least_same m m' : m_ctx m' = m_ctx m -> m_band m' = m_band m -> timeUntilNextChannel m' = timeUntilNextChannel m.
Proof.
  intros E1 E2. unfold timeUntilNextChannel. rewrite E1. generalize UINT32_MAX. induction (channels _) as [|y l IH]; intros a; [reflexivity|]. cbn [fold_left].
  assert (timeUntilAvailable m' y = timeUntilAvailable m y) as ->; [|apply IH].
  unfold timeUntilAvailable, band_global, band_get. rewrite E1, E2. reflexivity.
Qed.

Lemma starts_tx x n : let y := set_m_op OP_JOINING (on_tx (set_tx_power 0) (set_m_devNonce n x)) in
  tx_freq (m_tx y) = tx_freq (m_tx x) /\ tx_chIndex (m_tx y) = tx_chIndex (m_tx x) /\ tx_rate (m_tx y) = tx_rate (m_tx x).
Proof. repeat split. Qed.
Lemma before_join m l : let mm := set_m_sm l (set_m_trials 0 m) in m_ctx mm = m_ctx m /\ m_band mm = m_band m /\ m_tx mm = m_tx m /\ m_trials mm = 0.
Proof. repeat split. Qed.

Lemma act_otaa_inv c e m k r m' : act c e m k r m' -> k = C_otaa -> r = RStatus STATUS_OK ->
  exists x mm, x = fillJoinBuffer c e (u16 (m_devNonce m)) mm /\ m_ctx mm = m_ctx m /\ m_band mm = m_band m /\ m_tx mm = m_tx m /\ m_trials mm = 0 /\
  tx_freq (m_tx m') = tx_freq (m_tx x) /\ tx_chIndex (m_tx m') = tx_chIndex (m_tx x) /\ tx_rate (m_tx m') = tx_rate (m_tx x).
Proof.
  intros A K RR. destruct A; try discriminate K; try discriminate RR.
  - exfalso. congruence.
  - exfalso. injection RR as RR. auto.
  - exists x, (set_m_sm (m_sm m ++ sm) (set_m_trials 0 m)). split; [reflexivity|]. clearbody x.
    destruct (before_join m (m_sm m ++ sm)) as (B1 & B2 & B3 & B4). repeat (split; [assumption|]).
    pose proof (core_send _ _ H2) as (_ & _ & _ & G1 & G2 & G3 & _). destruct (starts_tx x (u32 (m_devNonce m + 1))) as (X1 & X2 & X3).
    rewrite G1, G2, G3. auto.
  - exfalso. rewrite K in H1. exact H1.
Qed.

Lemma otaa_choice c e m : mask_room (m_ctx m) -> 0 <= e_rand e RND_CHANNEL -> isDynamic (s_region (m_ctx m)) = true ->
  (exists ch w, open_channel m w ch /\ w < UINT32_MAX) -> band_global m < UINT32_MAX ->
  snd (step c e C_otaa m) = RStatus STATUS_OK ->
  let m' := fst (step c e C_otaa m) in let ch := tx_chIndex (m_tx m') in
  soonest m ch /\ (exists rate, tuned_to (m_ctx m) ch rate (m_tx m')) /\ ((exists x, soonest m x /\ x <> tx_chIndex (m_tx m)) -> ch <> tx_chIndex (m_tx m)).
Proof.
  intros R RN DY EX G OK m'. destruct (step_cases c e C_otaa m) as (m1 & m2 & _ & A & Q2 & E1). assert (m1 = m) as -> by (apply E1; discriminate). fold m' in Q2.
  destruct Q2 as [[C2 _] _]. destruct (act_otaa_inv _ _ _ _ _ _ A eq_refl OK) as (x & mm & EX1 & M1 & M2 & M3 & _ & G1 & G2 & G3). clearbody m'. clear A E1 OK.
  destruct (join_choice c e (u16 (m_devNonce m)) mm) as (J1 & J2 & J3);
    [rewrite M1; exact R|exact RN|rewrite M1; exact DY| |unfold band_global; rewrite M2; exact G|].
  { destruct EX as (ch & w & O & W). exists ch, w. split; [|exact W]. apply (open_same m mm); auto. }
  rewrite <- EX1 in J1, J2, J3. rewrite M1 in J2. rewrite M3 in J3. clear EX1.
  pose proof (core_send _ _ C2) as (_ & _ & _ & F1 & F2 & F3 & _).
  assert (tx_chIndex (m_tx m') = tx_chIndex (m_tx x)) as EC by congruence. cbv zeta. rewrite EC.
  split; [apply (soonest_same m mm); auto|]. split.
  - eexists. destruct J2 as (T1 & f & lo & hi & T2 & T3 & T4). split; [exact EC|]. exists f, lo, hi. split; [exact T2|]. split; [congruence|].
    intros LH. assert (tx_rate (m_tx m') = tx_rate (m_tx x)) as -> by congruence. exact (T4 LH).
  - intros (y & SY & NE). apply J3. exists y. split; [|exact NE].
    rewrite (least_same m mm M1 M2). apply (open_same m mm); auto. apply (soonest_least m y R EX G SY).
Qed.

Theorem join_always c r a e0 h e : valid_start r (ia_session a) -> Forall (fun x => power_arg (snd x)) h ->
  0 <= e_rand e RND_CHANNEL -> isDynamic r = true ->
  let m := run c h (MAC_init c r a e0) in let m' := fst (step c e C_otaa m) in let ch := tx_chIndex (m_tx m') in
  (exists x w, open_channel m w x /\ w < UINT32_MAX) -> band_global m < UINT32_MAX -> snd (step c e C_otaa m) = RStatus STATUS_OK ->
  soonest m ch /\ (exists rate, tuned_to (m_ctx m) ch rate (m_tx m')) /\ ((exists x, soonest m x /\ x <> tx_chIndex (m_tx m)) -> ch <> tx_chIndex (m_tx m)).
Proof.
  intros V PA RN DY m m' ch EX G OK. destruct (valid_always c r a e0 h V PA) as [VS _]. fold m in VS.
  apply otaa_choice; try assumption; [exact (valid_room _ _ VS)|]. rewrite (proj1 VS). exact DY.
Qed.
