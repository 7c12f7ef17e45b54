(* Timers and the off-time clock. *)
From Verif Require Import Lib FrameM RegionM MacStateM MacTac MacUtilM MacProcM MacApiM MacRw SpecTime.

Lemma clock_range T : 0 <= clock T < 4294967296.
Proof. unfold clock. apply Z.mod_pos_bound. lia. Qed.

Lemma p31 : 2 ^ 31 = 2147483648. Proof. reflexivity. Qed.
Lemma p32 : 2 ^ 32 = 4294967296. Proof. reflexivity. Qed.

Lemma timerDelta_spec a b : 0 <= a < 4294967296 -> 0 <= b < 4294967296 ->
  timerDelta a b = (b - a) mod 4294967296 - (if b <? a then 1 else 0).
Proof.
  intros Ha Hb. unfold timerDelta, u32, UINT32_MAX. destruct (a <=? b) eqn:E.
  - replace (b <? a) with false by lia. rewrite Z.mod_small by lia. lia.
  - replace (b <? a) with true by lia. rewrite Z.mod_small by lia.
    replace (b - a) with (b - a + 4294967296 + (-1) * 4294967296) by lia.
    rewrite Z.mod_add by lia. rewrite Z.mod_small by lia. lia.
Qed.

(* --- C20 --- *)

Lemma get_set i t m : (i < length (m_timers m))%nat -> get_timer (set_timer i t m) i = t.
Proof.
  intros H. unfold get_timer, set_timer. mred. rewrite nth_upd, Nat.eqb_refl.
  replace (i <? length (m_timers m))%nat with true by lia. reflexivity.
Qed.

Lemma timer_deadline T0 e0 i t m : (i < length (m_timers m))%nat -> 0 <= t < 2 ^ 31 -> e_now e0 = clock T0 ->
  get_timer (timerSet e0 i t m) i = mkTimer (clock (T0 + t)) true.
Proof.
  intros Hi Ht He. unfold timerSet. rewrite get_set by assumption. unfold mask31, u32, clock in *.
  rewrite p31, p32 in *. rewrite He, (Z.mod_small t) by lia. f_equal. lia.
Qed.

Lemma timer_check D T i e m : get_timer m i = mkTimer (clock D) true -> e_now e = clock T ->
  - 2 ^ 31 < T - D < 2 ^ 31 - 1 ->
  match snd (timerCheck e i m) with
  | Some lag => D <= T /\ lag = T - D - (if wraps D T then 1 else 0)
  | None => T < D
  end.
Proof.
  intros Hg He Hr. unfold timerCheck. rewrite Hg. cbn [tm_armed tm_time]. rewrite He.
  rewrite timerDelta_spec by apply clock_range. fold (wraps D T).
  pose proof (clock_range D). pose proof (clock_range T).
  unfold wraps, clock in *. rewrite p31, p32 in *. unfold INT32_MAX.
  destruct (_ <? 2147483647) eqn:E; cbn [snd].
  - destruct (T mod 4294967296 <? D mod 4294967296) eqn:Ew; lia.
  - destruct (T mod 4294967296 <? D mod 4294967296) eqn:Ew; lia.
Qed.

(* --- C21 --- *)

(* value contributed by one armed timer *)
Lemma due_delta now t : 0 <= now < 4294967296 -> timer_ok t -> tm_armed t = true ->
  (tm_time t - now) mod 4294967296 <> 2147483648 ->
  (timerDelta (tm_time t) now <=? INT32_MAX) = due now t.
Proof.
  intros Hn Ht Ha Hx. unfold due. rewrite Ha, andb_true_l. unfold timer_ok in Ht.
  rewrite timerDelta_spec by lia. unfold ahead, INT32_MAX. cbv zeta. rewrite p31, p32.
  destruct (now <? tm_time t) eqn:E1;
  destruct ((tm_time t - now) mod 4294967296 <? 2147483648) eqn:E2;
  match goal with |- ?a = ?b => destruct a eqn:EA; destruct b eqn:EB; try reflexivity end; lia.
Qed.

Lemma left_delta now t : 0 <= now < 4294967296 -> timer_ok t -> due now t = false -> tm_armed t = true ->
  timerDelta now (tm_time t) = ahead now (tm_time t) - (if tm_time t <? now then 1 else 0) /\ 0 < ahead now (tm_time t).
Proof.
  intros Hn Ht Hd Ha. unfold due in Hd. rewrite Ha, andb_true_l in Hd. unfold timer_ok in Ht.
  rewrite timerDelta_spec by lia. unfold ahead in *. cbv zeta in *. rewrite p31, p32 in *.
  destruct (_ <? 2147483648) eqn:E; lia.
Qed.

Definition short (now : Z) (t : timer) : Z := if tm_time t <? now then 1 else 0.

Lemma until_from now ts : 0 <= now < 4294967296 -> Forall timer_ok ts -> existsb (tie now) ts = false ->
  forall acc, 0 < acc ->
  let r := ticksUntilNext_from now ts acc in
  (existsb (due now) ts = true -> r = 0) /\
  (existsb (due now) ts = false ->
     r <= acc /\ 0 <= r /\
     (forall t, In t ts -> tm_armed t = true -> r <= ahead now (tm_time t)) /\
     (r = acc \/ exists t, In t ts /\ tm_armed t = true /\ r = ahead now (tm_time t) - short now t)).
Proof.
  intros Hn. induction ts as [|t ts IH]; intros Hok Ht acc Hacc r.
  - cbn in *. subst r. split; [discriminate|]. intros _. split; [lia|]. split; [lia|]. split; [contradiction|now left].
  - inversion Hok as [|? ? Hot Hots]; subst. cbn [existsb] in *. apply orb_false_iff in Ht. destruct Ht as [Ht1 Ht2].
    specialize (IH Hots Ht2). unfold r. clear r. cbn [ticksUntilNext_from].
    destruct (tm_armed t) eqn:Ea.
    + assert ((tm_time t - now) mod 4294967296 <> 2147483648) as Hne
        by (unfold tie in Ht1; rewrite Ea in Ht1; lia).
      rewrite (due_delta now t Hn Hot Ea Hne). destruct (due now t) eqn:Ed.
      * cbn [orb]. rewrite Z.eqb_refl. split; [auto|discriminate].
      * cbn [orb]. destruct (left_delta now t Hn Hot Ed Ea) as [El Hp]. rewrite El. fold (short now t).
        assert (0 <= short now t <= 1) as Hs by (unfold short; destruct (_ <? _); lia).
        set (v := ahead now (tm_time t) - short now t) in *.
        destruct (v <? acc) eqn:Ev.
        -- destruct (v =? 0) eqn:E0.
           ++ split; [reflexivity|]. intros Hd. split; [lia|]. split; [lia|]. split.
              ** intros t' Hin Ha'. destruct Hin as [->|Hin]; [lia|].
                 assert (due now t' = false) as Hd'.
                 { destruct (due now t') eqn:E; auto. assert (existsb (due now) ts = true); [|congruence].
                   apply existsb_exists. eauto. }
                 pose proof (proj1 (Forall_forall _ _) Hots t' Hin) as Ho'.
                 pose proof (left_delta now t' Hn Ho' Hd' Ha') as [_ ?]. lia.
              ** right. exists t. split; [now left|]. split; [auto|lia].
           ++ destruct (IH v ltac:(lia)) as [I1 I2]. split; [exact I1|]. intros Hd.
              destruct (I2 Hd) as (J1 & J2 & J3 & J4). split; [lia|]. split; [lia|]. split.
              ** intros t' [->|Hin] Ha'; [lia|auto].
              ** right. destruct J4 as [J4|(t' & Hin & Ha' & J4)].
                 --- exists t. split; [now left|]. auto.
                 --- exists t'. split; [now right|]. auto.
        -- replace (acc =? 0) with false by lia.
           destruct (IH acc Hacc) as [I1 I2]. split; [exact I1|]. intros Hd.
           destruct (I2 Hd) as (J1 & J2 & J3 & J4). split; [lia|]. split; [lia|]. split.
           ++ intros t' [->|Hin] Ha'; [lia|auto].
           ++ destruct J4 as [J4|(t' & Hin & Ha' & J4)]; [now left|right].
              exists t'. split; [now right|]. auto.
    + assert (due now t = false) as -> by (unfold due; now rewrite Ea). cbn [orb].
      replace (acc =? 0) with false by lia.
      destruct (IH acc Hacc) as [I1 I2]. split; [exact I1|]. intros Hd.
      destruct (I2 Hd) as (J1 & J2 & J3 & J4). split; [lia|]. split; [lia|]. split.
      * intros t' [->|Hin] Ha'; [congruence|auto].
      * destruct J4 as [J4|(t' & Hin & Ha' & J4)]; [now left|right].
        exists t'. split; [now right|]. auto.
Qed.

Lemma until_spec e m : 0 <= e_now e < 4294967296 -> Forall timer_ok (m_timers m) ->
  existsb (tie (e_now e)) (m_timers m) = false ->
  let r := MAC_ticksUntilNextEvent e m in
  let pending := inputPending m || existsb (due (e_now e)) (m_timers m) in
  (pending = true -> r = 0) /\
  (pending = false ->
     (existsb tm_armed (m_timers m) = false -> r = UINT32_MAX) /\
     (forall t, In t (m_timers m) -> tm_armed t = true -> r <= ahead (e_now e) (tm_time t)) /\
     (existsb tm_armed (m_timers m) = true ->
        exists x, earliest (e_now e) (m_timers m) x /\ x - 1 <= r <= x)).
Proof.
  intros Hn Hok Ht r pending. unfold r, pending, MAC_ticksUntilNextEvent, timerTicksUntilNext.
  destruct (inputPending m); cbn [orb]; [split; [auto|discriminate]|].
  destruct (until_from (e_now e) (m_timers m) Hn Hok Ht UINT32_MAX ltac:(unfold UINT32_MAX; lia)) as [H1 H2].
  cbv zeta in H1, H2. set (x := ticksUntilNext_from (e_now e) (m_timers m) UINT32_MAX) in *.
  split; [exact H1|]. intros Hd. destruct (H2 Hd) as (J1 & J2 & J3 & J4).
  split; [|split; [exact J3|]].
  - intros Hna. destruct J4 as [J4|(t & Hin & Ha & _)]; auto.
    assert (existsb tm_armed (m_timers m) = true) by (apply existsb_exists; eauto). congruence.
  - intros Harm. apply existsb_exists in Harm. destruct Harm as (t0 & Hin0 & Ha0).
    destruct J4 as [J4|(t & Hin & Ha & J4)].
    + pose proof (J3 t0 Hin0 Ha0). rewrite J4 in *.
      assert (ahead (e_now e) (tm_time t0) < 2147483648) by
       (unfold ahead; cbv zeta; rewrite p31, p32; destruct (_ <? _) eqn:E; lia).
      unfold UINT32_MAX in *. lia.
    + (* pick the earliest *)
      assert (exists y, earliest (e_now e) (m_timers m) y) as [y Hy].
      { clear - Hin0 Ha0. unfold earliest. induction (m_timers m) as [|u ts IH]; [contradiction|].
        destruct (existsb tm_armed ts) eqn:Eex.
        - apply existsb_exists in Eex. destruct Eex as (u' & Hu' & Hau').
          assert (exists y t, In t ts /\ tm_armed t = true /\ y = ahead (e_now e) (tm_time t) /\
                  (forall t', In t' ts -> tm_armed t' = true -> y <= ahead (e_now e) (tm_time t'))) as (y & t & A & B & C & D).
          { clear IH. revert Hu' Hau'. clear. revert u'. induction ts as [|v ts IH]; [contradiction|].
            intros u' Hu' Ha'. destruct (existsb tm_armed ts) eqn:E.
            - apply existsb_exists in E. destruct E as (w & Hw & Haw).
              destruct (IH w Hw Haw) as (y & t & A & B & C & D).
              destruct (tm_armed v) eqn:Ev.
              + destruct (Z.leb_spec y (ahead (e_now e) (tm_time v))).
                * exists y, t. split; [now right|]. split; [auto|]. split; [auto|]. intros t' [->|Hin]; auto.
                * exists (ahead (e_now e) (tm_time v)), v. split; [now left|]. split; [auto|]. split; [auto|].
                  intros t' [->|Hin] Ht'; [lia|]. specialize (D t' Hin Ht'). lia.
              + exists y, t. split; [now right|]. split; [auto|]. split; [auto|]. intros t' [->|Hin]; [congruence|auto].
            - assert (forall w, In w ts -> tm_armed w = true -> False) as Hno.
              { intros w Hw Haw. assert (existsb tm_armed ts = true) by (apply existsb_exists; eauto). congruence. }
              destruct Hu' as [->|Hu']; [|exfalso; eauto].
              exists (ahead (e_now e) (tm_time u')), u'. split; [now left|]. split; [auto|]. split; [auto|].
              intros t' [->|Hin] Ht'; [lia|exfalso; eauto]. }
          destruct (tm_armed u) eqn:Eu.
          + destruct (Z.leb_spec y (ahead (e_now e) (tm_time u))).
            * exists y, t. split; [now right|]. split; [auto|]. split; [auto|]. intros t' [->|Hin]; auto.
            * exists (ahead (e_now e) (tm_time u)), u. split; [now left|]. split; [auto|]. split; [auto|].
              intros t' [->|Hin] Ht'; [lia|]. specialize (D t' Hin Ht'). lia.
          + exists y, t. split; [now right|]. split; [auto|]. split; [auto|]. intros t' [->|Hin]; [congruence|auto].
        - assert (forall w, In w ts -> tm_armed w = true -> False) as Hno.
          { intros w Hw Haw. assert (existsb tm_armed ts = true) by (apply existsb_exists; eauto). congruence. }
          destruct Hin0 as [->|Hin0]; [|exfalso; eauto].
          exists (ahead (e_now e) (tm_time t0)), t0. split; [now left|]. split; [auto|]. split; [auto|].
          intros t' [->|Hin'] Ht'; [lia|exfalso; eauto]. }
      exists y. split; [exact Hy|]. destruct Hy as (t1 & A & B & C & D).
      pose proof (J3 t1 A B). pose proof (D t Hin Ha).
      assert (0 <= short (e_now e) t <= 1) by (unfold short; destruct (_ <? _); lia). lia.
Qed.

(* --- C22 --- *)

Lemma elapsed_spec m T T' : tps_ok (m_tps m) ->
  mt_ticks (m_time m) = clock T -> T <= T' < T + 2 ^ 32 -> 0 <= mt_remainder (m_time m) < m_tps m ->
  let '(units, rem) := elapsed m (clock T') in
  0 <= units /\ 0 <= rem < m_tps m /\
  units * m_tps m + rem = 256 * (T' - T - (if wraps T T' then 1 else 0)) + mt_remainder (m_time m).
Proof.
  intros Hp Ht HT Hr. unfold elapsed. rewrite Ht.
  rewrite timerDelta_spec by apply clock_range. fold (wraps T T').
  set (s := (clock T' - clock T) mod 4294967296 - (if wraps T T' then 1 else 0)).
  assert (s = T' - T - (if wraps T T' then 1 else 0) /\ 0 <= s < 4294967296) as [Es Hs].
  { unfold s, wraps. pose proof (clock_range T). pose proof (clock_range T').
    unfold clock in *. rewrite p32 in *. destruct (_ <? _) eqn:E; lia. }
  rewrite <- Es. clearbody s. clear Es. unfold tps_ok in Hp. set (p := m_tps m) in *.
  set (rem := mt_remainder (m_time m)) in *. unfold timeTPS. cbv zeta.
  assert (0 <= s mod p < p) by (apply Z.mod_pos_bound; lia).
  rewrite (u32_id (s mod p * 256)) by lia. rewrite (u32_id (s mod p * 256 + rem)) by lia.
  assert (0 <= s / p) by (apply Z.div_pos; lia).
  assert (s / p * p <= s) by (pose proof (Z.mul_div_le s p ltac:(lia)); lia).
  assert (s / p * 256 <= s / p * p) by nia.
  set (f := s mod p * 256 + rem) in *.
  assert (s = p * (s / p) + s mod p) as Edm by (apply Z.div_mod; lia).
  assert (f / p <= 256) as Hf by (apply Z.lt_succ_r, Z.div_lt_upper_bound; lia).
  assert (0 <= f / p) by (apply Z.div_pos; lia).
  assert (f = p * (f / p) + f mod p) as Ef by (apply Z.div_mod; lia).
  assert (0 <= f mod p < p) by (apply Z.mod_pos_bound; lia).
  (* the sum stays below 2^32 because s < 2^32 *)
  assert (p * (s / p * 256 + f / p) <= 256 * s + rem) by lia.
  assert (s / p * 256 + f / p < 4294967296) as Hsum.
  { destruct (Z_lt_ge_dec (s / p * 256 + f / p) 4294967296) as [|Hge]; auto. exfalso.
    assert (p * 4294967296 <= p * (s / p * 256 + f / p)) by nia.
    assert (256 * s + rem <= 256 * 4294967295 + rem) by lia. nia. }
  rewrite (u32_id (s / p * 256)) by lia. rewrite u32_id by lia.
  split; [lia|]. split; [lia|]. nia.
Qed.

Lemma down_counter x t : 0 <= x -> 0 <= t -> fst (updateDownCounter x t) = drain x t.
Proof.
  intros. unfold updateDownCounter, drain. destruct (x >? 0) eqn:E1; [destruct (x <=? t) eqn:E2|]; cbn; lia.
Qed.

Lemma drain_drain x a b : 0 <= a -> 0 <= b -> drain (drain x a) b = drain x (a + b).
Proof. unfold drain. lia. Qed.

Lemma processBands_state e m units rem : mt_parked (m_time m) = false ->
  elapsed m (e_now e) = (units, rem) ->
  let m' := fst (processBands e m) in
  m_time m' = mkTime (e_now e) rem false /\ m_tps m' = m_tps m /\
  m_band m' = map (fun b => fst (updateDownCounter b units)) (m_band m) /\
  m_day m' = fst (updateDownCounter (m_day m) units).
Proof.
  intros Hp He. cbv zeta. unfold processBands. rewrite Hp, He. cbv zeta.
  destruct (_ && _); mred; auto.
Qed.

Lemma updates_spec Ts E : forall m T0,
  tps_ok (m_tps m) -> bands_ok m -> mt_parked (m_time m) = false ->
  mt_ticks (m_time m) = clock T0 -> 0 <= mt_remainder (m_time m) < m_tps m ->
  readings T0 Ts -> (forall T, e_now (E T) = clock T) ->
  let m' := updates Ts E m in
  let Tn := last Ts T0 in
  exists total rem, 0 <= total /\ 0 <= rem < m_tps m /\
    total * m_tps m + rem = 256 * (Tn - T0 - wrap_count T0 Ts) + mt_remainder (m_time m) /\
    m_time m' = mkTime (clock Tn) rem false /\
    m_band m' = map (fun b => drain b total) (m_band m) /\ m_day m' = drain (m_day m) total.
Proof.
  induction Ts as [|T Ts IH]; intros m T0 Hp [Hb Hd] Hk Ht Hr Hre HE; cbv zeta.
  - exists 0, (mt_remainder (m_time m)). cbn [updates last wrap_count].
    assert (forall x, 0 <= x -> drain x 0 = x) as H0 by (unfold drain; lia).
    split; [lia|]. split; [lia|]. split; [lia|].
    split; [rewrite <- Ht; destruct (m_time m); cbn in *; congruence|].
    split; [|now rewrite H0]. clear - Hb H0. induction (m_band m) as [|x l IHl]; [reflexivity|].
    inversion Hb; subst. cbn. rewrite H0 by lia. now rewrite <- IHl.
  - cbn [readings] in Hre. destruct Hre as [HT Hre]. cbn [updates wrap_count].
    pose proof (elapsed_spec m T0 T Hp Ht HT Hr) as Hel. rewrite <- (HE T) in Hel.
    destruct (elapsed m (e_now (E T))) as [units rem] eqn:Ee. destruct Hel as (Hu & Hrem & Heq).
    destruct (processBands_state (E T) m units rem Hk Ee) as (S1 & S2 & S3 & S4). cbv zeta in *.
    set (m1 := fst (processBands (E T) m)) in *.
    assert (bands_ok m1) as Hb1.
    { split; [rewrite S3 | rewrite S4].
      - apply Forall_forall. intros x Hx. apply in_map_iff in Hx. destruct Hx as (b & <- & Hbin).
        assert (0 <= b) by exact (proj1 (Forall_forall _ _) Hb b Hbin). rewrite down_counter by lia. unfold drain; lia.
      - rewrite down_counter by lia. unfold drain; lia. }
    destruct (IH m1 T) as (tot & rem' & I1 & I2 & I3 & I4 & I5 & I6); auto.
    + now rewrite S2.
    + rewrite S1. reflexivity.
    + rewrite S1. cbn. apply HE.
    + rewrite S1, S2. cbn. lia.
    + cbv zeta in *. rewrite S2, S1 in *. cbn [mt_remainder] in *.
      assert (last (T :: Ts) T0 = last Ts T) as -> by (destruct Ts; [reflexivity|cbn [last]; clear; revert z; induction Ts; intros; cbn [last] in *; auto]).
      exists (units + tot), rem'. split; [lia|]. split; [lia|]. split; [lia|]. split; [exact I4|].
      split.
      * rewrite I5, S3, map_map. apply map_ext_in. intros b Hbin.
        assert (0 <= b) by exact (proj1 (Forall_forall _ _) Hb b Hbin). rewrite down_counter by lia. apply drain_drain; lia.
      * rewrite I6, S4, down_counter by lia. apply drain_drain; lia.
Qed.

(* --- C42 --- *)

Lemma tier_spec m t : 0 <= t -> m_day m = drain (24 * 3600 * 256) t -> getOTAAOffTime m = join_tier t.
Proof.
  intros Ht Hd. unfold getOTAAOffTime, join_tier, timeTPS, drain in *. rewrite Hd.
  destruct (t <? 1 * 3600 * 256) eqn:E1; [|destruct (t <? 11 * 3600 * 256) eqn:E2].
  - replace (_ >? _) with true by lia. reflexivity.
  - replace (_ >? 256 * 23 * 60 * 60) with false by lia. replace (_ >? _) with true by lia. reflexivity.
  - replace (_ >? 256 * 23 * 60 * 60) with false by lia. replace (_ >? _) with false by lia. reflexivity.
Qed.

Lemma sat_add_spec x y : 0 <= x < 4294967296 -> 0 <= y < 4294967296 ->
  sat_add x y = Z.min UINT32_MAX (x + y).
Proof.
  intros. unfold sat_add, u32, UINT32_MAX. destruct (_ <? x) eqn:E; lia.
Qed.

Lemma band_nth i j v m : nth j (m_band (band_set i v m)) 0 =
  if ((j =? i) && (i <? length (m_band m)))%nat then v else nth j (m_band m) 0.
Proof. unfold band_set. mred. apply nth_upd. Qed.

Lemma getBand_range r f b : getBand r f = Some b -> 0 <= b < 5.
Proof.
  unfold getBand. destruct r; try (intros [= <-]; lia).
  repeat match goal with |- context [if ?c then _ else _] => destruct c end; intros [=]; subst; lia.
Qed.

Lemma register_join m : m_op m = OP_JOINING -> length (m_band m) = 6%nat ->
  0 <= band_global m < 4294967296 -> 0 <= tx_airTime (m_tx m) < 400000 ->
  band_global (registerTime m) =
  Z.min UINT32_MAX (band_global m + tx_airTime (m_tx m) * getOTAAOffTime m).
Proof.
  intros Ho Hl Hg Ha. unfold registerTime. rewrite Ho.
  set (m1 := match getBand _ _ with Some _ => _ | None => _ end).
  assert (band_global m1 = band_global m /\ length (m_band m1) = 6%nat /\ m_day m1 = m_day m) as (E1 & E2 & E3).
  { unfold m1. destruct (getBand _ _) as [b|] eqn:Eb; [|auto].
    apply getBand_range in Eb. unfold band_global. rewrite band_nth.
    unfold BAND_GLOBAL. replace (5 =? Z.to_nat b)%nat with false by lia. cbn [andb].
    split; [reflexivity|]. unfold band_set. mred. rewrite upd_length. auto. }
  assert (getOTAAOffTime m1 = getOTAAOffTime m) as E4 by (unfold getOTAAOffTime; now rewrite E3).
  unfold band_global at 1. rewrite band_nth, E2. cbn [Nat.eqb Nat.ltb Nat.leb andb BAND_GLOBAL].
  rewrite E1, E4. assert (getOTAAOffTime m = 100 \/ getOTAAOffTime m = 1000 \/ getOTAAOffTime m = 10000) as Ht.
  { unfold getOTAAOffTime. destruct (_ >? _); auto. destruct (_ >? _); auto. }
  rewrite u32_id by lia. rewrite sat_add_spec by lia. reflexivity.
Qed.

Lemma fillJoin_day c e n m : m_day (fillJoinBuffer c e n m) = m_day m.
Proof.
  unfold fillJoinBuffer. destruct (OpsM.prepareJoinRequest _ _ _ _ _).
  unfold selectJoinChannelAndRate. cbv zeta. destruct (isDynamic _); [mred; reflexivity|].
  destruct (Region_getChannel _ _) as [[[? ?] ?]|]; mred; reflexivity.
Qed.

Lemma deriveJoinKeys_day m : m_day (OpsM.deriveJoinKeys m) = m_day m.
Proof. unfold OpsM.deriveJoinKeys, OpsM.sm_update. mred. reflexivity. Qed.

Lemma otaa_day c e m m' : MAC_otaa c e m = (m', STATUS_OK) -> m_day m' = 24 * 3600 * 256.
Proof.
  open_def MAC_otaa. destruct (s_joined _); [discriminate|]. destruct (m_op m); try discriminate.
  destruct (m_devNonce m <=? 65535); [|discriminate]. intros H.
  lt H E1. lt H E2. lt H E3. lt H E4. lt H E5. lt H E6.
  apply (f_equal m_day) in E1, E2, E3, E4, E5, E6. m_unf. ms_in E1. ms_in E4. ms_in E5. ms_in E6.
  assert (D2 : m_day m1 = m_day m0) by (rewrite E2; destruct (is_1_1 _); [apply deriveJoinKeys_day|reflexivity]).
  rewrite fillJoin_day in E3.
  apply (f_equal (fun p => m_day (fst p))) in H. cbn [fst] in H. rewrite <- H.
  destruct (m_state m5); ms; rewrite E6, E5, E4, E3, D2, E1; reflexivity.
Qed.

Lemma tier_after Ts E m T0 : m_day m = 24 * 3600 * 256 ->
  tps_ok (m_tps m) -> bands_ok m -> mt_parked (m_time m) = false ->
  mt_ticks (m_time m) = clock T0 -> 0 <= mt_remainder (m_time m) < m_tps m ->
  readings T0 Ts -> (forall T, e_now (E T) = clock T) ->
  exists units rem, 0 <= units /\ 0 <= rem < m_tps m /\
    units * m_tps m + rem = 256 * (last Ts T0 - T0 - wrap_count T0 Ts) + mt_remainder (m_time m) /\
    getOTAAOffTime (updates Ts E m) = join_tier units.
Proof.
  intros Hd H1 H2 H3 H4 H5 H6 H7.
  destruct (updates_spec Ts E m T0 H1 H2 H3 H4 H5 H6 H7) as (u & r & A & B & C & _ & _ & D). cbv zeta in D.
  exists u, r. rewrite Hd in D. split; [exact A|]. split; [exact B|]. split; [exact C|]. apply tier_spec; auto.
Qed.
