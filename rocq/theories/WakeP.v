(* When the device asks to be called for its sub-bands. *)
From Coq Require Import Znumtheory.
From Verif Require Import Lib MacStateM MacTac MacUtilM MacProcM MacApiM MacRw SpecHist SpecWait BandP SpecWake.
From Verif Require TimersP OpenP.
From Verif Require Import AcceptP.

Lemma least_spec l : forall acc, (forall b, In b l -> 0 <= b) -> 0 < acc ->
  let t := fold_left (fun acc b => if (b >? 0) && (b <? acc) then b else acc) l acc in
  (t = acc \/ (In t l /\ 0 < t)) /\ t <= acc /\ 0 < t /\ forall b, In b l -> 0 < b -> t <= b.
Proof.
  induction l as [|x l IH]; intros acc N A; cbv zeta; cbn [fold_left]; [repeat split; auto; try lia; contradiction|].
  assert (0 < (if (x >? 0) && (x <? acc) then x else acc)) as A' by (destruct (_ && _) eqn:E; lia).
  destruct (IH _ (fun b I => N b (or_intror I)) A') as (B1 & B2 & B3 & B4). set (t := fold_left _ _ _) in *. clearbody t.
  split; [|split; [|split]].
  - destruct B1 as [B1|[B1 B1']]; [|right; split; [now right|exact B1']]. destruct (_ && _) eqn:E; [|now left]. right. split; [left; congruence|lia].
  - destruct (_ && _) eqn:E; lia.
  - exact B3.
  - intros b [->|I] P; [|now apply B4]. destruct (_ && _) eqn:E; lia.
Qed.

Lemma next_time_free m t : Forall (fun b => 0 <= b < UINT32_MAX) (m_band m) -> 0 <= m_day m < UINT32_MAX -> (BAND_GLOBAL < length (m_band m))%nat ->
  next_free m t -> nextBandTime m = t.
Proof.
  intros R D L F. rewrite Forall_forall in R. unfold nextBandTime. cbv zeta.
  assert (In (band_global m) (m_band m)) as IG by (unfold band_global; now apply nth_In).
  destruct (least_spec (m_band m) UINT32_MAX (fun b I => proj1 (R b I)) ltac:(reflexivity)) as (B1 & B2 & B3 & B4). cbv zeta in *.
  set (x := fold_left _ _ _) in *. clearbody x. pose proof (R _ IG) as RG. destruct F as [[G ->]|[(G & I & P & M)|(Z0 & P & ->)]].
  - specialize (B4 _ IG G). destruct (x <=? band_global m) eqn:E; [|lia]. destruct (_ && _) eqn:E2; lia.
  - pose proof (R _ I). rewrite G. assert (x <=? 0 = false) as -> by lia. pose proof (B4 _ I P). assert (x = t) as -> by (destruct B1 as [B1|[B1 B1']]; [lia|specialize (M _ B1 B1'); lia]).
    destruct (_ && _) eqn:E2; lia.
  - rewrite (Z0 _ IG) in *. assert (x = UINT32_MAX) as -> by (destruct B1 as [B1|[B1 B1']]; [exact B1|specialize (Z0 _ B1); lia]).
    change (UINT32_MAX <=? 0) with false. cbv iota. rewrite Z.eqb_refl. cbn [andb]. assert (m_day m >? 0 = true) as -> by lia. reflexivity.
Qed.

Lemma band_ticks tps t : 128 <= tps < 2 ^ 31 -> 0 < t < 2 ^ 32 ->
  let n := mask31 (bandTicks tps t) in
  0 <= n < 2 ^ 31 /\ 256 * n < (t + 256) * tps /\ (t < 256 * reach tps -> t * tps <= 256 * n).
Proof.
  intros T R. cbv zeta. unfold reach. change (2 ^ 31) with 2147483648 in *. change (2 ^ 32) with 4294967296 in *.
  change (2147483648 - 1) with 2147483647. unfold bandTicks, mask31, timeTPS, INT32_MAX, u32. set (q := 2147483647 / tps) in *.
  assert (q * tps <= 2147483647 < q * tps + tps) as Q by (unfold q; pose proof (Z.div_mod 2147483647 tps); pose proof (Z.mod_pos_bound 2147483647 tps); lia).
  assert (1 <= q < 16777216) as Q1 by nia. rewrite (Z.mod_small (q * 256)) by lia.
  split; [destruct (_ <? _); apply Z.mod_pos_bound; lia|].
  destruct (t <? q * 256) eqn:E.
  - set (s := t / 256 + (if t mod 256 >? 0 then 1 else 0)). assert (256 * (s - 1) < t <= 256 * s) as S by (unfold s; destruct (t mod 256 >? 0) eqn:E2; lia).
    assert (s <= q) by lia. assert (0 <= s * tps <= q * tps) by nia. rewrite (Z.mod_small (s * tps) 4294967296) by lia. rewrite Z.mod_small by lia. nia.
  - assert (((q * 2147483647) mod 4294967296) mod 2147483648 = 2147483648 - q) as ->.
    { replace (q * 2147483647) with ((2147483648 - q) + (q - 1) * 2147483648) by lia.
      rewrite <- (Zmod_div_mod 2147483648 4294967296) by (try lia; exists 2; reflexivity). rewrite Z.mod_add by lia. apply Z.mod_small. lia. }
    split; [|lia]. assert (256 * (q + 1) * tps <= (t + 256) * tps) by (apply Z.mul_le_mono_nonneg_r; lia). lia.
Qed.

Lemma process_ends c e m : exists x, MAC_process c e m = setNextBandEvent e x.
Proof. unfold MAC_process. destruct (processBands e m) as [m1 rd]. destruct (next_event _ _ _) as [[m2 ev] lag]. eexists. reflexivity. Qed.

Theorem wake_up c e m t : let m' := fst (step c e C_process m) in
  128 <= m_tps m' < 2 ^ 31 -> Forall (fun b => 0 <= b < UINT32_MAX) (m_band m') -> 0 <= m_day m' < UINT32_MAX ->
  (BAND_GLOBAL < length (m_band m'))%nat -> (TBAND < length (m_timers m'))%nat -> next_free m' t ->
  exists n, get_timer m' TBAND = mkTimer (u32 (e_now e + n)) true /\ 0 <= n < 2 ^ 31 /\ 256 * n < (t + 256) * m_tps m' /\
    (t < 256 * reach (m_tps m') -> t * m_tps m' <= 256 * n).
Proof.
  cbv zeta. cbn [step fst]. destruct (process_ends c e m) as (x & E). rewrite E. clear E. intros T R D L LT F.
  assert (forall y, m_tps (setNextBandEvent e y) = m_tps y /\ m_band (setNextBandEvent e y) = m_band y /\ m_day (setNextBandEvent e y) = m_day y /\ length (m_timers (setNextBandEvent e y)) = length (m_timers y)) as K.
  { intros y. unfold setNextBandEvent. cbv zeta. destruct (_ <? _); unfold timerSet, timerClear, set_timer; ms; rewrite ?upd_length; auto. }
  destruct (K x) as (K1 & K2 & K3 & K4). rewrite K1, K2, K3, K4 in *.
  assert (nextBandTime x = t) as N.
  { apply next_time_free; try assumption. unfold next_free, band_global in *. rewrite K2, K3 in F. exact F. }
  assert (0 < t < UINT32_MAX) as TR.
  { rewrite Forall_forall in R. destruct F as [[G ->]|[(G & I & P & M)|(Z0 & P & ->)]]; [|split; [exact P|]|].
    - split; [exact G|]. unfold band_global. rewrite K2. apply R, nth_In, L.
    - rewrite K2 in I. apply R, I.
    - rewrite K3 in *. lia. }
  exists (mask31 (bandTicks (m_tps x) t)). split; [|apply band_ticks; [exact T|change (2 ^ 32) with 4294967296; unfold UINT32_MAX in TR; lia]].
  unfold setNextBandEvent. cbv zeta. rewrite N. assert (t <? UINT32_MAX = true) as -> by lia.
  unfold timerSet, get_timer, set_timer. ms. rewrite nth_upd, Nat.eqb_refl. assert ((TBAND <? length (m_timers x))%nat = true) as H by (apply Nat.ltb_lt; exact LT). cbn [andb]. rewrite ?H. reflexivity.
Qed.

(* for every history *)
Theorem wake_always c r a e0 h e t : 128 <= ia_tps a < 2 ^ 31 ->
  let m := fst (step c e C_process (run c h (MAC_init c r a e0))) in
  Forall (fun b => b < UINT32_MAX) (m_band m) -> next_free m t ->
  exists n, get_timer m TBAND = mkTimer (u32 (e_now e + n)) true /\ 0 <= n < 2 ^ 31 /\ 256 * n < (t + 256) * ia_tps a /\
    (t < 256 * reach (ia_tps a) -> t * ia_tps a <= 256 * n).
Proof.
  intros T m B F. destruct (BandP.bands_run c (h ++ [(e, C_process)]) _ (BandP.bands_init c r a e0)) as [L R].
  destruct (TimersP.always_tl c r a e0 (h ++ [(e, C_process)]) ltac:(lia)) as (L3 & D & TP). rewrite run_app in *. cbn [run] in *. fold m in L, R, L3, D, TP.
  rewrite <- TP. apply wake_up; fold m; try assumption; try lia.
  - unfold in_range in R. rewrite Forall_forall in *. intros b I. specialize (R b I). specialize (B b I). lia.
  - unfold one_day, UINT32_MAX in *. lia.
  - rewrite L. repeat constructor.
  - rewrite L3. repeat constructor.
Qed.

Theorem no_wake c r a e0 h e : 0 < ia_tps a ->
  let m := fst (step c e C_process (run c h (MAC_init c r a e0))) in
  (forall b, In b (m_band m) -> b = 0) -> m_day m = 0 -> tm_armed (get_timer m TBAND) = false.
Proof.
  intros P m B D. destruct (TimersP.always_tl c r a e0 (h ++ [(e, C_process)]) P) as (L3 & _ & _). rewrite run_app in *. cbn [run] in *. fold m in L3.
  cbn [step fst] in m. destruct (process_ends c e (run c h (MAC_init c r a e0))) as (x & E). subst m. rewrite E in *. clear E.
  assert (m_band (setNextBandEvent e x) = m_band x /\ m_day (setNextBandEvent e x) = m_day x /\ length (m_timers (setNextBandEvent e x)) = length (m_timers x)) as (K1 & K2 & K3).
  { unfold setNextBandEvent. cbv zeta. destruct (_ <? _); unfold timerSet, timerClear, set_timer; ms; rewrite ?upd_length; auto. }
  rewrite K1, K2, K3 in *. unfold setNextBandEvent. cbv zeta.
  assert (nextBandTime x <? UINT32_MAX = false) as ->; [|apply OpenP.timer_clear_armed; change ((2 < length (m_timers x))%nat); rewrite L3; repeat constructor].
  unfold nextBandTime. cbv zeta. rewrite D.
  assert (forall l acc, (forall b, In b l -> b = 0) -> fold_left (fun acc b => if (b >? 0) && (b <? acc) then b else acc) l acc = acc) as FL.
  { induction l as [|b l IH]; intros acc H; [reflexivity|]. cbn [fold_left]. rewrite (H b (or_introl eq_refl)). cbn [Z.gtb Z.compare andb]. apply IH. intros; apply H; now right. }
  rewrite (FL _ _ B). change (0 >? 0) with false. rewrite andb_false_r. assert (band_global x = 0) as ->; [|reflexivity].
  unfold band_global. destruct (Nat.lt_ge_cases BAND_GLOBAL (length (m_band x))); [apply B, nth_In; assumption|apply nth_overflow; lia].
Qed.
