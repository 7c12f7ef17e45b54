(* The channel table and the channel mask. *)
From Verif Require Import Words RegionM MacStateM MacTac MacUtilM Lib SpecRegion RegionP.

(* --- mask --- *)

Lemma land_pow2_testbit x k : 0 <= k -> (Z.land x (2 ^ k) >? 0) = Z.testbit x k.
Proof.
  intros Hk. destruct (Z.testbit x k) eqn:E.
  - assert (Hb : Z.testbit (Z.land x (2 ^ k)) k = true) by (now rewrite Z.land_spec, E, Z.pow2_bits_true).
    assert (0 <= Z.land x (2 ^ k)) by (apply Z.land_nonneg; right; apply Z.pow_nonneg; lia).
    destruct (Z.land x (2 ^ k)); [rewrite Z.bits_0 in Hb; discriminate | reflexivity | lia].
  - assert (Z.land x (2 ^ k) = 0) as ->; [|reflexivity].
    apply Z.bits_inj'. intros n Hn. rewrite Z.land_spec, Z.bits_0, Z.pow2_bits_eqb by lia.
    destruct (k =? n) eqn:En; [|apply andb_false_r]. apply Z.eqb_eq in En. subst n. now rewrite E.
Qed.

Lemma ldiff_pow2_bit x k n : 0 <= k -> 0 <= n -> Z.testbit (Z.ldiff x (2 ^ k)) n = Z.testbit x n && negb (k =? n).
Proof. intros. now rewrite Z.ldiff_spec, Z.pow2_bits_eqb by lia. Qed.

Lemma lor_pow2_bit x k n : 0 <= k -> 0 <= n -> Z.testbit (Z.lor x (2 ^ k)) n = Z.testbit x n || (k =? n).
Proof. intros. now rewrite Z.lor_spec, Z.pow2_bits_eqb by lia. Qed.

Lemma masked_bit mask r ch : 0 <= ch ->
  channelIsMasked mask r ch =
  mask_ok mask r ch && Z.testbit (nth (Z.to_nat (ch / 8)) mask 0) (ch mod 8).
Proof.
  intros H. unfold channelIsMasked, mask_ok. destruct (_ && _); [|reflexivity].
  rewrite land_pow2_testbit by (apply Z.mod_pos_bound; lia). reflexivity.
Qed.

Lemma mask_length mask r ch : length (fst (maskChannel mask r ch)) = length mask.
Proof. unfold maskChannel. destruct (_ && _); cbn [fst]; auto using upd_length. Qed.
Lemma unmask_length mask r ch : length (fst (unmaskChannel mask r ch)) = length mask.
Proof. unfold unmaskChannel. destruct (_ && _); cbn [fst]; auto using upd_length. Qed.

Lemma same_cell a b : 0 <= a -> 0 <= b -> (Z.to_nat (a / 8) =? Z.to_nat (b / 8))%nat && (a mod 8 =? b mod 8) = (a =? b).
Proof. intros. destruct (a =? b) eqn:E; lia. Qed.

Lemma mask_spec mask r ch ch' : 0 <= ch -> 0 <= ch' ->
  channelIsMasked (fst (maskChannel mask r ch)) r ch' =
  channelIsMasked mask r ch' || (mask_ok mask r ch && (ch' =? ch)).
Proof.
  intros H H'. rewrite !masked_bit by lia.
  assert (mask_ok (fst (maskChannel mask r ch)) r ch' = mask_ok mask r ch') as ->
    by (unfold mask_ok; now rewrite mask_length).
  unfold maskChannel. fold (mask_ok mask r ch). destruct (mask_ok mask r ch) eqn:E; cbn [fst].
  2:{ now rewrite andb_false_l, orb_false_r. }
  rewrite nth_upd.
  assert ((Z.to_nat (ch / 8) <? length mask)%nat = true) as -> by (unfold mask_ok in E; lia).
  rewrite andb_true_r, andb_true_l. rewrite <- (same_cell ch' ch) by lia.
  destruct (Z.to_nat (ch' / 8) =? Z.to_nat (ch / 8))%nat eqn:Ec.
  - apply Nat.eqb_eq in Ec. rewrite lor_pow2_bit by (apply Z.mod_pos_bound; lia). rewrite Ec.
    rewrite andb_true_l, (Z.eqb_sym (ch mod 8)). 
    destruct (ch' mod 8 =? ch mod 8) eqn:Em; [|now rewrite !orb_false_r].
    assert (ch = ch') by lia. subst ch'. rewrite E, !orb_true_r. reflexivity.
  - rewrite andb_false_l, orb_false_r. reflexivity.
Qed.

Lemma unmask_spec mask r ch ch' : 0 <= ch -> 0 <= ch' ->
  channelIsMasked (fst (unmaskChannel mask r ch)) r ch' =
  channelIsMasked mask r ch' && negb (ch' =? ch).
Proof.
  intros H H'. rewrite !masked_bit by lia.
  assert (mask_ok (fst (unmaskChannel mask r ch)) r ch' = mask_ok mask r ch') as ->
    by (unfold mask_ok; now rewrite unmask_length).
  unfold unmaskChannel. fold (mask_ok mask r ch). destruct (mask_ok mask r ch) eqn:E; cbn [fst].
  2:{ destruct (ch' =? ch) eqn:En; [|now rewrite andb_true_r].
      apply Z.eqb_eq in En. subst. rewrite E. reflexivity. }
  rewrite nth_upd.
  assert ((Z.to_nat (ch / 8) <? length mask)%nat = true) as -> by (unfold mask_ok in E; lia).
  rewrite andb_true_r. rewrite <- (same_cell ch' ch) by lia.
  destruct (Z.to_nat (ch' / 8) =? Z.to_nat (ch / 8))%nat eqn:Ec.
  - apply Nat.eqb_eq in Ec. rewrite ldiff_pow2_bit by (apply Z.mod_pos_bound; lia). rewrite Ec.
    rewrite andb_true_l, (Z.eqb_sym (ch mod 8)). now rewrite andb_assoc.
  - rewrite andb_false_l, andb_true_r. reflexivity.
Qed.

Lemma mask_result mask r ch : snd (maskChannel mask r ch) = mask_ok mask r ch /\
  (mask_ok mask r ch = false -> fst (maskChannel mask r ch) = mask).
Proof. unfold maskChannel. fold (mask_ok mask r ch). destruct (mask_ok mask r ch); split; auto; discriminate. Qed.
Lemma unmask_result mask r ch : snd (unmaskChannel mask r ch) = mask_ok mask r ch /\
  (mask_ok mask r ch = false -> fst (unmaskChannel mask r ch) = mask).
Proof. unfold unmaskChannel. fold (mask_ok mask r ch). destruct (mask_ok mask r ch); split; auto; discriminate. Qed.

Lemma unmask_all_spec mask r ch : 0 <= ch -> channelIsMasked (unmaskAllChannels mask) r ch = false.
Proof.
  intros H. rewrite masked_bit by lia. unfold unmaskAllChannels, fill.
  assert (nth (Z.to_nat (ch / 8)) (repeat 0 (length mask)) 0 = 0) as ->.
  { destruct (Nat.lt_ge_cases (Z.to_nat (ch / 8)) (length mask)).
    - apply nth_repeat.
    - rewrite nth_overflow; auto. rewrite repeat_length. lia. }
  rewrite Z.bits_0. apply andb_false_r.
Qed.

(* --- table --- *)

Definition set_ok (r : region) (ch freq : Z) : bool :=
  (ch <? numChannels r) && (ch <? 16) && ((freq =? 0) || validateFreq r freq).

Lemma set_result s ch freq lo hi : tables_ok s ->
  snd (setChannel s ch freq lo hi) = set_ok (s_region s) ch freq /\
  (set_ok (s_region s) ch freq = false -> fst (setChannel s ch freq lo hi) = s).
Proof.
  intros [H _]. unfold setChannel, set_ok. rewrite H. unfold NUM_CHCONFIG.
  change (Z.of_nat 16) with 16.
  destruct (_ && _); [|now split]. cbn [andb].
  destruct (freq =? 0); [cbn; split; [reflexivity|discriminate]|].
  destruct (validateFreq (s_region s) freq); cbn; split; auto; discriminate.
Qed.

Lemma set_frame s ch freq lo hi :
  let s' := fst (setChannel s ch freq lo hi) in
  s' = set_s_chConfig (s_chConfig s') s /\ length (s_chConfig s') = length (s_chConfig s).
Proof.
  unfold setChannel. cbv zeta. destruct s.
  destruct (_ && _); [destruct (freq =? 0); [|destruct (validateFreq _ _)]|]; mred; 
    (split; [reflexivity|]); rewrite ?upd_length; reflexivity.
Qed.

Lemma set_masks s ch freq lo hi :
  s_chMask (fst (setChannel s ch freq lo hi)) = s_chMask s /\
  s_region (fst (setChannel s ch freq lo hi)) = s_region s.
Proof. pose proof (set_frame s ch freq lo hi) as [E _]. cbv zeta in E. rewrite E. mred. auto. Qed.

Lemma validate_bound r f : validateFreq r f = true -> 0 < f < 1677721600.
Proof. destruct r; cbn; lia. Qed.

Lemma pack_spec f lo hi : 0 <= f < 1677721600 -> 0 <= lo < 16 -> 0 <= hi ->
  let fr := u32 (Z.lor (Z.lor (Z.shiftl (f / 100) 8) (Z.shiftl lo 4)) (Z.land hi 15)) in
  Z.shiftr fr 8 = f / 100 /\ Z.land (Z.shiftr fr 4) 15 = lo /\ Z.land fr 15 = hi mod 16.
Proof.
  intros Hf Hl Hh.
  assert (0 <= hi mod 16 < 16) by (apply Z.mod_pos_bound; lia).
  assert (Z.lor (Z.lor (Z.shiftl (f / 100) 8) (Z.shiftl lo 4)) (Z.land hi 15)
          = (f / 100) * 256 + lo * 16 + hi mod 16) as E.
  { rewrite land15. rewrite (Z.shiftl_mul_pow2 lo 4) by lia.
    rewrite lor_shift8 by lia.
    replace (f / 100 * 256 + lo * 2 ^ 4) with (Z.shiftl (f / 100 * 16 + lo) 4)
      by (rewrite Z.shiftl_mul_pow2 by lia; lia).
    rewrite lor_add by lia. lia. }
  cbv zeta. rewrite E. rewrite u32_id by lia.
  rewrite !land15, shiftr8. rewrite (Z.shiftr_div_pow2 _ 4) by lia. change (2 ^ 4) with 16. lia.
Qed.

(* what is read back *)
Lemma set_get s ch freq lo hi :
  tables_ok s -> isDynamic (s_region s) = true -> 0 <= ch -> 0 <= lo < 16 -> 0 <= hi ->
  snd (setChannel s ch freq lo hi) = true -> 0 <= freq ->
  getChannel (fst (setChannel s ch freq lo hi)) ch =
  Some (if freq =? 0 then (0, 0, 0) else (freq / 100 * 100, lo, hi mod 16)).
Proof.
  intros [Ht _] Hd Hc Hl Hh Hs Hf.
  pose proof (set_frame s ch freq lo hi) as [E EL]. cbv zeta in E, EL.
  unfold getChannel. rewrite EL, (proj2 (set_masks s ch freq lo hi)), Hd.
  unfold setChannel in *. rewrite Ht in *.
  destruct ((ch <? numChannels (s_region s)) && (ch <? Z.of_nat 16)) eqn:Eb; [|discriminate].
  assert (Z.to_nat ch < length (s_chConfig s))%nat as Hi by (rewrite Ht; lia).
  assert (forall v, nth (Z.to_nat ch) (upd (s_chConfig s) (Z.to_nat ch) v) (0, 0) = v) as Hn.
  { intros v. rewrite nth_upd, Nat.eqb_refl.
    replace (Z.to_nat ch <? length (s_chConfig s))%nat with true by lia. reflexivity. }
  destruct (freq =? 0) eqn:E0; mred; [rewrite Hn; reflexivity|].
  destruct (validateFreq (s_region s) freq) eqn:Ev; [|discriminate]. mred. rewrite Hn. mred.
  pose proof (validate_bound _ _ Ev).
  destruct (pack_spec freq lo hi ltac:(lia) Hl Hh) as (-> & -> & ->).
  rewrite u32_id by lia. reflexivity.
Qed.

Lemma set_other s ch ch' freq lo hi : 0 <= ch -> 0 <= ch' -> ch' <> ch ->
  getChannel (fst (setChannel s ch freq lo hi)) ch' = getChannel s ch'.
Proof.
  intros H H' Hne. pose proof (set_frame s ch freq lo hi) as [E EL]. cbv zeta in E, EL.
  assert (nth (Z.to_nat ch') (s_chConfig (fst (setChannel s ch freq lo hi))) (0, 0)
          = nth (Z.to_nat ch') (s_chConfig s) (0, 0)) as En.
  { unfold setChannel. destruct (_ && _); [|reflexivity].
    assert (forall v, nth (Z.to_nat ch') (upd (s_chConfig s) (Z.to_nat ch) v) (0, 0) = nth (Z.to_nat ch') (s_chConfig s) (0, 0)) as Hn.
    { intros v. rewrite nth_upd. replace (Z.to_nat ch' =? Z.to_nat ch)%nat with false by lia. reflexivity. }
    destruct (freq =? 0); mred; [apply Hn|].
    destruct (validateFreq _ _); mred; [apply Hn|reflexivity]. }
  unfold getChannel. rewrite En, EL, (proj2 (set_masks s ch freq lo hi)). reflexivity.
Qed.


(* --- CFList --- *)

Lemma tables_set s ch f lo hi : tables_ok s -> tables_ok (fst (setChannel s ch f lo hi)).
Proof.
  intros [H1 H2]. pose proof (set_frame s ch f lo hi) as [_ EL]. cbv zeta in EL.
  split; [now rewrite EL | now rewrite (proj1 (set_masks s ch f lo hi))].
Qed.

Lemma tables_step s k : tables_ok s -> tables_ok (chan_step s k).
Proof.
  intros H. destruct k; cbn [chan_step]; [now apply tables_set| |];
  destruct H; split; mred; auto; rewrite ?mask_length, ?unmask_length; auto.
Qed.
Lemma tables_steps l s : tables_ok s -> tables_ok (chan_steps s l).
Proof. revert s; induction l as [|k l IH]; intros s H; cbn; auto. apply IH. now apply tables_step. Qed.

Lemma region_step s k : s_region (chan_step s k) = s_region s.
Proof. destruct k; cbn [chan_step]; mred; auto. apply set_masks. Qed.
Lemma region_steps l s : s_region (chan_steps s l) = s_region s.
Proof. revert s; induction l as [|k l IH]; intros s; cbn; auto. fold (chan_steps (chan_step s k) l). now rewrite IH, region_step. Qed.

(* a list of AddChannel calls on different channels *)
Definition added (l : list chan_call) : Prop := Forall (fun k => match k with AddChannel ch _ _ _ => 0 <= ch | _ => False end) l.
Definition chan_of (k : chan_call) : Z := match k with AddChannel ch _ _ _ => ch | MaskChannel ch => ch | UnmaskChannel ch => ch end.

Lemma steps_other l s ch : added l -> 0 <= ch -> ~ In ch (map chan_of l) ->
  getChannel (chan_steps s l) ch = getChannel s ch.
Proof.
  revert s; induction l as [|k l IH]; intros s Ha Hc Hn; [reflexivity|].
  inversion Ha; subst. cbn in Hn. cbn [chan_steps fold_left]. fold (chan_steps (chan_step s k) l).
  rewrite IH by tauto. destruct k; try contradiction. cbn [chan_step chan_of] in *.
  apply set_other; auto.
Qed.

Lemma steps_get l s ch f lo hi : added l -> NoDup (map chan_of l) -> In (AddChannel ch f lo hi) l ->
  getChannel (chan_steps s l) ch = getChannel (fst (setChannel s ch f lo hi)) ch \/ 
  exists s', tables_ok s -> tables_ok s' /\ s_region s' = s_region s /\ getChannel s' ch = getChannel s ch /\
     getChannel (chan_steps s l) ch = getChannel (fst (setChannel s' ch f lo hi)) ch.
Proof.
  revert s; induction l as [|k l IH]; intros s Ha Hd Hin; [contradiction|].
  inversion Ha; subst. cbn [map] in Hd. apply NoDup_cons_iff in Hd. destruct Hd as [Hnk Hd].
  cbn [chan_steps fold_left]. fold (chan_steps (chan_step s k) l). destruct Hin as [->|Hin].
  - left. cbn [chan_step chan_of] in *. apply steps_other; auto.
  - right. destruct k as [ch0 f0 lo0 hi0| |]; try contradiction.
    assert (ch0 <> ch) as Hne.
    { intros ->. apply Hnk. apply in_map_iff. exists (AddChannel ch f lo hi). auto. }
    assert (0 <= ch) as Hch.
    { exact (proj1 (Forall_forall _ _) H2 _ Hin). }
    destruct (IH (chan_step s (AddChannel ch0 f0 lo0 hi0)) H2 Hd Hin) as [E|(s' & E)].
    + exists (chan_step s (AddChannel ch0 f0 lo0 hi0)). intros Ht. split; [now apply tables_step|].
      split; [apply region_step|]. split; [cbn [chan_step]; apply set_other; auto|]. exact E.
    + exists s'. intros Ht. destruct (E (tables_step _ _ Ht)) as (E1 & E2 & E3 & E4).
      split; [auto|]. split; [rewrite E2; apply region_step|]. split; [|exact E4].
      rewrite E3. cbn [chan_step]. apply set_other; auto.
Qed.

Lemma unpack_freq cf pos : bytes_ok cf ->
  unpackCFListFreq cf pos = 100 * (nth pos cf 0 + 256 * nth (pos + 1) cf 0 + 65536 * nth (pos + 2) cf 0)
  /\ 0 <= unpackCFListFreq cf pos.
Proof.
  intros H. unfold unpackCFListFreq.
  pose proof (bytes_ok_nth cf pos H). pose proof (bytes_ok_nth cf (pos + 1) H). pose proof (bytes_ok_nth cf (pos + 2) H).
  rewrite u32_id by lia. lia.
Qed.

Lemma set_stored s ch f : tables_ok s -> isDynamic (s_region s) = true -> 0 <= ch < 16 -> 0 <= f -> f mod 100 = 0 ->
  getChannel (fst (setChannel s ch f 0 5)) ch = stored (s_region s) f (getChannel s ch).
Proof.
  intros Ht Hd Hc Hf Hm. unfold stored. pose proof (set_result s ch f 0 5 Ht) as [Hr Hu].
  assert (numChannels (s_region s) = 16) as Hn by (destruct (s_region s); auto; discriminate).
  unfold set_ok in *. rewrite Hn in *.
  replace (ch <? 16) with true in * by lia. cbn [andb] in *.
  destruct (f =? 0) eqn:E0; cbn [orb] in *.
  - rewrite set_get by (auto; lia). rewrite E0. reflexivity.
  - destruct (validateFreq (s_region s) f) eqn:Ev.
    + rewrite set_get by (auto; lia). rewrite E0. change (5 mod 16) with 5. repeat f_equal. lia.
    + now rewrite Hu.
Qed.

Lemma cflist_freq s cf i : tables_ok s -> isDynamic (s_region s) = true -> bytes_ok cf ->
  length cf = 16%nat -> nth 15 cf 0 = 0 -> (i < 5)%nat ->
  getChannel (chan_steps s (processCFList (s_region s) cf)) (3 + Z.of_nat i) =
  stored (s_region s) (100 * (nth (3 * i) cf 0 + 256 * nth (3 * i + 1) cf 0 + 65536 * nth (3 * i + 2) cf 0))
         (getChannel s (3 + Z.of_nat i)).
Proof.
  intros Ht Hd Hb Hl H15 Hi.
  set (l := map (fun i => AddChannel (3 + Z.of_nat i) (unpackCFListFreq cf (3 * i)) 0 5) (seq 0 5)).
  assert (processCFList (s_region s) cf = l) as ->.
  { unfold processCFList. rewrite Hl, H15. destruct (s_region s); try discriminate; reflexivity. }
  destruct (unpack_freq cf (3 * i) Hb) as [Ef Hf].
  assert (In (AddChannel (3 + Z.of_nat i) (unpackCFListFreq cf (3 * i)) 0 5) l) as Hin.
  { unfold l. apply in_map_iff. exists i. split; auto. apply in_seq. lia. }
  assert (added l) as Ha by (unfold l; repeat constructor; lia).
  assert (NoDup (map chan_of l)) as Hn.
  { unfold l. cbn. repeat constructor; cbn; intuition discriminate. }
  assert (unpackCFListFreq cf (3 * i) mod 100 = 0) as Hm by (rewrite Ef; lia).
  rewrite <- Ef.
  destruct (steps_get l s _ _ _ _ Ha Hn Hin) as [E|(s' & E)].
  - rewrite E. apply set_stored; auto; lia.
  - destruct (E Ht) as (E1 & E2 & E3 & E4). rewrite E4, <- E2, <- E3.
    apply set_stored; auto; try lia. now rewrite E2.
Qed.

Lemma cflist_other s cf ch : isDynamic (s_region s) = true -> 0 <= ch -> ch < 3 \/ 8 <= ch ->
  getChannel (chan_steps s (processCFList (s_region s) cf)) ch = getChannel s ch.
Proof.
  intros Hd H0 Hc. unfold processCFList. destruct (_ =? 16); [|reflexivity].
  destruct (s_region s); try discriminate; (destruct (_ =? 0); [|reflexivity]);
  (apply steps_other; [repeat constructor; lia|lia|cbn; lia]).
Qed.

(* masks *)
Definition mask_call (on : bool) (ch : Z) : chan_call := if on then UnmaskChannel ch else MaskChannel ch.

Lemma mask_steps tb k a s ch : tables_ok s -> 0 <= ch ->
  channelIsMasked (s_chMask (chan_steps s (map (fun n => mask_call (tb n) (Z.of_nat n)) (seq a k)))) (s_region s) ch =
  if (Z.of_nat a <=? ch) && (ch <? Z.of_nat (a + k)) && mask_ok (s_chMask s) (s_region s) ch
  then negb (tb (Z.to_nat ch)) else channelIsMasked (s_chMask s) (s_region s) ch.
Proof.
  revert a s; induction k as [|k IH]; intros a s Ht Hc.
  - cbn. replace ((Z.of_nat a <=? ch) && (ch <? Z.of_nat (a + 0))) with false by lia. reflexivity.
  - cbn [seq map chan_steps fold_left]. fold (chan_steps (chan_step s (mask_call (tb a) (Z.of_nat a)))).
    set (s1 := chan_step s (mask_call (tb a) (Z.of_nat a))).
    assert (s_region s1 = s_region s) as HR by apply region_step.
    fold (chan_steps s1 (map (fun n => mask_call (tb n) (Z.of_nat n)) (seq (S a) k))).
    pose proof (IH (S a) s1 ltac:(now apply tables_step) Hc) as I. rewrite HR in I. rewrite I. clear I.
    assert (mask_ok (s_chMask s1) (s_region s) ch = mask_ok (s_chMask s) (s_region s) ch) as ->.
    { unfold mask_ok, s1. rewrite (proj2 (tables_step s _ Ht)), (proj2 Ht). reflexivity. }
    assert (channelIsMasked (s_chMask s1) (s_region s) ch =
            if (ch =? Z.of_nat a) && mask_ok (s_chMask s) (s_region s) ch then negb (tb a)
            else channelIsMasked (s_chMask s) (s_region s) ch) as E.
    { unfold s1, mask_call. destruct (tb a); cbn [chan_step]; mred.
      - rewrite unmask_spec by lia. destruct (ch =? Z.of_nat a) eqn:Ea; cbn [negb andb];
          [rewrite andb_false_r | now rewrite andb_true_r].
        apply Z.eqb_eq in Ea. subst ch.
        destruct (mask_ok _ _ _) eqn:Em; [reflexivity|]. rewrite masked_bit, Em by lia. reflexivity.
      - rewrite mask_spec by lia. destruct (ch =? Z.of_nat a) eqn:Ea; cbn [negb andb].
        + apply Z.eqb_eq in Ea. subst ch. destruct (mask_ok _ _ _) eqn:Em; cbn [andb];
          [apply orb_true_r | apply orb_false_r].
        + rewrite andb_false_r. apply orb_false_r. }
    rewrite E. destruct (mask_ok (s_chMask s) (s_region s) ch); rewrite ?andb_false_r, ?andb_true_r; [|reflexivity].
    destruct (ch =? Z.of_nat a) eqn:Ea.
    + replace ((Z.of_nat (S a) <=? ch) && (ch <? Z.of_nat (S a + k))) with false by lia.
      replace ((Z.of_nat a <=? ch) && (ch <? Z.of_nat (a + S k))) with true by lia.
      apply Z.eqb_eq in Ea. subst ch. now rewrite Nat2Z.id.
    + replace ((Z.of_nat (S a) <=? ch) && (ch <? Z.of_nat (S a + k)))
        with ((Z.of_nat a <=? ch) && (ch <? Z.of_nat (a + S k))) by lia. reflexivity.
Qed.

Lemma cflist_mask s cf ch : tables_ok s -> isDynamic (s_region s) = false ->
  length cf = 16%nat -> nth 15 cf 0 = 1 -> 0 <= ch < 72 ->
  channelIsMasked (s_chMask (chan_steps s (processCFList (s_region s) cf))) (s_region s) ch =
  negb (cf_bit cf (Z.to_nat ch)).
Proof.
  intros Ht Hd Hl H15 Hc.
  assert (processCFList (s_region s) cf = map (fun n => mask_call (cf_bit cf n) (Z.of_nat n)) (seq 0 80)) as ->.
  { unfold processCFList. rewrite Hl, H15. 
    transitivity (flat_map (fun i => map (fun b => mask_call (cf_bit cf (i * 16 + b)) (Z.of_nat (i * 16 + b))) (seq 0 16)) (seq 0 5)).
    2:{ reflexivity. }
    assert (forall f g : nat -> list chan_call, (forall i, (i < 5)%nat -> f i = g i) -> flat_map f (seq 0 5) = flat_map g (seq 0 5)) as Hx.
    { intros f g Hfg. cbn [seq flat_map]. rewrite !Hfg by lia. reflexivity. }
    destruct (s_region s); try discriminate; cbn [Z.eqb Z.of_nat]; apply Hx; intros i Hi; cbv zeta;
    apply map_ext_in; intros b Hb; apply in_seq in Hb; unfold mask_call, cf_bit, unpackCFListMask;
    replace ((i * 16 + b) / 16)%nat with i by lia; replace ((i * 16 + b) mod 16)%nat with b by lia;
    rewrite (Z.add_comm (nth (2 * i + 1) cf 0 * 256)), (Z.mul_comm (nth (2 * i + 1) cf 0));
    rewrite Nat2Z.inj_add, Nat2Z.inj_mul; destruct (Z.testbit _ _); reflexivity. }
  rewrite mask_steps by (auto; lia).
  replace ((Z.of_nat 0 <=? ch) && (ch <? Z.of_nat (0 + 80))) with true by lia.
  assert (mask_ok (s_chMask s) (s_region s) ch = true) as ->; [|reflexivity].
  unfold mask_ok. rewrite (proj2 Ht). destruct (s_region s); try discriminate; cbn; lia.
Qed.

(* a frequency the region accepts that lies in no duty cycle band *)
Lemma band_gap : validateFreq EU_863_870 868650000 = true /\ getBand EU_863_870 868650000 = None.
Proof. split; reflexivity. Qed.

(* such a channel is never available *)
Lemma gap_unavailable m ch limit f lo hi :
  getChannel (m_ctx m) ch = Some (f, lo, hi) -> getBand (s_region (m_ctx m)) f = None ->
  isAvailable m ch limit = false /\ timeUntilAvailable m ch = UINT32_MAX.
Proof.
  intros Hg Hb. unfold isAvailable, timeUntilAvailable. rewrite Hg, Hb.
  destruct (negb _); [|auto]. destruct (f >? 0); auto.
Qed.
