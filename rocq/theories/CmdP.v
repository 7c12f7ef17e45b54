(* MAC command parsing against SpecCmd. *)
From Verif Require Import Lib StreamM FrameM CommandsM SpecFrame SpecCmd FrameDecP FrameRtP.

Definition cid_of (t : cmd_type) : Z :=
  match t with
  | CMD_LINK_CHECK => 2 | CMD_LINK_ADR => 3 | CMD_DUTY_CYCLE => 4 | CMD_RX_PARAM_SETUP => 5
  | CMD_DEV_STATUS => 6 | CMD_NEW_CHANNEL => 7 | CMD_RX_TIMING_SETUP => 8 | CMD_TX_PARAM_SETUP => 9
  | CMD_DL_CHANNEL => 10 | CMD_REKEY => 11 | CMD_ADR_PARAM_SETUP => 12 | CMD_DEVICE_TIME => 13
  | CMD_FORCE_REJOIN => 14 | CMD_REJOIN_PARAM_SETUP => 15
  end.

Lemma tags_in v p : In p (tags v) -> 2 <= fst p <= 15 /\ cid_of (snd p) = fst p.
Proof.
  assert (Hf : forallb (fun p => (2 <=? fst p) && (fst p <=? 15) && (cid_of (snd p) =? fst p)) (tags v) = true)
    by (destruct v; reflexivity).
  rewrite forallb_forall in Hf. intros Hp. apply Hf in Hp. lia.
Qed.

Lemma payload_len_range v cid k : payload_len v cid = Some k -> 2 <= cid <= 15.
Proof.
  unfold payload_len. destruct cid as [|c|c]; try discriminate.
  do 4 (destruct c as [c|c|]; try discriminate; try lia).
Qed.

(* exactly the LoRaWAN identifiers are recognised *)
Lemma tag_cases v cid :
  match tagToType v cid with
  | Some t => cid = cid_of t /\ payload_len v cid <> None
  | None => payload_len v cid = None
  end.
Proof.
  destruct (Z_lt_ge_dec cid 2) as [?|?]; [|destruct (Z_gt_le_dec cid 15) as [?|?]].
  3:{ assert (Hc : In cid [2;3;4;5;6;7;8;9;10;11;12;13;14;15]) by (cbn; lia).
      cbn in Hc. decompose [or] Hc; try contradiction; subst cid; destruct v; cbn; auto;
        (split; [reflexivity|discriminate]). }
  all: unfold tagToType; destruct (find _ (tags v)) as [[x t]|] eqn:E;
    [apply find_some in E as [E1 E2]; apply tags_in in E1 as [E1 _]; cbn [fst] in *; lia|];
    destruct (payload_len v cid) eqn:Ep; auto; apply payload_len_range in Ep; lia.
Qed.

Lemma rd_split buf n p a b : ok_len buf n -> 0 <= p -> 0 <= a -> 0 <= b -> p + a + b <= n ->
  rd buf p (a + b) = rd buf p a + 256 ^ a * rd buf (p + a) b.
Proof.
  intros Hok Hp Ha Hb Hn. unfold rd. rewrite at_split by lia.
  assert (Hl : length (at_ buf p a) = Z.to_nat a) by (apply (at_length buf n); auto; lia).
  revert Hl. generalize (at_ buf p a), (at_ buf (p + a) b). rewrite <- (Z2Nat.id a Ha).
  generalize (Z.to_nat a). clear. intros k l m. rewrite Nat2Z.id. intros <-.
  induction l as [|x l IH].
  - cbn [app length]. change (Z.of_nat 0) with 0. rewrite Z.pow_0_r. change (le_val []) with 0. ring.
  - cbn [app le_val fold_right length]. fold (le_val (l ++ m)) (le_val l). rewrite IH.
    replace (Z.of_nat (S (length l))) with (1 + Z.of_nat (length l)) by lia.
    rewrite Z.pow_add_r by lia. rewrite Z.pow_1_r. ring.
Qed.

Lemma nth_payload buf n q k i : ok_len buf n -> 0 <= q -> (i < k)%nat -> q + Z.of_nat k <= n ->
  nth i (at_ buf q (Z.of_nat k)) 0 = rd buf (q + Z.of_nat i) 1.
Proof.
  intros Hok Hq Hi Hn. unfold rd. rewrite <- rd1 by (rewrite (at_length buf n) by (auto; lia); reflexivity).
  change (nth i (at_ buf q (Z.of_nat k)) 0) with (byte_at (at_ buf q (Z.of_nat k)) i).
  rewrite !nth_at by lia. f_equal. lia.
Qed.

Definition plen (t : cmd_type) : nat :=
  match t with
  | CMD_LINK_CHECK => 2 | CMD_LINK_ADR => 4 | CMD_DUTY_CYCLE => 1 | CMD_RX_PARAM_SETUP => 4
  | CMD_DEV_STATUS => 0 | CMD_NEW_CHANNEL => 5 | CMD_RX_TIMING_SETUP => 1 | CMD_TX_PARAM_SETUP => 1
  | CMD_DL_CHANNEL => 4 | CMD_REKEY => 1 | CMD_ADR_PARAM_SETUP => 1 | CMD_DEVICE_TIME => 5
  | CMD_FORCE_REJOIN => 2 | CMD_REJOIN_PARAM_SETUP => 1
  end.

Lemma plen_spec v t : payload_len v (cid_of t) <> None -> payload_len v (cid_of t) = Some (plen t).
Proof. destruct v, t; cbn; congruence. Qed.

Lemma sweep_hi b : 0 <= b < 256 -> Z.shiftr b 4 = bits 7 4 b.
Proof. intros. unfold bits. rewrite Z.shiftr_div_pow2 by lia. cbn. lia. Qed.
Lemma sweep_lo b : Z.land b 0xf = bits 3 0 b.
Proof. unfold bits. rewrite land15. cbn. rewrite Z.div_1_r. reflexivity. Qed.
Lemma sweep_mid b : Z.land (Z.shiftr b 4) 7 = bits 6 4 b.
Proof. unfold bits. rewrite land7, Z.shiftr_div_pow2 by lia. reflexivity. Qed.
Lemma sweep_6 b : Z.land b 0x3f = bits 5 0 b.
Proof. unfold bits. change 0x3f with (Z.ones 6). rewrite Z.land_ones by lia. cbn. now rewrite Z.div_1_r. Qed.
Lemma sweep_fr w k : 0 <= w < 65536 -> 0 <= k -> Z.land (u8 (Z.shiftr w k)) 7 = w / 2 ^ k mod 8.
Proof.
  intros. rewrite land7, Z.shiftr_div_pow2 by lia. unfold u8.
  generalize (w / 2 ^ k). intros z. lia.
Qed.
Lemma sweep_fr0 w : bits 3 0 (u8 w) = bits 3 0 w.
Proof. unfold bits, u8. cbn. rewrite !Z.div_1_r. lia. Qed.

Lemma freq_u32 buf n q : ok_len buf n -> u32 (rd buf q 3 * 100) = 100 * rd buf q 3.
Proof.
  intros Hok. pose proof (rd_range buf n q 3 Hok) as H. change (256 ^ Z.of_nat (Z.to_nat 3)) with 16777216 in H.
  rewrite u32_id by lia. lia.
Qed.

Lemma rd_2 buf n q : ok_len buf n -> 0 <= q -> q + 2 <= n -> rd buf q 2 = le_val [rd buf q 1; rd buf (q+1) 1].
Proof.
  intros. change 2 with (1 + 1) at 1. rewrite (rd_split buf n) by (auto; lia).
  unfold le_val. cbn [fold_right]. rewrite Z.pow_1_r. ring.
Qed.
Lemma rd_3 buf n q : ok_len buf n -> 0 <= q -> q + 3 <= n ->
  rd buf q 3 = le_val [rd buf q 1; rd buf (q+1) 1; rd buf (q+2) 1].
Proof.
  intros. change 3 with (1 + 2). rewrite (rd_split buf n) by (auto; lia).
  rewrite (rd_2 buf n) by (auto; lia). replace (q + 1 + 1) with (q + 2) by ring.
  unfold le_val. cbn [fold_right]. rewrite Z.pow_1_r. ring.
Qed.
Lemma rd_4 buf n q : ok_len buf n -> 0 <= q -> q + 4 <= n ->
  rd buf q 4 = le_val [rd buf q 1; rd buf (q+1) 1; rd buf (q+2) 1; rd buf (q+3) 1].
Proof.
  intros. change 4 with (1 + 3). rewrite (rd_split buf n) by (auto; lia).
  rewrite (rd_3 buf n) by (auto; lia). replace (q + 1 + 1) with (q + 2) by ring.
  replace (q + 1 + 2) with (q + 3) by ring.
  unfold le_val. cbn [fold_right]. rewrite Z.pow_1_r. ring.
Qed.

Opaque rd.
Lemma getPayload_R t buf n q : ok_len buf n -> 0 <= q <= n ->
  if q + Z.of_nat (plen t) <=? n
  then getPayload t (R buf n q) =
       (R buf n (q + Z.of_nat (plen t)), fields_read (cid_of t) (at_ buf q (Z.of_nat (plen t))))
  else exists q' d, getPayload t (R buf n q) = (RE buf n q', d).
Proof.
  intros Hok Hq.
  assert (Hb : forall p, 0 <= rd buf p 1 < 256) by (intros; now apply (rd_byte buf n)).
  destruct (q + Z.of_nat (plen t) <=? n) eqn:E.
  - assert (Hnth : forall i, (i < plen t)%nat ->
       nth i (at_ buf q (Z.of_nat (plen t))) 0 = rd buf (q + Z.of_nat i) 1).
    { intros. apply (nth_payload buf n); auto; lia. }
    unfold fields_read.
    destruct t; cbn [plen cid_of Z.eqb Pos.eqb] in *; unfold getPayload, fields;
    change (Z.of_nat 0) with 0 in *; change (Z.of_nat 1) with 1 in *; change (Z.of_nat 2) with 2 in *;
    change (Z.of_nat 4) with 4 in *; change (Z.of_nat 5) with 5 in *;
    rewrite ?Hnth by lia;
    repeat first
     [ rewrite getU8_R by (auto; lia); match goal with |- context [?a <=? n] => replace (a <=? n) with true by lia end; cbn iota
     | rewrite getU16_R by (auto; lia); match goal with |- context [?a <=? n] => replace (a <=? n) with true by lia end; cbn iota
     | rewrite getU24_R by (auto; lia); match goal with |- context [?a <=? n] => replace (a <=? n) with true by lia end; cbn iota
     | rewrite getU32_R by (auto; lia); match goal with |- context [?a <=? n] => replace (a <=? n) with true by lia end; cbn iota ];
    rewrite ?(freq_u32 buf n) by auto;
    rewrite ?sweep_mid, ?sweep_lo, ?sweep_6; rewrite ?sweep_hi by auto;
    change (Z.of_nat 0) with 0; change (Z.of_nat 1) with 1; change (Z.of_nat 2) with 2;
    change (Z.of_nat 3) with 3; change (Z.of_nat 4) with 4;
    rewrite ?(rd_2 buf n), ?(rd_3 buf n), ?(rd_4 buf n) by (auto; lia);
    rewrite ?Z.add_0_r; rewrite <- ?Z.add_assoc; change (1 + 1) with 2; change (1 + 2) with 3;
    change (1 + (2 + 1)) with 4; change (1 + 3) with 4; change (4 + 1) with 5; change (3 + 1) with 4;
    change (2 + 1) with 3; try reflexivity.
    (* ForceRejoinReq *)
    unfold force_rejoin_read.
    set (w := le_val [rd buf q 1; rd buf (q + 1) 1]).
    assert (Hw : 0 <= w < 65536).
    { unfold w, le_val. cbn [fold_right]. pose proof (Hb q). pose proof (Hb (q + 1)). lia. }
    rewrite !sweep_fr, sweep_fr0 by lia. reflexivity.
  - destruct t; cbn [plen] in *; unfold getPayload;
    change (Z.of_nat 0) with 0 in *; change (Z.of_nat 1) with 1 in *; change (Z.of_nat 2) with 2 in *;
    change (Z.of_nat 4) with 4 in *; change (Z.of_nat 5) with 5 in *; try lia;
    repeat first
     [ rewrite getU8_R by (auto; lia); match goal with |- context [?a <=? n] => destruct (a <=? n) eqn:?; cbn iota end
     | rewrite getU16_R by (auto; lia); match goal with |- context [?a <=? n] => destruct (a <=? n) eqn:?; cbn iota end
     | rewrite getU24_R by (auto; lia); match goal with |- context [?a <=? n] => destruct (a <=? n) eqn:?; cbn iota end
     | rewrite getU32_R by (auto; lia); match goal with |- context [?a <=? n] => destruct (a <=? n) eqn:?; cbn iota end
     | rewrite getU8_RE | rewrite getU16_RE | rewrite getU24_RE | rewrite getU32_RE ];
    try (eexists; eexists; reflexivity); lia.
Qed.

Definition rest (buf : bytes) (n p : Z) : bytes := at_ buf p (n - p).

Lemma rest_cons buf n p : ok_len buf n -> 0 <= p < n -> rest buf n p = rd buf p 1 :: rest buf n (p + 1).
Proof.
  intros Hok Hp. unfold rest. replace (n - p) with (1 + (n - (p + 1))) by lia.
  rewrite at_split by lia. rewrite (at_le1 buf n) by (auto; lia). reflexivity.
Qed.

Lemma rest_split buf n p k : ok_len buf n -> 0 <= p -> p + Z.of_nat k <= n ->
  firstn k (rest buf n p) = at_ buf p (Z.of_nat k) /\ skipn k (rest buf n p) = rest buf n (p + Z.of_nat k).
Proof.
  intros Hok Hp Hk. unfold rest. replace (n - p) with (Z.of_nat k + (n - (p + Z.of_nat k))) by lia.
  rewrite at_split by lia.
  assert (length (at_ buf p (Z.of_nat k)) = k) as Hl by (rewrite (at_length buf n) by (auto; lia); lia).
  split.
  - rewrite firstn_app, Hl, Nat.sub_diag, firstn_O, app_nil_r. apply firstn_all2. lia.
  - rewrite skipn_app, Hl, Nat.sub_diag, skipn_O. rewrite skipn_all2 by lia. reflexivity.
Qed.

Lemma rest_length buf n p : ok_len buf n -> 0 <= p <= n -> length (rest buf n p) = Z.to_nat (n - p).
Proof. intros. unfold rest. apply (at_length buf n); auto; lia. Qed.

Lemma getDown_R v buf n p : ok_len buf n -> 0 <= p <= n ->
  match next_cmd fields_read v (rest buf n p) with
  | Some (d, l) => exists p', p < p' <= n /\ l = rest buf n p' /\
                   getDownCommand v (R buf n p) = (R buf n p', Some d)
  | None => exists s, getDownCommand v (R buf n p) = (s, None) /\ st_oob s = false
  end.
Proof.
  intros Hok Hp. unfold getDownCommand. rewrite read_R by (auto; lia).
  destruct (p + 1 <=? n) eqn:E.
  2:{ assert (Hn : rest buf n p = []).
      { assert (Hl := rest_length buf n p Hok Hp). destruct (rest buf n p); auto. cbn [length] in Hl. lia. }
      rewrite Hn. cbn [next_cmd]. eexists. split; reflexivity. }
  rewrite rest_cons by (auto; lia).
  replace (byte_at (at_ buf p 1) 0) with (rd buf p 1)
    by (symmetry; apply rd1; rewrite (at_length buf n) by (auto; lia); reflexivity).
  unfold next_cmd. pose proof (tag_cases v (rd buf p 1)) as Ht.
  destruct (tagToType v (rd buf p 1)) as [t|]; [|rewrite Ht; eexists; split; reflexivity].
  destruct Ht as [Hc Hpl]. rewrite Hc in *. rewrite (plen_spec v t Hpl).
  pose proof (getPayload_R t buf n (p + 1) Hok ltac:(lia)) as Hg.
  rewrite (rest_length buf n (p + 1)) by (auto; lia).
  destruct (p + 1 + Z.of_nat (plen t) <=? n) eqn:E2.
  - replace (Z.to_nat (n - (p + 1)) <? plen t)%nat with false by lia.
    destruct (rest_split buf n (p + 1) (plen t) Hok ltac:(lia) ltac:(lia)) as [-> ->].
    exists (p + 1 + Z.of_nat (plen t)). split; [lia|]. split; [reflexivity|].
    rewrite Hg. reflexivity.
  - replace (Z.to_nat (n - (p + 1)) <? plen t)%nat with true by lia.
    destruct Hg as (q' & d & ->). eexists. split; reflexivity.
Qed.

Lemma next_cmd_shorter F v l d l' : next_cmd F v l = Some (d, l') -> (length l' < length l)%nat.
Proof.
  unfold next_cmd. destruct l as [|c l]; [discriminate|].
  destruct (payload_len v c) as [k|]; [|discriminate].
  destruct (length l <? k)%nat eqn:E; [discriminate|]. intros [= <- <-].
  rewrite skipn_length. cbn [length]. lia.
Qed.

Lemma cmds_fuel F v f1 f2 l : (length l <= f1)%nat -> (length l <= f2)%nat ->
  cmds F f1 v l = cmds F f2 v l.
Proof.
  revert f2 l; induction f1 as [|f1 IH]; intros f2 l H1 H2.
  - destruct l; [|cbn in H1; lia]. destruct f2; reflexivity.
  - destruct f2 as [|f2]; [destruct l; [reflexivity | cbn in H2; lia]|].
    cbn [cmds]. destruct (next_cmd F v l) as [[d l']|] eqn:E; auto.
    apply next_cmd_shorter in E. f_equal. apply IH; lia.
Qed.

Lemma scan_R v buf n : ok_len buf n -> forall fuel p, 0 <= p <= n -> (Z.to_nat (n - p) < fuel)%nat ->
  scan fuel v (R buf n p) = (map fst (parse_cmds fields_read v (rest buf n p)), false).
Proof.
  intros Hok. induction fuel as [|fuel IH]; intros p Hp Hf; [lia|].
  cbn [scan]. pose proof (getDown_R v buf n p Hok Hp) as Hg.
  unfold parse_cmds. rewrite (rest_length buf n p Hok Hp).
  destruct (next_cmd fields_read v (rest buf n p)) as [[d l]|] eqn:E.
  - destruct Hg as (p' & Hp' & -> & ->). rewrite IH by lia.
    rewrite (cmds_fuel _ v (Z.to_nat (n - p)) (S (Z.to_nat (n - p)))) by (rewrite (rest_length buf n p Hok Hp); lia).
    cbn [cmds]. rewrite E. cbn [map fst]. unfold parse_cmds.
    rewrite (rest_length buf n p' Hok) by lia.
    rewrite (cmds_fuel _ v (Z.to_nat (n - p)) (Z.to_nat (n - p'))) by (rewrite (rest_length buf n p' Hok) by lia; lia).
    reflexivity.
  - destruct Hg as (s & -> & ->). destruct (Z.to_nat (n - p)); [reflexivity|].
    cbn [cmds]. rewrite E. reflexivity.
Qed.

Lemma init_R l : (length l < 256)%nat -> bytes_ok l ->
  Stream_initReadOnly l (Z.of_nat (length l)) = R l (Z.of_nat (length l)) 0 /\ ok_len l (Z.of_nat (length l)) /\ rest l (Z.of_nat (length l)) 0 = l.
Proof.
  intros. split; [|split].
  - unfold Stream_initReadOnly, R. reflexivity.
  - unfold ok_len. repeat split; auto; lia.
  - unfold rest, at_. rewrite Z.sub_0_r, Nat2Z.id. apply slice_all.
Qed.

Lemma scan_read v l fuel : bytes_ok l -> (length l < 256)%nat -> (length l < fuel)%nat ->
  scan fuel v (Stream_initReadOnly l (Z.of_nat (length l))) = (map fst (parse_cmds fields_read v l), false).
Proof.
  intros Hb Hl Hf. destruct (init_R l Hl Hb) as (-> & Hok & Hr).
  rewrite (scan_R v l _ Hok) by lia. now rewrite Hr.
Qed.

Lemma cmds_fields v l fuel : is_1_1 v = false -> cmds fields_read fuel v l = cmds fields fuel v l.
Proof.
  intros Hv. revert l; induction fuel as [|fuel IH]; intros l; [reflexivity|].
  cbn [cmds].
  assert (next_cmd fields_read v l = next_cmd fields v l) as ->.
  { unfold next_cmd. destruct l as [|c l]; auto. destruct (payload_len v c) eqn:E; auto.
    unfold fields_read. destruct (c =? 14) eqn:Ec; auto.
    apply Z.eqb_eq in Ec. subst c. cbn in E. rewrite Hv in E. discriminate. }
  destruct (next_cmd fields v l) as [[d l']|]; auto. f_equal. apply IH.
Qed.

Lemma scan_exact v l fuel : is_1_1 v = false -> bytes_ok l -> (length l < 256)%nat -> (length l < fuel)%nat ->
  scan fuel v (Stream_initReadOnly l (Z.of_nat (length l))) = (map fst (parse_cmds fields v l), false).
Proof. intros Hv Hb Hl Hf. rewrite scan_read by auto. unfold parse_cmds. now rewrite cmds_fields. Qed.

(* fields other than the two misplaced ones of ForceRejoinReq are as specified
   in every version *)
Lemma fields_read_eq cid p : cid <> 14 -> fields_read cid p = fields cid p.
Proof. intros H. unfold fields_read. now rewrite (proj2 (Z.eqb_neq _ _) H). Qed.

Lemma force_rejoin_wrong :
  exists l, bytes_ok l /\ scan 4 L2_1_1 (Stream_initReadOnly l (Z.of_nat (length l))) <> (map fst (parse_cmds fields L2_1_1 l), false).
Proof. exists [14; 0; 4]. split; [repeat constructor; unfold byte_ok; lia | vm_compute; discriminate]. Qed.
