(* General lemmas about words, lists and bytes. *)
From Coq Require Export Lia ZifyBool ZifyNat.
From Verif Require Export Words.
Ltac Zify.zify_post_hook ::= Z.div_mod_to_equations.

Lemma u8_range x : 0 <= u8 x < 256. Proof. unfold u8; lia. Qed.
Lemma u16_range x : 0 <= u16 x < 65536. Proof. unfold u16; lia. Qed.
Lemma u32_range x : 0 <= u32 x < 4294967296. Proof. unfold u32; lia. Qed.
Lemma u8_id x : 0 <= x < 256 -> u8 x = x. Proof. unfold u8; intros; apply Z.mod_small; lia. Qed.
Lemma u16_id x : 0 <= x < 65536 -> u16 x = x. Proof. unfold u16; intros; apply Z.mod_small; lia. Qed.
Lemma u32_id x : 0 <= x < 4294967296 -> u32 x = x. Proof. unfold u32; intros; apply Z.mod_small; lia. Qed.

(* bit manipulation as arithmetic *)
Lemma shiftr8 x : Z.shiftr x 8 = x / 256. Proof. now rewrite Z.shiftr_div_pow2. Qed.
Lemma shiftr16 x : Z.shiftr x 16 = x / 65536. Proof. now rewrite Z.shiftr_div_pow2. Qed.
Lemma shiftr24 x : Z.shiftr x 24 = x / 16777216. Proof. now rewrite Z.shiftr_div_pow2. Qed.
Lemma shiftl8 x : Z.shiftl x 8 = x * 256. Proof. now rewrite Z.shiftl_mul_pow2. Qed.
Lemma shiftl16 x : Z.shiftl x 16 = x * 65536. Proof. now rewrite Z.shiftl_mul_pow2. Qed.

(* disjoint or is addition *)
Lemma land_disjoint a b n : 0 <= n -> 0 <= b < 2 ^ n -> Z.land (a * 2 ^ n) b = 0.
Proof.
  intros Hn Hb. destruct (Z.eq_dec b 0) as [->|Hb0]; [apply Z.land_0_r|].
  apply Z.bits_inj'; intros i Hi. rewrite Z.land_spec, Z.bits_0.
  destruct (Z.ltb_spec i n).
  - rewrite Z.mul_pow2_bits_low by lia. reflexivity.
  - assert (Z.log2 b < n) by (apply Z.log2_lt_pow2; lia).
    rewrite (Z.bits_above_log2 b i), andb_false_r; auto; lia.
Qed.

Lemma lor_add a b n : 0 <= n -> 0 <= b < 2 ^ n -> Z.lor (Z.shiftl a n) b = a * 2 ^ n + b.
Proof.
  intros Hn Hb. rewrite Z.shiftl_mul_pow2 by lia.
  rewrite <- Z.lxor_lor by now apply land_disjoint.
  symmetry; apply Z.add_nocarry_lxor. now apply land_disjoint.
Qed.

Lemma lor_shift8 a b : 0 <= b < 256 -> Z.lor (Z.shiftl a 8) b = a * 256 + b.
Proof. intros; now rewrite lor_add by lia. Qed.

Lemma land_mask a n : 0 <= n -> Z.land a (2 ^ n - 1) = a mod 2 ^ n.
Proof. intros. replace (2 ^ n - 1) with (Z.ones n) by (rewrite Z.ones_equiv; lia). now apply Z.land_ones. Qed.
Lemma land1 a : Z.land a 1 = a mod 2. Proof. exact (land_mask a 1 ltac:(lia)). Qed.
Lemma land3 a : Z.land a 3 = a mod 4. Proof. exact (land_mask a 2 ltac:(lia)). Qed.
Lemma land7 a : Z.land a 7 = a mod 8. Proof. exact (land_mask a 3 ltac:(lia)). Qed.
Lemma land15 a : Z.land a 15 = a mod 16. Proof. exact (land_mask a 4 ltac:(lia)). Qed.
Lemma land255 a : Z.land a 255 = a mod 256. Proof. exact (land_mask a 8 ltac:(lia)). Qed.

(* lists *)
Lemma slice_length l off n : (off + n <= length l)%nat -> length (slice l off n) = n.
Proof. intros. unfold slice. rewrite firstn_length, skipn_length. lia. Qed.

Lemma slice_length_le l off n : (length (slice l off n) <= n)%nat.
Proof. unfold slice. rewrite firstn_length. lia. Qed.

Lemma splice_length l off d : (off + length d <= length l)%nat -> length (splice l off d) = length l.
Proof.
  intros. unfold splice. rewrite !app_length, firstn_length, skipn_length. lia.
Qed.

Lemma slice_all l : slice l 0 (length l) = l.
Proof. unfold slice. cbn. apply firstn_all. Qed.

Lemma slice_app_l a b n : n = length a -> slice (a ++ b) 0 n = a.
Proof.
  intros ->. unfold slice; cbn. rewrite firstn_app, firstn_all, Nat.sub_diag. cbn. apply app_nil_r.
Qed.

Lemma slice_app_skip a b off n : (length a <= off)%nat -> slice (a ++ b) off n = slice b (off - length a) n.
Proof. intros. unfold slice. rewrite skipn_app, skipn_all2; auto. Qed.

Lemma slice_app_exact a b n : slice (a ++ b) (length a) n = slice b 0 n.
Proof. rewrite slice_app_skip, Nat.sub_diag; auto. Qed.

Lemma skipn_skipn {A} (l : list A) a b : skipn a (skipn b l) = skipn (b + a) l.
Proof.
  revert b; induction l as [|x l IH]; intros b; [now rewrite !skipn_nil|].
  destruct b; cbn [skipn Nat.add]; [reflexivity|]. apply IH.
Qed.

Lemma slice_slice l a n b m : (b + m <= n)%nat -> slice (slice l a n) b m = slice l (a + b) m.
Proof.
  intros. unfold slice. rewrite skipn_firstn_comm, firstn_firstn, skipn_skipn.
  rewrite Nat.min_l by lia. reflexivity.
Qed.

Lemma splice_app a b c d : length b = length d -> splice (a ++ b ++ c) (length a) d = a ++ d ++ c.
Proof.
  intros H. unfold splice. rewrite firstn_app, firstn_all, Nat.sub_diag. cbn [firstn].
  rewrite app_nil_r. rewrite skipn_app, skipn_all2 by lia.
  replace (length a + length d - length a)%nat with (length d) by lia.
  rewrite skipn_app, skipn_all2, <- H, Nat.sub_diag by lia. reflexivity.
Qed.

Lemma nth_slice l off n i d : (i < n)%nat -> nth i (slice l off n) d = nth (off + i) l d.
Proof.
  intros. unfold slice. revert off n i H. induction l as [|x l IH]; intros off n i H.
  - rewrite skipn_nil, firstn_nil. now rewrite !nth_overflow by (cbn; lia).
  - destruct off.
    + cbn [skipn]. destruct n; [lia|]. destruct i; cbn; [reflexivity|].
      specialize (IH 0%nat n i ltac:(lia)). cbn in IH. exact IH.
    + cbn [skipn]. rewrite IH by lia. reflexivity.
Qed.

Lemma upd_length {A} (l : list A) i v : length (upd l i v) = length l.
Proof. revert i; induction l as [|x l IH]; intros [|i]; cbn; auto. Qed.

Lemma nth_upd {A} (l : list A) i j v d :
  nth j (upd l i v) d = if ((j =? i) && (i <? length l))%nat then v else nth j l d.
Proof.
  revert i j; induction l as [|x l IH]; intros i j.
  - cbn [upd length]. replace (i <? 0)%nat with false by lia. now rewrite andb_false_r.
  - destruct i as [|i], j as [|j]; cbn [upd nth]; try reflexivity. apply IH.
Qed.

Lemma fill_length v n : length (fill v n) = n.
Proof. apply repeat_length. Qed.

Lemma bytes_ok_app a b : bytes_ok (a ++ b) <-> bytes_ok a /\ bytes_ok b.
Proof. apply Forall_app. Qed.

Lemma bytes_ok_slice l off n : bytes_ok l -> bytes_ok (slice l off n).
Proof.
  intros H. unfold slice. apply Forall_forall. intros x Hx.
  assert (In x l) as Hin.
  { rewrite <- (firstn_skipn off l). apply in_or_app. right.
    rewrite <- (firstn_skipn n (skipn off l)). apply in_or_app. now left. }
  clear Hx. revert x Hin. now apply Forall_forall.
Qed.

Lemma bytes_ok_nth l i : bytes_ok l -> 0 <= nth i l 0 < 256.
Proof.
  intros H. destruct (Nat.lt_ge_cases i (length l)).
  - exact (proj1 (Forall_forall byte_ok l) H _ (nth_In l 0 H0)).
  - rewrite nth_overflow by lia. lia.
Qed.

Lemma bytes_ok_splice l off d : bytes_ok l -> bytes_ok d -> bytes_ok (splice l off d).
Proof.
  intros Hl Hd. unfold splice. apply Forall_app. split; [|apply Forall_app; split; auto].
  - apply (bytes_ok_slice l 0 off Hl).
  - apply Forall_forall. intros x Hx. apply (proj1 (Forall_forall byte_ok l) Hl).
    rewrite <- (firstn_skipn (off + length d) l). apply in_or_app. now right.
Qed.

Lemma bytes_ok_fill v n : byte_ok v -> bytes_ok (fill v n).
Proof. intros H. apply Forall_forall. intros x Hx. apply repeat_spec in Hx. now subst. Qed.

Lemma u8_byte x : byte_ok (u8 x). Proof. unfold byte_ok, u8; lia. Qed.
Lemma le16_ok v : bytes_ok (le16 v). Proof. repeat constructor; unfold u8; lia. Qed.
Lemma le24_ok v : bytes_ok (le24 v). Proof. repeat constructor; unfold u8; lia. Qed.
Lemma le32_ok v : bytes_ok (le32 v). Proof. repeat constructor; unfold u8; lia. Qed.

(* decoding little-endian values *)
Definition of_le (l : bytes) : Z := fold_right (fun b acc => b + 256 * acc) 0 l.

Lemma of_le16 v : 0 <= v < 65536 -> of_le (le16 v) = v.
Proof. intros. unfold of_le, le16, u8. cbn [fold_right]. rewrite shiftr8. lia. Qed.
Lemma of_le24 v : 0 <= v < 16777216 -> of_le (le24 v) = v.
Proof. intros. unfold of_le, le24, u8. cbn [fold_right]. rewrite shiftr8, shiftr16. lia. Qed.
Lemma of_le32 v : 0 <= v < 4294967296 -> of_le (le32 v) = v.
Proof. intros. unfold of_le, le32, u8. cbn [fold_right]. rewrite shiftr8, shiftr16, shiftr24. lia. Qed.

Lemma forallb_Z_lt (f : Z -> bool) (n : nat) :
  forallb f (map Z.of_nat (seq 0 n)) = true -> forall x, 0 <= x < Z.of_nat n -> f x = true.
Proof.
  intros H x Hx. rewrite forallb_forall in H. apply H. apply in_map_iff.
  exists (Z.to_nat x). split; [lia|]. apply in_seq. lia.
Qed.
