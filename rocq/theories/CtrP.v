(* ldl_ctr.c is counter mode: an involution that keeps the length. *)
From Verif Require Import Lib CmacM CtrM SpecAes SpecCmac AesP CmacP.

Lemma nth_first l n j : (j < n)%nat -> nth j (firstn n l) 0 = nth j l 0.
Proof. intros H. exact (nth_slice l 0 n j 0 H). Qed.
Lemma nth_skip (l : bytes) n j : nth j (skipn n l) 0 = nth (n + j) l 0.
Proof. revert l. induction n; intros l; [reflexivity|]. destruct l; [now destruct j | apply IHn]. Qed.

Lemma ctr_iv_block iv i : block iv -> block (firstn 15 iv ++ [(nth 15 iv 0 + Z.of_nat i) mod 256]).
Proof.
  intros [Hl Hb]. split.
  - rewrite app_length, firstn_length, Hl. reflexivity.
  - apply bytes_ok_app. split; [exact (bytes_ok_slice iv 0 15 Hb)|].
    repeat constructor; unfold byte_ok; lia.
Qed.

Lemma ctr_next iv i : block iv ->
  let a := firstn 15 iv ++ [(nth 15 iv 0 + Z.of_nat i) mod 256] in
  upd a 15 (u8 (nth 15 a 0 + 1)) = firstn 15 iv ++ [(nth 15 iv 0 + Z.of_nat (S i)) mod 256].
Proof.
  intros [Hl _]. list16 iv Hl. cbn [firstn app nth upd]. do 15 f_equal. f_equal. unfold u8. lia.
Qed.

Section Enc.
  Variable enc : bytes -> bytes.
  Hypothesis Henc : forall b, block b -> block (enc b).

  Definition key_byte (iv : bytes) (j : nat) : Z := nth (j mod 16) (ctr_block enc iv (j / 16)) 0.

  (* the buffer after i blocks *)
  Definition part_done (iv data : bytes) (i : nat) : bytes :=
    map (fun j => if (j <? 16 * i)%nat then Z.lxor (nth j data 0) (key_byte iv j) else nth j data 0)
        (seq 0 (length data)).

  Lemma part_length iv data i : length (part_done iv data i) = length data.
  Proof. unfold part_done. now rewrite map_length, seq_length. Qed.

  Lemma part_nth iv data i j : (j < length data)%nat ->
    nth j (part_done iv data i) 0 =
    if (j <? 16 * i)%nat then Z.lxor (nth j data 0) (key_byte iv j) else nth j data 0.
  Proof. intros H. unfold part_done. now rewrite nth_map_seq. Qed.

  Lemma nth_splice l off d j : (off + length d <= length l)%nat ->
    nth j (splice l off d) 0 =
    if ((off <=? j) && (j <? off + length d))%nat then nth (j - off) d 0 else nth j l 0.
  Proof.
    intros H. unfold splice.
    destruct (Nat.leb_spec off j); cbn [andb].
    - rewrite app_nth2 by (rewrite firstn_length; lia).
      rewrite firstn_length, Nat.min_l by lia.
      destruct (Nat.ltb_spec j (off + length d)).
      + now rewrite app_nth1 by lia.
      + rewrite app_nth2 by lia. rewrite nth_skip. f_equal. lia.
    - rewrite app_nth1 by (rewrite firstn_length; lia). now rewrite nth_first by lia.
  Qed.

  Lemma ctr_step iv data i : block iv -> (length data < 256)%nat -> (16 * i < length data)%nat ->
    let size := Nat.min 16 (length data - 16 * i) in
    splice (part_done iv data i) (16 * i)
      (firstn size (xor128 (splice (fill 0 16) 0 (slice (part_done iv data i) (16 * i) size))
                           (ctr_block enc iv i)))
    = part_done iv data (S i).
  Proof.
    intros Hiv Hl Hi size.
    assert (Hsz : (size <= 16 /\ 16 * i + size <= length data)%nat) by (unfold size; lia).
    set (sl := slice (part_done iv data i) (16 * i) size).
    assert (Hsl : length sl = size) by (apply slice_length; rewrite part_length; lia).
    assert (Hpl : length (splice (fill 0 16) 0 sl) = 16%nat).
    { rewrite splice_length; rewrite fill_length; [reflexivity | lia]. }
    assert (Hcb : block (ctr_block enc iv i)) by (apply Henc, ctr_iv_block; auto).
    rewrite xor128_16 by (auto; apply Hcb).
    set (x := xor16 _ _).
    assert (Hx : length x = 16%nat) by reflexivity.
    assert (Hf : length (firstn size x) = size) by (rewrite firstn_length; lia).
    apply (nth_ext _ _ 0 0).
    - rewrite splice_length; rewrite !part_length; [reflexivity | lia].
    - intros j Hj. rewrite splice_length in Hj by (rewrite part_length; lia). rewrite part_length in Hj.
      rewrite nth_splice by (rewrite part_length; lia). rewrite Hf. rewrite !part_nth by lia.
      destruct ((16 * i <=? j)%nat && (j <? 16 * i + size)%nat) eqn:E.
      + rewrite nth_first by lia. unfold x, xor16. rewrite nth_map_seq by lia.
        rewrite nth_splice by (rewrite fill_length; lia). rewrite Hsl.
        assert (((0 <=? j - 16 * i) && (j - 16 * i <? 0 + size))%nat = true) as -> by lia.
        rewrite Nat.sub_0_r. unfold sl. rewrite nth_slice by lia. rewrite part_nth by lia.
        replace (16 * i + (j - 16 * i))%nat with j by lia.
        assert ((j <? 16 * i)%nat = false) as -> by lia.
        assert ((j <? 16 * S i)%nat = true) as -> by lia.
        unfold key_byte. replace (j / 16)%nat with i by lia. replace (j mod 16)%nat with (j - 16 * i)%nat by lia.
        reflexivity.
      + destruct (Nat.ltb_spec j (16 * i)), (Nat.ltb_spec j (16 * S i)); auto; unfold size in *; lia.
  Qed.

  Lemma ctr_loop iv data : block iv -> (length data < 256)%nat -> forall n i,
    (length data <= 16 * (i + n))%nat -> (16 * (i + n) < length data + 16)%nat ->
    ctr_blocks enc n (firstn 15 iv ++ [(nth 15 iv 0 + Z.of_nat i) mod 256])
      (Z.of_nat (length data)) (u8 (16 * Z.of_nat i)) (part_done iv data i) = part_done iv data (i + n).
  Proof.
    intros Hiv Hl. induction n as [|n IH]; intros i H1 H2.
    - now rewrite Nat.add_0_r.
    - cbn [ctr_blocks]. rewrite ctr_next by auto. fold (ctr_block enc iv i).
      rewrite (u8_id (16 * Z.of_nat i)) by lia.
      set (sz := if 16 <=? _ then 16 else _).
      assert (Hsz : Z.to_nat sz = Nat.min 16 (length data - 16 * i)).
      { unfold sz. destruct (16 <=? Z.of_nat (length data) - 16 * Z.of_nat i) eqn:?; [|rewrite u8_id by lia]; lia. }
      rewrite Hsz. replace (Z.to_nat (16 * Z.of_nat i)) with (16 * i)%nat by lia.
      rewrite ctr_step by (auto; lia).
      replace (16 * Z.of_nat i + 16) with (16 * Z.of_nat (S i)) by lia.
      rewrite IH by lia. f_equal. lia.
  Qed.

  Lemma ctr_spec iv data : block iv -> (length data < 256)%nat ->
    CTR_encrypt enc iv data = ctr enc iv data.
  Proof.
    intros Hiv Hl. unfold CTR_encrypt.
    set (k := Z.to_nat _).
    assert (Hk : (length data <= 16 * k /\ 16 * k < length data + 16)%nat).
    { unfold k. destruct (Z.of_nat (length data) mod 16 =? 0) eqn:?; rewrite u8_id by lia; lia. }
    pose proof (ctr_loop iv data Hiv Hl k 0 ltac:(lia) ltac:(lia)) as H.
    change (u8 (16 * Z.of_nat 0)) with 0 in H.
    replace (firstn 15 iv ++ [(nth 15 iv 0 + Z.of_nat 0) mod 256]) with iv in H.
    2:{ assert (H15 : 0 <= nth 15 iv 0 < 256) by (now apply block_nth). destruct Hiv as [Hli _].
        rewrite Z.add_0_r, Z.mod_small by auto. clear -Hli. list16 iv Hli. reflexivity. }
    replace (part_done iv data 0) with data in H.
    2:{ apply (nth_ext _ _ 0 0); [now rewrite part_length|]. intros j Hj. now rewrite part_nth by auto. }
    rewrite H. unfold part_done, ctr. apply map_ext_in. intros j Hj. apply in_seq in Hj.
    assert ((j <? 16 * (0 + k))%nat = true) as -> by lia. reflexivity.
  Qed.

  Lemma ctr_length iv data : length (ctr enc iv data) = length data.
  Proof. unfold ctr. now rewrite map_length, seq_length. Qed.

End Enc.

Lemma ctr_involution enc iv data : ctr enc iv (ctr enc iv data) = data.
Proof.
  apply (nth_ext _ _ 0 0); [now rewrite !ctr_length|]. intros j Hj. rewrite !ctr_length in Hj.
  unfold ctr at 1. rewrite nth_map_seq by (rewrite ctr_length; lia).
  unfold ctr. rewrite nth_map_seq by lia. xors.
Qed.
