(* ldl_cmac.c computes CMAC, except across a total length that is a nonzero
   multiple of 256. *)
From Verif Require Import Lib CmacM SpecAes SpecCmac AesP.

Lemma xor128_16 a b : length a = 16%nat -> length b = 16%nat -> xor128 a b = xor16 a b.
Proof. intros Ha Hb. list16 a Ha. list16 b Hb. reflexivity. Qed.

Lemma xor16_comm a b : xor16 a b = xor16 b a.
Proof. apply map_ext. intros. apply Z.lxor_comm. Qed.

Lemma xor16_block a b : block a -> block b -> block (xor16 a b).
Proof. exact (ark_block a b). Qed.

Lemma zero_block : block (repeat 0 16).
Proof. split; [reflexivity|]. repeat constructor; unfold byte_ok; lia. Qed.

Ltac ands := repeat match goal with |- _ /\ _ => split end.

(* --- doubling ------------------------------------------------------------------------ *)

Lemma be_val_app l m : be_val (l ++ m) = be_val l * 256 ^ Z.of_nat (length m) + be_val m.
Proof.
  unfold be_val. rewrite fold_left_app. generalize (fold_left (fun acc b : Z => 256 * acc + b) l 0).
  intros x. revert x. induction m as [|b m IH]; intros x; cbn [fold_left length].
  - rewrite Z.pow_0_r. lia.
  - rewrite (IH (256 * x + b)), (IH (256 * 0 + b)).
    replace (Z.of_nat (S (length m))) with (1 + Z.of_nat (length m)) by lia.
    rewrite Z.pow_add_r by lia. rewrite Z.pow_1_r. ring.
Qed.

Lemma be_val_cons b l : be_val (b :: l) = b * 256 ^ Z.of_nat (length l) + be_val l.
Proof. change (b :: l) with ([b] ++ l). rewrite be_val_app. unfold be_val at 1. cbn [fold_left]. ring. Qed.

Lemma be_val_range l : bytes_ok l -> 0 <= be_val l < 256 ^ Z.of_nat (length l).
Proof.
  induction 1 as [|b l Hb Hl IH].
  - cbn. lia.
  - rewrite be_val_cons. cbn [length]. replace (Z.of_nat (S (length l))) with (1 + Z.of_nat (length l)) by lia.
    rewrite Z.pow_add_r by lia. unfold byte_ok in Hb. nia.
Qed.

Lemma be_bytes_val l : bytes_ok l -> be_bytes (length l) (be_val l) = l.
Proof.
  induction l as [|b l IH] using rev_ind; intros H; [reflexivity|].
  apply bytes_ok_app in H as [H1 H2]. inversion H2; subst. unfold byte_ok in *.
  rewrite app_length, Nat.add_comm. cbn [length Nat.add be_bytes]. rewrite be_val_app.
  change (256 ^ Z.of_nat (length [b])) with 256. change (be_val [b]) with b.
  replace ((be_val l * 256 + b) / 256) with (be_val l) by lia.
  replace ((be_val l * 256 + b) mod 256) with b by lia. now rewrite IH.
Qed.

Lemma land80 t : 0 <= t < 256 -> (Z.land t 0x80 =? 0x80) = (128 <=? t).
Proof.
  intros H. apply eqb_prop. revert t H.
  apply (byte_sweep (fun t => eqb (Z.land t 0x80 =? 0x80) (128 <=? t))). vm_compute. reflexivity.
Qed.

Lemma shl_carry t c : 0 <= t < 256 -> 0 <= c <= 1 ->
  Z.lor (u8 (Z.shiftl t 1)) c = 2 * (t mod 128) + c.
Proof.
  intros Ht Hc. assert (c = 0 \/ c = 1) as [->| ->] by lia.
  - apply Z.eqb_eq. revert t Ht.
    apply (byte_sweep (fun t => Z.lor (u8 (Z.shiftl t 1)) 0 =? 2 * (t mod 128) + 0)). vm_compute. reflexivity.
  - apply Z.eqb_eq. revert t Ht.
    apply (byte_sweep (fun t => Z.lor (u8 (Z.shiftl t 1)) 1 =? 2 * (t mod 128) + 1)). vm_compute. reflexivity.
Qed.

Lemma leftShift_spec l : bytes_ok l ->
  length (fst (leftShift_c l)) = length l /\ bytes_ok (fst (leftShift_c l)) /\
  be_val (fst (leftShift_c l)) = 2 * be_val l mod 256 ^ Z.of_nat (length l) /\
  snd (leftShift_c l) = 2 * be_val l / 256 ^ Z.of_nat (length l).
Proof.
  induction 1 as [|t l Ht Hl IH].
  - repeat split; constructor.
  - cbn [leftShift_c]. destruct (leftShift_c l) as [l' c]. cbn [fst snd] in *.
    destruct IH as (I1 & I2 & I3 & I4).
    unfold byte_ok in Ht.
    set (P := 256 ^ Z.of_nat (length l)) in *.
    assert (HP : 0 < P) by (apply Z.pow_pos_nonneg; lia).
    pose proof (be_val_range l Hl) as Hv. fold P in Hv.
    assert (Hc : 0 <= c <= 1).
    { rewrite I4. split; [apply Z.div_pos; lia|]. apply Z.lt_succ_r, Z.div_lt_upper_bound; lia. }
    rewrite shl_carry by auto. rewrite land80 by auto.
    cbn [length]. rewrite I1. replace (Z.of_nat (S (length l))) with (1 + Z.of_nat (length l)) by lia.
    rewrite Z.pow_add_r, Z.pow_1_r by lia. fold P.
    rewrite !be_val_cons. rewrite I1, I3. fold P.
    assert (Hdm : 2 * be_val l = P * c + 2 * be_val l mod P) by (rewrite I4; apply Z.div_mod; lia).
    pose proof (Z.mod_pos_bound (2 * be_val l) P HP).
    assert (Htt : t = 128 * (if 128 <=? t then 1 else 0) + t mod 128) by (destruct (128 <=? t) eqn:?; lia).
    set (q := if 128 <=? t then 1 else 0) in *.
    assert (Hq : 0 <= q <= 1) by (unfold q; destruct (128 <=? t); lia).
    assert (Hm : 0 <= t mod 128 < 128) by lia.
    assert (Hval : 2 * (t * P + be_val l) = (256 * P) * q + ((2 * (t mod 128) + c) * P + 2 * be_val l mod P)).
    { rewrite Htt at 1. ring_simplify. ring_simplify in Hdm. nia. }
    assert (Hrange : 0 <= (2 * (t mod 128) + c) * P + 2 * be_val l mod P < 256 * P) by nia.
    split; [reflexivity|]. split; [constructor; auto; unfold byte_ok; lia|]. split.
    + apply (Z.mod_unique _ _ q); [left; lia | lia].
    + apply (Z.div_unique _ _ q ((2 * (t mod 128) + c) * P + 2 * be_val l mod P)); [left; lia | lia].
Qed.

Lemma be_bytes_lxor n v x : 0 <= x < 256 -> (0 < n)%nat ->
  be_bytes n (Z.lxor v x) = upd (be_bytes n v) (n - 1) (Z.lxor (nth (n - 1) (be_bytes n v) 0) x).
Proof.
  intros Hx Hn. destruct n as [|n]; [lia|]. cbn [be_bytes].
  assert (H1 : Z.lxor v x / 256 = v / 256).
  { change 256 with (2 ^ 8). rewrite <- !Z.shiftr_div_pow2 by lia. rewrite Z.shiftr_lxor.
    rewrite (Z.shiftr_div_pow2 x) by lia. change (2 ^ 8) with 256. rewrite (Z.div_small x) by lia.
    apply Z.lxor_0_r. }
  assert (H2 : Z.lxor v x mod 256 = Z.lxor (v mod 256) x).
  { rewrite <- !land255. change 255 with (Z.ones 8).
    apply Z.bits_inj'. intros i Hi. rewrite Z.land_spec, !Z.lxor_spec, Z.land_spec.
    destruct (Z_lt_ge_dec i 8).
    - rewrite Z.ones_spec_low by lia. now rewrite !andb_true_r.
    - rewrite Z.ones_spec_high by lia. rewrite !andb_false_r.
      rewrite (Z.bits_above_log2 x i); [reflexivity | lia|].
      destruct (Z.eq_dec x 0) as [->|]; [cbn; lia|].
      assert (Z.log2 x < 8) by (apply Z.log2_lt_pow2; lia). lia. }
  rewrite H1, H2.
  assert (Hl : length (be_bytes n (v / 256)) = n).
  { clear. generalize (v / 256). induction n; intros z; [reflexivity|]. cbn [be_bytes]. rewrite app_length, IHn. cbn. lia. }
  replace (S n - 1)%nat with n by lia.
  rewrite app_nth2 by lia. rewrite Hl, Nat.sub_diag. cbn [nth].
  revert Hl. generalize (be_bytes n (v / 256)) (v mod 256). clear. intros l b <-.
  induction l as [|y l IH]; [reflexivity|]. cbn [app length upd]. now rewrite <- IH.
Qed.

Lemma subkey_spec k : block k -> subkey k = dbl k /\ block (subkey k).
Proof.
  intros [Hl Hb]. unfold subkey, dbl. cbn zeta.
  destruct (leftShift_spec k Hb) as (S1 & S2 & S3 & S4). fold (leftShift128 k) in *.
  rewrite Hl in *. change (256 ^ Z.of_nat 16) with (2 ^ 128) in *.
  assert (Hk1 : leftShift128 k = be_bytes 16 (2 * be_val k mod 2 ^ 128)).
  { rewrite <- S3. rewrite <- (be_bytes_val _ S2) at 1. now rewrite S1. }
  assert (H80 : (Z.land (nth 0 k 0) 0x80 =? 0x80) = (2 ^ 127 <=? be_val k)).
  { destruct k as [|t k]; [discriminate|]. inversion Hb; subst. unfold byte_ok in *. cbn [nth].
    rewrite land80 by auto. rewrite be_val_cons. injection Hl as Hl. rewrite Hl.
    pose proof (be_val_range k ltac:(assumption)) as Hv. rewrite Hl in Hv.
    change (256 ^ Z.of_nat 15) with (2 ^ 120) in *. change (2 ^ 127) with (128 * 2 ^ 120).
    set (P := 2 ^ 120) in *. assert (0 < P) by reflexivity. clearbody P.
    destruct (128 <=? t) eqn:E1, (128 * P <=? t * P + be_val k) eqn:E2; auto; nia. }
  rewrite H80. destruct (2 ^ 127 <=? be_val k).
  - split.
    + rewrite be_bytes_lxor by lia. rewrite <- Hk1. reflexivity.
    + split; [now rewrite upd_length|]. rewrite Hk1 in *.
      apply Forall_forall. intros x Hx. apply In_nth with (d := 0) in Hx as (i & Hi & <-).
      rewrite upd_length in Hi. rewrite nth_upd by lia. destruct (Nat.eqb_spec i 15).
      * apply lxor_byte; [now apply bytes_ok_nth | lia].
      * now apply bytes_ok_nth.
  - rewrite Z.lxor_0_r. split; [exact Hk1 | now split].
Qed.

(* --- chaining ------------------------------------------------------------------------- *)
Section Enc.
  Variable enc : bytes -> bytes.
  Hypothesis Henc : forall b, block b -> block (enc b).

  Lemma cbc_S M n : cbc enc M (S n) = enc (xor16 (cbc enc M n) (slice M (16 * n) 16)).
  Proof. unfold cbc. rewrite seq_S, fold_left_app. reflexivity. Qed.

  Lemma slice_app_pre M d n k : (n + k <= length M)%nat -> slice (M ++ d) n k = slice M n k.
  Proof.
    intros H. unfold slice. rewrite skipn_app. rewrite firstn_app, skipn_length.
    replace (k - (length M - n))%nat with 0%nat by lia. now rewrite firstn_O, app_nil_r.
  Qed.

  Lemma cbc_app M d n : (16 * n <= length M)%nat -> cbc enc (M ++ d) n = cbc enc M n.
  Proof.
    induction n as [|n IH]; intros H; [reflexivity|].
    rewrite !cbc_S, IH by lia. now rewrite slice_app_pre by lia.
  Qed.

  Lemma cbc_block M n : bytes_ok M -> (16 * n <= length M)%nat -> block (cbc enc M n).
  Proof.
    intros HM. induction n as [|n IH]; intros H; [apply zero_block|].
    rewrite cbc_S. apply Henc, xor16_block; [apply IH; lia|].
    apply slice_block; auto. lia.
  Qed.

  (* blocks before the last one *)
  Definition nb (N : nat) : nat := ((N - 1) / 16)%nat.

  (* context after the bytes M *)
  Definition cinv (M : bytes) (c : cmac_ctx) : Prop :=
    cm_size c = Z.of_nat (length M) mod 256 /\ block (cm_m c) /\
    cm_x c = cbc enc M (nb (length M)) /\
    firstn (length M - 16 * nb (length M)) (cm_m c) = skipn (16 * nb (length M)) M.

  Lemma cinv_init : cinv [] CMAC_init.
  Proof. unfold cinv. cbn. repeat split; auto using zero_block; repeat constructor; unfold byte_ok; lia. Qed.

  Lemma nb_bounds N : (16 * nb N <= N)%nat /\ (N - 16 * nb N <= 16)%nat /\ (0 < N -> 0 < N - 16 * nb N)%nat.
  Proof. unfold nb. lia. Qed.

  (* the block loop: W is the whole message, k blocks done, [part] bytes of the
     current block already in m, [pos] bytes of d consumed *)
  Lemma blocks_spec W d : bytes_ok W -> bytes_ok d -> (length d < 256)%nat ->
    forall b k m part pos,
    block m -> 0 <= part < 16 -> 0 <= pos <= Z.of_nat (length d) ->
    firstn (Z.to_nat part) m ++ skipn (Z.to_nat pos) d = skipn (16 * k) W ->
    (16 * k <= length W)%nat ->
    16 * Z.of_nat b <= part + (Z.of_nat (length d) - pos) ->
    exists m' part' pos', cmac_blocks enc b d m (cbc enc W k) part pos =
        (m', cbc enc W (k + b), part', pos') /\
      block m' /\ 0 <= part' < 16 /\ 0 <= pos' <= Z.of_nat (length d) /\
      firstn (Z.to_nat part') m' ++ skipn (Z.to_nat pos') d = skipn (16 * (k + b)) W /\
      part' + (Z.of_nat (length d) - pos') = part + (Z.of_nat (length d) - pos) - 16 * Z.of_nat b.
  Proof.
    intros HW Hd Hld. induction b as [|b IH]; intros k m part pos Hm Hpart Hpos Hs Hk Hb.
    - exists m, part, pos. rewrite Nat.add_0_r. cbn [cmac_blocks]. ands; auto; lia.
    - cbn [cmac_blocks].
      assert (Hml : length m = 16%nat) by apply Hm.
      assert (Hsl : length (slice d (Z.to_nat pos) (Z.to_nat (16 - part))) = Z.to_nat (16 - part))
        by (apply slice_length; lia).
      set (m1 := splice m (Z.to_nat part) (slice d (Z.to_nat pos) (Z.to_nat (16 - part)))).
      assert (Hm1 : m1 = slice W (16 * k) 16).
      { unfold m1, splice. rewrite Hsl. rewrite skipn_all2 by lia. rewrite app_nil_r.
        unfold slice at 2. rewrite <- Hs. rewrite firstn_app.
        rewrite (@firstn_all2 Z 16 (firstn (Z.to_nat part) m)) by (rewrite firstn_length; lia).
        f_equal. rewrite firstn_length. unfold slice. f_equal. lia. }
      assert (HlW : length (skipn (16 * k) W) = (Z.to_nat part + (length d - Z.to_nat pos))%nat).
      { rewrite <- Hs, app_length, firstn_length, skipn_length. lia. }
      rewrite skipn_length in HlW.
      assert (Hm1b : block m1) by (rewrite Hm1; apply slice_block; auto; lia).
      rewrite u8_id by lia.
      assert (Hx : enc (xor128 (cbc enc W k) m1) = cbc enc W (S k)).
      { rewrite cbc_S, <- Hm1. rewrite xor128_16; auto; [|apply Hm1b].
        apply (cbc_block W k HW Hk). }
      rewrite Hx.
      destruct (IH (S k) m1 0 (pos + (16 - part))) as (m' & part' & pos' & E & H1 & H2 & H3 & H4 & H5);
        auto; try lia.
      + change (Z.to_nat 0) with 0%nat. rewrite firstn_O. cbn [app].
        transitivity (skipn 16 (skipn (16 * k) W)); [|rewrite skipn_skipn; f_equal; lia].
        rewrite <- Hs.
        rewrite skipn_app, firstn_length. rewrite (@skipn_all2 Z 16 (firstn (Z.to_nat part) m)) by (rewrite firstn_length; lia).
        cbn [app]. rewrite skipn_skipn. f_equal. lia.
      + exists m', part', pos'. replace (S k + b)%nat with (k + S b)%nat in * by lia.
        ands; auto; lia.
  Qed.

  Lemma cinv_update M d c : bytes_ok M -> bytes_ok d -> (length d < 256)%nat ->
    (length M = 0 \/ length M mod 256 <> 0 \/ length d = 0)%nat ->
    cinv M c -> cinv (M ++ d) (CMAC_update enc c d).
  Proof.
    intros HM Hd Hld Hc (I1 & I2 & I3 & I4). unfold CMAC_update.
    destruct (0 <? Z.of_nat (length d)) eqn:E0.
    2:{ destruct d; [|cbn in E0; lia]. rewrite app_nil_r. exact (conj I1 (conj I2 (conj I3 I4))). }
    set (N := length M) in *. set (L := length d) in *.
    assert (HL : (length (M ++ d) = N + L)%nat) by apply app_length.
    assert (HMd : bytes_ok (M ++ d)) by (apply bytes_ok_app; auto).
    pose proof (nb_bounds N) as (B1 & B2 & B3).
    assert (Hml : length (cm_m c) = 16%nat) by apply I2.
    set (part := cm_size c mod 16).
    assert (Hpart : part = Z.of_nat N mod 16) by (unfold part; rewrite I1; lia).
    assert (Hfin : forall m part pos, block m -> 0 <= part < 16 -> 0 <= pos <= Z.of_nat L ->
      firstn (Z.to_nat part) m ++ skipn (Z.to_nat pos) d = skipn (16 * nb (N + L)) (M ++ d) ->
      part + (Z.of_nat L - pos) = Z.of_nat (N + L - 16 * nb (N + L)) ->
      cinv (M ++ d) (mkCmac (splice m (Z.to_nat part) (slice d (Z.to_nat pos) (Z.to_nat (u8 (Z.of_nat L - pos)))))
         (cbc enc (M ++ d) (nb (N + L))) (u8 (cm_size c + Z.of_nat L)))).
    { intros m p pos Hm Hp Hpos Hs Hlen. pose proof (nb_bounds (N + L)) as (C1 & C2 & C3).
      assert (Hmm : length m = 16%nat) by apply Hm.
      rewrite u8_id by lia.
      assert (Hsl : slice d (Z.to_nat pos) (Z.to_nat (Z.of_nat L - pos)) = skipn (Z.to_nat pos) d).
      { unfold slice. apply firstn_all2. rewrite skipn_length. fold L. lia. }
      rewrite Hsl. set (t := skipn (Z.to_nat pos) d) in *.
      assert (Ht : length t = (L - Z.to_nat pos)%nat) by (unfold t; now rewrite skipn_length).
      unfold cinv. cbn [cm_size cm_m cm_x]. rewrite HL. split; [|split; [|split]].
      - rewrite I1. unfold u8. lia.
      - split; [rewrite splice_length; auto; lia|]. apply bytes_ok_splice; [apply Hm|].
        unfold t. rewrite <- (firstn_skipn (Z.to_nat pos) d) in Hd. now apply bytes_ok_app in Hd.
      - reflexivity.
      - rewrite <- Hs. unfold splice. rewrite app_assoc.
        rewrite firstn_app. rewrite firstn_all2 by (rewrite app_length, firstn_length; lia).
        replace (N + L - 16 * nb (N + L) - length (firstn (Z.to_nat p) m ++ t))%nat with 0%nat
          by (rewrite app_length, firstn_length; lia).
        now rewrite firstn_O, app_nil_r. }
    set (cached := (part =? 0) && (0 <? cm_size c)).
    assert (Hcached : cached = ((N mod 16 =? 0) && (0 <? N))%nat).
    { unfold cached. rewrite Hpart, I1. destruct (Nat.eqb_spec (N mod 16) 0), (Nat.ltb_spec 0 N); cbn [andb];
       destruct (Z.of_nat N mod 16 =? 0) eqn:?, (0 <? Z.of_nat N mod 256) eqn:?; cbn [andb]; auto; lia. }
    (* state before the block loop *)
    set (n1 := if cached then S (nb N) else nb N).
    assert (Hpre : (if cached then enc (xor128 (cm_x c) (cm_m c)) else cm_x c) = cbc enc (M ++ d) n1 /\
       (16 * n1 <= N)%nat /\ Z.of_nat N = 16 * Z.of_nat n1 + part /\
       firstn (Z.to_nat part) (cm_m c) ++ skipn 0 d = skipn (16 * n1) (M ++ d) /\
       (cached = false -> firstn (Z.to_nat part) (cm_m c) = skipn (16 * n1) M)).
    { unfold n1. rewrite Hcached. destruct ((N mod 16 =? 0) && (0 <? N))%nat eqn:E.
      - assert (N = 16 * S (nb N))%nat as HN by (unfold nb; lia).
        replace (Z.to_nat part) with 0%nat by lia.
        replace (N - 16 * nb N)%nat with 16%nat in I4 by lia.
        rewrite firstn_all2 in I4 by lia.
        assert (Hsl : slice M (16 * nb N) 16 = cm_m c).
        { unfold slice. rewrite <- I4. apply firstn_all2. lia. }
        split; [|split; [lia|split; [lia|split; [|discriminate]]]].
        + rewrite cbc_app by (fold N; lia). rewrite cbc_S, Hsl, I3.
          rewrite xor128_16; auto. apply (cbc_block M); auto.
        + cbn [firstn app skipn]. rewrite skipn_app. fold N. rewrite <- HN, Nat.sub_diag, skipn_O.
          rewrite skipn_all2 by (fold N; lia). reflexivity.
      - assert (Hp : Z.to_nat part = (N - 16 * nb N)%nat) by (unfold nb; lia).
        split; [|split; [lia|split; [lia|]]].
        + rewrite I3. symmetry. apply cbc_app. fold N. lia.
        + rewrite Hp, I4. cbn [skipn]. rewrite skipn_app. fold N.
          replace (16 * nb N - N)%nat with 0%nat by lia. auto. }
    destruct Hpre as (P1 & P2 & P3 & P4 & P5).
    assert (Hpr : 0 <= part < 16) by lia.
    destruct (cached || (16 <? part + Z.of_nat L)) eqn:E1.
    - rewrite P1.
      set (b := Z.to_nat _).
      assert (Hb : Z.of_nat b = (part + Z.of_nat L - 1) / 16).
      { unfold b. rewrite (u8_id ((part + Z.of_nat L) / 16)) by lia.
        destruct ((part + Z.of_nat L) mod 16 =? 0) eqn:E2; [rewrite u8_id by lia|]; lia. }
      destruct (blocks_spec (M ++ d) d HMd Hd Hld b n1 (cm_m c) part 0) as (m' & p' & pos' & E & H1 & H2 & H3 & H4 & H5);
        auto; try lia; try (fold L; lia).
      rewrite E. assert (Hn : (n1 + b = nb (N + L))%nat) by (unfold nb; lia).
      rewrite Hn in *. fold L in H3, H4, H5, E |- *. apply Hfin; auto. unfold nb in *. lia.
    - apply orb_false_iff in E1 as [E1 E2].
      assert (Hn : nb (N + L) = n1) by (unfold nb; lia).
      rewrite E1 in P1. rewrite P1. rewrite <- Hn.
      apply Hfin; auto; try lia.
      + rewrite Hn. exact P4.
  Qed.

  Lemma finish_spec M c n : bytes_ok M -> cinv M c -> (length M = 0 \/ length M mod 256 <> 0)%nat ->
    CMAC_finish enc c n = firstn (Z.to_nat (Z.min 16 n)) (cmac enc M).
  Proof.
    intros HM (I1 & I2 & I3 & I4) Hc. unfold CMAC_finish, cmac.
    replace (if 16 <? n then 16 else n) with (Z.min 16 n) by (destruct (16 <? n) eqn:?; lia).
    f_equal. set (N := length M) in *. pose proof (nb_bounds N) as (B1 & B2 & B3).
    assert (Hml : length (cm_m c) = 16%nat) by apply I2.
    change (fill 0 16) with (repeat 0 16).
    destruct (subkey_spec (enc (repeat 0 16)) (Henc _ zero_block)) as [S1 S1b].
    destruct (subkey_spec (subkey (enc (repeat 0 16))) S1b) as [S2 S2b].
    rewrite S1 in S2, S2b. unfold K2. rewrite S1. fold (K1 enc) in *. rewrite S2 in *.
    rewrite S1 in S1b.
    change ((N - 1) / 16)%nat with (nb N).
    assert (Hx : block (cm_x c)) by (rewrite I3; apply cbc_block; auto).
    assert (Hll : length (skipn (16 * nb N) M) = (N - 16 * nb N)%nat) by now rewrite skipn_length.
    rewrite Hll, <- I3.
    set (part := cm_size c mod 16).
    assert (Hpart : part = Z.of_nat N mod 16) by (unfold part; rewrite I1; lia).
    destruct ((cm_size c =? 0) || (0 <? part)) eqn:E.
    - assert (Hp : Z.to_nat part = (N - 16 * nb N)%nat) by (unfold nb; lia).
      assert ((N - 16 * nb N =? 16)%nat = false) as -> by (unfold nb; lia).
      assert (Hpad : upd (splice (repeat 0 16) 0 (firstn (Z.to_nat part) (cm_m c))) (Z.to_nat part) 0x80 =
                     pad (skipn (16 * nb N) M) /\ length (pad (skipn (16 * nb N) M)) = 16%nat).
      { rewrite Hp, I4. assert (Hl : (length (skipn (16 * nb N) M) < 16)%nat) by (unfold nb in *; lia).
        rewrite <- Hll. clear -Hl. revert Hl. generalize (skipn (16 * nb N) M). intros l Hl.
        do 16 (destruct l as [|? l]; [split; reflexivity|]). cbn in Hl. lia. }
      destruct Hpad as [-> Hpl].
      rewrite (xor128_16 (pad _)) by (auto; apply S2b).
      rewrite xor128_16 by (auto; apply Hx). now rewrite xor16_comm.
    - assert ((N - 16 * nb N =? 16)%nat = true) as E16 by (unfold nb; lia). rewrite E16.
      apply Nat.eqb_eq in E16. rewrite E16 in I4. rewrite firstn_all2 in I4 by lia. rewrite <- I4.
      rewrite (xor128_16 (cm_m c)) by (auto; apply S1b).
      rewrite xor128_16 by (auto; apply Hx). now rewrite xor16_comm.
  Qed.

  (* any sequence of updates *)
  Definition CMAC_run (ds : list bytes) : cmac_ctx := fold_left (CMAC_update enc) ds CMAC_init.

  Lemma run_inv ds : Forall bytes_ok ds -> (length (concat ds) < 256)%nat -> cinv (concat ds) (CMAC_run ds).
  Proof.
    induction ds as [|d ds IH] using rev_ind; intros Hb Hl; [apply cinv_init|].
    apply Forall_app in Hb as [Hb1 Hb2]. inversion Hb2; subst.
    rewrite concat_app in *. cbn [concat] in *. rewrite app_nil_r in *. rewrite app_length in Hl.
    unfold CMAC_run. rewrite fold_left_app. cbn [fold_left].
    assert (bytes_ok (concat ds)).
    { clear -Hb1. induction Hb1; [constructor|]. cbn [concat]. apply bytes_ok_app. auto. }
    apply cinv_update; auto; try lia. apply IH; auto. lia.
  Qed.

  Lemma cmac_run_spec ds n : Forall bytes_ok ds -> (length (concat ds) < 256)%nat ->
    CMAC_finish enc (CMAC_run ds) n = firstn (Z.to_nat (Z.min 16 n)) (cmac enc (concat ds)).
  Proof.
    intros Hb Hl. apply finish_spec.
    - clear -Hb. induction Hb; [constructor|]. cbn [concat]. apply bytes_ok_app. auto.
    - now apply run_inv.
    - lia.
  Qed.

  (* the two part use made by the security module *)
  Lemma cmac_two h d n : bytes_ok h -> bytes_ok d -> (length h < 256)%nat -> (length d < 256)%nat ->
    (length h + length d <> 256)%nat ->
    CMAC_finish enc (CMAC_update enc (CMAC_update enc CMAC_init h) d) n =
    firstn (Z.to_nat (Z.min 16 n)) (cmac enc (h ++ d)).
  Proof.
    intros Hh Hd Lh Ld Hne. apply finish_spec.
    - apply bytes_ok_app. auto.
    - apply cinv_update; auto; [lia|]. change h with ([] ++ h). apply cinv_update; auto; [constructor | apply cinv_init].
    - rewrite app_length. lia.
  Qed.
End Enc.
