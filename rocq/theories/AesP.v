(* ldl_aes.c computes AES-128. *)
From Verif Require Import Lib AesM SpecAes.

Lemma byte_sweep (f : Z -> bool) : forallb f (map Z.of_nat (seq 0 256)) = true ->
  forall b, 0 <= b < 256 -> f b = true.
Proof.
  intros H b Hb. rewrite forallb_forall in H. apply H. apply in_map_iff.
  exists (Z.to_nat b). split; [lia|]. apply in_seq. lia.
Qed.

Lemma sbox_spec b : 0 <= b < 256 -> sub_byte b = SBOX b.
Proof.
  intros H. apply Z.eqb_eq. revert b H. apply byte_sweep. vm_compute. reflexivity.
Qed.
Lemma sbox_byte b : 0 <= b < 256 -> 0 <= SBOX b < 256.
Proof.
  intros H. assert (((0 <=? SBOX b) && (SBOX b <? 256)) = true); [|lia].
  revert b H. apply (byte_sweep (fun b => (0 <=? SBOX b) && (SBOX b <? 256))). vm_compute. reflexivity.
Qed.
Lemma mul2_spec b : 0 <= b < 256 -> gmul 2 b = GALOIS_MUL2 b /\ 0 <= GALOIS_MUL2 b < 256.
Proof.
  intros H. assert (((gmul 2 b =? GALOIS_MUL2 b) && (0 <=? GALOIS_MUL2 b) && (GALOIS_MUL2 b <? 256)) = true); [|lia].
  revert b H. apply (byte_sweep (fun b => (gmul 2 b =? GALOIS_MUL2 b) && (0 <=? GALOIS_MUL2 b) && (GALOIS_MUL2 b <? 256))).
  vm_compute. reflexivity.
Qed.
Lemma mul3_spec b : 0 <= b < 256 -> gmul 3 b = Z.lxor (GALOIS_MUL2 b) b.
Proof.
  intros H. apply Z.eqb_eq. revert b H. apply (byte_sweep (fun b => gmul 3 b =? Z.lxor (GALOIS_MUL2 b) b)).
  vm_compute. reflexivity.
Qed.
Lemma mul2_lxor a b : 0 <= a < 256 -> 0 <= b < 256 ->
  GALOIS_MUL2 (Z.lxor a b) = Z.lxor (GALOIS_MUL2 a) (GALOIS_MUL2 b).
Proof.
  intros Ha Hb. apply Z.eqb_eq.
  pose proof (byte_sweep (fun a => forallb (fun b =>
    GALOIS_MUL2 (Z.lxor a b) =? Z.lxor (GALOIS_MUL2 a) (GALOIS_MUL2 b)) (map Z.of_nat (seq 0 256)))
    ltac:(vm_compute; reflexivity) a Ha) as H.
  exact (byte_sweep _ H b Hb).
Qed.

Lemma lxor_byte a b : 0 <= a < 256 -> 0 <= b < 256 -> 0 <= Z.lxor a b < 256.
Proof.
  intros Ha Hb. split; [apply Z.lxor_nonneg; lia|].
  destruct (Z.eq_dec (Z.lxor a b) 0) as [->|Hn]; [lia|].
  assert (0 <= Z.lxor a b) by (apply Z.lxor_nonneg; lia).
  apply (Z.log2_lt_pow2 _ 8); [lia|].
  pose proof (Z.log2_lxor a b ltac:(lia) ltac:(lia)) as Hl.
  assert (forall x, 0 <= x < 256 -> Z.log2 x < 8).
  { intros x Hx. destruct (Z.eq_dec x 0) as [->|]; [reflexivity|]. apply Z.log2_lt_pow2; lia. }
  pose proof (H0 a Ha). pose proof (H0 b Hb). lia.
Qed.

(* equalities between xors of the same atoms *)
Ltac xors := apply Z.bits_inj'; intros ?i ?Hi; rewrite ?Z.lxor_spec, ?Z.bits_0;
  repeat match goal with |- context [Z.testbit ?a ?i] => destruct (Z.testbit a i) end; reflexivity.

Ltac list16 s H := do 16 (destruct s as [|? s]; [discriminate H|]); destruct s; [clear H|discriminate H].

Opaque SBOX GALOIS_MUL2 gmul sub_byte.


Lemma block_map f : (forall i, (i < 16)%nat -> 0 <= f i < 256) -> block (map f (seq 0 16)).
Proof.
  intros H. split; [now rewrite map_length, seq_length|].
  apply Forall_forall. intros x Hx. apply in_map_iff in Hx as (i & <- & Hi). apply H.
  apply in_seq in Hi. lia.
Qed.

Lemma block_nth s i : block s -> 0 <= nth i s 0 < 256.
Proof. intros [_ H]. now apply bytes_ok_nth. Qed.

Lemma ark_block s k : block s -> block k -> block (add_round_key s k).
Proof. intros Hs Hk. apply block_map. intros. apply lxor_byte; now apply block_nth. Qed.

Lemma nth_map_seq (f : nat -> Z) n i : (i < n)%nat -> nth i (map f (seq 0 n)) 0 = f i.
Proof.
  intros H. rewrite (nth_indep _ 0 (f 0%nat)) by (rewrite map_length, seq_length; lia).
  rewrite map_nth, seq_nth by lia. reflexivity.
Qed.

Lemma slice16 k p : (p + 16 <= length k)%nat -> slice k p 16 = map (fun i => nth (p + i) k 0) (seq 0 16).
Proof.
  intros H. apply (nth_ext _ _ 0 0).
  - rewrite slice_length, map_length, seq_length by lia. reflexivity.
  - intros i Hi. rewrite slice_length in Hi by lia. rewrite nth_slice by lia.
    now rewrite nth_map_seq by lia.
Qed.

Lemma map_sbox l : bytes_ok l -> sub_bytes l = map SBOX l.
Proof.
  intros H. apply map_ext_in. intros b Hb. apply sbox_spec.
  exact (proj1 (Forall_forall _ _) H b Hb).
Qed.

Lemma slice_block k p : (p + 16 <= length k)%nat -> bytes_ok k -> block (slice k p 16).
Proof. intros. split; [now apply slice_length | now apply bytes_ok_slice]. Qed.

Lemma sub_shift_spec k p s : block s -> bytes_ok k -> (p + 16 <= length k)%nat ->
  sub_shift k p s = shift_rows (sub_bytes (add_round_key s (slice k p 16))).
Proof.
  intros Hs Hk Hp. rewrite map_sbox by (apply ark_block; auto; now apply slice_block).
  rewrite slice16 by auto. destruct Hs as [Hl _]. list16 s Hl.
  unfold sub_shift, add_round_key, shift_rows.
  cbv [map seq nth upd Nat.add Nat.mul Nat.modulo Nat.divmod fst snd Nat.sub].
  reflexivity.
Qed.

Lemma mix_spec s : block s -> mix_columns s = mix_cols s.
Proof.
  intros [Hl Hb]. list16 s Hl.
  cbv [mix_columns mix_cols mix_column mix_col fold_left flat_map seq nth upd Nat.add Nat.mul app].
  repeat match goal with H : bytes_ok (_ :: _) |- _ => inversion H; clear H; subst
    | H : Forall byte_ok (_ :: _) |- _ => inversion H; clear H; subst end.
  unfold byte_ok in *.
  rewrite !mul2_lxor by assumption.
  rewrite ?(fun b H => proj1 (mul2_spec b H)), ?mul3_spec by assumption.
  repeat (apply f_equal2; [xors|]). reflexivity.
Qed.

Lemma sub_bytes_block s : block s -> block (sub_bytes s).
Proof.
  intros [Hl Hb]. rewrite map_sbox by auto. split; [now rewrite map_length|].
  apply Forall_forall. intros x Hx. apply in_map_iff in Hx as (y & <- & Hy). apply sbox_byte.
  exact (proj1 (Forall_forall _ _) Hb y Hy).
Qed.
Lemma shift_block s : block s -> block (shift_rows s).
Proof. intros H. apply block_map. intros. now apply block_nth. Qed.
Lemma mix_block s : block s -> block (mix_cols s).
Proof.
  intros H. assert (Hn : forall i, 0 <= nth i s 0 < 256) by (intros; now apply block_nth).
  unfold mix_cols, mix_col. cbn [flat_map seq app]. split; [reflexivity|].
  assert (H2 : forall i, 0 <= gmul 2 (nth i s 0) < 256).
  { intros i. destruct (mul2_spec _ (Hn i)) as [-> ?]. auto. }
  assert (H3 : forall i, 0 <= gmul 3 (nth i s 0) < 256).
  { intros i. rewrite mul3_spec by auto. destruct (mul2_spec _ (Hn i)). apply lxor_byte; auto. }
  repeat (constructor; [unfold byte_ok; repeat apply lxor_byte; auto|]). constructor.
Qed.

(* --- key schedule ------------------------------------------------------------------- *)

Lemma kback_app pre t d : (d <= length t)%nat -> (0 < d)%nat -> kback (pre ++ t) d = kback t d.
Proof.
  intros H H0. unfold kback. rewrite app_length.
  rewrite app_nth2 by lia. f_equal. lia.
Qed.

Lemma key_inner_app n : forall pre t, (16 <= length t)%nat ->
  key_inner n (pre ++ t) = pre ++ key_inner n t.
Proof.
  induction n as [|n IH]; intros pre t H; [reflexivity|]. cbn [key_inner].
  rewrite !kback_app by lia. rewrite <- app_assoc. rewrite IH; [reflexivity|].
  rewrite app_length. lia.
Qed.

Lemma key_round_app i pre t : (16 <= length t)%nat -> key_round i (pre ++ t) = pre ++ key_round i t.
Proof.
  intros H. unfold key_round. cbn zeta. rewrite !kback_app by lia. rewrite <- app_assoc.
  apply key_inner_app. rewrite app_length. lia.
Qed.

(* the next four words from the last four *)
Definition next4 (i : nat) (a b c d : list Z) : list (list Z) :=
  let w0 := xor_word a (xor_word (map sub_byte (rot_word d)) (rcon_word i)) in
  let w1 := xor_word b w0 in
  let w2 := xor_word c w1 in
  let w3 := xor_word d w2 in
  [w0; w1; w2; w3].

Lemma next_word_app ws a b c d : 
  next_word (ws ++ [a; b; c; d]) =
    xor_word a (if (length ws mod 4 =? 0)%nat
                then xor_word (map sub_byte (rot_word d)) (rcon_word (S (length ws / 4))) else d).
Proof.
  unfold next_word. cbn zeta. rewrite app_length. cbn [length].
  replace (length ws + 4 - 1)%nat with (length ws + 3)%nat by lia.
  replace (length ws + 4 - 4)%nat with (length ws + 0)%nat by lia.
  rewrite !app_nth2_plus. cbn [nth].
  replace (length ws + 4)%nat with (length ws + 1 * 4)%nat by lia.
  rewrite Nat.mod_add, Nat.div_add by lia. rewrite Nat.add_1_r. reflexivity.
Qed.

Definition kstep (ws : list (list Z)) : list (list Z) := ws ++ [next_word ws].

Lemma kstep_0 ws a b c d i : length ws = (4 * i)%nat ->
  kstep (ws ++ [a; b; c; d]) =
  (ws ++ [a]) ++ [b; c; d; xor_word a (xor_word (map sub_byte (rot_word d)) (rcon_word (S i)))].
Proof.
  intros Hl. unfold kstep. rewrite next_word_app, Hl, Nat.mul_comm, Nat.mod_mul, Nat.div_mul by lia.
  rewrite <- !app_assoc. reflexivity.
Qed.

Lemma kstep_n ws a b c d : (length ws mod 4 <> 0)%nat ->
  kstep (ws ++ [a; b; c; d]) = (ws ++ [a]) ++ [b; c; d; xor_word a d].
Proof.
  intros Hl. unfold kstep. rewrite next_word_app. apply Nat.eqb_neq in Hl. rewrite Hl.
  rewrite <- !app_assoc. reflexivity.
Qed.

Lemma iter4 ws a b c d i : length ws = (4 * i)%nat ->
  kstep (kstep (kstep (kstep (ws ++ [a; b; c; d])))) =
  (ws ++ [a; b; c; d]) ++ next4 (S i) a b c d.
Proof.
  intros Hl. rewrite (kstep_0 ws a b c d i Hl).
  rewrite kstep_n by (rewrite app_length, Hl; cbn [length]; lia).
  rewrite kstep_n by (rewrite !app_length, Hl; cbn [length]; lia).
  rewrite kstep_n by (rewrite !app_length, Hl; cbn [length]; lia).
  rewrite <- !app_assoc. reflexivity.
Qed.

Lemma rcon_spec i : (1 <= i <= 10)%nat -> nth i rcon 0 = Nat.iter (i - 1) xtime 1.
Proof. intros H. do 11 (destruct i as [|i]; [lia || reflexivity|]). lia. Qed.

(* one model iteration is four words *)
Lemma key_round_spec i a b c d : (1 <= i <= 10)%nat ->
  length a = 4%nat -> length b = 4%nat -> length c = 4%nat -> length d = 4%nat ->
  bytes_ok d ->
  key_round i (a ++ b ++ c ++ d) = (a ++ b ++ c ++ d) ++ concat (next4 i a b c d).
Proof.
  intros Hi Ha Hb Hc Hd Hok.
  assert (Hr : map sub_byte (rot_word d) = map SBOX (rot_word d)).
  { apply map_ext_in. intros x Hx. apply sbox_spec. unfold rot_word in Hx. cbn in Hx.
    decompose [or] Hx; try contradiction; subst x; now apply bytes_ok_nth. }
  unfold next4. cbn zeta. rewrite Hr. unfold rcon_word. rewrite <- (rcon_spec i Hi).
  unfold key_round. cbn zeta. generalize (nth i rcon 0). clear Hi Hr Hok. intros rc.
  do 4 (destruct a as [|? a]; [discriminate Ha|]); destruct a; [|discriminate Ha].
  do 4 (destruct b as [|? b]; [discriminate Hb|]); destruct b; [|discriminate Hb].
  do 4 (destruct c as [|? c]; [discriminate Hc|]); destruct c; [|discriminate Hc].
  do 4 (destruct d as [|? d]; [discriminate Hd|]); destruct d; [|discriminate Hd].
  clear.
  cbv [key_inner kback length app Nat.sub nth concat xor_word map seq rot_word].
  repeat (apply f_equal2; [reflexivity || xors|]). reflexivity.
Qed.

(* --- the whole schedule ---------------------------------------------------------------- *)

Definition word (w : list Z) : Prop := length w = 4%nat /\ bytes_ok w.

Lemma word_nth w i : word w -> 0 <= nth i w 0 < 256.
Proof. intros [_ H]. now apply bytes_ok_nth. Qed.

Lemma xor_word_ok a b : word a -> word b -> word (xor_word a b).
Proof.
  intros Ha Hb. split; [reflexivity|]. unfold xor_word. cbn [map seq].
  repeat (constructor; [apply lxor_byte; now apply word_nth|]). constructor.
Qed.

Lemma xtime_iter n : (n < 10)%nat -> 0 <= Nat.iter n xtime 1 < 256.
Proof. intros H. do 10 (destruct n as [|n]; [cbn; lia|]). lia. Qed.

Lemma rot_sub_ok d i : word d -> (1 <= i <= 10)%nat ->
  word (xor_word (map sub_byte (rot_word d)) (rcon_word i)).
Proof.
  intros Hd Hi. apply xor_word_ok.
  - split; [reflexivity|]. unfold rot_word. cbn [map].
    repeat (constructor; [unfold byte_ok; rewrite sbox_spec by (now apply word_nth); apply sbox_byte; now apply word_nth|]). constructor.
  - split; [reflexivity|]. unfold rcon_word. pose proof (xtime_iter (i - 1) ltac:(lia)).
    repeat (constructor; [unfold byte_ok; lia|]). constructor.
Qed.

(* state after i iterations: earlier words, the last four *)
Definition ks (i : nat) (k : bytes) (ws : list (list Z)) : Prop :=
  exists pre a b c d, ws = pre ++ [a; b; c; d] /\ length pre = (4 * i)%nat /\
    k = concat ws /\ Forall word ws.

Lemma ks_step i k ws : (i < 10)%nat -> ks i k ws ->
  ks (S i) (key_round (S i) k) (kstep (kstep (kstep (kstep ws)))).
Proof.
  intros Hi (pre & a & b & c & d & -> & Hl & -> & Hw).
  apply Forall_app in Hw as [Hp Hw].
  pose proof Hw as Hw'. inversion Hw' as [|? ? Wa Hw1]; subst. inversion Hw1 as [|? ? Wb Hw2]; subst.
  inversion Hw2 as [|? ? Wc Hw3]; subst. inversion Hw3 as [|? ? Wd _]; subst. clear Hw' Hw1 Hw2 Hw3.
  rewrite (iter4 pre a b c d i Hl).
  assert (Wn : Forall word (next4 (S i) a b c d)).
  { unfold next4. cbn zeta. pose proof (rot_sub_ok d (S i) Wd ltac:(lia)) as Wr.
    set (t := xor_word (map sub_byte (rot_word d)) (rcon_word (S i))) in *. clearbody t.
    repeat (apply Forall_cons; [repeat (apply xor_word_ok; auto)|]). apply Forall_nil. }
  exists (pre ++ [a; b; c; d]), (xor_word a (xor_word (map sub_byte (rot_word d)) (rcon_word (S i)))).
  do 3 eexists. split; [reflexivity|]. split; [rewrite app_length, Hl; cbn [length]; lia|].
  split.
  - rewrite (concat_app (pre ++ _)), concat_app. cbn [concat]. rewrite app_nil_r.
    rewrite key_round_app by (rewrite !app_length; destruct Wa as [-> _], Wb as [-> _], Wc as [-> _], Wd as [-> _]; lia).
    rewrite key_round_spec; [|lia|apply Wa|apply Wb|apply Wc|apply Wd|apply Wd].
    rewrite <- !app_assoc. reflexivity.
  - apply Forall_app. split; auto. apply Forall_app. auto.
Qed.

Lemma ks_init key : block key -> ks 0 key (words_of key).
Proof.
  intros [Hl Hb]. list16 key Hl. exists []. do 4 eexists. split; [reflexivity|]. split; [reflexivity|].
  split; [reflexivity|].
  repeat match goal with H : bytes_ok (_ :: _) |- _ => inversion H; clear H; subst
    | H : Forall byte_ok (_ :: _) |- _ => inversion H; clear H; subst end.
  repeat (constructor; [split; [reflexivity | repeat (constructor; [assumption|]); constructor]|]). constructor.
Qed.

Lemma ks_loop key i : block key -> (i <= 10)%nat ->
  ks i (fold_left (fun k i => key_round i k) (seq 1 i) key) (Nat.iter (4 * i) kstep (words_of key)).
Proof.
  intros Hk. induction i as [|i IH]; intros Hi.
  - cbn [Nat.iter Nat.mul nat_rect seq fold_left]. now apply ks_init.
  - rewrite seq_S, fold_left_app. cbn [fold_left].
    replace (4 * S i)%nat with (4 + 4 * i)%nat by lia.
    apply (ks_step i); [lia|]. apply IH. lia.
Qed.

Lemma concat_words ws : Forall word ws ->
  length (concat ws) = (4 * length ws)%nat /\ bytes_ok (concat ws) /\
  forall r, (4 * r <= length ws)%nat -> slice (concat ws) (16 * r) 16 = concat (firstn 4 (skipn (4 * r) ws)).
Proof.
  intros H. split; [|split].
  - induction H as [|w ws [Hw _] _ IH]; [reflexivity|]. cbn [concat length]. rewrite app_length, Hw, IH. lia.
  - induction H as [|w ws [_ Hw] _ IH]; [constructor|]. cbn [concat]. apply bytes_ok_app. auto.
  - assert (Hf : forall n (l : list (list Z)), Forall word l -> firstn (4 * n) (concat l) = concat (firstn n l) /\
        skipn (4 * n) (concat l) = concat (skipn n l)).
    { induction n as [|n IH]; intros l Hl; [split; reflexivity|]. destruct Hl as [|w l [Hw _] Hl].
      - rewrite !firstn_nil, !skipn_nil. split; reflexivity.
      - cbn [concat firstn skipn]. replace (4 * S n)%nat with (length w + 4 * n)%nat by (rewrite Hw; lia).
        destruct (IH l Hl) as [I1 I2]. rewrite firstn_app_2, I1. split; [reflexivity|].
        rewrite skipn_app, skipn_all2 by lia. cbn [app].
        replace (length w + 4 * n - length w)%nat with (4 * n)%nat by lia. exact I2. }
    intros r Hr. unfold slice. replace (16 * r)%nat with (4 * (4 * r))%nat by lia.
    destruct (Hf (4 * r)%nat ws H) as [_ ->].
    apply (Hf 4%nat). rewrite <- (firstn_skipn (4 * r) ws) in H.
    now apply Forall_app in H.
Qed.

Lemma expansion_iter key : key_expansion key = Nat.iter 40 kstep (words_of key).
Proof. unfold key_expansion, kstep. reflexivity. Qed.

Lemma key_schedule key : block key ->
  length (AES_init key) = 176%nat /\ bytes_ok (AES_init key) /\
  forall r, (r <= 10)%nat -> slice (AES_init key) (16 * r) 16 = round_key key r.
Proof.
  intros Hk. pose proof (ks_loop key 10 Hk ltac:(lia)) as HK.
  replace (4 * 10)%nat with 40%nat in HK by reflexivity.
  rewrite <- expansion_iter in HK. destruct HK as (pre & a & b & c & d & Hws & Hl & Hc & Hw).
  unfold AES_init. rewrite Hc.
  assert (Hlen : length (key_expansion key) = 44%nat) by (rewrite Hws, app_length, Hl; reflexivity).
  destruct (concat_words _ Hw) as (C1 & C2 & C3). rewrite Hlen in C1.
  split; [exact C1|]. split; [exact C2|]. intros r Hr. unfold round_key. apply C3. lia.
Qed.

Lemma round_key_block key r : block key -> (r <= 10)%nat -> block (round_key key r).
Proof.
  intros Hk Hr. destruct (key_schedule key Hk) as (H1 & H2 & H3). rewrite <- H3 by auto.
  apply slice_block; auto. lia.
Qed.

(* --- the cipher -------------------------------------------------------------------------- *)

Lemma add_key_spec k p s : (p + 16 <= length k)%nat -> add_key k p s = add_round_key s (slice k p 16).
Proof.
  intros H. unfold add_key, add_round_key. apply map_ext_in. intros i Hi. apply in_seq in Hi.
  now rewrite nth_slice by lia.
Qed.

Opaque AES_init round_key sub_shift mix_columns add_key.

Lemma aes_rounds_SS n p k s :
  aes_rounds (S (S n)) p k s = aes_rounds (S n) (p + 16) k (mix_columns (sub_shift k p s)).
Proof. cbn [aes_rounds]. reflexivity. Qed.
Lemma aes_rounds_1 p k s : aes_rounds 1 p k s = add_key k (p + 16) (sub_shift k p s).
Proof. reflexivity. Qed.

Opaque aes_rounds.

Lemma seq_cons a n : seq a (S n) = a :: seq (S a) n. Proof. reflexivity. Qed.
Lemma fold_seq_0 {A} (f : A -> nat -> A) a x : fold_left f (seq a 0) x = x. Proof. reflexivity. Qed.
Lemma fold_left_cons {A B} (f : A -> B -> A) a l x : fold_left f (a :: l) x = fold_left f l (f x a).
Proof. reflexivity. Qed.

Lemma rounds_spec key : block key -> forall n r s, (1 <= n)%nat -> (n + r = 10)%nat -> block s ->
  aes_rounds n (16 * r) (AES_init key) s =
  add_round_key (shift_rows (sub_bytes
    (fold_left (aes_round key) (seq (S r) (n - 1)) (add_round_key s (round_key key r))))) (round_key key 10).
Proof.
  intros Hk. destruct (key_schedule key Hk) as (K1 & K2 & K3).
  induction n as [|n IH]; intros r s Hn Hr Hs; [lia|].
  assert (Hss : sub_shift (AES_init key) (16 * r) s =
                shift_rows (sub_bytes (add_round_key s (round_key key r)))).
  { rewrite sub_shift_spec by (auto; lia). rewrite K3 by lia. reflexivity. }
  assert (Hb : block (shift_rows (sub_bytes (add_round_key s (round_key key r))))).
  { apply shift_block, sub_bytes_block, ark_block; auto. apply round_key_block; auto. lia. }
  destruct n as [|n].
  - replace (1 - 1)%nat with 0%nat by reflexivity. rewrite fold_seq_0, aes_rounds_1, Hss.
    replace (16 * r + 16)%nat with (16 * 10)%nat by lia.
    rewrite add_key_spec by lia. rewrite K3 by lia. reflexivity.
  - rewrite aes_rounds_SS, Hss, mix_spec by exact Hb.
    replace (16 * r + 16)%nat with (16 * S r)%nat by lia.
    rewrite IH by (try lia; now apply mix_block).
    replace (S (S n) - 1)%nat with (S (S n - 1))%nat by lia. rewrite seq_cons, fold_left_cons.
    unfold aes_round at 2. reflexivity.
Qed.

Lemma aes_spec key s : block key -> block s -> AES_encrypt (AES_init key) s = aes128 key s.
Proof.
  intros Hk Hs. unfold AES_encrypt. pose proof (rounds_spec key Hk 10 0 s ltac:(lia) eq_refl Hs) as H.
  replace (16 * 0)%nat with 0%nat in H by reflexivity. rewrite H. clear H. unfold aes128. cbn zeta.
  replace (10 - 1)%nat with 9%nat by reflexivity. reflexivity.
Qed.

Lemma aes_block key s : block key -> block s -> block (AES_encrypt (AES_init key) s).
Proof.
  intros Hk Hs. rewrite aes_spec by auto. unfold aes128. cbn zeta.
  assert (Hr : forall r, (r <= 10)%nat -> block (round_key key r)) by (intros; now apply round_key_block).
  apply ark_block; [|apply Hr; lia]. apply shift_block, sub_bytes_block.
  assert (Hl : forall l s, Forall (fun r => (r <= 10)%nat) l -> block s -> block (fold_left (aes_round key) l s)).
  { induction l as [|r l IH]; intros t Hl Ht; [exact Ht|]. inversion Hl; subst. cbn [fold_left].
    apply IH; auto. apply ark_block; [|now apply Hr]. now apply mix_block, shift_block, sub_bytes_block. }
  apply Hl; [|apply ark_block; auto; apply Hr; lia].
  apply Forall_forall. intros r H. apply in_seq in H. lia.
Qed.
