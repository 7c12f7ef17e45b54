(* Proofs about streams. *)
From Verif Require Import Lib StreamM SpecStream.

(* cursor inside the buffer, no access outside so far *)
Definition sinv (s : stream) : Prop :=
  Z.of_nat (length (st_buf s)) = st_size s /\ 0 <= st_size s < 256 /\
  0 <= st_pos s <= st_size s /\ st_oob s = false.

(* the cursor may be anywhere *)
Definition sinv0 (s : stream) : Prop :=
  Z.of_nat (length (st_buf s)) = st_size s /\ 0 <= st_size s < 256 /\
  0 <= st_pos s < 256 /\ st_oob s = false.

Lemma fresh_sinv s : fresh s -> sinv s.
Proof. intros (b & n & Hn & Hb & [-> | ->]); unfold sinv; cbn; repeat split; lia. Qed.

Lemma sinv_sinv0 s : sinv s -> sinv0 s.
Proof. unfold sinv, sinv0; intuition lia. Qed.

Ltac brk := match goal with
  | |- context [if ?b then _ else _] => destruct b eqn:?
  end.

Lemma op_sinv o s : op_typed o -> is_back o = false -> sinv s -> sinv (fst (op_run o s)).
Proof.
  intros Ht Hb (H1 & H2 & H3 & H4).
  destruct o as [n|d| |n|n|]; cbn [op_run op_typed is_back] in *.
  - unfold Stream_read. repeat brk; unfold sinv, set_err; cbn [fst st_buf st_size st_pos st_oob]; auto.
    rewrite H4; unfold oob; rewrite u8_id by lia. repeat split; try lia.
  - unfold Stream_write. cbn zeta. repeat brk; unfold sinv, set_err; cbn [fst st_buf st_size st_pos st_oob]; auto.
    rewrite H4; unfold oob; rewrite u8_id by lia. rewrite splice_length by lia. repeat split; lia.
  - unfold Stream_peek, Stream_remaining. brk; unfold sinv; cbn [fst st_buf st_size st_pos st_oob]; auto.
    rewrite u8_id in Heqb by lia. rewrite H4; unfold oob. repeat split; lia.
  - unfold Stream_seekSet. brk; unfold sinv, set_pos; cbn [fst st_buf st_size st_pos st_oob]; repeat split; auto; lia.
  - unfold Stream_seekCur. cbn zeta. repeat brk; unfold sinv, set_pos; cbn [fst st_buf st_size st_pos st_oob]; repeat split; auto; try lia.
    all: unfold u8; lia.
  - unfold sinv, Stream_rewind, set_pos; cbn [fst st_buf st_size st_pos st_oob]; repeat split; auto; lia.
Qed.

Lemma op_sinv0 o s : op_typed o -> is_peek o = false -> sinv0 s -> sinv0 (fst (op_run o s)).
Proof.
  intros Ht Hb (H1 & H2 & H3 & H4).
  destruct o as [n|d| |n|n|]; cbn [op_run op_typed is_peek] in *; try discriminate.
  - unfold Stream_read. repeat brk; unfold sinv0, set_err; cbn [fst st_buf st_size st_pos st_oob]; auto.
    rewrite H4; unfold oob; rewrite u8_id by lia. repeat split; try lia.
  - unfold Stream_write. cbn zeta. repeat brk; unfold sinv0, set_err; cbn [fst st_buf st_size st_pos st_oob]; auto.
    rewrite H4; unfold oob; rewrite u8_id by lia. rewrite splice_length by lia. repeat split; lia.
  - unfold Stream_seekSet. brk; unfold sinv0, set_pos; cbn [fst st_buf st_size st_pos st_oob]; repeat split; auto; lia.
  - unfold Stream_seekCur. cbn zeta. repeat brk; unfold sinv0, set_pos; cbn [fst st_buf st_size st_pos st_oob]; repeat split; auto; try lia.
    all: unfold u8; lia.
  - unfold sinv0, Stream_rewind, set_pos; cbn [fst st_buf st_size st_pos st_oob]; repeat split; auto; lia.
Qed.

Lemma ops_sinv l s : Forall op_typed l -> forallb (fun o => negb (is_back o)) l = true ->
  sinv s -> sinv (ops_run l s).
Proof.
  revert s; induction l as [|o l IH]; intros s Ht Hb Hs; [exact Hs|].
  inversion Ht; subst. cbn [forallb] in Hb. apply andb_prop in Hb as [Hb Hl].
  cbn [ops_run]. apply IH; auto. apply op_sinv; auto. now destruct (is_back o).
Qed.

Lemma ops_sinv0 l s : Forall op_typed l -> forallb (fun o => negb (is_peek o)) l = true ->
  sinv0 s -> sinv0 (ops_run l s).
Proof.
  revert s; induction l as [|o l IH]; intros s Ht Hb Hs; [exact Hs|].
  inversion Ht; subst. cbn [forallb] in Hb. apply andb_prop in Hb as [Hb Hl].
  cbn [ops_run]. apply IH; auto. apply op_sinv0; auto. now destruct (is_peek o).
Qed.

Lemma stream_in_bounds l s : fresh s -> Forall op_typed l ->
  forallb (fun o => negb (is_back o)) l = true \/ forallb (fun o => negb (is_peek o)) l = true ->
  st_oob (ops_run l s) = false.
Proof.
  intros Hf Ht [H|H].
  - now destruct (ops_sinv l s Ht H (fresh_sinv s Hf)) as (_ & _ & _ & ?).
  - now destruct (ops_sinv0 l s Ht H (sinv_sinv0 s (fresh_sinv s Hf))) as (_ & _ & _ & ?).
Qed.

(* after an error neither reads nor writes move any byte, whatever follows *)
Lemma op_err o s : st_err s = true ->
  st_err (fst (op_run o s)) = true /\ st_buf (fst (op_run o s)) = st_buf s /\
  (is_peek o = false -> snd (op_run o s) = None).
Proof.
  intros He. destruct o; cbn [op_run is_peek].
  - unfold Stream_read. rewrite He. auto.
  - unfold Stream_write. rewrite He. brk; auto.
  - unfold Stream_peek. brk; cbn; repeat split; auto; discriminate.
  - unfold Stream_seekSet; brk; cbn; auto.
  - unfold Stream_seekCur; cbn zeta; repeat brk; cbn; auto.
  - cbn; auto.
Qed.

Lemma stream_error_sticky l o s : st_err s = true ->
  st_err (ops_run l s) = true /\ st_buf (ops_run l s) = st_buf s /\
  (is_peek o = false -> snd (op_run o (ops_run l s)) = None).
Proof.
  revert s; induction l as [|p l IH]; intros s He; cbn [ops_run].
  - destruct (op_err o s He) as (? & ? & ?). auto.
  - destruct (op_err p s He) as (H1 & H2 & _). destruct (IH _ H1) as (? & E & ?).
    rewrite E, H2. auto.
Qed.

(* reads and writes transfer exactly the bytes at the cursor *)
Lemma stream_read_exact s n : st_err s = false -> sinv s -> 0 <= n ->
  snd (Stream_read s n) =
    if st_pos s + n <=? st_size s
    then Some (slice (st_buf s) (Z.to_nat (st_pos s)) (Z.to_nat n)) else None.
Proof.
  intros He (H1 & H2 & H3 & H4) Hn. unfold Stream_read. rewrite He.
  destruct (n <=? st_size s - st_pos s) eqn:E, (st_pos s + n <=? st_size s) eqn:E2;
    cbn; try lia; reflexivity.
Qed.

Lemma stream_back_oob :
  exists s l, fresh s /\ Forall op_typed l /\ st_oob (ops_run l s) = true.
Proof.
  exists (Stream_initReadOnly [7; 8] 2), [SSeekSet 2; SSeekCur (-1); SPeek]. repeat split.
  - exists [7; 8], 2. repeat split; auto; lia.
  - repeat constructor; cbn; lia.
Qed.

(* a backward seek moves the cursor forward by the same distance *)
Lemma stream_back_exact s off : 0 <= st_pos s <= st_size s -> st_size s < 256 ->
  - st_pos s <= off < 0 ->
  st_pos (fst (Stream_seekCur s off)) = u8 (st_pos s - off).
Proof.
  intros. unfold Stream_seekCur. cbn zeta.
  replace ((0 <=? st_pos s + off) && (st_pos s + off <=? st_size s)) with true by lia.
  replace (0 <=? off) with false by lia. cbn. unfold u8. lia.
Qed.

(* a forward seek moves exactly as asked, or not at all *)
Lemma stream_fwd_exact s off : 0 <= st_pos s <= st_size s -> st_size s < 256 -> 0 <= off ->
  st_pos (fst (Stream_seekCur s off)) =
    if st_pos s + off <=? st_size s then st_pos s + off else st_pos s.
Proof.
  intros. unfold Stream_seekCur. cbn zeta.
  replace (0 <=? st_pos s + off) with true by lia.
  replace (0 <=? off) with true by lia. rewrite andb_true_l.
  brk; cbn; auto. unfold u8. lia.
Qed.
