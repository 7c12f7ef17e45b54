(* The default security module meets the assumptions made of a module. *)
From Verif Require Import Lib Words FrameM AesM CmacM CtrM SmM MacStateM Scenario SpecAes SpecSm SpecHist SpecRx AesP CmacP CtrP SmP.

Lemma aes_length k s : length (AES_encrypt k s) = 16%nat.
Proof. reflexivity. Qed.

Lemma xor128_length a : forall b, length b = length a -> length (xor128 a b) = length a.
Proof. induction a as [|x a IH]; intros [|y b] H; try discriminate H; [reflexivity|]. cbn [xor128 length]. rewrite IH by (injection H; auto). reflexivity. Qed.

Lemma ctr_blocks_length enc : (forall a, length (enc a) = 16%nat) -> forall n a len pos buf, Z.of_nat (length buf) = len -> 0 <= pos < 256 ->
  (len < 256 -> pos + 16 * Z.of_nat n < len + 16) -> (len < 256 -> (16 * n + Z.to_nat pos < 272)%nat) ->
  length (ctr_blocks enc n a len pos buf) = length buf.
Proof.
  intros HE. induction n as [|n IH]; intros a len pos buf HL HP H1 H2; [reflexivity|]. cbn [ctr_blocks]. cbv zeta.
  set (size := if 16 <=? len - pos then 16 else u8 (len - pos)).
  assert (0 <= size <= 16 /\ size <= len - pos) as [HS HS2].
  { unfold size. destruct (16 <=? len - pos) eqn:E; [lia|]. unfold u8. lia. }
  set (pld := xor128 _ _).
  assert (length pld = 16%nat) as HX.
  { unfold pld. assert (length (slice buf (Z.to_nat pos) (Z.to_nat size)) = Z.to_nat size) as LS by (apply slice_length; lia).
    assert (length (splice (fill 0 16) 0 (slice buf (Z.to_nat pos) (Z.to_nat size))) = 16%nat) as LP
      by (rewrite splice_length; rewrite fill_length; [reflexivity|lia]).
    rewrite xor128_length; [exact LP|]. rewrite HE, LP. reflexivity. }
  assert (length (splice buf (Z.to_nat pos) (firstn (Z.to_nat size) pld)) = length buf) as LB.
  { apply splice_length. rewrite firstn_length, HX. lia. }
  rewrite IH; [exact LB|rewrite LB; exact HL|unfold u8; lia| |].
  - intros HN. unfold u8. specialize (H1 HN). specialize (H2 HN). lia.
  - intros HN. unfold u8. specialize (H1 HN). specialize (H2 HN). lia.
Qed.

Lemma ctr_encrypt_length enc iv d : (forall a, length (enc a) = 16%nat) -> length (CTR_encrypt enc iv d) = length d.
Proof.
  intros HE. unfold CTR_encrypt. cbv zeta. apply ctr_blocks_length; [exact HE|reflexivity|lia| |].
  - intros HL. unfold u8. destruct (_ =? 0) eqn:E; lia.
  - intros HL. unfold u8. destruct (_ =? 0) eqn:E; lia.
Qed.

Theorem default_in_place c app nwk : default_sm c app nwk -> in_place c.
Proof.
  intros H. split.
  - intros log k iv d. destruct (H log k) as (_ & _ & ->). unfold SM_ctr. apply ctr_encrypt_length. intros a. apply aes_length.
  - intros log k b _. destruct (H log k) as (_ & -> & _). apply aes_length.
Qed.

Lemma root_kept v k : isSessionKey k = false -> forall log s, length s = numKeys v -> getKey v (sm_replay v s log) k = getKey v s k.
Proof.
  intros HK. induction log as [|x log IH]; intros s HS; [reflexivity|]. unfold sm_replay in *. cbn [fold_left]. rewrite IH.
  - unfold SM_updateSessionKey, getKey. destruct (isSessionKey (fst (fst x))) eqn:E; [|reflexivity].
    rewrite nth_upd. destruct (Nat.eqb_spec (keyIndex v k) (keyIndex v (fst (fst x)))) as [Q|_]; [|reflexivity].
    exfalso. exact (root_index v k (fst (fst x)) HK E Q).
  - unfold SM_updateSessionKey. destruct (isSessionKey (fst (fst x))); [|exact HS]. now rewrite upd_length.
Qed.

Theorem default_root c app nwk : default_sm c app nwk -> fixed_root c.
Proof.
  intros H l l' b. destruct (H l KEY_NWK) as (_ & -> & _). destruct (H l' KEY_NWK) as (_ & -> & _). unfold SM_ecb, sm_enc.
  rewrite !root_kept; [reflexivity|reflexivity|destruct (c_l2 c); reflexivity|reflexivity|destruct (c_l2 c); reflexivity].
Qed.

Theorem default_octets c app nwk : block app -> block nwk -> default_sm c app nwk -> octets c.
Proof.
  intros Ha Hn H. split; [eapply default_in_place; eauto|]. intros log b B. destruct (H log KEY_NWK) as (_ & -> & _). unfold SM_ecb.
  apply sm_enc_block; [|exact B]. rewrite root_kept; [|reflexivity|destruct (c_l2 c); reflexivity]. destruct (c_l2 c); assumption.
Qed.
