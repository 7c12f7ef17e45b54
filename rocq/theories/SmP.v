(* The default security module: integrity codes, counter mode, key store. *)
From Verif Require Import Lib StreamM FrameM AesM CmacM CtrM RegionM SmM MacStateM OpsM MacApiM Scenario.
From Verif Require Import SpecFrame SpecAes SpecCmac SpecSm AesP CmacP CtrP FrameP.

Lemma bytes_ok_skipn n l : bytes_ok l -> bytes_ok (skipn n l).
Proof. intros H. rewrite <- (firstn_skipn n l) in H. apply bytes_ok_app in H. exact (proj2 H). Qed.

(* --- the MAC only depends on the cipher's values on blocks ------------------------------ *)
Section Ext.
  Variables enc enc' : bytes -> bytes.
  Hypothesis Henc : forall b, block b -> block (enc b).
  Hypothesis Heq : forall b, block b -> enc b = enc' b.

  Lemma cbc_ext M n : bytes_ok M -> (16 * n <= length M)%nat -> cbc enc M n = cbc enc' M n.
  Proof.
    intros HM. induction n as [|n IH]; intros H; [reflexivity|].
    rewrite !cbc_S. rewrite <- IH by lia. apply Heq, xor16_block.
    - apply cbc_block; auto. lia.
    - apply slice_block; auto. lia.
  Qed.

  Lemma K_ext : K1 enc = K1 enc' /\ K2 enc = K2 enc' /\ block (K1 enc) /\ block (K2 enc).
  Proof.
    unfold K2, K1. rewrite <- Heq by apply zero_block.
    destruct (subkey_spec (enc (repeat 0 16)) (Henc _ zero_block)) as [S1 S1b].
    destruct (subkey_spec _ S1b) as [S2 S2b]. rewrite S1 in S1b, S2, S2b. rewrite S2 in S2b. auto.
  Qed.

  Lemma pad_block l : (length l < 16)%nat -> bytes_ok l -> block (pad l).
  Proof.
    intros Hl Hb. split.
    - unfold pad. rewrite !app_length, repeat_length. cbn [length]. lia.
    - unfold pad. apply bytes_ok_app. split; auto. apply bytes_ok_app. split.
      + repeat constructor; unfold byte_ok; lia.
      + apply (bytes_ok_fill 0). unfold byte_ok. lia.
  Qed.

  Lemma cmac_ext M : bytes_ok M -> cmac enc M = cmac enc' M /\ block (cmac enc M).
  Proof.
    intros HM. destruct K_ext as (E1 & E2 & B1 & B2). unfold cmac.
    pose proof (nb_bounds (length M)) as (N1 & N2 & N3). fold (nb (length M)).
    rewrite <- (cbc_ext M) by (auto; lia).
    assert (HB : block (cbc enc M (nb (length M)))) by (apply cbc_block; auto).
    assert (Hs : bytes_ok (skipn (16 * nb (length M)) M)).
    { now apply bytes_ok_skipn. }
    assert (Hl : length (skipn (16 * nb (length M)) M) = (length M - 16 * nb (length M))%nat) by apply skipn_length.
    rewrite <- E1, <- E2.
    destruct (Nat.eqb_spec (length (skipn (16 * nb (length M)) M)) 16) as [e|e].
    - assert (block (xor16 (cbc enc M (nb (length M))) (xor16 (skipn (16 * nb (length M)) M) (K1 enc)))).
      { repeat apply xor16_block; auto. now split. }
      split; [now apply Heq | now apply Henc].
    - assert (block (xor16 (cbc enc M (nb (length M))) (xor16 (pad (skipn (16 * nb (length M)) M)) (K2 enc)))).
      { repeat apply xor16_block; auto. apply pad_block; auto. lia. }
      split; [now apply Heq | now apply Henc].
  Qed.

  Lemma ctr_ext iv d : block iv -> ctr enc iv d = ctr enc' iv d.
  Proof.
    intros Hiv. unfold ctr. apply map_ext. intros j. do 2 f_equal. unfold ctr_block.
    apply Heq, ctr_iv_block, Hiv.
  Qed.
End Ext.

Lemma sm_enc_block v s k : block (getKey v s k) -> forall b, block b -> block (sm_enc v s k b).
Proof. intros Hk b Hb. now apply aes_block. Qed.
Lemma sm_enc_spec v s k : block (getKey v s k) -> forall b, block b -> sm_enc v s k b = aes128 (getKey v s k) b.
Proof. intros Hk b Hb. now apply aes_spec. Qed.

Definition four (mic : bytes) : Z :=
  Z.lor (Z.shiftl (Z.lor (Z.shiftl (Z.lor (Z.shiftl (nth 3 mic 0) 8)
    (nth 2 mic 0)) 8) (nth 1 mic 0)) 8) (nth 0 mic 0).

Lemma four_spec l : block l -> four (firstn 4 l) = le_val (firstn 4 l).
Proof.
  intros H. unfold four.
  assert (Hn : forall i, (i < 4)%nat -> 0 <= nth i (firstn 4 l) 0 < 256)
    by (intros; rewrite nth_first by lia; now apply block_nth).
  rewrite !lor_shift8 by (apply Hn; lia).
  destruct H as [Hl _]. list16 l Hl. cbn [firstn nth le_val fold_right]. lia.
Qed.

Opaque CMAC_update CMAC_finish sm_enc aes128 cmac.
Lemma SM_mic_four v s k h d : SM_mic v s k h d =
  four (CMAC_finish (sm_enc v s k) (CMAC_update (sm_enc v s k) (CMAC_update (sm_enc v s k) CMAC_init h) d) 4).
Proof. unfold SM_mic, four. cbv zeta. reflexivity. Qed.

Lemma SM_mic_spec v s k h d : block (getKey v s k) -> bytes_ok h -> bytes_ok d ->
  (length h < 256)%nat -> (length d < 256)%nat -> (length h + length d <> 256)%nat ->
  SM_mic v s k h d = mic_of (getKey v s k) h d.
Proof.
  intros Hk Hh Hd Lh Ld Hne. rewrite SM_mic_four.
  rewrite (cmac_two (sm_enc v s k) (sm_enc_block v s k Hk)) by auto.
  change (Z.to_nat (Z.min 16 4)) with 4%nat.
  assert (Hhd : bytes_ok (h ++ d)) by (apply bytes_ok_app; auto).
  destruct (cmac_ext (sm_enc v s k) (aes128 (getKey v s k)) (sm_enc_block v s k Hk) (sm_enc_spec v s k Hk) (h ++ d) Hhd) as [E B].
  rewrite four_spec by auto. unfold mic_of. now rewrite E.
Qed.

Transparent CMAC_finish.
(* a total of exactly 256 bytes: the last 16 are not authenticated *)
Lemma finish_256 enc : (forall b, block b -> block (enc b)) -> forall M c n, bytes_ok M -> length M = 256%nat ->
  cinv enc M c ->
  CMAC_finish enc c n = firstn (Z.to_nat (Z.min 16 n))
    (enc (xor16 (cbc enc M 15) (xor16 (pad []) (K2 enc)))).
Proof.
  intros Henc M c n HM HL (I1 & I2 & I3 & I4). rewrite HL in *. change (nb 256) with 15%nat in *.
  unfold CMAC_finish. rewrite I1. change (Z.of_nat 256 mod 256) with 0. cbn zeta.
  change ((0 =? 0) || (0 <? 0 mod 16)) with true. cbn iota.
  replace (if 16 <? n then 16 else n) with (Z.min 16 n) by (destruct (16 <? n) eqn:?; lia).
  do 2 f_equal.
  change (fill 0 16) with (repeat 0 16).
  destruct (subkey_spec (enc (repeat 0 16)) (Henc _ zero_block)) as [S1 S1b].
  destruct (subkey_spec _ S1b) as [S2 S2b]. rewrite S2 in S2b |- *. rewrite S1 in S2b |- *.
  fold (K1 enc) in *. fold (K2 enc) in *.
  change (upd (splice (repeat 0 16) 0 (firstn (Z.to_nat (0 mod 16)) (cm_m c))) (Z.to_nat (0 mod 16)) 0x80) with (pad []).
  assert (Hx : block (cm_x c)) by (rewrite I3; apply cbc_block; auto; lia).
  rewrite (xor128_16 (pad [])) by (auto; apply S2b). rewrite xor128_16 by (auto; apply Hx).
  rewrite xor16_comm. now rewrite I3.
Qed.

Lemma cbc_same enc M M' n : firstn (16 * n) M = firstn (16 * n) M' -> cbc enc M n = cbc enc M' n.
Proof.
  revert M M'. induction n as [|n IH]; intros M M' H; [reflexivity|].
  rewrite !cbc_S. rewrite (IH M M').
  2:{ transitivity (firstn (16 * n) (firstn (16 * S n) M)); [rewrite firstn_firstn; f_equal; lia|].
      rewrite H, firstn_firstn. f_equal. lia. }
  do 2 f_equal. unfold slice.
  replace (firstn 16 (skipn (16 * n) M)) with (skipn (16 * n) (firstn (16 * S n) M)).
  2:{ rewrite firstn_skipn_comm. f_equal. f_equal. lia. }
  rewrite H. rewrite firstn_skipn_comm. f_equal. f_equal. lia.
Qed.

Lemma SM_mic_256 v s k h d t t' : block (getKey v s k) -> block h -> bytes_ok d -> length d = 224%nat ->
  block t -> block t' -> SM_mic v s k h (d ++ t) = SM_mic v s k h (d ++ t').
Proof.
  intros Hk [Lh Bh] Bd Ld [Lt Bt] [Lt' Bt']. rewrite !SM_mic_four.
  assert (He := sm_enc_block v s k Hk).
  assert (Hgen : forall t, length t = 16%nat -> bytes_ok t ->
    CMAC_finish (sm_enc v s k) (CMAC_update (sm_enc v s k) (CMAC_update (sm_enc v s k) CMAC_init h) (d ++ t)) 4 =
    firstn 4 (sm_enc v s k (xor16 (cbc (sm_enc v s k) (h ++ d) 15) (xor16 (pad []) (K2 (sm_enc v s k)))))).
  { intros u Lu Bu.
    assert (Bdu : bytes_ok (d ++ u)) by (apply bytes_ok_app; auto).
    rewrite (finish_256 _ He (h ++ d ++ u)).
    - rewrite (cbc_same _ (h ++ d ++ u) (h ++ d)); [reflexivity|].
      rewrite app_assoc. rewrite firstn_app. rewrite app_length, Lh, Ld.
      change (16 * 15 - (16 + 224))%nat with 0%nat. now rewrite firstn_O, app_nil_r.
    - apply bytes_ok_app. auto.
    - rewrite !app_length. lia.
    - apply cinv_update; auto; [rewrite app_length; lia | right; left; rewrite Lh; discriminate | ].
      exact (cinv_update (sm_enc v s k) He [] h CMAC_init (Forall_nil _) Bh ltac:(lia) (or_introl eq_refl) (cinv_init (sm_enc v s k))). }
  now rewrite !Hgen by auto.
Qed.

Lemma SM_ctr_spec v s k iv d : block (getKey v s k) -> block iv -> (length d < 256)%nat ->
  SM_ctr v s k iv d = ctr (aes128 (getKey v s k)) iv d.
Proof.
  intros Hk Hiv Hd. unfold SM_ctr. rewrite (ctr_spec _ (sm_enc_block v s k Hk)) by auto.
  apply ctr_ext; auto. now apply sm_enc_spec.
Qed.

Lemma SM_ctr_twice v s k iv d : block (getKey v s k) -> block iv -> (length d < 256)%nat ->
  SM_ctr v s k iv (SM_ctr v s k iv d) = d /\ length (SM_ctr v s k iv d) = length d.
Proof.
  intros Hk Hiv Hd. rewrite (SM_ctr_spec v s k iv d Hk Hiv Hd).
  pose proof (ctr_length (aes128 (getKey v s k)) iv d) as HL. split; [|exact HL].
  rewrite SM_ctr_spec; [apply ctr_involution | exact Hk | exact Hiv | rewrite HL; exact Hd].
Qed.

(* --- key store -------------------------------------------------------------------------- *)

Definition store_ok (v : l2ver) (s : sm) : Prop := length s = numKeys v /\ Forall block s.

Lemma keyIndex_lt v k : (keyIndex v k < numKeys v)%nat.
Proof. unfold keyIndex, numKeys. destruct (is_1_1 v), k; lia. Qed.

Lemma store_key v s k : store_ok v s -> block (getKey v s k).
Proof.
  intros [Hl Hf]. unfold getKey. rewrite Forall_forall in Hf. apply Hf, nth_In. rewrite Hl. apply keyIndex_lt.
Qed.

Lemma Forall_upd {A} (P : A -> Prop) l i x : Forall P l -> P x -> Forall P (upd l i x).
Proof. intros H Hx. revert i. induction H; intros [|i]; cbn [upd]; auto. Qed.

Lemma init_ok v app nwk : block app -> block nwk -> store_ok v (SM_init v app nwk).
Proof.
  intros Ha Hn. unfold store_ok, SM_init, numKeys.
  assert (Hz : forall n, Forall block (repeat (fill 0 16) n)).
  { intros n. apply Forall_forall. intros x Hx. apply repeat_spec in Hx. subst. apply zero_block. }
  destruct (is_1_1 v); rewrite ?upd_length, repeat_length; split; auto; repeat apply Forall_upd; auto.
Qed.

Lemma update_ok v s key root iv : store_ok v s -> block iv ->
  store_ok v (SM_updateSessionKey v s key root iv).
Proof.
  intros Hs Hiv. unfold SM_updateSessionKey. destruct (isSessionKey key); auto.
  split; [rewrite upd_length; apply Hs|]. apply Forall_upd; [apply Hs|].
  apply sm_enc_block; auto. now apply store_key.
Qed.

Lemma update_get v s key root iv k : store_ok v s -> block iv ->
  getKey v (SM_updateSessionKey v s key root iv) k =
  if isSessionKey key && (keyIndex v k =? keyIndex v key)%nat then aes128 (getKey v s root) iv else getKey v s k.
Proof.
  intros Hs Hiv. unfold SM_updateSessionKey. destruct (isSessionKey key) eqn:Ek; cbn [andb]; auto.
  unfold getKey at 1. rewrite nth_upd.
  assert ((keyIndex v key <? length s)%nat = true) as ->
    by (destruct Hs as [-> _]; apply Nat.ltb_lt, keyIndex_lt).
  rewrite andb_true_r.
  destruct (Nat.eqb_spec (keyIndex v k) (keyIndex v key)); [|reflexivity].
  apply sm_enc_spec; auto. now apply store_key.
Qed.

Lemma root_index v k key : isSessionKey k = false -> isSessionKey key = true -> keyIndex v k <> keyIndex v key.
Proof. destruct k, key, v; cbn; intros; try discriminate; lia. Qed.

Lemma update_root v s key root iv k : store_ok v s -> block iv -> isSessionKey k = false ->
  getKey v (SM_updateSessionKey v s key root iv) k = getKey v s k.
Proof.
  intros Hs Hiv Hk. rewrite update_get by auto. destruct (isSessionKey key) eqn:E; auto. cbn [andb].
  destruct (Nat.eqb_spec (keyIndex v k) (keyIndex v key)); auto. exfalso. now apply (root_index v k key).
Qed.

Lemma replay_ok v s l : store_ok v s -> log_ok l -> store_ok v (sm_replay v s l).
Proof.
  intros Hs H. revert s Hs. induction H as [|x l Hx Hl IH]; intros s Hs; [auto|].
  cbn [sm_replay fold_left]. apply IH. now apply update_ok.
Qed.

Lemma replay_root v s l k : store_ok v s -> log_ok l -> isSessionKey k = false ->
  getKey v (sm_replay v s l) k = getKey v s k.
Proof.
  intros Hs H Hk. revert s Hs. induction H as [|x l Hx Hl IH]; intros s Hs; [auto|].
  cbn [sm_replay fold_left]. unfold sm_replay in IH. rewrite IH by now apply update_ok. now apply update_root.
Qed.

Lemma init_root v app nwk :
  getKey v (SM_init v app nwk) KEY_APP = app /\
  getKey v (SM_init v app nwk) KEY_NWK = if is_1_1 v then nwk else app.
Proof. destruct v; split; reflexivity. Qed.

(* --- blocks written through a stream ------------------------------------------------------ *)

Lemma blk_writes l : length (concat l) = 16%nat -> st_buf (writes blk l) = concat l.
Proof.
  intros H. destruct (writes_init l (fill 0 16) 16) as [_ H2]; [lia | rewrite fill_length; lia |].
  fold blk in H2. rewrite H in H2. change (Z.of_nat 16 <=? 16) with true in H2. cbn iota in H2.
  destruct H2 as (_ & _ & ->). change (skipn 16 (fill 0 16)) with (@nil Z). apply app_nil_r.
Qed.

Lemma initA_spec c devAddr up counter i : 0 <= i < 256 ->
  initA c devAddr up counter i =
  [1] ++ le 4 c ++ [if up then 0 else 1] ++ le 4 devAddr ++ le 4 counter ++ [0; i].
Proof.
  intros Hi. rewrite <- !le32_le.
  transitivity (st_buf (writes blk [[u8 1]; le32 c; [u8 (if up then 0 else 1)]; le32 devAddr; le32 counter; [u8 0]; [u8 i]]));
    [reflexivity|].
  rewrite blk_writes by reflexivity. cbn [concat]. rewrite (u8_id i) by lia. destruct up; reflexivity.
Qed.

Lemma initB_spec confirm rate ch up devAddr counter len : 0 <= len < 256 -> 0 <= rate < 256 -> 0 <= ch < 256 ->
  initB confirm rate ch up devAddr counter len =
  [0x49] ++ le 2 confirm ++ [rate; ch] ++ [if up then 0 else 1] ++ le 4 devAddr ++ le 4 counter ++ [0; len].
Proof.
  intros Hl Hr Hc. rewrite <- !le32_le, <- le16_le.
  transitivity (st_buf (writes blk [[u8 0x49]; le16 confirm; [u8 rate]; [u8 ch]; [u8 (if up then 0 else 1)];
      le32 devAddr; le32 counter; [u8 0]; [u8 len]])); [reflexivity|].
  rewrite blk_writes by reflexivity. cbn [concat]. rewrite (u8_id len), (u8_id rate), (u8_id ch) by lia. destruct up; reflexivity.
Qed.

(* rewinding and writing one byte replaces the first byte *)
Lemma first_byte b0 l t : (length (concat l) <= 15)%nat -> 0 <= t < 256 ->
  st_buf (putU8 (Stream_rewind (writes blk ([b0] :: l))) t) = [t] ++ concat l ++ repeat 0 (15 - length (concat l)).
Proof.
  intros Hl Ht. pose proof (writes_W ([b0] :: l) [] (fill 0 16) 16) as H.
  change (W [] (fill 0 16) 16) with blk in H.
  assert (Hc : length (concat ([b0] :: l)) = S (length (concat l))) by reflexivity.
  rewrite Hc in H. cbn [Nat.add length] in H.
  assert (Z.of_nat (S (length (concat l))) <=? 16 = true) as E1 by lia. rewrite E1 in H.
  rewrite H by (unfold fits; cbn [length app]; rewrite fill_length; lia).
  clear H E1 Hc. cbn [app concat].
  set (z := skipn (S (length (concat l))) (fill 0 16)).
  assert (Hz : z = repeat 0 (15 - length (concat l))).
  { unfold z. revert Hl. generalize (length (concat l)). intros n Hn.
    do 16 (destruct n as [|n]; [reflexivity|]). lia. }
  change (Stream_rewind (W (b0 :: concat l) z 16)) with (W [] ([b0] ++ concat l ++ z) 16).
  unfold putU8. rewrite write_W.
  2:{ unfold fits. cbn [app]. cbn [length]. rewrite app_length, Hz, repeat_length. lia. }
  change (Z.of_nat (length (@nil Z) + length [u8 t]) <=? 16) with true. cbn iota.
  rewrite u8_id by auto. cbn [length app skipn]. unfold W. cbn [st_buf app]. now rewrite Hz.
Qed.

Lemma key_iv_bytes c m b : 0 <= b < 256 -> length (m_joinEUI m) = 8%nat ->
  key_iv c m b =
  if sess_version c (m_ctx m) =? 0
  then kdf_block_1_0 b (s_joinNonce (m_ctx m)) (s_netID (m_ctx m)) (s_devNonce (m_ctx m))
  else kdf_block_1_1 b (s_joinNonce (m_ctx m)) (m_joinEUI m) (s_devNonce (m_ctx m)).
Proof.
  intros Hb He. unfold key_iv, kdf_block_1_0, kdf_block_1_1. cbn zeta.
  rewrite <- !le24_le, <- le16_le.
  destruct (sess_version c (m_ctx m) =? 0).
  - refine (eq_trans (first_byte (u8 1) [le24 _; le24 _; le16 _] b _ Hb) _).
    + cbn [concat app length le24 le16]. lia.
    + cbn [concat]. now rewrite app_nil_r, <- !app_assoc.
  - rewrite <- (eui_rev _ He).
    refine (eq_trans (first_byte (u8 1) [le24 _; map (fun i => nth i (m_joinEUI m) 0) [7; 6; 5; 4; 3; 2; 1; 0]%nat; le16 _] b _ Hb) _).
    + cbn [concat app length le24 le16 map]. lia.
    + cbn [concat]. now rewrite app_nil_r, <- !app_assoc.
Qed.

Lemma js_blocks eui : length eui = 8%nat ->
  st_buf (putEUI (putU8 blk 5) eui) = kdf_block_js 5 eui /\
  st_buf (putU8 (Stream_rewind (putEUI (putU8 blk 5) eui)) 6) = kdf_block_js 6 eui.
Proof.
  intros He. unfold kdf_block_js. rewrite <- (eui_rev _ He).
  set (l := map (fun i => nth i eui 0) [7; 6; 5; 4; 3; 2; 1; 0]%nat). split.
  - destruct (writes_init [[u8 5]; l] (fill 0 16) 16) as [_ H]; [lia | rewrite fill_length; lia |].
    change (Z.of_nat (length (concat [[u8 5]; l])) <=? 16) with true in H. cbn iota in H.
    destruct H as (_ & _ & H). exact H.
  - refine (eq_trans (first_byte (u8 5) [l] 6 _ _) _); [cbn; lia | lia |].
    cbn [concat]. rewrite app_nil_r. reflexivity.
Qed.

Lemma kdf_1_0_block t jn nid dn : 0 <= t < 256 -> block (kdf_block_1_0 t jn nid dn).
Proof.
  intros Ht. split.
  - unfold kdf_block_1_0. rewrite !app_length, !le_length, repeat_length. reflexivity.
  - unfold kdf_block_1_0. rewrite <- !le24_le, <- le16_le.
    repeat (apply bytes_ok_app; split); try apply le24_ok; try apply le16_ok;
      try (apply (bytes_ok_fill 0 7); unfold byte_ok; lia).
    repeat constructor; lia.
Qed.

Lemma bytes_ok_rev l : bytes_ok l -> bytes_ok (rev l).
Proof. intros H. apply Forall_rev. exact H. Qed.

Lemma kdf_1_1_block t jn eui dn : 0 <= t < 256 -> length eui = 8%nat -> bytes_ok eui ->
  block (kdf_block_1_1 t jn eui dn).
Proof.
  intros Ht Hl He. split.
  - unfold kdf_block_1_1. rewrite !app_length, !le_length, rev_length, repeat_length, Hl. reflexivity.
  - unfold kdf_block_1_1. rewrite <- !le24_le, <- le16_le.
    repeat (apply bytes_ok_app; split); try apply le24_ok; try apply le16_ok; try now apply bytes_ok_rev.
    + repeat constructor; lia.
    + apply (bytes_ok_fill 0 2); unfold byte_ok; lia.
Qed.

Lemma kdf_js_block t eui : 0 <= t < 256 -> length eui = 8%nat -> bytes_ok eui -> block (kdf_block_js t eui).
Proof.
  intros Ht Hl He. split.
  - unfold kdf_block_js. rewrite !app_length, rev_length, repeat_length, Hl. reflexivity.
  - unfold kdf_block_js. repeat (apply bytes_ok_app; split); try now apply bytes_ok_rev.
    + repeat constructor; lia.
    + apply (bytes_ok_fill 0 7); unfold byte_ok; lia.
Qed.

Lemma key_iv_block c m b : 0 <= b < 256 -> length (m_joinEUI m) = 8%nat -> bytes_ok (m_joinEUI m) ->
  block (key_iv c m b).
Proof.
  intros. rewrite key_iv_bytes by auto. destruct (_ =? 0); [now apply kdf_1_0_block | now apply kdf_1_1_block].
Qed.

Lemma key_of_app v app nwk log x k : block app -> block nwk -> log_ok log -> block (snd x) ->
  key_of v app nwk (log ++ [x]) k =
  if isSessionKey (fst (fst x)) && (keyIndex v k =? keyIndex v (fst (fst x)))%nat
  then aes128 (key_of v app nwk log (snd (fst x))) (snd x) else key_of v app nwk log k.
Proof.
  intros Ha Hn Hl Hx. unfold key_of, sm_replay. rewrite fold_left_app. cbn [fold_left].
  apply update_get; auto. apply replay_ok; auto. now apply init_ok.
Qed.

Lemma key_of_root v app nwk log : block app -> block nwk -> log_ok log ->
  key_of v app nwk log KEY_APP = app /\ key_of v app nwk log KEY_NWK = if is_1_1 v then nwk else app.
Proof.
  intros Ha Hn Hl. unfold key_of. rewrite !replay_root by (auto; now apply init_ok). apply init_root.
Qed.

Lemma log_ok_app l x : log_ok l -> block (snd x) -> log_ok (l ++ [x]).
Proof. intros. apply Forall_app. split; auto. Qed.

Ltac keystep := rewrite key_of_app by (auto; repeat apply log_ok_app; auto); cbn [fst snd].

Lemma derived_1_0 c m app nwk : let v := c_l2 c in
  block app -> block nwk -> log_ok (m_sm m) -> length (m_joinEUI m) = 8%nat -> bytes_ok (m_joinEUI m) ->
  sess_version c (m_ctx m) = 0 ->
  let s := m_ctx m in
  let root := if is_1_1 v then nwk else app in
  let kdf t := aes128 root (kdf_block_1_0 t (s_joinNonce s) (s_netID s) (s_devNonce s)) in
  let key := key_of v app nwk (m_sm (deriveKeys c m)) in
  key KEY_FNWKSINT = kdf 1 /\ key KEY_SNWKSINT = kdf 1 /\ key KEY_NWKSENC = kdf 1 /\ key KEY_APPS = kdf 2.
Proof.
  intros v Ha Hn Hl Hj Hjb Hv s root kdf key.
  assert (Hiv : forall b, 0 <= b < 256 -> block (key_iv c m b)) by (intros; now apply key_iv_block).
  assert (I1 := Hiv 1 ltac:(lia)). assert (I2 := Hiv 2 ltac:(lia)).
  assert (Hr : forall l, log_ok l -> key_of v app nwk l KEY_NWK = root) by (intros; now apply key_of_root).
  assert (E1 : key_iv c m 1 = kdf_block_1_0 1 (s_joinNonce s) (s_netID s) (s_devNonce s))
    by (rewrite key_iv_bytes, Hv by (auto; lia); reflexivity).
  assert (E2 : key_iv c m 2 = kdf_block_1_0 2 (s_joinNonce s) (s_netID s) (s_devNonce s))
    by (rewrite key_iv_bytes, Hv by (auto; lia); reflexivity).
  unfold key, deriveKeys. rewrite Hv. cbn [Z.eqb]. unfold sm_update.
  cbn [m_sm set_m_sm].
  set (l0 := m_sm m) in *.
  set (l1 := l0 ++ [(KEY_FNWKSINT, KEY_NWK, key_iv c m 1)]).
  set (l2 := l1 ++ [(KEY_SNWKSINT, KEY_NWK, key_iv c m 1)]).
  set (l3 := l2 ++ [(KEY_NWKSENC, KEY_NWK, key_iv c m 1)]).
  assert (L1 : log_ok l1) by (apply log_ok_app; auto).
  assert (L2 : log_ok l2) by (apply log_ok_app; auto).
  assert (L3 : log_ok l3) by (apply log_ok_app; auto).
  unfold kdf. rewrite <- E1, <- E2. fold v.
  repeat split; rewrite key_of_app by auto; cbn [fst snd]; unfold keyIndex; destruct v eqn:Ev; cbn [is_1_1 isSessionKey andb Nat.eqb];
    try (now rewrite Hr); unfold l3; rewrite key_of_app by auto; cbn [fst snd]; unfold keyIndex; cbn [is_1_1 isSessionKey andb Nat.eqb];
    try (now rewrite Hr); unfold l2; rewrite key_of_app by auto; cbn [fst snd]; unfold keyIndex; cbn [is_1_1 isSessionKey andb Nat.eqb];
    try (now rewrite Hr); unfold l1; rewrite key_of_app by auto; cbn [fst snd]; unfold keyIndex; cbn [is_1_1 isSessionKey andb Nat.eqb];
    now rewrite Hr.
Qed.

Lemma derived_1_1 c m app nwk :
  block app -> block nwk -> log_ok (m_sm m) -> length (m_joinEUI m) = 8%nat -> bytes_ok (m_joinEUI m) ->
  c_l2 c = L2_1_1 -> sess_version c (m_ctx m) <> 0 ->
  let s := m_ctx m in
  let kdf root t := aes128 root (kdf_block_1_1 t (s_joinNonce s) (m_joinEUI m) (s_devNonce s)) in
  let key := key_of L2_1_1 app nwk (m_sm (deriveKeys c m)) in
  key KEY_FNWKSINT = kdf nwk 1 /\ key KEY_SNWKSINT = kdf nwk 3 /\ key KEY_NWKSENC = kdf nwk 4 /\ key KEY_APPS = kdf app 2.
Proof.
  intros Ha Hn Hl Hj Hjb Hc Hv s kdf key.
  assert (Hiv : forall b, 0 <= b < 256 -> block (key_iv c m b)) by (intros; now apply key_iv_block).
  assert (I1 := Hiv 1 ltac:(lia)). assert (I2 := Hiv 2 ltac:(lia)).
  assert (I3 := Hiv 3 ltac:(lia)). assert (I4 := Hiv 4 ltac:(lia)).
  assert (Hr : forall l, log_ok l -> key_of L2_1_1 app nwk l KEY_NWK = nwk) by (intros; now apply (key_of_root L2_1_1)).
  assert (Hr' : forall l, log_ok l -> key_of L2_1_1 app nwk l KEY_APP = app) by (intros; now apply (key_of_root L2_1_1)).
  assert (Hv' : (sess_version c (m_ctx m) =? 0) = false) by now apply Z.eqb_neq.
  assert (E : forall b, 0 <= b < 256 -> key_iv c m b = kdf_block_1_1 b (s_joinNonce s) (m_joinEUI m) (s_devNonce s))
    by (intros; rewrite key_iv_bytes, Hv' by auto; reflexivity).
  unfold key, deriveKeys. rewrite Hv'. unfold sm_update.
  cbn [m_sm set_m_sm].
  set (l0 := m_sm m) in *.
  set (l1 := l0 ++ [(KEY_FNWKSINT, KEY_NWK, key_iv c m 1)]).
  set (l2 := l1 ++ [(KEY_APPS, KEY_APP, key_iv c m 2)]).
  set (l3 := l2 ++ [(KEY_SNWKSINT, KEY_NWK, key_iv c m 3)]).
  assert (L1 : log_ok l1) by (apply log_ok_app; auto).
  assert (L2 : log_ok l2) by (apply log_ok_app; auto).
  assert (L3 : log_ok l3) by (apply log_ok_app; auto).
  unfold kdf. rewrite <- !E by lia.
  repeat split; rewrite key_of_app by auto; cbn [fst snd]; unfold keyIndex; cbn [is_1_1 isSessionKey andb Nat.eqb];
    try (now rewrite ?Hr, ?Hr'); unfold l3; rewrite key_of_app by auto; cbn [fst snd]; unfold keyIndex; cbn [is_1_1 isSessionKey andb Nat.eqb];
    try (now rewrite ?Hr, ?Hr'); unfold l2; rewrite key_of_app by auto; cbn [fst snd]; unfold keyIndex; cbn [is_1_1 isSessionKey andb Nat.eqb];
    try (now rewrite ?Hr, ?Hr'); unfold l1; rewrite key_of_app by auto; cbn [fst snd]; unfold keyIndex; cbn [is_1_1 isSessionKey andb Nat.eqb];
    now rewrite ?Hr, ?Hr'.
Qed.

Lemma derived_join m app nwk :
  block app -> block nwk -> log_ok (m_sm m) -> length (m_devEUI m) = 8%nat -> bytes_ok (m_devEUI m) ->
  let key := key_of L2_1_1 app nwk (m_sm (deriveJoinKeys m)) in
  key KEY_JSINT = aes128 nwk (kdf_block_js 6 (m_devEUI m)) /\
  key KEY_JSENC = aes128 nwk (kdf_block_js 5 (m_devEUI m)).
Proof.
  intros Ha Hn Hl He Heb key.
  destruct (js_blocks (m_devEUI m) He) as [J5 J6].
  assert (I5 := kdf_js_block 5 (m_devEUI m) ltac:(lia) He Heb).
  assert (I6 := kdf_js_block 6 (m_devEUI m) ltac:(lia) He Heb).
  unfold key, deriveJoinKeys. cbv zeta. rewrite J5, J6. unfold sm_update. cbn [m_sm set_m_sm].
  set (l1 := m_sm m ++ [(KEY_JSENC, KEY_NWK, kdf_block_js 5 (m_devEUI m))]).
  assert (L1 : log_ok l1) by (apply log_ok_app; auto).
  assert (Hr : forall l, log_ok l -> key_of L2_1_1 app nwk l KEY_NWK = nwk) by (intros; now apply (key_of_root L2_1_1)).
  split; rewrite key_of_app by auto; cbn [fst snd]; unfold keyIndex; cbn [is_1_1 isSessionKey andb Nat.eqb].
  - now rewrite Hr.
  - unfold l1. rewrite key_of_app by auto; cbn [fst snd]; unfold keyIndex; cbn [is_1_1 isSessionKey andb Nat.eqb].
    now rewrite Hr.
Qed.

(* --- integrity code of an uplink --------------------------------------------------------- *)

Lemma updateMIC_spec msg len mic : 4 < len < 256 -> len <= Z.of_nat (length msg) ->
  Frame_updateMIC msg len mic = splice msg (Z.to_nat (len - 4)) (le 4 mic).
Proof.
  intros H1 H2. unfold Frame_updateMIC. assert (4 <? len = true) as -> by lia.
  rewrite u8_id by lia. unfold Stream_seekSet, Stream_init. cbn [st_size].
  set (n := Z.to_nat (len - 4)).
  assert (Hs : msg = firstn n msg ++ skipn n msg) by (symmetry; apply firstn_skipn).
  assert (Hl : length (firstn n msg) = n) by (rewrite firstn_length; lia).
  assert (len - 4 <=? len = true) as E1 by lia.
  assert (mkStream msg true len (len - 4) false false = W (firstn n msg) (skipn n msg) len) as HW.
  { unfold W. rewrite <- Hs. f_equal. rewrite Hl. lia. }
  rewrite E1. cbn [fst]. unfold set_pos. cbn [st_buf st_w st_size st_err st_oob].
  rewrite HW. unfold putU32. rewrite write_W.
  2:{ unfold fits. rewrite <- Hs, Hl. lia. }
  rewrite Hl. change (length (le32 mic)) with 4%nat.
  assert (Z.of_nat (n + 4) <=? len = true) as -> by lia.
  unfold W. cbn [st_buf]. unfold splice. rewrite le32_le, <- app_assoc, le_length. f_equal. f_equal.
  rewrite skipn_skipn. reflexivity.
Qed.

Lemma updateMIC_place msg len mic : 4 < len < 256 -> len <= Z.of_nat (length msg) ->
  Frame_updateMIC msg len mic = firstn (Z.to_nat (len - 4)) msg ++ le 4 mic ++ skipn (Z.to_nat len) msg.
Proof.
  intros H1 H2. rewrite updateMIC_spec by assumption. unfold splice. rewrite le_length. do 3 f_equal. lia.
Qed.

Lemma le_val_range l : bytes_ok l -> 0 <= le_val l < 256 ^ Z.of_nat (length l).
Proof.
  induction 1 as [|b l Hb Hl IH]; [cbn; lia|]. cbn [le_val fold_right length]. fold (le_val l).
  replace (Z.of_nat (S (length l))) with (1 + Z.of_nat (length l)) by lia.
  rewrite Z.pow_add_r, Z.pow_1_r by lia. unfold byte_ok in Hb. lia.
Qed.

Lemma mic_of_range key h d : block key -> bytes_ok h -> bytes_ok d -> 0 <= mic_of key h d < 4294967296.
Proof.
  intros Hk Hh Hd. unfold mic_of.
  assert (He : forall b, block b -> block (aes128 key b)) by (intros; rewrite <- aes_spec by auto; now apply aes_block).
  destruct (cmac_ext (aes128 key) (aes128 key) He (fun _ _ => eq_refl) (h ++ d)) as [_ [B1 B2]];
    [apply bytes_ok_app; auto|].
  assert (Hf : bytes_ok (firstn 4 (cmac (aes128 key) (h ++ d)))) by exact (bytes_ok_slice _ 0 4 B2).
  pose proof (le_val_range _ Hf) as H. rewrite firstn_length, B1 in H. exact H.
Qed.

Lemma initB_block confirm rate ch up devAddr counter len : 0 <= len < 256 -> 0 <= rate < 256 -> 0 <= ch < 256 ->
  block (initB confirm rate ch up devAddr counter len).
Proof.
  intros Hl Hr Hc. rewrite initB_spec by auto. rewrite <- !le32_le, <- le16_le. split.
  - reflexivity.
  - repeat (apply bytes_ok_app; split); try apply le32_ok; try apply le16_ok;
      repeat constructor; unfold byte_ok; destruct up; lia.
Qed.

Lemma initA_block c devAddr up counter i : 0 <= i < 256 -> block (initA c devAddr up counter i).
Proof.
  intros Hl. rewrite initA_spec by auto. rewrite <- !le32_le. split.
  - reflexivity.
  - repeat (apply bytes_ok_app; split); try apply le32_ok;
      repeat constructor; unfold byte_ok; destruct up; lia.
Qed.

Lemma key_of_block v app nwk log k : block app -> block nwk -> log_ok log -> block (key_of v app nwk log k).
Proof. intros. apply store_key, replay_ok; auto. now apply init_ok. Qed.

Lemma mic_join f s : 0 <= f < 4294967296 ->
  Z.lor (u32 (Z.shiftl f 16)) (Z.land s 65535) = f mod 65536 * 65536 + s mod 65536.
Proof.
  intros H. change 65535 with (2 ^ 16 - 1). rewrite land_mask by lia. change (2 ^ 16) with 65536.
  replace (u32 (Z.shiftl f 16)) with (Z.shiftl (f mod 65536) 16) by (rewrite !shiftl16; unfold u32; lia).
  rewrite lor_add by lia. reflexivity.
Qed.

Lemma micDataFrame_spec c app nwk m : default_sm c app nwk -> block app -> block nwk -> log_ok (m_sm m) ->
  bytes_ok (m_buffer m) -> 4 < m_bufferLen m < 256 -> m_bufferLen m <> 244 ->
  m_bufferLen m <= Z.of_nat (length (m_buffer m)) ->
  0 <= tx_rate (m_tx m) < 256 -> 0 <= tx_chIndex (m_tx m) < 256 ->
  let n := Z.to_nat (m_bufferLen m - 4) in
  let key := key_of (c_l2 c) app nwk (m_sm m) in
  m_buffer (micDataFrame c m) = splice (m_buffer m) n
    (le 4 (uplink_mic (sess_version c (m_ctx m)) (key KEY_FNWKSINT) (key KEY_SNWKSINT) 0
             (tx_rate (m_tx m)) (tx_chIndex (m_tx m)) (s_devAddr (m_ctx m)) (tx_counter (m_tx m))
             (firstn n (m_buffer m)))).
Proof.
  intros Hsm Ha Hn Hlog Hb Hl1 Hl2 Hl3 Hr Hc n key. unfold micDataFrame. cbn [m_buffer set_m_buffer].
  rewrite updateMIC_spec by auto. fold n. f_equal. f_equal.
  rewrite u8_id by lia. fold n. rewrite !initB_spec by lia.
  set (body := slice (m_buffer m) 0 n).
  assert (Hbl : length body = n) by (apply slice_length; lia).
  assert (Hbb : bytes_ok body) by now apply bytes_ok_slice.
  change (firstn n (m_buffer m)) with body.
  unfold uplink_mic. cbv zeta. rewrite Hbl. replace (Z.of_nat n) with (m_bufferLen m - 4) by lia.
  set (b0 := [73] ++ le 2 0 ++ [0; 0] ++ [0] ++ le 4 (s_devAddr (m_ctx m)) ++ le 4 (tx_counter (m_tx m)) ++ [0; m_bufferLen m - 4]).
  set (b1 := [73] ++ le 2 0 ++ [tx_rate (m_tx m); tx_chIndex (m_tx m)] ++ [0] ++ le 4 (s_devAddr (m_ctx m)) ++ le 4 (tx_counter (m_tx m)) ++ [0; m_bufferLen m - 4]).
  assert (B0 : block b0).
  { pose proof (initB_block 0 0 0 true (s_devAddr (m_ctx m)) (tx_counter (m_tx m)) (m_bufferLen m - 4)) as H.
    rewrite initB_spec in H by lia. apply H; lia. }
  assert (B1 : block b1).
  { pose proof (initB_block 0 (tx_rate (m_tx m)) (tx_chIndex (m_tx m)) true (s_devAddr (m_ctx m)) (tx_counter (m_tx m)) (m_bufferLen m - 4)) as H.
    rewrite initB_spec in H by lia. apply H; lia. }
  assert (Hmic : forall k h, block h -> c_mic c (m_sm m) k h body = mic_of (key k) h body).
  { intros k h [H1 H2]. destruct (Hsm (m_sm m) k) as [E _]. rewrite E. apply SM_mic_spec; auto; try lia.
    apply key_of_block; auto. }
  change (block_B0 0 true (s_devAddr (m_ctx m)) (tx_counter (m_tx m)) (m_bufferLen m - 4)) with b0.
  change (block_B1 0 (tx_rate (m_tx m)) (tx_chIndex (m_tx m)) (s_devAddr (m_ctx m)) (tx_counter (m_tx m)) (m_bufferLen m - 4)) with b1.
  rewrite !Hmic by auto.
  destruct (sess_version c (m_ctx m) =? 1); auto.
  apply mic_join. apply (mic_of_range (key KEY_FNWKSINT) b0 body (key_of_block _ _ _ _ _ Ha Hn Hlog) (proj2 B0) Hbb).
Qed.

Lemma aes_cfg_default v app nwk : default_sm (aes_cfg v app nwk) app nwk.
Proof. intros log k. repeat split; reflexivity. Qed.

Lemma key_of_update v app nwk log key root iv k : block app -> block nwk -> log_ok log -> block iv ->
  key_of v app nwk (log ++ [(key, root, iv)]) k =
  if isSessionKey key && (keyIndex v k =? keyIndex v key)%nat
  then aes128 (key_of v app nwk log root) iv else key_of v app nwk log k.
Proof. intros. now rewrite key_of_app by auto. Qed.

Lemma slots_1_1 k k' : keyIndex L2_1_1 k = keyIndex L2_1_1 k' -> k = k'.
Proof. destruct k, k'; cbn; intros; reflexivity || discriminate. Qed.

Lemma initB_0 confirm up devAddr counter len : 0 <= len < 256 ->
  initB confirm 0 0 up devAddr counter len = block_B0 confirm up devAddr counter len.
Proof. intros. now rewrite initB_spec by lia. Qed.

Lemma initB_1 confirm rate ch devAddr counter len : 0 <= len < 256 -> 0 <= rate < 256 -> 0 <= ch < 256 ->
  initB confirm rate ch true devAddr counter len = block_B1 confirm rate ch devAddr counter len.
Proof. intros. now rewrite initB_spec by lia. Qed.

Lemma bytes_ok_b l : forallb (fun b => (0 <=? b) && (b <? 256)) l = true -> bytes_ok l.
Proof. intros H. apply Forall_forall. intros x Hx. rewrite forallb_forall in H. apply H in Hx. unfold byte_ok. lia. Qed.

(* evaluation of the spec through the (quicker) code *)
Definition aes (key : bytes) : bytes -> bytes := AES_encrypt (AES_init key).
Lemma aes_ok key : block key -> forall b, block b -> block (aes key b).
Proof. intros. now apply aes_block. Qed.
Lemma cmac_aes key M : block key -> bytes_ok M -> cmac (aes128 key) M = cmac (aes key) M.
Proof.
  intros Hk HM. symmetry. apply cmac_ext; auto.
  - now apply aes_ok.
  - intros. now apply aes_spec.
Qed.

(* a message whose chaining value is enc 0 throughout *)
Lemma cbc_const enc L n : (forall b, block b -> block (enc b)) -> enc (repeat 0 16) = L -> block L ->
  cbc enc (repeat 0 16 ++ concat (repeat L n)) (S n) = L /\
  length (concat (repeat L n)) = (16 * n)%nat.
Proof.
  intros Henc HL [Hl Hb].
  assert (Hlen : forall n, length (concat (repeat L n)) = (16 * n)%nat).
  { intros k. induction k; [reflexivity|]. cbn [repeat concat]. rewrite app_length, IHk, Hl. lia. }
  split; [|apply Hlen].
  induction n as [|n IH].
  - rewrite cbc_S. cbn [repeat concat]. rewrite app_nil_r. exact HL.
  - rewrite cbc_S. replace (repeat L (S n)) with (repeat L n ++ [L]) by (symmetry; apply repeat_cons).
    rewrite concat_app, app_assoc. cbn [concat]. rewrite app_nil_r.
    rewrite (cbc_app enc Henc) by (rewrite app_length, Hlen, repeat_length; lia). rewrite IH.
    set (P := repeat 0 16 ++ concat (repeat L n)).
    assert (HP : length P = (16 * S n)%nat) by (unfold P; rewrite app_length, Hlen, repeat_length; lia).
    assert (Hsl : slice (P ++ L) (16 * S n) 16 = L).
    { rewrite <- HP, slice_app_exact. unfold slice. cbn [skipn]. apply firstn_all2. lia. }
    rewrite Hsl. rewrite <- HL at 3. f_equal.
    apply (nth_ext _ _ 0 0); [reflexivity|]. intros i Hi. change (length (xor16 L L)) with 16%nat in Hi.
    unfold xor16. rewrite nth_map_seq by auto. rewrite Z.lxor_nilpotent.
    symmetry. apply nth_repeat.
Qed.

Transparent cmac aes128 CMAC_update.
(* AES with an all-zero key *)
Definition zL : bytes := [0x66;0xe9;0x4b;0xd4;0xef;0x8a;0x2c;0x3b;0x88;0x4c;0xfa;0x59;0xca;0x34;0x2b;0x2e].
Lemma zL_spec : aes (repeat 0 16) (repeat 0 16) = zL.
Proof. vm_compute. reflexivity. Qed.
Lemma zL_block : block zL.
Proof. split; [reflexivity|]. apply bytes_ok_b. reflexivity. Qed.

Definition zM : bytes := concat (repeat zL 14).
Definition zLast : bytes := xor16 zL (dbl zL).

Lemma zLast_ok : block zLast.
Proof. split; [reflexivity|]. apply bytes_ok_b. reflexivity. Qed.

Lemma mic_wrong : exists v s k hdr data,
  block (getKey v s k) /\ block hdr /\ bytes_ok data /\ length data = 240%nat /\
  SM_mic v s k hdr data <> mic_of (getKey v s k) hdr data.
Proof.
  exists L2_1_0_4, (SM_init L2_1_0_4 (fill 0 16) (fill 0 16)), KEY_APP, (repeat 0 16), (zM ++ zLast).
  change (getKey L2_1_0_4 (SM_init L2_1_0_4 (fill 0 16) (fill 0 16)) KEY_APP) with (repeat 0 16).
  assert (Hd : bytes_ok (zM ++ zLast)) by (apply bytes_ok_b; reflexivity).
  assert (Hlen : length (zM ++ zLast) = 240%nat) by reflexivity.
  assert (HM : bytes_ok (repeat 0 16 ++ zM ++ zLast)) by (apply bytes_ok_app; split; [apply zero_block | auto]).
  assert (HML : length (repeat 0 16 ++ zM ++ zLast) = 256%nat) by reflexivity.
  split; [apply zero_block|]. split; [apply zero_block|]. split; [exact Hd|]. split; [exact Hlen|].
  pose proof (aes_ok _ zero_block) as He.
  assert (Hx : cbc (aes (repeat 0 16)) (repeat 0 16 ++ zM ++ zLast) 15 = zL).
  { rewrite app_assoc, (cbc_app _ He) by reflexivity.
    apply (cbc_const (aes (repeat 0 16)) zL 14 He zL_spec zL_block). }
  rewrite SM_mic_four.
  change (sm_enc L2_1_0_4 (SM_init L2_1_0_4 (fill 0 16) (fill 0 16)) KEY_APP) with (aes (repeat 0 16)).
  rewrite (finish_256 (aes (repeat 0 16)) He (repeat 0 16 ++ zM ++ zLast) _ 4 HM HML).
  2:{ apply cinv_update; auto.
      - apply zero_block.
      - rewrite Hlen. lia.
      - right. left. discriminate.
      - exact (cinv_update (aes (repeat 0 16)) He [] (repeat 0 16) CMAC_init (Forall_nil _) (proj2 zero_block) ltac:(cbn; lia) (or_introl eq_refl) (cinv_init _)). }
  unfold mic_of. rewrite cmac_aes by (auto using zero_block).
  unfold cmac. cbv zeta. rewrite HML. change ((256 - 1) / 16)%nat with 15%nat. rewrite Hx.
  change (skipn (16 * 15) (repeat 0 16 ++ zM ++ zLast)) with zLast.
  change (length zLast =? 16)%nat with true. cbn iota.
  unfold K2, K1. rewrite zL_spec.
  assert (Hz : xor16 zL (xor16 zLast (dbl zL)) = repeat 0 16) by (vm_compute; reflexivity).
  rewrite Hz, zL_spec. intros H. apply Z.eqb_eq in H. revert H. vm_compute. discriminate.
Qed.

(* an acknowledging uplink in a 1.1 session: confirmed downlink number 5 is
   being acknowledged (FCtrl bit 5) *)
Definition ack_mac0 : mac := MAC_init (toy_cfg L2_1_1) EU_863_870 (arg0 None) (at_t 0).
Definition ack_state : mac :=
  set_m_sm [] (set_m_ctx (set_s_version 1 (m_ctx ack_mac0))
    (set_m_bufferLen 12 (set_m_buffer ([0x40; 1;0;0;0; 0x20; 1;0] ++ fill 0 247) ack_mac0))).
Definition ack_cfg : cfg := aes_cfg L2_1_1 (fill 1 16) (fill 2 16).

Lemma le_inj4 a b : 0 <= a < 4294967296 -> 0 <= b < 4294967296 -> le 4 a = le 4 b -> a = b.
Proof. intros Ha Hb H. rewrite <- !le32_le in H. apply (f_equal of_le) in H. now rewrite !of_le32 in H. Qed.

Lemma fill1_block v : byte_ok v -> block (fill v 16).
Proof. intros H. split; [reflexivity | now apply bytes_ok_fill]. Qed.

Lemma splice_inj l off d d' : (off <= length l)%nat -> length d = length d' -> splice l off d = splice l off d' -> d = d'.
Proof.
  intros Ho Hl H. unfold splice in H. apply app_inv_head in H. rewrite Hl in H. now apply app_inv_tail in H.
Qed.

Lemma ack_mic_wrong : exists c app nwk m conf,
  default_sm c app nwk /\ block app /\ block nwk /\ log_ok (m_sm m) /\
  sess_version c (m_ctx m) = 1 /\ Z.testbit (nth 5 (m_buffer m) 0) 5 = true /\ 0 < conf < 65536 /\
  let n := Z.to_nat (m_bufferLen m - 4) in
  let key := key_of (c_l2 c) app nwk (m_sm m) in
  m_buffer (micDataFrame c m) <> splice (m_buffer m) n
    (le 4 (uplink_mic 1 (key KEY_FNWKSINT) (key KEY_SNWKSINT) conf
             (tx_rate (m_tx m)) (tx_chIndex (m_tx m)) (s_devAddr (m_ctx m)) (tx_counter (m_tx m))
             (firstn n (m_buffer m)))).
Proof.
  exists ack_cfg, (fill 1 16), (fill 2 16), ack_state, 5.
  assert (D : default_sm ack_cfg (fill 1 16) (fill 2 16)) by exact (aes_cfg_default L2_1_1 (fill 1 16) (fill 2 16)).
  assert (A1 : block (fill 1 16)) by (apply fill1_block; unfold byte_ok; lia).
  assert (A2 : block (fill 2 16)) by (apply fill1_block; unfold byte_ok; lia).
  assert (Hlog : log_ok (m_sm ack_state)) by constructor.
  assert (Hbuf : bytes_ok (m_buffer ack_state)) by (apply bytes_ok_b; reflexivity).
  assert (Hlen : m_bufferLen ack_state = 12) by reflexivity.
  split; [exact D|]. split; [exact A1|]. split; [exact A2|]. split; [exact Hlog|].
  split; [reflexivity|]. split; [reflexivity|]. split; [lia|].
  intros n key.
  rewrite (micDataFrame_spec ack_cfg (fill 1 16) (fill 2 16) ack_state D A1 A2 Hlog Hbuf);
    [| lia | lia | rewrite Hlen; vm_compute; discriminate | vm_compute; split; congruence | vm_compute; split; congruence].
  fold n. fold key.
  change (sess_version ack_cfg (m_ctx ack_state)) with 1.
  intros H. apply splice_inj in H; [|vm_compute; lia | now rewrite !le_length].
  revert H.
  set (B := firstn n (m_buffer ack_state)).
  assert (HB : bytes_ok B) by exact (bytes_ok_slice _ 0 n Hbuf).
  assert (KF : block (key KEY_FNWKSINT)) by now apply key_of_block.
  assert (HKS : key KEY_SNWKSINT = repeat 0 16) by reflexivity.
  rewrite HKS.
  unfold uplink_mic. cbv zeta. change (1 =? 1) with true. cbn iota.
  set (micF := mic_of (key KEY_FNWKSINT) _ _).
  intros H.
  assert (E : mic_of (repeat 0 16) (block_B1 0 (tx_rate (m_tx ack_state)) (tx_chIndex (m_tx ack_state)) (s_devAddr (m_ctx ack_state)) (tx_counter (m_tx ack_state)) (Z.of_nat (length B))) B mod 65536
   = mic_of (repeat 0 16) (block_B1 5 (tx_rate (m_tx ack_state)) (tx_chIndex (m_tx ack_state)) (s_devAddr (m_ctx ack_state)) (tx_counter (m_tx ack_state)) (Z.of_nat (length B))) B mod 65536).
  { revert H. generalize (mic_of (repeat 0 16) (block_B1 0 (tx_rate (m_tx ack_state)) (tx_chIndex (m_tx ack_state)) (s_devAddr (m_ctx ack_state)) (tx_counter (m_tx ack_state)) (Z.of_nat (length B))) B).
    generalize (mic_of (repeat 0 16) (block_B1 5 (tx_rate (m_tx ack_state)) (tx_chIndex (m_tx ack_state)) (s_devAddr (m_ctx ack_state)) (tx_counter (m_tx ack_state)) (Z.of_nat (length B))) B).
    generalize micF. clear. intros f a b H. apply le_inj4 in H; lia. }
  clear H. revert E. unfold mic_of. rewrite !cmac_aes.
  - intros E. apply Z.eqb_eq in E. revert E. vm_compute. discriminate.
  - apply zero_block.
  - apply bytes_ok_b. reflexivity.
  - apply zero_block.
  - apply bytes_ok_b. reflexivity.
Qed.

(* test vectors *)
Lemma fips_vector :
  aes128 [0;1;2;3;4;5;6;7;8;9;10;11;12;13;14;15]
    [0x00;0x11;0x22;0x33;0x44;0x55;0x66;0x77;0x88;0x99;0xaa;0xbb;0xcc;0xdd;0xee;0xff] =
    [0x69;0xc4;0xe0;0xd8;0x6a;0x7b;0x04;0x30;0xd8;0xcd;0xb7;0x80;0x70;0xb4;0xc5;0x5a].
Proof.
  rewrite <- aes_spec; [vm_compute; reflexivity | |]; (split; [reflexivity | apply bytes_ok_b; reflexivity]).
Qed.

Definition rfc_key : list Z :=
  [0x2b;0x7e;0x15;0x16;0x28;0xae;0xd2;0xa6;0xab;0xf7;0x15;0x88;0x09;0xcf;0x4f;0x3c].
Definition rfc_msg : list Z :=
  [0x6b;0xc1;0xbe;0xe2;0x2e;0x40;0x9f;0x96;0xe9;0x3d;0x7e;0x11;0x73;0x93;0x17;0x2a;
   0xae;0x2d;0x8a;0x57;0x1e;0x03;0xac;0x9c;0x9e;0xb7;0x6f;0xac;0x45;0xaf;0x8e;0x51;
   0x30;0xc8;0x1c;0x46;0xa3;0x5c;0xe4;0x11].

Lemma rfc_vectors :
  cmac (aes128 rfc_key) [] =
    [0xbb;0x1d;0x69;0x29;0xe9;0x59;0x37;0x28;0x7f;0xa3;0x7d;0x12;0x9b;0x75;0x67;0x46] /\
  cmac (aes128 rfc_key) (firstn 16 rfc_msg) =
    [0x07;0x0a;0x16;0xb4;0x6b;0x4d;0x41;0x44;0xf7;0x9b;0xdd;0x9d;0xd0;0x4a;0x28;0x7c] /\
  cmac (aes128 rfc_key) rfc_msg =
    [0xdf;0xa6;0x67;0x47;0xde;0x9a;0xe6;0x30;0x30;0xca;0x32;0x61;0x14;0x97;0xc8;0x27].
Proof.
  assert (block rfc_key) by (split; [reflexivity | apply bytes_ok_b; reflexivity]).
  rewrite !cmac_aes by (assumption || (apply bytes_ok_b; reflexivity)).
  split; [|split]; vm_compute; reflexivity.
Qed.
