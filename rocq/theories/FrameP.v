(* Proofs about frames. *)
From Verif Require Import Lib StreamM SpecStream StreamP FrameM SpecFrame SpecDecode.

(* --- writing ------------------------------------------------------------------- *)

(* a writable stream that has produced [pre] so far *)
Definition W (pre rest : bytes) (size : Z) : stream :=
  mkStream (pre ++ rest) true size (Z.of_nat (length pre)) false false.

Definition E (pre rest : bytes) (size : Z) : stream := set_err (W pre rest size).

Definition fits (pre rest : bytes) (size : Z) : Prop :=
  Z.of_nat (length pre) <= size /\ size <= Z.of_nat (length (pre ++ rest)) /\ size < 256.

Lemma write_W pre rest size d : fits pre rest size ->
  fst (Stream_write (W pre rest size) d) =
    if Z.of_nat (length pre + length d) <=? size
    then W (pre ++ d) (skipn (length d) rest) size
    else E pre rest size.
Proof.
  intros (H1 & H2 & H3). rewrite app_length in H2. unfold Stream_write, W, E, set_err.
  cbn [st_w st_err st_size st_pos st_buf st_oob].
  destruct (Z.of_nat (length d) <=? size - Z.of_nat (length pre)) eqn:E1;
    destruct (Z.of_nat (length pre + length d) <=? size) eqn:E2; try lia; cbn [fst].
  - f_equal.
    + rewrite Nat2Z.id. unfold splice.
      rewrite firstn_app, firstn_all, Nat.sub_diag. cbn [firstn]. rewrite app_nil_r.
      rewrite skipn_app, skipn_all2 by lia.
      replace (length pre + length d - length pre)%nat with (length d) by lia.
      rewrite app_nil_l, app_assoc. reflexivity.
    + rewrite app_length. rewrite u8_id by lia. lia.
    + cbn. unfold oob. rewrite app_length. lia.
  - reflexivity.
Qed.

Lemma fits_app pre rest size d : fits pre rest size -> Z.of_nat (length pre + length d) <= size ->
  fits (pre ++ d) (skipn (length d) rest) size.
Proof.
  intros (H1 & H2 & H3) H. rewrite app_length in H2.
  unfold fits. rewrite !app_length, skipn_length. lia.
Qed.

Lemma write_E pre rest size d : fst (Stream_write (E pre rest size) d) = E pre rest size.
Proof. reflexivity. Qed.

Global Opaque Stream_write.

(* writing a list of pieces *)
Definition writes (s : stream) (l : list bytes) : stream :=
  fold_left (fun s d => fst (Stream_write s d)) l s.

Lemma writes_E l pre rest size : writes (E pre rest size) l = E pre rest size.
Proof. induction l as [|d l IH]; [reflexivity|]. cbn [writes fold_left]. exact IH. Qed.

(* what is left in memory when the pieces do not all fit *)
Lemma writes_W l : forall pre rest size, fits pre rest size ->
  if Z.of_nat (length pre + length (concat l)) <=? size
  then writes (W pre rest size) l = W (pre ++ concat l) (skipn (length (concat l)) rest) size
  else exists d k, (k <= length (concat l))%nat /\ d = firstn k (concat l) /\
        Z.of_nat (length pre + length d) <= size /\
        writes (W pre rest size) l = E (pre ++ d) (skipn (length d) rest) size.
Proof.
  induction l as [|d l IH]; intros pre rest size H.
  - cbn [concat length]. rewrite Nat.add_0_r. destruct H as (H1 & H2 & H3).
    destruct (Z.of_nat (length pre) <=? size) eqn:Eq; [|lia].
    cbn [writes fold_left]. now rewrite app_nil_r.
  - cbn [concat writes fold_left]. fold (writes (fst (Stream_write (W pre rest size) d)) l).
    rewrite (write_W pre rest size d H).
    destruct (Z.of_nat (length pre + length d) <=? size) eqn:E1.
    + specialize (IH (pre ++ d) (skipn (length d) rest) size (fits_app pre rest size d H ltac:(lia))).
      rewrite !app_length in IH. rewrite !app_length.
      replace (length pre + length d + length (concat l))%nat
        with (length pre + (length d + length (concat l)))%nat in IH by lia.
      destruct (Z.of_nat (length pre + (length d + length (concat l))) <=? size) eqn:E2.
      * rewrite IH. rewrite skipn_skipn, app_assoc. reflexivity.
      * destruct IH as (d' & k & Hk & Hd & Hl & Hw).
        exists (d ++ d'), (length d + k)%nat. repeat split.
        -- lia.
        -- rewrite firstn_app_2, Hd. reflexivity.
        -- rewrite app_length. lia.
        -- rewrite Hw, skipn_skipn, app_assoc, app_length. reflexivity.
    + destruct (Z.of_nat (length pre + length (d ++ concat l)) <=? size) eqn:E2.
      { rewrite app_length in E2. lia. }
      exists [], 0%nat. cbn [length skipn firstn]. repeat split; try lia.
      * destruct H as (? & ? & ?). lia.
      * rewrite app_nil_r. apply writes_E.
Qed.

Lemma writes_init l out max :
  0 <= max < 256 -> max <= Z.of_nat (length out) ->
  let s := writes (Stream_init out max) l in
  let w := concat l in
  st_oob s = false /\
  if Z.of_nat (length w) <=? max
  then st_err s = false /\ st_pos s = Z.of_nat (length w) /\ st_buf s = w ++ skipn (length w) out
  else st_err s = true /\ length (st_buf s) = length out /\
       skipn (Z.to_nat max) (st_buf s) = skipn (Z.to_nat max) out.
Proof.
  intros H1 H2. cbn zeta.
  assert (fits [] out max) as Hf by (unfold fits; cbn; lia).
  pose proof (writes_W l [] out max Hf) as H. change (W [] out max) with (Stream_init out max) in H.
  cbn [length Nat.add app] in H.
  destruct (Z.of_nat (length (concat l)) <=? max) eqn:Eq.
  - rewrite H. cbn. auto.
  - destruct H as (d & k & Hk & Hd & Hl & ->). cbn. repeat split.
    + rewrite app_length, skipn_length. lia.
    + rewrite skipn_app, skipn_all2 by lia. cbn. rewrite skipn_skipn. f_equal. lia.
Qed.

(* --- equality of the two little-endian encodings ------------------------------- *)

Lemma le16_le v : le16 v = le 2 v.
Proof. unfold le16, le, u8. rewrite shiftr8. reflexivity. Qed.
Lemma le24_le v : le24 v = le 3 v.
Proof. unfold le24, le, u8. rewrite shiftr8, shiftr16, Z.div_div by lia. reflexivity. Qed.
Lemma le32_le v : le32 v = le 4 v.
Proof. unfold le32, le, u8. rewrite shiftr8, shiftr16, shiftr24, !Z.div_div by lia. reflexivity. Qed.

Lemma le_length n v : length (le n v) = n.
Proof. revert v; induction n; intros; cbn; auto. Qed.

(* --- data frames ----------------------------------------------------------------- *)

Lemma opts_sent_all f : (length (fd_opts f) <= 15)%nat -> opts_sent f = fd_opts f.
Proof.
  intros H. unfold opts_sent. rewrite u8_id by lia. rewrite land15, Z.mod_small, Nat2Z.id by lia.
  apply firstn_all.
Qed.

Lemma fctrl_spec f : (length (fd_opts f) <= 15)%nat -> fctrl f = fctrl_byte (msg_of f).
Proof.
  intros H. unfold fctrl, fctrl_byte. cbn [msg_of d_adr d_adrAckReq d_ack d_bit4 d_fopts].
  rewrite u8_id by lia. rewrite land15, Z.mod_small by lia.
  assert (0 <= Z.of_nat (length (fd_opts f)) <= 15) as Hn by lia.
  revert Hn. generalize (Z.of_nat (length (fd_opts f))). intros n Hn.
  assert (n = 0 \/ n = 1 \/ n = 2 \/ n = 3 \/ n = 4 \/ n = 5 \/ n = 6 \/ n = 7 \/ n = 8 \/ n = 9
          \/ n = 10 \/ n = 11 \/ n = 12 \/ n = 13 \/ n = 14 \/ n = 15) as Hc by lia.
  destruct (fd_adr f), (fd_adrAckReq f), (fd_ack f), (fd_pending f);
    repeat (destruct Hc as [-> | Hc]; [reflexivity|]); subst n; reflexivity.
Qed.

Lemma mhdr_spec t : u8 (Z.shiftl (ft_code t) 5) = mhdr (mtype_of t).
Proof. destruct t; reflexivity. Qed.

Lemma fctrl_byte_range f : (length (d_fopts f) <= 15)%nat -> 0 <= fctrl_byte f < 256.
Proof.
  intros. unfold fctrl_byte, b2z. destruct (d_adr f), (d_adrAckReq f), (d_ack f), (d_bit4 f); lia.
Qed.

Definition data_pieces (f : frame_data) : list bytes :=
  [[u8 (Z.shiftl (ft_code (fd_type f)) 5)]; le32 (fd_devAddr f); [u8 (fctrl f)];
   le16 (fd_counter f); opts_sent f]
  ++ match fd_data f with Some d => [[u8 (fd_port f)]; d] | None => [] end
  ++ [le32 (fd_mic f)].

Lemma putData_writes f out max :
  pr_stream (Frame_putData f out max) = writes (Stream_init out max) (data_pieces f) /\
  pr_len (Frame_putData f out max) =
    let s := writes (Stream_init out max) (data_pieces f) in
    if Stream_error s then 0 else Stream_tell s.
Proof.
  unfold Frame_putData, data_pieces, writes, putU8, putU16, putU32.
  destruct (fd_data f); cbn [app fold_left pr_stream pr_len]; split; reflexivity.
Qed.

Lemma data_pieces_spec f : fd_wf f -> concat (data_pieces f) = data_bytes (msg_of f).
Proof.
  intros (H1 & H2 & H3 & H4 & H5 & H6). unfold data_pieces, data_bytes.
  cbn [msg_of d_type d_addr d_adr d_adrAckReq d_ack d_bit4 d_fcnt d_fopts d_payload d_mic] in *.
  rewrite mhdr_spec, le16_le, !le32_le, (opts_sent_all f H4), (fctrl_spec f H4).
  rewrite u8_id by (apply fctrl_byte_range; exact H4).
  destruct (fd_data f) as [d|]; cbn [app concat].
  - rewrite u8_id by lia. now rewrite app_nil_r.
  - now rewrite app_nil_r.
Qed.

Lemma putData_layout f out max :
  fd_wf f -> 0 <= max < 256 -> max <= Z.of_nat (length out) ->
  let r := Frame_putData f out max in
  let w := data_bytes (msg_of f) in
  st_oob (pr_stream r) = false /\
  if Z.of_nat (length w) <=? max
  then pr_len r = Z.of_nat (length w) /\
       st_buf (pr_stream r) = w ++ skipn (length w) out
  else pr_len r = 0 /\ length (st_buf (pr_stream r)) = length out /\
       skipn (Z.to_nat max) (st_buf (pr_stream r)) = skipn (Z.to_nat max) out.
Proof.
  intros Hf H1 H2. cbn zeta. destruct (putData_writes f out max) as [-> ->]. cbn zeta.
  pose proof (writes_init (data_pieces f) out max H1 H2) as H. cbn zeta in H.
  rewrite (data_pieces_spec f Hf) in H. destruct H as [Ho H]. split; [exact Ho|].
  unfold Stream_error, Stream_tell.
  destruct (Z.of_nat (length (data_bytes (msg_of f))) <=? max).
  - destruct H as (-> & -> & ->). auto.
  - destruct H as (-> & ? & ?). auto.
Qed.

(* offsets reported for in-place encryption *)
Lemma putData_offsets f out max :
  fd_wf f -> 0 <= max < 256 -> max <= Z.of_nat (length out) ->
  Z.of_nat (length (data_bytes (msg_of f))) <= max ->
  pr_offOpts (Frame_putData f out max) = 8 /\
  pr_offData (Frame_putData f out max) =
    match fd_data f with Some _ => 9 + Z.of_nat (length (fd_opts f)) | None => 0 end.
Proof.
  intros Hf H1 H2 H3. rewrite <- (data_pieces_spec f Hf) in H3.
  assert (Ho : opts_sent f = fd_opts f) by (apply opts_sent_all; apply Hf).
  unfold Frame_putData.
  set (a := [[u8 (Z.shiftl (ft_code (fd_type f)) 5)]; le32 (fd_devAddr f); [u8 (fctrl f)];
              le16 (fd_counter f)]).
  assert (Ha : Z.of_nat (length (concat a)) = 8) by reflexivity.
  assert (Hl : 8 + Z.of_nat (length (fd_opts f)) <= max /\
    match fd_data f with Some _ => 9 + Z.of_nat (length (fd_opts f)) <= max | None => True end).
  { unfold data_pieces in H3. rewrite Ho in H3.
    destruct (fd_data f); cbn [app concat le16 le32 length] in H3; rewrite app_length in H3;
      cbn [length] in H3; lia. }
  assert (Hs : putU16 (putU8 (putU32 (putU8 (Stream_init out max)
             (Z.shiftl (ft_code (fd_type f)) 5)) (fd_devAddr f)) (fctrl f)) (fd_counter f)
          = writes (Stream_init out max) a) by reflexivity.
  rewrite Hs.
  assert (Hp : st_pos (writes (Stream_init out max) a) = 8).
  { destruct (writes_init a out max H1 H2) as [_ H]. rewrite Ha in H.
    replace (8 <=? max) with true in H by lia. tauto. }
  assert (Hq : fst (Stream_write (writes (Stream_init out max) a) (opts_sent f))
            = writes (Stream_init out max) (a ++ [fd_opts f])).
  { unfold writes. rewrite fold_left_app. cbn [fold_left]. now rewrite Ho. }
  rewrite Hq.
  destruct (fd_data f) as [d|]; cbn [pr_offOpts pr_offData]; unfold Stream_tell; rewrite Hp;
    split; auto.
  assert (Hr : putU8 (writes (Stream_init out max) (a ++ [fd_opts f])) (fd_port f)
     = writes (Stream_init out max) (a ++ [fd_opts f] ++ [[u8 (fd_port f)]])).
  { unfold writes. rewrite !fold_left_app. reflexivity. }
  rewrite Hr.
  destruct (writes_init (a ++ [fd_opts f] ++ [[u8 (fd_port f)]]) out max H1 H2) as [_ H].
  assert (Hc : Z.of_nat (length (concat (a ++ [fd_opts f] ++ [[u8 (fd_port f)]]))) =
    9 + Z.of_nat (length (fd_opts f))).
  { rewrite !concat_app, !app_length. cbn [concat]. rewrite !app_length. cbn [length].
    change (length (concat a)) with 8%nat. lia. }
  rewrite Hc in H. replace (9 + Z.of_nat (length (fd_opts f)) <=? max) with true in H by lia.
  tauto.
Qed.

(* --- join and rejoin requests ------------------------------------------------------ *)

Lemma eui_rev v : length v = 8%nat -> map (fun i => nth i v 0) [7; 6; 5; 4; 3; 2; 1; 0]%nat = rev v.
Proof.
  intros H. do 8 (destruct v as [|? v]; [discriminate|]). destruct v; [reflexivity|discriminate].
Qed.

Lemma putJoin_layout f out max :
  fj_wf f -> 0 <= max < 256 -> max <= Z.of_nat (length out) ->
  let r := Frame_putJoinRequest f out max in
  let w := join_request (fj_joinEUI f) (fj_devEUI f) (fj_devNonce f) (fj_mic f) in
  length w = 23%nat /\ st_oob (fst r) = false /\
  if 23 <=? max
  then snd r = 23 /\ st_buf (fst r) = w ++ skipn 23 out
  else snd r = 0 /\ skipn (Z.to_nat max) (st_buf (fst r)) = skipn (Z.to_nat max) out.
Proof.
  intros [Hj Hd] H1 H2. cbn zeta.
  assert (Hl : length (join_request (fj_joinEUI f) (fj_devEUI f) (fj_devNonce f) (fj_mic f)) = 23%nat).
  { unfold join_request. rewrite !app_length, !rev_length, !le_length, Hj, Hd. reflexivity. }
  split; [exact Hl|].
  set (l := [[u8 (Z.shiftl (ft_code FT_JOIN_REQ) 5)]; map (fun i => nth i (fj_joinEUI f) 0) [7; 6; 5; 4; 3; 2; 1; 0]%nat;
     map (fun i => nth i (fj_devEUI f) 0) [7; 6; 5; 4; 3; 2; 1; 0]%nat; le16 (fj_devNonce f); le32 (fj_mic f)]).
  assert (Hs : Frame_putJoinRequest f out max =
    (writes (Stream_init out max) l,
     let s := writes (Stream_init out max) l in if Stream_error s then 0 else Stream_tell s)) by reflexivity.
  assert (Hc : concat l = join_request (fj_joinEUI f) (fj_devEUI f) (fj_devNonce f) (fj_mic f)).
  { unfold l, join_request. cbn [concat]. rewrite !eui_rev, le16_le, le32_le by auto.
    rewrite app_nil_r. reflexivity. }
  rewrite Hs. cbn [fst snd]. cbn zeta.
  pose proof (writes_init l out max H1 H2) as H. cbn zeta in H. rewrite Hc in H.
  rewrite Hl in H. change (Z.of_nat 23) with 23 in H. destruct H as [Ho H].
  split; [exact Ho|]. unfold Stream_error, Stream_tell.
  destruct (23 <=? max).
  - destruct H as (-> & -> & ->). auto.
  - destruct H as (-> & ? & ?). auto.
Qed.

Lemma putRejoin_layout f out max :
  length (fr_devEUI f) = 8%nat -> 0 <= fr_type f < 256 ->
  0 <= max < 256 -> max <= Z.of_nat (length out) ->
  let r := Frame_putRejoinRequest f out max in
  let w := rejoin_request (fr_type f) (fr_netID f) (fr_devEUI f) (fr_rjCount f) (fr_mic f) in
  length w = 19%nat /\ st_oob (fst r) = false /\
  if 19 <=? max
  then snd r = 19 /\ st_buf (fst r) = w ++ skipn 19 out
  else snd r = 0 /\ skipn (Z.to_nat max) (st_buf (fst r)) = skipn (Z.to_nat max) out.
Proof.
  intros Hd Ht H1 H2. cbn zeta.
  assert (Hl : length (rejoin_request (fr_type f) (fr_netID f) (fr_devEUI f) (fr_rjCount f) (fr_mic f)) = 19%nat).
  { unfold rejoin_request. rewrite !app_length, !rev_length, !le_length, Hd. reflexivity. }
  split; [exact Hl|].
  set (l := [[u8 (Z.shiftl (ft_code FT_REJOIN_REQ) 5)]; [u8 (fr_type f)]; le24 (fr_netID f);
     map (fun i => nth i (fr_devEUI f) 0) [7; 6; 5; 4; 3; 2; 1; 0]%nat; le16 (fr_rjCount f); le32 (fr_mic f)]).
  assert (Hs : Frame_putRejoinRequest f out max =
    (writes (Stream_init out max) l,
     let s := writes (Stream_init out max) l in if Stream_error s then 0 else Stream_tell s)) by reflexivity.
  assert (Hc : concat l = rejoin_request (fr_type f) (fr_netID f) (fr_devEUI f) (fr_rjCount f) (fr_mic f)).
  { unfold l, rejoin_request. cbn [concat]. rewrite !eui_rev, le16_le, le32_le, le24_le, (u8_id (fr_type f)) by auto.
    rewrite app_nil_r. reflexivity. }
  rewrite Hs. cbn [fst snd]. cbn zeta.
  pose proof (writes_init l out max H1 H2) as H. cbn zeta in H. rewrite Hc in H.
  rewrite Hl in H. change (Z.of_nat 19) with 19 in H. destruct H as [Ho H].
  split; [exact Ho|]. unfold Stream_error, Stream_tell.
  destruct (19 <=? max).
  - destruct H as (-> & -> & ->). auto.
  - destruct H as (-> & ? & ?). auto.
Qed.
