(* Proofs about the frame decoder. *)
From Verif Require Import Lib StreamM FrameM SpecFrame FrameP.
#[local] Transparent Stream_write.

(* read-only stream at position p *)
Definition R (buf : bytes) (n p : Z) : stream := mkStream buf false n p false false.
Definition RE (buf : bytes) (n p : Z) : stream := mkStream buf false n p true false.

Definition at_ (buf : bytes) (p k : Z) : bytes := slice buf (Z.to_nat p) (Z.to_nat k).

Definition ok_len (buf : bytes) (n : Z) : Prop :=
  bytes_ok buf /\ 0 <= n < 256 /\ n <= Z.of_nat (length buf).

Lemma read_R buf n p k : ok_len buf n -> 0 <= p -> 0 <= k ->
  Stream_read (R buf n p) k =
    if p + k <=? n then (R buf n (p + k), Some (at_ buf p k)) else (RE buf n p, None).
Proof.
  intros (H1 & H2 & H3) Hp Hk. unfold Stream_read, R, RE. cbn [st_err st_size st_pos st_buf st_w st_oob].
  destruct (k <=? n - p) eqn:E1, (p + k <=? n) eqn:E2; try lia; auto.
  rewrite u8_id by lia. unfold oob. cbn. repeat f_equal. lia.
Qed.

Lemma read_RE buf n p k : Stream_read (RE buf n p) k = (RE buf n p, None).
Proof. reflexivity. Qed.

Lemma nth_at buf p k i : 0 <= p -> (i < Z.to_nat k)%nat ->
  byte_at (at_ buf p k) i = nth (Z.to_nat p + i) buf 0.
Proof. intros. unfold byte_at, at_. apply nth_slice. auto. Qed.

Lemma at_length buf n p k : ok_len buf n -> 0 <= p -> 0 <= k -> p + k <= n ->
  length (at_ buf p k) = Z.to_nat k.
Proof. intros (H1 & H2 & H3) ???. unfold at_. apply slice_length. lia. Qed.

Lemma at_ok buf n p k : ok_len buf n -> bytes_ok (at_ buf p k).
Proof. intros (H1 & _). now apply bytes_ok_slice. Qed.

Definition rd (buf : bytes) (p k : Z) : Z := le_val (at_ buf p k).

Ltac list_n l n :=
  match n with
  | O => destruct l; [|discriminate]
  | S ?m => destruct l as [|? l]; [discriminate|]; list_n l m
  end.

Lemma rd1 l : length l = 1%nat -> byte_at l 0 = le_val l.
Proof. intros H. list_n l 1%nat. unfold byte_at, le_val. cbn [nth fold_right]. lia. Qed.

Ltac byte_bounds := repeat match goal with
  | H : bytes_ok (_ :: _) |- _ => inversion H; clear H; subst
  | H : Forall byte_ok (_ :: _) |- _ => inversion H; clear H; subst
  end; unfold byte_ok in *.

Lemma rd2 l : length l = 2%nat -> bytes_ok l ->
  Z.lor (Z.shiftl (byte_at l 1) 8) (byte_at l 0) = le_val l.
Proof.
  intros H Hb. list_n l 2%nat. unfold byte_at, le_val. cbn [nth fold_right]. byte_bounds.
  rewrite lor_shift8 by lia. lia.
Qed.

Lemma rd3 l : length l = 3%nat -> bytes_ok l ->
  Z.lor (Z.shiftl (Z.lor (Z.shiftl (byte_at l 2) 8) (byte_at l 1)) 8) (byte_at l 0) = le_val l.
Proof.
  intros H Hb. list_n l 3%nat. unfold byte_at, le_val. cbn [nth fold_right]. byte_bounds.
  rewrite !lor_shift8 by lia. lia.
Qed.

Lemma rd4 l : length l = 4%nat -> bytes_ok l ->
  Z.lor (Z.shiftl (Z.lor (Z.shiftl (Z.lor (Z.shiftl (byte_at l 3) 8) (byte_at l 2)) 8)
     (byte_at l 1)) 8) (byte_at l 0) = le_val l.
Proof.
  intros H Hb. list_n l 4%nat. unfold byte_at, le_val. cbn [nth fold_right]. byte_bounds.
  rewrite !lor_shift8 by lia. lia.
Qed.

Section Get.
  Variables (buf : bytes) (n p d : Z).
  Hypothesis Hok : ok_len buf n.
  Hypothesis Hp : 0 <= p.

  Lemma getU8_R : getU8 (R buf n p) d =
    if p + 1 <=? n then (R buf n (p + 1), rd buf p 1) else (RE buf n p, d).
  Proof.
    unfold getU8. rewrite read_R by (auto; lia). destruct (p + 1 <=? n) eqn:E; auto.
    f_equal. apply rd1. rewrite (at_length buf n) by (auto; lia). reflexivity.
  Qed.
  Lemma getU16_R : getU16 (R buf n p) d =
    if p + 2 <=? n then (R buf n (p + 2), rd buf p 2) else (RE buf n p, d).
  Proof.
    unfold getU16. rewrite read_R by (auto; lia). destruct (p + 2 <=? n) eqn:E; auto.
    f_equal. apply rd2; [|eapply at_ok; eauto]. rewrite (at_length buf n) by (auto; lia). reflexivity.
  Qed.
  Lemma getU24_R : getU24 (R buf n p) d =
    if p + 3 <=? n then (R buf n (p + 3), rd buf p 3) else (RE buf n p, d).
  Proof.
    unfold getU24. rewrite read_R by (auto; lia). destruct (p + 3 <=? n) eqn:E; auto.
    f_equal. apply rd3; [|eapply at_ok; eauto]. rewrite (at_length buf n) by (auto; lia). reflexivity.
  Qed.
  Lemma getU32_R : getU32 (R buf n p) d =
    if p + 4 <=? n then (R buf n (p + 4), rd buf p 4) else (RE buf n p, d).
  Proof.
    unfold getU32. rewrite read_R by (auto; lia). destruct (p + 4 <=? n) eqn:E; auto.
    f_equal. apply rd4; [|eapply at_ok; eauto]. rewrite (at_length buf n) by (auto; lia). reflexivity.
  Qed.

  Lemma getU8_RE q : getU8 (RE buf n q) d = (RE buf n q, d). Proof. reflexivity. Qed.
  Lemma getU16_RE q : getU16 (RE buf n q) d = (RE buf n q, d). Proof. reflexivity. Qed.
  Lemma getU24_RE q : getU24 (RE buf n q) d = (RE buf n q, d). Proof. reflexivity. Qed.
  Lemma getU32_RE q : getU32 (RE buf n q) d = (RE buf n q, d). Proof. reflexivity. Qed.

  Lemma seek_R k : 0 <= k < 256 -> p <= n ->
    fst (Stream_seekCur (R buf n p) k) = R buf n (if p + k <=? n then p + k else p).
  Proof.
    intros Hk Hpn. destruct Hok as (H1 & H2 & H3).
    unfold Stream_seekCur, R. cbn [st_pos st_size]. cbn zeta.
    replace (0 <=? p + k) with true by lia. replace (0 <=? k) with true by lia.
    cbn [andb]. destruct (p + k <=? n) eqn:E; auto.
    unfold set_pos. cbn. rewrite (u8_id k) by lia. rewrite u8_id by lia. reflexivity.
  Qed.
  Lemma seek_RE q k : 0 <= k < 256 -> 0 <= q <= n ->
    fst (Stream_seekCur (RE buf n q) k) = RE buf n (if q + k <=? n then q + k else q).
  Proof.
    intros Hk Hpn. destruct Hok as (H1 & H2 & H3).
    unfold Stream_seekCur, RE. cbn [st_pos st_size]. cbn zeta.
    replace (0 <=? q + k) with true by lia. replace (0 <=? k) with true by lia.
    cbn [andb]. destruct (q + k <=? n) eqn:E; auto.
    unfold set_pos. cbn. rewrite (u8_id k) by lia. rewrite u8_id by lia. reflexivity.
  Qed.
  Lemma rem_R : p <= n -> Stream_remaining (R buf n p) = n - p.
  Proof. intros. destruct Hok as (H1 & H2 & H3). unfold Stream_remaining. cbn. apply u8_id. lia. Qed.
  Lemma rem_RE : p <= n -> Stream_remaining (RE buf n p) = n - p.
  Proof. intros. destruct Hok as (H1 & H2 & H3). unfold Stream_remaining. cbn. apply u8_id. lia. Qed.
End Get.

Lemma rd_range buf n p k : ok_len buf n -> 0 <= rd buf p k < 256 ^ (Z.of_nat (Z.to_nat k)).
Proof.
  intros Hok. unfold rd. pose proof (at_ok buf n p k Hok) as Hb.
  assert (Hl : (length (at_ buf p k) <= Z.to_nat k)%nat) by apply slice_length_le.
  revert Hl Hb. generalize (at_ buf p k). generalize (Z.to_nat k). clear.
  intros m l. revert m. induction l as [|b l IH]; intros m Hl Hb.
  - cbn. lia.
  - destruct m; [cbn in Hl; lia|]. inversion Hb; subst. cbn [length] in Hl.
    specialize (IH m ltac:(lia) H2). unfold byte_ok in H1. cbn [le_val fold_right]. fold (le_val l).
    replace (Z.of_nat (S m)) with (1 + Z.of_nat m) by lia. rewrite Z.pow_add_r by lia. lia.
Qed.

Lemma rd_byte buf n p : ok_len buf n -> 0 <= rd buf p 1 < 256.
Proof. intros H. exact (rd_range buf n p 1 H). Qed.

(* --- the data case in closed form ------------------------------------------------- *)

Definition has_bit (v b : Z) : bool := 0 <? Z.land v b.

(* the frame reported for a data message of n bytes, where the port and
   payload (if any) start at q *)
Definition dframe (ty : frame_type) (buf : bytes) (n q : Z) : frame_down :=
  let h := rd buf 5 1 in
  let ol := h mod 16 in
  let present := 4 <? n - q in
  mkFrameDown ty 0 0 (rd buf 1 4) 0 0 0 false None 0 (rd buf 6 2)
    (has_bit h 0x20) (has_bit h 0x80) (has_bit h 0x40) (has_bit h 0x10)
    (if 0 <? ol then Some 8 else None) ol present
    (if present then rd buf q 1 else 0)
    (if present then (if n - q - 5 =? 0 then None else Some (q + 1)) else None)
    (if present then n - q - 5 else 0)
    (rd buf (n - 4) 4).

Definition ddecode (ty : frame_type) (buf : bytes) (n : Z) : option frame_down :=
  let ol := rd buf 5 1 mod 16 in
  let q := if 8 + ol <=? n then 8 + ol else 8 in
  if (n <? 12) || (n <? q + 4) then None
  else if (4 <? n - q) && (0 <? ol) && (rd buf q 1 =? 0) then None
  else Some (dframe ty buf n q).

Lemma decode_data_eq ty buf n : ok_len buf n -> 1 <= n ->
  st_oob (fst (decode_data ty (R buf n 1))) = false /\
  snd (decode_data ty (R buf n 1)) = ddecode ty buf n.
Proof.
  intros Hok Hn. unfold decode_data.
  rewrite getU32_R by (auto; lia). destruct (1 + 4 <=? n) eqn:E1; cbn [fst snd].
  2:{ (* error from the start: every later read fails *)
    rewrite getU8_RE, getU16_RE. cbn [fst snd].
    change (Z.land 0 15) with 0. change (0 <? 0) with false. cbn iota.
    rewrite seek_RE by (auto; lia). destruct (1 + 0 <=? n) eqn:E2; [|lia].
    rewrite rem_RE by (auto; lia). replace (4 <? n - (1 + 0)) with false by lia. cbn iota.
    rewrite getU32_RE. cbn [fst snd]. split; [reflexivity|].
    unfold ddecode. replace (n <? 12) with true by lia. reflexivity. }
  rewrite getU8_R by (auto; lia). change (1 + 4) with 5.
  destruct (5 + 1 <=? n) eqn:E2.
  2:{ rewrite getU16_RE. change (Z.land 0 15) with 0. change (0 <? 0) with false. cbn iota.
    rewrite seek_RE by (auto; lia). destruct (5 + 0 <=? n) eqn:E3; [|lia].
    rewrite rem_RE by (auto; lia). replace (4 <? n - (5 + 0)) with false by lia. cbn iota.
    rewrite getU32_RE. cbn [fst snd]. split; [reflexivity|].
    unfold ddecode. replace (n <? 12) with true by lia. reflexivity. }
  change (5 + 1) with 6. rewrite land15.
  rewrite getU16_R by (auto; lia).
  pose proof (rd_byte buf n 5 Hok) as Hh.
  unfold ddecode, dframe, has_bit. cbn zeta.
  set (h := rd buf 5 1) in *. set (ol := h mod 16) in *.
  assert (Hol : 0 <= ol < 16) by (unfold ol; lia).
  destruct (6 + 2 <=? n) eqn:E3.
  2:{ rewrite seek_RE by (auto; lia).
    replace (n <? 12) with true by lia. cbn [orb].
    destruct (6 + ol <=? n) eqn:E4.
    - rewrite rem_RE by (auto; lia). replace (4 <? n - (6 + ol)) with false by lia. cbn iota.
      rewrite getU32_RE. split; reflexivity.
    - rewrite rem_RE by (auto; lia). replace (4 <? n - 6) with false by lia. cbn iota.
      rewrite getU32_RE. split; reflexivity. }
  change (6 + 2) with 8. rewrite seek_R by (auto; lia).
  set (q := if 8 + ol <=? n then 8 + ol else 8).
  assert (Hq : 8 <= q <= n) by (unfold q; destruct (8 + ol <=? n) eqn:?; lia).
  rewrite rem_R by (auto; lia). unfold Stream_tell at 1. cbn [st_pos R].
  destruct (4 <? n - q) eqn:E5.
  - rewrite getU8_R by (auto; lia). destruct (q + 1 <=? n) eqn:E6; [|lia].
    rewrite rem_R by (auto; lia). rewrite (u8_id (n - (q + 1) - 4)) by (destruct Hok as (? & ? & ?); lia).
    rewrite seek_R by (auto; try lia; destruct Hok as (? & ? & ?); lia).
    destruct (q + 1 + (n - (q + 1) - 4) <=? n) eqn:E7; [|lia].
    rewrite getU32_R by (auto; lia). destruct (q + 1 + (n - (q + 1) - 4) + 4 <=? n) eqn:E8; [|lia].
    cbn [fst snd R st_oob Stream_error st_err negb andb]. split; [reflexivity|].
    replace (n <? 12) with false by lia. replace (n <? q + 4) with false by lia. cbn [orb].
    replace (n - (q + 1) - 4) with (n - q - 5) by lia.
    replace (q + 1 + (n - q - 5)) with (n - 4) by lia.
    unfold Stream_tell. cbn [st_pos].
    destruct ((0 <? ol) && (rd buf q 1 =? 0)); reflexivity.
  - rewrite getU32_R by (auto; lia). cbn [negb andb].
    destruct (q + 4 <=? n) eqn:E6; cbn [fst snd R RE st_oob Stream_error st_err negb andb];
      (split; [reflexivity|]).
    + replace (n <? 12) with false by lia. replace (n <? q + 4) with false by lia. cbn [orb].
      replace q with (n - 4) at 1 by lia. reflexivity.
    + replace (n <? q + 4) with true by lia. rewrite orb_true_r. reflexivity.
Qed.

(* --- the join accept case ---------------------------------------------------------- *)

Definition jframe (buf : bytes) (n : Z) : frame_down :=
  let dl := rd buf 11 1 in
  let rxd := rd buf 12 1 in
  mkFrameDown FT_JOIN_ACCEPT (rd buf 1 3) (rd buf 4 3) (rd buf 7 4)
    (Z.land (Z.shiftr dl 4) 7) (Z.land dl 0xf) (if rxd =? 0 then 1 else rxd)
    (negb (Z.land dl 0x80 =? 0))
    (if n =? 33 then Some 13 else None) (if n =? 33 then 16 else 0)
    0 false false false false None 0 false 0 None 0 (rd buf (n - 4) 4).

Definition jdecode (buf : bytes) (n : Z) : option frame_down :=
  if (n =? 17) || (n =? 33) then Some (jframe buf n) else None.

Ltac errtail :=
  rewrite ?getU24_RE, ?getU32_RE, ?getU8_RE; cbn [fst snd];
  rewrite ?rem_RE by (auto; lia).

Lemma decode_join_eq buf n : ok_len buf n -> 1 <= n ->
  st_oob (fst (decode_join (R buf n 1))) = false /\
  snd (decode_join (R buf n 1)) = jdecode buf n.
Proof.
  intros Hok Hn. assert (Hn2 : n < 256) by (destruct Hok as (? & ? & ?); lia).
  unfold decode_join, jdecode, jframe. cbn zeta.
  rewrite getU24_R by (auto; lia). destruct (1 + 3 <=? n) eqn:E1.
  2:{ errtail. replace (4 <? n - 1) with false by lia. cbn iota. errtail.
      replace ((n =? 17) || (n =? 33)) with false by lia. split; reflexivity. }
  change (1 + 3) with 4. rewrite getU24_R by (auto; lia). destruct (4 + 3 <=? n) eqn:E2.
  2:{ errtail. replace (4 <? n - 4) with false by lia. cbn iota. errtail.
      replace ((n =? 17) || (n =? 33)) with false by lia. split; reflexivity. }
  change (4 + 3) with 7. rewrite getU32_R by (auto; lia). destruct (7 + 4 <=? n) eqn:E3.
  2:{ errtail. replace (4 <? n - 7) with false by lia. cbn iota. errtail.
      replace ((n =? 17) || (n =? 33)) with false by lia. split; reflexivity. }
  change (7 + 4) with 11. rewrite getU8_R by (auto; lia). destruct (11 + 1 <=? n) eqn:E4.
  2:{ errtail. replace (4 <? n - 11) with false by lia. cbn iota. errtail.
      replace ((n =? 17) || (n =? 33)) with false by lia. split; reflexivity. }
  change (11 + 1) with 12. rewrite getU8_R by (auto; lia). destruct (12 + 1 <=? n) eqn:E5.
  2:{ errtail. replace (4 <? n - 12) with false by lia. cbn iota. errtail.
      replace ((n =? 17) || (n =? 33)) with false by lia. split; reflexivity. }
  change (12 + 1) with 13. rewrite rem_R by (auto; lia).
  destruct (4 <? n - 13) eqn:E6.
  - rewrite seek_R by (auto; lia). destruct (13 + 16 <=? n) eqn:E7.
    + change (13 + 16) with 29. rewrite getU32_R by (auto; lia). destruct (29 + 4 <=? n) eqn:E8.
      * rewrite rem_R by (auto; lia). cbn [fst snd R st_oob Stream_error st_err negb andb Stream_tell st_pos].
        split; [reflexivity|]. destruct (n - (29 + 4) =? 0) eqn:E9.
        -- replace n with 33 by lia. reflexivity.
        -- replace ((n =? 17) || (n =? 33)) with false by lia. reflexivity.
      * cbn [fst snd RE st_oob Stream_error st_err negb andb]. split; [reflexivity|].
        replace ((n =? 17) || (n =? 33)) with false by lia. reflexivity.
    + rewrite getU32_R by (auto; lia). destruct (13 + 4 <=? n) eqn:E8; [|lia].
      rewrite rem_R by (auto; lia). cbn [fst snd R st_oob Stream_error st_err negb andb]. split; [reflexivity|].
      replace (n - (13 + 4) =? 0) with false by lia.
      replace ((n =? 17) || (n =? 33)) with false by lia. reflexivity.
  - rewrite getU32_R by (auto; lia). destruct (13 + 4 <=? n) eqn:E8.
    + rewrite rem_R by (auto; lia). cbn [fst snd R st_oob Stream_error st_err negb andb]. split; [reflexivity|].
      replace (n - (13 + 4) =? 0) with true by lia. replace n with 17 by lia. reflexivity.
    + cbn [fst snd RE st_oob Stream_error st_err negb andb]. split; [reflexivity|].
      replace ((n =? 17) || (n =? 33)) with false by lia. reflexivity.
Qed.

(* --- whole decoder --------------------------------------------------------------- *)

Lemma getFrameType_spec v tag : 0 <= tag < 256 ->
  match getFrameType v tag with
  | Some FT_JOIN_ACCEPT => tag = mhdr JoinAccept
  | Some FT_UNCONF_DOWN => tag = mhdr UnconfirmedDown
  | Some FT_CONF_DOWN => tag = mhdr ConfirmedDown
  | _ => tag <> mhdr JoinAccept /\ tag <> mhdr UnconfirmedDown /\ tag <> mhdr ConfirmedDown
  end.
Proof.
  intros H.
  set (f := fun tag => match getFrameType v tag with
  | Some FT_JOIN_ACCEPT => tag =? mhdr JoinAccept
  | Some FT_UNCONF_DOWN => tag =? mhdr UnconfirmedDown
  | Some FT_CONF_DOWN => tag =? mhdr ConfirmedDown
  | _ => negb (tag =? mhdr JoinAccept) && negb (tag =? mhdr UnconfirmedDown) && negb (tag =? mhdr ConfirmedDown)
  end).
  assert (Hf : forallb f (map Z.of_nat (seq 0 256)) = true) by (unfold f; destruct v; vm_compute; reflexivity).
  pose proof (forallb_Z_lt f 256 Hf tag ltac:(lia)) as Ht. unfold f in Ht.
  destruct (getFrameType v tag) as [[]|]; lia.
Qed.

Definition decode_closed (buf : bytes) (n : Z) : option frame_down :=
  if n <? 1 then None
  else
    let t := rd buf 0 1 in
    if t =? mhdr JoinAccept then jdecode buf n
    else if t =? mhdr UnconfirmedDown then ddecode FT_UNCONF_DOWN buf n
    else if t =? mhdr ConfirmedDown then ddecode FT_CONF_DOWN buf n
    else None.

Lemma decode_eq v buf n : ok_len buf n ->
  st_oob (fst (Frame_decode_s v buf n)) = false /\ Frame_decode v buf n = decode_closed buf n.
Proof.
  intros Hok. unfold Frame_decode, Frame_decode_s, decode_closed.
  change (Stream_initReadOnly buf n) with (R buf n 0). rewrite read_R by (auto; lia).
  destruct (0 + 1 <=? n) eqn:E1.
  2:{ replace (n <? 1) with true by lia. split; reflexivity. }
  replace (n <? 1) with false by lia. change (0 + 1) with 1.
  rewrite rd1 by (rewrite (at_length buf n) by (auto; lia); reflexivity).
  change (le_val (at_ buf 0 1)) with (rd buf 0 1).
  pose proof (getFrameType_spec v (rd buf 0 1) (rd_byte buf n 0 Hok)) as Ht.
  set (t := rd buf 0 1) in *. cbn zeta.
  assert (Hnone : t <> mhdr JoinAccept /\ t <> mhdr UnconfirmedDown /\ t <> mhdr ConfirmedDown ->
    st_oob (fst (R buf n 1, @None frame_down)) = false /\ @None frame_down =
      (if t =? mhdr JoinAccept then jdecode buf n
       else if t =? mhdr UnconfirmedDown then ddecode FT_UNCONF_DOWN buf n
       else if t =? mhdr ConfirmedDown then ddecode FT_CONF_DOWN buf n else None)).
  { intros (Ha & Hb & Hc). apply Z.eqb_neq in Ha, Hb, Hc. rewrite Ha, Hb, Hc. split; reflexivity. }
  destruct (getFrameType v t) as [[]|]; try exact (Hnone Ht); clear Hnone; rewrite Ht.
  - exact (decode_join_eq buf n Hok ltac:(lia)).
  - exact (decode_data_eq FT_UNCONF_DOWN buf n Hok ltac:(lia)).
  - exact (decode_data_eq FT_CONF_DOWN buf n Hok ltac:(lia)).
Qed.

Lemma decode_in_bounds v buf n : ok_len buf n -> st_oob (fst (Frame_decode_s v buf n)) = false.
Proof. intros. now apply decode_eq. Qed.
