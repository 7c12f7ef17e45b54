(* Decoder against the LoRaWAN frame grammar. *)
From Verif Require Import Lib StreamM FrameM SpecFrame SpecDecode FrameP FrameDecP.

Lemma le_le_val l : bytes_ok l -> le (length l) (le_val l) = l.
Proof.
  induction l as [|b l IH]; intros H; [reflexivity|]. inversion H; subst.
  cbn [length le le_val fold_right]. fold (le_val l). unfold byte_ok in *.
  replace ((b + 256 * le_val l) mod 256) with b by lia.
  replace ((b + 256 * le_val l) / 256) with (le_val l) by lia.
  now rewrite IH.
Qed.

Lemma le_val_le n : forall v, 0 <= v < 256 ^ Z.of_nat n -> le_val (le n v) = v.
Proof.
  induction n as [|n IH]; intros v H.
  - cbn in *. lia.
  - replace (Z.of_nat (S n)) with (1 + Z.of_nat n) in H by lia. rewrite Z.pow_add_r in H by lia.
    cbn [le le_val fold_right]. fold (le_val (le n (v / 256))). rewrite IH by lia. lia.
Qed.

Lemma le_ok n : forall v, bytes_ok (le n v).
Proof. induction n; intros v; cbn [le]; constructor; [unfold byte_ok; lia | apply IHn]. Qed.

Lemma at_split buf p a b : 0 <= p -> 0 <= a -> 0 <= b ->
  at_ buf p (a + b) = at_ buf p a ++ at_ buf (p + a) b.
Proof.
  intros. unfold at_, slice. rewrite !Z2Nat.inj_add by lia.
  rewrite <- skipn_skipn. generalize (skipn (Z.to_nat p) buf). intros l.
  rewrite <- (firstn_skipn (Z.to_nat a) l) at 1.
  rewrite firstn_app, firstn_length. rewrite firstn_all2 by (rewrite firstn_length; lia).
  f_equal. destruct (Nat.le_gt_cases (Z.to_nat a) (length l)).
  - f_equal. lia.
  - rewrite (skipn_all2 l) by lia. now rewrite !firstn_nil.
Qed.

Lemma at_le buf n p k : ok_len buf n -> 0 <= p -> 0 <= k -> p + k <= n ->
  at_ buf p k = le (Z.to_nat k) (rd buf p k).
Proof.
  intros Hok Hp Hk H. unfold rd. rewrite <- (at_length buf n p k Hok Hp Hk H).
  symmetry. apply le_le_val. eapply at_ok; eauto.
Qed.

Lemma at_le2 buf n p : ok_len buf n -> 0 <= p -> p + 2 <= n -> at_ buf p 2 = le 2 (rd buf p 2).
Proof. intros. apply (at_le buf n p 2); auto; lia. Qed.
Lemma at_le3 buf n p : ok_len buf n -> 0 <= p -> p + 3 <= n -> at_ buf p 3 = le 3 (rd buf p 3).
Proof. intros. apply (at_le buf n p 3); auto; lia. Qed.
Lemma at_le4 buf n p : ok_len buf n -> 0 <= p -> p + 4 <= n -> at_ buf p 4 = le 4 (rd buf p 4).
Proof. intros. apply (at_le buf n p 4); auto; lia. Qed.

Lemma at_le1 buf n p : ok_len buf n -> 0 <= p -> p + 1 <= n -> at_ buf p 1 = [rd buf p 1].
Proof.
  intros Hok Hp H. rewrite (at_le buf n) by (auto; lia). change (Z.to_nat 1) with 1%nat. cbn [le].
  pose proof (rd_byte buf n p Hok). now rewrite Z.mod_small by lia.
Qed.

Lemma fctrl_bits h : 0 <= h < 256 ->
  h = 128 * b2z (has_bit h 0x80) + 64 * b2z (has_bit h 0x40) + 32 * b2z (has_bit h 0x20)
      + 16 * b2z (has_bit h 0x10) + h mod 16.
Proof.
  intros H. apply Z.eqb_eq. revert h H.
  exact (forallb_Z_lt (fun h => h =? 128 * b2z (has_bit h 0x80) + 64 * b2z (has_bit h 0x40) + 32 * b2z (has_bit h 0x20)
      + 16 * b2z (has_bit h 0x10) + h mod 16) 256 ltac:(vm_compute; reflexivity)).
Qed.

Lemma b2z_inj a b : b2z a = b2z b -> a = b. Proof. destruct a, b; cbn; congruence. Qed.
Lemma b2z_range a : 0 <= b2z a <= 1. Proof. destruct a; cbn; lia. Qed.

Lemma fctrl_unique a b c d o h : 0 <= o < 16 ->
  h = 128 * b2z a + 64 * b2z b + 32 * b2z c + 16 * b2z d + o ->
  0 <= h < 256 /\ has_bit h 0x80 = a /\ has_bit h 0x40 = b /\ has_bit h 0x20 = c /\ has_bit h 0x10 = d
  /\ h mod 16 = o.
Proof.
  intros Ho Hh. pose proof (b2z_range a); pose proof (b2z_range b); pose proof (b2z_range c);
  pose proof (b2z_range d).
  assert (0 <= h < 256) as Hr by lia. pose proof (fctrl_bits h Hr) as Hf.
  pose proof (b2z_range (has_bit h 128)); pose proof (b2z_range (has_bit h 64));
  pose proof (b2z_range (has_bit h 32)); pose proof (b2z_range (has_bit h 16)).
  set (A := has_bit h 128) in *. set (B := has_bit h 64) in *. set (C := has_bit h 32) in *.
  set (D := has_bit h 16) in *.
  assert (h mod 16 = o) as Hm by lia. rewrite Hm in Hf.
  repeat split; auto; try lia; apply b2z_inj; lia.
Qed.

Definition ty_ok (ty : frame_type) : Prop := ty = FT_UNCONF_DOWN \/ ty = FT_CONF_DOWN.

(* soundness of the data case when FOpts ends before the MIC *)
Lemma ddecode_sound ty t buf n f : type_code ty = Some t -> is_downlink t = true ->
  ok_len buf n -> rd buf 0 1 = mhdr t ->
  ddecode ty buf n = Some f -> 12 + dn_optsLen f <= n ->
  exists m, data_wf m /\ d_type m = t /\ fopts_allowed m /\
    data_bytes m = at_ buf 0 n /\ reports_data buf f m /\
    region_inside (dn_opts f) (dn_optsLen f) n /\ region_inside (dn_data f) (dn_dataLen f) n.
Proof.
  intros Hty Hdl Hok Hmh Hd Hol. unfold ddecode in Hd. cbn zeta in Hd.
  assert (Hn : n < 256) by (destruct Hok as (? & ? & ?); lia).
  pose proof (rd_byte buf n 5 Hok) as Hh.
  set (ol := rd buf 5 1 mod 16) in *.
  assert (Hor : 0 <= ol < 16) by (unfold ol; lia).
  set (q := if 8 + ol <=? n then 8 + ol else 8) in *.
  destruct ((n <? 12) || (n <? q + 4)) eqn:E1; [discriminate|].
  destruct ((4 <? n - q) && (0 <? ol) && (rd buf q 1 =? 0)) eqn:E2; [discriminate|].
  injection Hd as <-. unfold dframe in *. cbn zeta in *. fold ol in Hol. cbn [dn_optsLen] in Hol.
  assert (Hq : q = 8 + ol) by (unfold q; destruct (8 + ol <=? n) eqn:?; lia). rewrite Hq in *. clear Hq q.
  set (present := 4 <? n - (8 + ol)) in *.
  exists (DataMsg t (rd buf 1 4) (has_bit (rd buf 5 1) 0x80) (has_bit (rd buf 5 1) 0x40)
     (has_bit (rd buf 5 1) 0x20) (has_bit (rd buf 5 1) 0x10) (rd buf 6 2) (at_ buf 8 ol)
     (if present then Some (rd buf (8 + ol) 1, at_ buf (9 + ol) (n - (8 + ol) - 5)) else None)
     (rd buf (n - 4) 4)).
  assert (Hlo : length (at_ buf 8 ol) = Z.to_nat ol) by (rewrite (at_length buf n) by (auto; lia); reflexivity).
  assert (Hbytes : forall p k, Forall (fun b => 0 <= b < 256) (at_ buf p k)).
  { intros p k. exact (at_ok buf n p k Hok). }
  repeat split.
  - cbn. apply (rd_range buf n 1 4 Hok).
  - cbn. apply (rd_range buf n 1 4 Hok).
  - cbn. apply (rd_range buf n 6 2 Hok).
  - cbn. apply (rd_range buf n 6 2 Hok).
  - cbn. apply (rd_range buf n (n-4) 4 Hok).
  - cbn. apply (rd_range buf n (n-4) 4 Hok).
  - cbn. lia.
  - apply Hbytes.
  - cbn. destruct present; auto. split; [apply (rd_byte buf n _ Hok) | apply Hbytes].
  - unfold fopts_allowed. cbn [d_payload d_fopts]. destruct present; auto.
    destruct (rd buf (8 + ol) 1) eqn:Ez; auto. cbn [andb Z.eqb] in E2.
    replace ol with 0 by lia. reflexivity.
  - unfold data_bytes. cbn [d_type d_addr d_fcnt d_fopts d_payload d_mic].
    assert (Hf : fctrl_byte (DataMsg t (rd buf 1 4) (has_bit (rd buf 5 1) 0x80) (has_bit (rd buf 5 1) 0x40)
     (has_bit (rd buf 5 1) 0x20) (has_bit (rd buf 5 1) 0x10) (rd buf 6 2) (at_ buf 8 ol)
     (if present then Some (rd buf (8 + ol) 1, at_ buf (9 + ol) (n - (8 + ol) - 5)) else None)
     (rd buf (n - 4) 4)) = rd buf 5 1).
    { unfold fctrl_byte. cbn [d_adr d_adrAckReq d_ack d_bit4 d_fopts]. rewrite Hlo.
      rewrite Z2Nat.id by lia. symmetry. exact (fctrl_bits _ Hh). }
    rewrite Hf. clear Hf.
    rewrite <- Hmh, <- !(at_le1 buf n) by (auto; lia).
    rewrite <- !(at_le4 buf n), <- (at_le2 buf n) by (auto; lia).
    transitivity (at_ buf 0 (1 + (4 + (1 + (2 + (ol + ((n - 12 - ol) + 4))))))); [|f_equal; lia].
    rewrite !at_split by lia. do 5 f_equal.
    replace (0 + 1 + 4 + 1 + 2 + ol) with (8 + ol) by lia.
    replace (8 + ol + (n - 12 - ol)) with (n - 4) by lia. f_equal.
    destruct present eqn:Ep; unfold present in Ep.
    + replace (n - 12 - ol) with (1 + (n - (8 + ol) - 5)) by lia. rewrite at_split by lia.
      rewrite (at_le1 buf n) by (auto; lia). cbn [app]. do 2 f_equal. lia.
    + replace (n - 12 - ol) with 0 by lia. reflexivity.
  - exact Hty.
  - cbn [d_fopts dn_optsLen]. rewrite Hlo. fold ol. lia.
  - cbn [dn_opts dn_optsLen d_fopts]. fold ol. destruct (0 <? ol) eqn:E3; cbn [region_at]; [reflexivity|].
    replace ol with 0 by lia. reflexivity.
  - cbn [d_payload dn_dataPresent dn_port dn_dataLen dn_data]. fold present.
    destruct present eqn:Ep; [|repeat split; auto].
    unfold present in Ep. rewrite (at_length buf n) by (auto; lia).
    repeat split; auto; [lia|]. destruct (n - (8 + ol) - 5 =? 0) eqn:E3; cbn [region_at].
    + replace (n - (8 + ol) - 5) with 0 by lia. reflexivity.
    + replace (8 + ol + 1) with (9 + ol) by lia. reflexivity.
  - cbn [dn_opts dn_optsLen]. fold ol. destruct (0 <? ol) eqn:E3; cbn [region_inside]; lia.
  - cbn [dn_data dn_dataLen]. fold present.
    destruct present eqn:Ep; unfold present in Ep; cbn [region_inside]; [|reflexivity].
    destruct (n - (8 + ol) - 5 =? 0) eqn:E3; cbn [region_inside]; lia.
Qed.

Lemma decode_sound v buf n f : ok_len buf n -> Frame_decode v buf n = Some f ->
  dn_type f <> FT_JOIN_ACCEPT -> 12 + dn_optsLen f <= n ->
  exists m, data_wf m /\ is_downlink (d_type m) = true /\ fopts_allowed m /\
    data_bytes m = firstn (Z.to_nat n) buf /\ reports_data buf f m /\
    region_inside (dn_opts f) (dn_optsLen f) n /\ region_inside (dn_data f) (dn_dataLen f) n.
Proof.
  intros Hok Hd Ht Hol. rewrite (proj2 (decode_eq v buf n Hok)) in Hd. unfold decode_closed in Hd.
  destruct (n <? 1); [discriminate|]. cbn zeta in Hd.
  destruct (rd buf 0 1 =? mhdr JoinAccept) eqn:E1.
  { unfold jdecode in Hd. destruct ((n =? 17) || (n =? 33)); [|discriminate].
    injection Hd as <-. contradiction Ht. reflexivity. }
  destruct (rd buf 0 1 =? mhdr UnconfirmedDown) eqn:E2.
  { apply Z.eqb_eq in E2.
    destruct (ddecode_sound FT_UNCONF_DOWN UnconfirmedDown buf n f eq_refl eq_refl Hok E2 Hd Hol)
      as (m & ? & E & ?). exists m. rewrite E. auto. }
  destruct (rd buf 0 1 =? mhdr ConfirmedDown) eqn:E3; [|discriminate].
  apply Z.eqb_eq in E3.
  destruct (ddecode_sound FT_CONF_DOWN ConfirmedDown buf n f eq_refl eq_refl Hok E3 Hd Hol)
      as (m & ? & E & ?). exists m. rewrite E. auto.
Qed.

(* reading back a known field *)
Lemma at_mid a b c : at_ (a ++ b ++ c) (Z.of_nat (length a)) (Z.of_nat (length b)) = b.
Proof.
  unfold at_. rewrite !Nat2Z.id, slice_app_exact. now apply slice_app_l.
Qed.

Lemma at_mid' buf a b c p k : buf = a ++ b ++ c -> p = Z.of_nat (length a) -> k = Z.of_nat (length b) ->
  at_ buf p k = b.
Proof. intros -> -> ->. apply at_mid. Qed.

Lemma rd_mid buf a n v c p k : buf = a ++ le n v ++ c -> p = Z.of_nat (length a) -> k = Z.of_nat n ->
  0 <= v < 256 ^ Z.of_nat n -> rd buf p k = v.
Proof.
  intros H1 H2 H3 H4. unfold rd. rewrite (at_mid' buf a (le n v) c p k H1 H2) by (rewrite le_length; auto).
  now apply le_val_le.
Qed.

Lemma rd_mid1 buf a v c p : buf = a ++ [v] ++ c -> p = Z.of_nat (length a) -> rd buf p 1 = v.
Proof.
  intros H1 H2. unfold rd. rewrite (at_mid' buf a [v] c p 1 H1 H2) by reflexivity. cbn. lia.
Qed.

Definition payload_bytes (m : data_msg) : bytes :=
  match d_payload m with Some (p, d) => p :: d | None => [] end.

Lemma data_bytes_length m : length (data_bytes m) =
  (12 + length (d_fopts m) + length (payload_bytes m))%nat.
Proof.
  unfold data_bytes, payload_bytes. rewrite !app_length, !le_length. cbn [length].
  destruct (d_payload m) as [[p d]|]; cbn [length]; lia.
Qed.

Lemma data_bytes_ok m : data_wf m -> bytes_ok (data_bytes m).
Proof.
  intros (H1 & H2 & H3 & H4 & H5 & H6). unfold data_bytes.
  repeat (apply bytes_ok_app; split); auto using le_ok.
  - constructor; [|constructor]. unfold byte_ok. destruct (d_type m); cbn; lia.
  - constructor; [|constructor]. apply fctrl_byte_range; auto.
  - destruct (d_payload m) as [[p d]|]; [|constructor]. destruct H6. now constructor.
Qed.

Lemma decode_complete v m rest : data_wf m -> is_downlink (d_type m) = true -> fopts_allowed m ->
  bytes_ok rest -> (length (data_bytes m) < 256)%nat ->
  exists f, Frame_decode v (data_bytes m ++ rest) (Z.of_nat (length (data_bytes m))) = Some f /\
    reports_data (data_bytes m ++ rest) f m /\
    region_inside (dn_opts f) (dn_optsLen f) (Z.of_nat (length (data_bytes m))) /\
    region_inside (dn_data f) (dn_dataLen f) (Z.of_nat (length (data_bytes m))).
Proof.
  intros Hwf Hdl Hfa Hr Hlen.
  set (buf := data_bytes m ++ rest). set (n := Z.of_nat (length (data_bytes m))).
  assert (Hok : ok_len buf n).
  { unfold ok_len, buf, n. rewrite app_length. repeat split; try lia.
    apply bytes_ok_app. split; auto using data_bytes_ok. }
  rewrite (proj2 (decode_eq v buf n Hok)). clear v.
  pose proof Hwf as (H1 & H2 & H3 & H4 & H5 & H6).
  assert (Hbuf : buf = [mhdr (d_type m)] ++ le 4 (d_addr m) ++ [fctrl_byte m] ++ le 2 (d_fcnt m)
     ++ d_fopts m ++ payload_bytes m ++ le 4 (d_mic m) ++ rest).
  { unfold buf, data_bytes, payload_bytes. rewrite <- !app_assoc. reflexivity. }
  assert (Hn : n = 12 + Z.of_nat (length (d_fopts m)) + Z.of_nat (length (payload_bytes m))).
  { unfold n. rewrite data_bytes_length. lia. }
  assert (R0 : rd buf 0 1 = mhdr (d_type m)).
  { eapply rd_mid1 with (a := []); [exact Hbuf | reflexivity]. }
  assert (R1 : rd buf 1 4 = d_addr m).
  { eapply rd_mid with (a := [mhdr (d_type m)]) (n := 4%nat); [exact Hbuf | reflexivity | reflexivity | exact H1]. }
  assert (R5 : rd buf 5 1 = fctrl_byte m).
  { eapply rd_mid1 with (a := [mhdr (d_type m)] ++ le 4 (d_addr m)).
    - rewrite Hbuf, <- !app_assoc. reflexivity.
    - rewrite app_length, le_length. reflexivity. }
  assert (R6 : rd buf 6 2 = d_fcnt m).
  { eapply rd_mid with (a := [mhdr (d_type m)] ++ le 4 (d_addr m) ++ [fctrl_byte m]) (n := 2%nat).
    - rewrite Hbuf, <- !app_assoc. reflexivity.
    - rewrite !app_length, le_length. reflexivity.
    - reflexivity.
    - exact H2. }
  assert (Hpre : length ([mhdr (d_type m)] ++ le 4 (d_addr m) ++ [fctrl_byte m] ++ le 2 (d_fcnt m)) = 8%nat).
  { rewrite !app_length, !le_length. reflexivity. }
  assert (R8 : at_ buf 8 (Z.of_nat (length (d_fopts m))) = d_fopts m).
  { eapply at_mid' with (a := [mhdr (d_type m)] ++ le 4 (d_addr m) ++ [fctrl_byte m] ++ le 2 (d_fcnt m)).
    - rewrite Hbuf, <- !app_assoc. reflexivity.
    - rewrite Hpre. reflexivity.
    - reflexivity. }
  assert (Rm : rd buf (n - 4) 4 = d_mic m).
  { eapply rd_mid with (a := [mhdr (d_type m)] ++ le 4 (d_addr m) ++ [fctrl_byte m] ++ le 2 (d_fcnt m)
       ++ d_fopts m ++ payload_bytes m) (n := 4%nat).
    - rewrite Hbuf, <- !app_assoc. reflexivity.
    - rewrite Hn, !app_length, !le_length. cbn [length]. lia.
    - reflexivity.
    - exact H3. }
  assert (Hpay : match d_payload m with
    | Some (p, d) => rd buf (8 + Z.of_nat (length (d_fopts m))) 1 = p /\
        at_ buf (9 + Z.of_nat (length (d_fopts m))) (Z.of_nat (length d)) = d
    | None => True end).
  { destruct (d_payload m) as [[p d]|] eqn:Ep; auto.
    assert (Hpb : payload_bytes m = p :: d) by (unfold payload_bytes; now rewrite Ep). split.
    - eapply rd_mid1 with (a := ([mhdr (d_type m)] ++ le 4 (d_addr m) ++ [fctrl_byte m] ++ le 2 (d_fcnt m)) ++ d_fopts m).
      + rewrite Hbuf, Hpb, <- !app_assoc. reflexivity.
      + rewrite app_length, Hpre. lia.
    - eapply at_mid' with (a := ([mhdr (d_type m)] ++ le 4 (d_addr m) ++ [fctrl_byte m] ++ le 2 (d_fcnt m)) ++ d_fopts m ++ [p]).
      + rewrite Hbuf, Hpb, <- !app_assoc. reflexivity.
      + rewrite !app_length in *. cbn [length] in *. lia.
      + reflexivity. }
  assert (Hf : fctrl_byte m = 128 * b2z (d_adr m) + 64 * b2z (d_adrAckReq m) + 32 * b2z (d_ack m)
     + 16 * b2z (d_bit4 m) + Z.of_nat (length (d_fopts m))) by reflexivity.
  destruct (fctrl_unique (d_adr m) (d_adrAckReq m) (d_ack m) (d_bit4 m)
     (Z.of_nat (length (d_fopts m))) (fctrl_byte m) ltac:(lia) Hf) as (Hfr & B7 & B6 & B5 & B4 & Bo).
  set (ol := Z.of_nat (length (d_fopts m))) in *.
  assert (Hcore : forall ty, type_code ty = Some (d_type m) ->
    ddecode ty buf n = Some (dframe ty buf n (8 + ol)) /\
    reports_data buf (dframe ty buf n (8 + ol)) m /\
    region_inside (dn_opts (dframe ty buf n (8 + ol))) (dn_optsLen (dframe ty buf n (8 + ol))) n /\
    region_inside (dn_data (dframe ty buf n (8 + ol))) (dn_dataLen (dframe ty buf n (8 + ol))) n).
  { intros ty Hty. unfold ddecode. cbn zeta. rewrite R5, Bo.
    replace (8 + ol <=? n) with true by lia.
    replace ((n <? 12) || (n <? 8 + ol + 4)) with false by lia.
    unfold dframe, reports_data.
    cbn [dn_type dn_devAddr dn_adr dn_adrAckReq dn_ack dn_pending dn_counter dn_mic dn_optsLen dn_opts
         dn_dataPresent dn_port dn_dataLen dn_data]. cbn zeta.
    rewrite R5, Bo, R1, R6, Rm, B7, B6, B5, B4.
    assert (Hopt : region_at buf (if 0 <? ol then Some 8 else None) ol = d_fopts m).
    { destruct (0 <? ol) eqn:E; cbn [region_at]; [exact R8|].
      destruct (d_fopts m); [reflexivity|]. cbn in ol. lia. }
    destruct (d_payload m) as [[p d]|] eqn:Ep.
    - destruct Hpay as [Hp1 Hp2]. assert (Hpl : Z.of_nat (length (payload_bytes m)) = 1 + Z.of_nat (length d)).
      { unfold payload_bytes. rewrite Ep. cbn [length]. lia. }
      replace (4 <? n - (8 + ol)) with true by lia. rewrite Hp1.
      unfold fopts_allowed in Hfa. rewrite Ep in Hfa.
      assert (E : (true && (0 <? ol) && (p =? 0)) = false).
      { destruct (p =? 0) eqn:E0; [|now rewrite andb_false_r]. apply Z.eqb_eq in E0. rewrite E0 in Hfa.
        unfold ol. rewrite Hfa. reflexivity. }
      rewrite E. split; [reflexivity|].
      replace (n - (8 + ol) - 5) with (Z.of_nat (length d)) by lia.
      repeat split; auto.
      + destruct d as [|b d]; [reflexivity|].
        replace (Z.of_nat (length (b :: d)) =? 0) with false by (cbn [length]; lia).
        cbn [region_at]. replace (8 + ol + 1) with (9 + ol) by lia. exact Hp2.
      + destruct (0 <? ol) eqn:E0; cbn [region_inside]; lia.
      + destruct (Z.of_nat (length d) =? 0) eqn:E0; cbn [region_inside]; lia.
    - assert (Hpl : Z.of_nat (length (payload_bytes m)) = 0).
      { unfold payload_bytes. rewrite Ep. reflexivity. }
      replace (4 <? n - (8 + ol)) with false by lia. cbn [andb].
      split; [reflexivity|]. repeat split; auto.
      destruct (0 <? ol) eqn:E0; cbn [region_inside]; lia. }
  unfold decode_closed. replace (n <? 1) with false by lia. cbn zeta. rewrite R0.
  destruct (d_type m) eqn:Et; try discriminate; cbn [mhdr Z.eqb Pos.eqb].
  - destruct (Hcore FT_UNCONF_DOWN eq_refl) as (-> & Hx). eexists. split; [reflexivity|]. exact Hx.
  - destruct (Hcore FT_CONF_DOWN eq_refl) as (-> & Hx). eexists. split; [reflexivity|]. exact Hx.
Qed.

(* a frame whose FOptsLen reaches past its end is accepted *)
Lemma decode_oob_opts :
  exists buf f, bytes_ok buf /\ length buf = 12%nat /\
    Frame_decode L2_1_0_4 buf 12 = Some f /\ ~ region_inside (dn_opts f) (dn_optsLen f) 12.
Proof.
  exists [0x60; 1;2;3;4; 0x05; 0;0; 1;2;3;4]. eexists. split; [|split; [|split]].
  - repeat constructor; unfold byte_ok; lia.
  - reflexivity.
  - vm_compute. reflexivity.
  - cbn. lia.
Qed.

(* exactly which byte strings decode as data, including those frames *)
Lemma decode_data_exact v buf n : ok_len buf n ->
  ((exists f, Frame_decode v buf n = Some f /\ dn_type f <> FT_JOIN_ACCEPT /\ 12 + dn_optsLen f > n) <->
   (12 <= n /\ (nth 0 buf 0 = mhdr UnconfirmedDown \/ nth 0 buf 0 = mhdr ConfirmedDown) /\
    8 + nth 5 buf 0 mod 16 > n /\ (n = 12 \/ nth 8 buf 0 <> 0))).
Proof.
  intros Hok. assert (Hn : n < 256 /\ n <= Z.of_nat (length buf)) by (destruct Hok as (? & ? & ?); lia).
  rewrite (proj2 (decode_eq v buf n Hok)). unfold decode_closed.
  assert (Hnth : forall p, 0 <= p -> p + 1 <= n -> rd buf p 1 = nth (Z.to_nat p) buf 0).
  { intros p Hp Hpn. unfold rd. rewrite <- rd1.
    - rewrite nth_at by (auto; cbn; lia). now rewrite Nat.add_0_r.
    - now rewrite (at_length buf n) by (auto; lia). }
  assert (Hj : forall f, jdecode buf n = Some f -> dn_type f = FT_JOIN_ACCEPT).
  { intros f. unfold jdecode. destruct ((n =? 17) || (n =? 33)); [|discriminate]. now intros [= <-]. }
  assert (Hd : forall ty, 12 <= n -> ty <> FT_JOIN_ACCEPT ->
    ((exists f, ddecode ty buf n = Some f /\ dn_type f <> FT_JOIN_ACCEPT /\ 12 + dn_optsLen f > n) <->
     (8 + nth 5 buf 0 mod 16 > n /\ (n = 12 \/ nth 8 buf 0 <> 0)))).
  { intros ty H12 Hty. unfold ddecode. cbn zeta. rewrite (Hnth 5) by lia.
    change (Z.to_nat 5) with 5%nat. change (Z.to_nat 8) with 8%nat.
    set (ol := nth 5 buf 0 mod 16). assert (0 <= ol < 16) by (unfold ol; lia).
    destruct (8 + ol <=? n) eqn:E1.
    - destruct ((n <? 12) || (n <? 8 + ol + 4)) eqn:E2.
      { split; [intros (f & ? & _); discriminate | lia]. }
      split; [|lia]. intros (f & Hf & Ht & Hg).
      destruct ((4 <? n - (8 + ol)) && (0 <? ol) && (rd buf (8 + ol) 1 =? 0)); [discriminate|].
      injection Hf as <-. unfold dframe in Hg. cbn [dn_optsLen] in Hg. cbn zeta in Hg. rewrite (Hnth 5) in Hg by lia.
      change (Z.to_nat 5) with 5%nat in Hg. fold ol in Hg. lia.
    - replace ((n <? 12) || (n <? 8 + 4)) with false by lia.
      rewrite (Hnth 8) by lia. change (Z.to_nat 8) with 8%nat.
      destruct ((4 <? n - 8) && (0 <? ol) && (nth 8 buf 0 =? 0)) eqn:E2.
      + split; [intros (f & ? & _); discriminate|]. intros [_ H8]. lia.
      + split.
        * intros (f & Hf & Ht & Hg). split; [lia|].
          destruct (nth 8 buf 0 =? 0) eqn:E3; lia.
        * intros _. eexists. split; [reflexivity|]. unfold dframe. cbn [dn_optsLen dn_type]. cbn zeta. split; [auto|].
          rewrite (Hnth 5) by lia. change (Z.to_nat 5) with 5%nat. fold ol. lia. }
  destruct (n <? 1) eqn:En.
  { split; [intros (f & ? & _); discriminate | lia]. }
  cbn zeta. rewrite (Hnth 0) by lia. change (Z.to_nat 0) with 0%nat.
  set (t := nth 0 buf 0) in *.
  assert (Hlt : n < 12 -> forall ty, ddecode ty buf n = None).
  { intros Hl ty. unfold ddecode. replace (n <? 12) with true by lia. reflexivity. }
  destruct (t =? mhdr JoinAccept) eqn:E1.
  { apply Z.eqb_eq in E1. split.
    - intros (f & Hf & Ht & _). now apply Hj in Hf.
    - intros (_ & [Ht|Ht] & _); rewrite E1 in Ht; discriminate. }
  destruct (t =? mhdr UnconfirmedDown) eqn:E2.
  { apply Z.eqb_eq in E2. destruct (Z.le_gt_cases 12 n).
    - rewrite Hd by (auto; discriminate). intuition auto.
    - rewrite Hlt by lia. split; [intros (f & ? & _); discriminate | lia]. }
  destruct (t =? mhdr ConfirmedDown) eqn:E3.
  { apply Z.eqb_eq in E3. destruct (Z.le_gt_cases 12 n).
    - rewrite Hd by (auto; discriminate). intuition auto.
    - rewrite Hlt by lia. split; [intros (f & ? & _); discriminate | lia]. }
  apply Z.eqb_neq in E2, E3. split; [intros (f & ? & _); discriminate|]. intuition auto.
Qed.

(* --- join accept ------------------------------------------------------------------- *)

Lemma dlsettings h : 0 <= h < 256 ->
  h = 128 * b2z (negb (Z.land h 0x80 =? 0)) + 16 * Z.land (Z.shiftr h 4) 7 + Z.land h 0xf /\
  0 <= Z.land (Z.shiftr h 4) 7 < 8 /\ 0 <= Z.land h 0xf < 16.
Proof.
  intros H. rewrite land7, land15. split; [|lia].
  rewrite <- land7, <- land15. apply Z.eqb_eq. revert h H.
  exact (forallb_Z_lt (fun h => h =? 128 * b2z (negb (Z.land h 0x80 =? 0)) + 16 * Z.land (Z.shiftr h 4) 7 + Z.land h 0xf)
     256 ltac:(vm_compute; reflexivity)).
Qed.

Lemma accept_len j : accept_wf j -> length (accept_bytes j) = match j_cfList j with Some _ => 33 | None => 17 end%nat.
Proof.
  intros (_ & _ & _ & _ & _ & _ & H & _). unfold accept_bytes. rewrite !app_length, !le_length.
  destruct (j_cfList j); [destruct H as [H _]; rewrite H|]; reflexivity.
Qed.

Lemma join_sound v buf n f : ok_len buf n -> Frame_decode v buf n = Some f ->
  dn_type f = FT_JOIN_ACCEPT ->
  exists j, accept_wf j /\ accept_bytes j = firstn (Z.to_nat n) buf /\ reports_accept buf f j.
Proof.
  intros Hok Hd Ht. rewrite (proj2 (decode_eq v buf n Hok)) in Hd. unfold decode_closed in Hd.
  destruct (n <? 1) eqn:En; [discriminate|]. cbn zeta in Hd.
  assert (Hdd : forall ty, ty <> FT_JOIN_ACCEPT -> ddecode ty buf n = Some f -> False).
  { intros ty Hty H. unfold ddecode in H. cbn zeta in H.
    repeat match type of H with (if ?b then _ else _) = _ => destruct b; try discriminate end;
    injection H as <-; cbn in Ht; contradiction. }
  destruct (rd buf 0 1 =? mhdr JoinAccept) eqn:E1.
  2:{ destruct (rd buf 0 1 =? mhdr UnconfirmedDown); [exfalso; eapply (Hdd FT_UNCONF_DOWN); eauto; discriminate|].
      destruct (rd buf 0 1 =? mhdr ConfirmedDown); [exfalso; eapply (Hdd FT_CONF_DOWN); eauto; discriminate|discriminate]. }
  clear Hdd. apply Z.eqb_eq in E1. unfold jdecode in Hd.
  destruct ((n =? 17) || (n =? 33)) eqn:E2; [|discriminate]. injection Hd as <-.
  unfold jframe. cbn zeta.
  pose proof (rd_byte buf n 11 Hok) as Hdl. destruct (dlsettings _ Hdl) as (Hdl1 & Hdl2 & Hdl3).
  set (dl := rd buf 11 1) in *.
  exists (JoinAcceptMsg (rd buf 1 3) (rd buf 4 3) (rd buf 7 4) (negb (Z.land dl 0x80 =? 0))
     (Z.land (Z.shiftr dl 4) 7) (Z.land dl 0xf) (rd buf 12 1)
     (if n =? 33 then Some (at_ buf 13 16) else None) (rd buf (n - 4) 4)).
  split; [|split].
  - unfold accept_wf. cbn [j_joinNonce j_netID j_devAddr j_rx1DROffset j_rx2DataRate j_rxDelay j_cfList j_mic].
    pose proof (rd_range buf n 1 3 Hok). pose proof (rd_range buf n 4 3 Hok).
    pose proof (rd_range buf n 7 4 Hok). pose proof (rd_range buf n (n-4) 4 Hok).
    pose proof (rd_byte buf n 12 Hok). repeat split; auto; try tauto; try lia.
    destruct (n =? 33) eqn:E; auto. split.
    + now rewrite (at_length buf n) by (auto; lia).
    + exact (at_ok buf n 13 16 Hok).
  - unfold accept_bytes. cbn [j_joinNonce j_netID j_devAddr j_optNeg j_rx1DROffset j_rx2DataRate j_rxDelay j_cfList j_mic].
    rewrite <- Hdl1. unfold dl. rewrite <- E1, <- !(at_le1 buf n) by (auto; lia).
    rewrite <- !(at_le4 buf n), <- !(at_le3 buf n) by (auto; lia).
    change (firstn (Z.to_nat n) buf) with (at_ buf 0 n).
    transitivity (at_ buf 0 (1 + (3 + (3 + (4 + (1 + (1 + ((n - 17) + 4)))))))); [|f_equal; lia].
    rewrite !at_split by lia. do 6 f_equal.
    replace (0 + 1 + 3 + 3 + 4 + 1 + 1) with 13 by lia. replace (13 + (n - 17)) with (n - 4) by lia. f_equal.
    destruct (n =? 33) eqn:E.
    + replace (n - 17) with 16 by lia. reflexivity.
    + replace (n - 17) with 0 by lia. reflexivity.
  - unfold reports_accept. cbn. repeat split; auto. destruct (n =? 33); auto.
Qed.

Lemma join_complete v j rest : accept_wf j -> bytes_ok rest ->
  exists f, Frame_decode v (accept_bytes j ++ rest) (Z.of_nat (length (accept_bytes j))) = Some f /\
    reports_accept (accept_bytes j ++ rest) f j.
Proof.
  intros Hwf Hr. set (buf := accept_bytes j ++ rest). set (n := Z.of_nat (length (accept_bytes j))).
  pose proof (accept_len j Hwf) as Hlen.
  pose proof Hwf as (H1 & H2 & H3 & H4 & H5 & H6 & H7 & H8).
  set (cf := match j_cfList j with Some l => l | None => [] end).
  set (dls := 128 * b2z (j_optNeg j) + 16 * j_rx1DROffset j + j_rx2DataRate j).
  assert (Hdls : 0 <= dls < 256) by (pose proof (b2z_range (j_optNeg j)); unfold dls; lia).
  assert (Hcf : length cf = match j_cfList j with Some _ => 16 | None => 0 end%nat).
  { unfold cf. destruct (j_cfList j); [destruct H7|]; auto. }
  assert (Hn : n = 17 + Z.of_nat (length cf)).
  { unfold n. rewrite Hlen, Hcf. destruct (j_cfList j); reflexivity. }
  assert (Hbuf : buf = [mhdr JoinAccept] ++ le 3 (j_joinNonce j) ++ le 3 (j_netID j) ++ le 4 (j_devAddr j)
     ++ [dls] ++ [j_rxDelay j] ++ cf ++ le 4 (j_mic j) ++ rest).
  { unfold buf, accept_bytes. fold cf. rewrite <- !app_assoc. reflexivity. }
  assert (Hok : ok_len buf n).
  { unfold ok_len. split; [|split].
    - rewrite Hbuf. repeat (apply bytes_ok_app; split); auto using le_ok;
        try (constructor; [unfold byte_ok; cbn; lia | constructor]).
      unfold cf. destruct (j_cfList j); [apply H7 | constructor].
    - rewrite Hn, Hcf. destruct (j_cfList j); lia.
    - unfold buf, n. rewrite app_length. lia. }
  rewrite (proj2 (decode_eq v buf n Hok)). unfold decode_closed.
  assert (R0 : rd buf 0 1 = mhdr JoinAccept) by (eapply rd_mid1 with (a := []); [exact Hbuf | reflexivity]).
  replace (n <? 1) with false by lia. cbn zeta. rewrite R0. rewrite Z.eqb_refl.
  unfold jdecode. replace ((n =? 17) || (n =? 33)) with true by (rewrite Hn, Hcf; destruct (j_cfList j); reflexivity).
  eexists. split; [reflexivity|].
  assert (R1 : rd buf 1 3 = j_joinNonce j).
  { eapply rd_mid with (a := [mhdr JoinAccept]) (n := 3%nat); [exact Hbuf | reflexivity | reflexivity | exact H1]. }
  assert (R4 : rd buf 4 3 = j_netID j).
  { eapply rd_mid with (a := [mhdr JoinAccept] ++ le 3 (j_joinNonce j)) (n := 3%nat);
      [rewrite Hbuf, <- !app_assoc; reflexivity | rewrite !app_length, !le_length; reflexivity | reflexivity | exact H2]. }
  assert (R7 : rd buf 7 4 = j_devAddr j).
  { eapply rd_mid with (a := [mhdr JoinAccept] ++ le 3 (j_joinNonce j) ++ le 3 (j_netID j)) (n := 4%nat);
      [rewrite Hbuf, <- !app_assoc; reflexivity | rewrite !app_length, !le_length; reflexivity | reflexivity | exact H3]. }
  assert (R11 : rd buf 11 1 = dls).
  { eapply rd_mid1 with (a := [mhdr JoinAccept] ++ le 3 (j_joinNonce j) ++ le 3 (j_netID j) ++ le 4 (j_devAddr j));
      [rewrite Hbuf, <- !app_assoc; reflexivity | rewrite !app_length, !le_length; reflexivity]. }
  assert (R12 : rd buf 12 1 = j_rxDelay j).
  { eapply rd_mid1 with (a := [mhdr JoinAccept] ++ le 3 (j_joinNonce j) ++ le 3 (j_netID j) ++ le 4 (j_devAddr j) ++ [dls]);
      [rewrite Hbuf, <- !app_assoc; reflexivity | rewrite !app_length, !le_length; reflexivity]. }
  assert (R13 : at_ buf 13 (Z.of_nat (length cf)) = cf).
  { eapply at_mid' with (a := [mhdr JoinAccept] ++ le 3 (j_joinNonce j) ++ le 3 (j_netID j) ++ le 4 (j_devAddr j) ++ [dls] ++ [j_rxDelay j]);
      [rewrite Hbuf, <- !app_assoc; reflexivity | rewrite !app_length, !le_length; reflexivity | reflexivity]. }
  assert (Rm : rd buf (n - 4) 4 = j_mic j).
  { eapply rd_mid with (a := [mhdr JoinAccept] ++ le 3 (j_joinNonce j) ++ le 3 (j_netID j) ++ le 4 (j_devAddr j) ++ [dls] ++ [j_rxDelay j] ++ cf) (n := 4%nat);
      [rewrite Hbuf, <- !app_assoc; reflexivity | rewrite Hn, !app_length, !le_length; cbn [length]; lia | reflexivity | exact H8]. }
  unfold reports_accept, jframe. cbn zeta. rewrite R1, R4, R7, R11, R12, Rm.
  cbn [dn_type dn_joinNonce dn_netID dn_devAddr dn_optNeg dn_rx1DROffset dn_rx2DataRate dn_rxDelay dn_mic dn_cfList dn_cfListLen].
  destruct (dlsettings dls Hdls) as (D1 & D2 & D3).
  pose proof (b2z_range (j_optNeg j)). pose proof (b2z_range (negb (Z.land dls 0x80 =? 0))).
  repeat split; auto.
  - apply b2z_inj. unfold dls in D1 at 1. lia.
  - unfold dls in D1 at 1. lia.
  - unfold dls in D1 at 1. lia.
  - unfold cf in *. destruct (j_cfList j) as [l|].
    + destruct H7 as [H7 _]. rewrite H7 in *. replace (n =? 33) with true by lia.
      repeat split; auto.
    + cbn [length] in *. replace (n =? 33) with false by lia. auto.
Qed.

Lemma join_len v buf n : ok_len buf n -> 1 <= n -> nth 0 buf 0 = mhdr JoinAccept ->
  ((exists f, Frame_decode v buf n = Some f) <-> n = 17 \/ n = 33).
Proof.
  intros Hok Hn Ht. rewrite (proj2 (decode_eq v buf n Hok)). unfold decode_closed.
  replace (n <? 1) with false by lia. cbn zeta.
  assert (Hr : rd buf 0 1 = mhdr JoinAccept).
  { unfold rd. rewrite <- rd1; [|now rewrite (at_length buf n) by (auto; lia)].
    rewrite nth_at by (auto; cbn; lia). exact Ht. }
  rewrite Hr, Z.eqb_refl. unfold jdecode.
  destruct ((n =? 17) || (n =? 33)) eqn:E; split; try lia; try (intros [? ?]; discriminate).
  intros _. eexists. reflexivity.
Qed.

(* --- the frame grammar is unambiguous ---------------------------------------------- *)

Lemma app_inj_len {A} (a b c d : list A) : length a = length c -> a ++ b = c ++ d -> a = c /\ b = d.
Proof.
  revert c; induction a as [|x a IH]; intros [|y c]; cbn; intros Hl H; try discriminate; auto.
  injection H as -> H. destruct (IH c ltac:(lia) H) as [-> ->]. auto.
Qed.

Lemma le_inj n a b : 0 <= a < 256 ^ Z.of_nat n -> 0 <= b < 256 ^ Z.of_nat n -> le n a = le n b -> a = b.
Proof. intros Ha Hb H. rewrite <- (le_val_le n a Ha), <- (le_val_le n b Hb). now rewrite H. Qed.

Lemma mhdr_inj t u : mhdr t = mhdr u -> t = u.
Proof. destruct t, u; cbn; congruence. Qed.

Lemma data_bytes_inj m1 m2 : data_wf m1 -> data_wf m2 -> data_bytes m1 = data_bytes m2 -> m1 = m2.
Proof.
  intros (A1 & A2 & A3 & A4 & A5 & A6) (B1 & B2 & B3 & B4 & B5 & B6) H.
  assert (HL : length (data_bytes m1) = length (data_bytes m2)) by now rewrite H.
  rewrite !data_bytes_length in HL.
  unfold data_bytes in H. unfold payload_bytes in HL.
  apply app_inj_len in H as [H0 H]; [|reflexivity].
  apply app_inj_len in H as [H1 H]; [|now rewrite !le_length].
  apply app_inj_len in H as [H2 H]; [|reflexivity].
  apply app_inj_len in H as [H3 H]; [|now rewrite !le_length].
  injection H0 as H0. apply mhdr_inj in H0. injection H2 as H2.
  apply le_inj in H1; [|exact A1|exact B1]. apply le_inj in H3; [|exact A2|exact B2].
  destruct (fctrl_unique (d_adr m1) (d_adrAckReq m1) (d_ack m1) (d_bit4 m1) (Z.of_nat (length (d_fopts m1))) (fctrl_byte m1)
     ltac:(lia) eq_refl) as (_ & C7 & C6 & C5 & C4 & Co).
  destruct (fctrl_unique (d_adr m2) (d_adrAckReq m2) (d_ack m2) (d_bit4 m2) (Z.of_nat (length (d_fopts m2))) (fctrl_byte m2)
     ltac:(lia) eq_refl) as (_ & D7 & D6 & D5 & D4 & Do).
  rewrite H2 in C7, C6, C5, C4, Co. rewrite Do in Co.
  assert (HO : length (d_fopts m1) = length (d_fopts m2)) by lia.
  apply app_inj_len in H as [H5 H]; [|exact HO].
  apply app_inj_len in H as [H6 H]; [|rewrite HO in HL; exact (proj1 (Nat.add_cancel_l _ _ _) HL)].
  apply le_inj in H; [|exact A3|exact B3].
  assert (d_payload m1 = d_payload m2).
  { destruct (d_payload m1) as [[]|], (d_payload m2) as [[]|]; congruence. }
  destruct m1, m2; cbn in *. congruence.
Qed.

(* what the encoder sends determines the request *)
Lemma putData_inj f g out1 out2 max1 max2 :
  fd_wf f -> fd_wf g ->
  0 <= max1 < 256 -> max1 <= Z.of_nat (length out1) ->
  0 <= max2 < 256 -> max2 <= Z.of_nat (length out2) ->
  pr_len (Frame_putData f out1 max1) <> 0 ->
  firstn (Z.to_nat (pr_len (Frame_putData f out1 max1))) (st_buf (pr_stream (Frame_putData f out1 max1))) =
  firstn (Z.to_nat (pr_len (Frame_putData g out2 max2))) (st_buf (pr_stream (Frame_putData g out2 max2))) ->
  msg_of f = msg_of g.
Proof.
  intros Hf Hg H1 H2 H3 H4 Hnz H.
  destruct (putData_layout f out1 max1 Hf H1 H2) as [_ Ha].
  destruct (putData_layout g out2 max2 Hg H3 H4) as [_ Hb].
  destruct (Z.of_nat (length (data_bytes (msg_of f))) <=? max1); [|lia].
  destruct Ha as [Ha1 Ha2]. rewrite Ha1, Ha2, Nat2Z.id in H.
  rewrite firstn_app, Nat.sub_diag, firstn_all, app_nil_r in H.
  destruct (Z.of_nat (length (data_bytes (msg_of g))) <=? max2).
  - destruct Hb as [Hb1 Hb2]. rewrite Hb1, Hb2, Nat2Z.id in H.
    rewrite firstn_app, Nat.sub_diag, firstn_all, app_nil_r in H.
    now apply data_bytes_inj.
  - destruct Hb as [Hb1 _]. rewrite Hb1 in H. cbn [Z.to_nat firstn] in H.
    apply (f_equal (@length Z)) in H. rewrite data_bytes_length in H. cbn in H. lia.
Qed.

Lemma join_mhdr v buf n f : ok_len buf n -> Frame_decode v buf n = Some f ->
  (dn_type f = FT_JOIN_ACCEPT <-> nth 0 buf 0 = mhdr JoinAccept).
Proof.
  intros Hok. rewrite (proj2 (decode_eq v buf n Hok)). unfold decode_closed.
  destruct (n <? 1) eqn:En; [discriminate|]. cbn zeta.
  assert (Hr : rd buf 0 1 = nth 0 buf 0).
  { unfold rd. rewrite <- rd1; [|now rewrite (at_length buf n) by (auto; lia)].
    now rewrite nth_at by (auto; cbn; lia). }
  rewrite Hr. clear Hr.
  assert (Hd : forall ty, ddecode ty buf n = Some f -> dn_type f = ty).
  { intros ty H. unfold ddecode in H. cbn zeta in H.
    repeat match type of H with (if ?b then _ else _) = _ => destruct b; try discriminate end;
    injection H as <-; reflexivity. }
  destruct (nth 0 buf 0 =? mhdr JoinAccept) eqn:E.
  - apply Z.eqb_eq in E. unfold jdecode. destruct ((n =? 17) || (n =? 33)); [|discriminate].
    intros [= <-]. split; auto.
  - apply Z.eqb_neq in E.
    destruct (nth 0 buf 0 =? mhdr UnconfirmedDown); [|destruct (nth 0 buf 0 =? mhdr ConfirmedDown); [|discriminate]];
      intros H; apply Hd in H; rewrite H; (split; [discriminate | contradiction]).
Qed.
