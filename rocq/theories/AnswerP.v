(* The staging buffer for MAC answers. *)
From Verif Require Import Lib StreamM FrameM CommandsM MacStateM MacUtilM MacApiM SpecFrame SpecCmd SpecAnswer FrameP.

Lemma waiting_pending x t : commandIsPending x t = waiting x t.
Proof.
  unfold commandIsPending, waiting. assert (0 <= cmd_bit t) by (destruct t; cbn; lia).
  destruct (Z.testbit (s_pending x) (cmd_bit t)) eqn:E.
  - assert (Hb : Z.testbit (Z.land (s_pending x) (2 ^ cmd_bit t)) (cmd_bit t) = true).
    { now rewrite Z.land_spec, E, Z.pow2_bits_true. }
    assert (0 <= Z.land (s_pending x) (2 ^ cmd_bit t)) by (apply Z.land_nonneg; right; apply Z.pow_nonneg; lia).
    destruct (Z.land (s_pending x) (2 ^ cmd_bit t)); [rewrite Z.bits_0 in Hb; discriminate | reflexivity | lia].
  - assert (Z.land (s_pending x) (2 ^ cmd_bit t) = 0) as ->; [|reflexivity].
    apply Z.bits_inj'. intros n Hn. rewrite Z.land_spec, Z.bits_0, Z.pow2_bits_eqb by lia.
    destruct (cmd_bit t =? n) eqn:En; [|apply andb_false_r].
    apply Z.eqb_eq in En. subst n. now rewrite E.
Qed.

Lemma writes_app s a b : writes s (a ++ b) = writes (writes s a) b.
Proof. unfold writes. apply fold_left_app. Qed.

Definition w1 (b : bool) (l : list bytes) : list bytes := if b then l else [].

Lemma put_if_writes b f l s : (forall s, f s = writes s l) -> put_if b f s = writes s (w1 b l).
Proof. intros H. unfold put_if, w1. destruct b; [apply H | reflexivity]. Qed.

Lemma concat_w1 b l : concat (w1 b l) = one b (concat l).
Proof. destruct b; reflexivity. Qed.

Definition pieces (c : cfg) (x : session) (o : data_opts) : list bytes :=
  let v := c_l2 c in
  let p := commandIsPending x in
  let g t := u8 (typeToTag v t) in
  w1 (is_1_1 v && p CMD_REKEY) [[g CMD_REKEY]; [u8 (s_version x)]] ++
  w1 (p CMD_RX_PARAM_SETUP) [[g CMD_RX_PARAM_SETUP]; [u8 (Z.lor (Z.lor (bit (rp_offset (s_rxp_ans x)) 4) (bit (rp_rate (s_rxp_ans x)) 2)) (bit (rp_channel (s_rxp_ans x)) 1))]] ++
  w1 (p CMD_DL_CHANNEL) [[g CMD_DL_CHANNEL]; [u8 (Z.lor (bit (dc_uplink (s_dlc_ans x)) 2) (bit (dc_freq (s_dlc_ans x)) 1))]] ++
  w1 (p CMD_RX_TIMING_SETUP) [[g CMD_RX_TIMING_SETUP]] ++
  w1 (p CMD_LINK_ADR) [[g CMD_LINK_ADR]; [u8 (Z.lor (Z.lor (bit (la_power (s_adr_ans x)) 4) (bit (la_rate (s_adr_ans x)) 2)) (bit (la_mask (s_adr_ans x)) 1))]] ++
  w1 (p CMD_DEV_STATUS) [[g CMD_DEV_STATUS]; [u8 (ds_battery (s_dev_ans x))]; [u8 (Z.land (u8 (ds_margin (s_dev_ans x))) 0x3f)]] ++
  w1 (p CMD_NEW_CHANNEL) [[g CMD_NEW_CHANNEL]; [u8 (Z.lor (bit (nc_rate (s_nch_ans x)) 2) (bit (nc_freq (s_nch_ans x)) 1))]] ++
  w1 (is_1_1 v && p CMD_REJOIN_PARAM_SETUP) [[g CMD_REJOIN_PARAM_SETUP]; [u8 (bit (s_rjp_ans x) 1)]] ++
  w1 (is_1_1 v && p CMD_ADR_PARAM_SETUP) [[g CMD_ADR_PARAM_SETUP]] ++
  w1 (c_txps c && p CMD_TX_PARAM_SETUP) [[g CMD_TX_PARAM_SETUP]] ++
  w1 (p CMD_DUTY_CYCLE) [[g CMD_DUTY_CYCLE]] ++
  w1 (do_check o) [[g CMD_LINK_CHECK]] ++
  w1 (do_getTime o) [[g CMD_DEVICE_TIME]].

Lemma put_step b f l s s' : s = s' -> (forall s, f s = writes s l) -> put_if b f s = writes s' (w1 b l).
Proof. intros -> H. unfold put_if, w1. destruct b; [apply H | reflexivity]. Qed.

Lemma mac_commands_writes c x o :
  mac_commands c x o = writes (Stream_init (fill 0 30) 30) (pieces c x o).
Proof.
  unfold mac_commands, pieces. cbn zeta. rewrite !writes_app.
  repeat (apply put_step; [|intros; reflexivity]). reflexivity.
Qed.

Lemma pieces_spec c x o : concat (pieces c x o) = uplink_commands (c_l2 c) (c_txps c) x o.
Proof.
  unfold pieces, uplink_commands. cbn zeta. rewrite !concat_app, !concat_w1.
  rewrite !waiting_pending. cbn [concat app].
  assert (Hf3 : forall a b d, u8 (Z.lor (Z.lor (bit a 4) (bit b 2)) (bit d 1)) = flags3 a b d)
    by (intros [] [] []; reflexivity).
  assert (Hf2 : forall b d, u8 (Z.lor (bit b 2) (bit d 1)) = flags3 false b d)
    by (intros [] []; reflexivity).
  assert (Hf1 : forall b, u8 (bit b 1) = b2z b) by (intros []; reflexivity).
  rewrite !Hf3, !Hf2, Hf1.
  assert (Hm : u8 (Z.land (u8 (ds_margin (s_dev_ans x))) 63) = ds_margin (s_dev_ans x) mod 64).
  { change 63 with (Z.ones 6). rewrite Z.land_ones by lia. unfold u8. change (2 ^ 6) with 64. lia. }
  rewrite Hm. unfold u8.
  destruct (c_l2 c); reflexivity.
Qed.

Lemma one_len b l : (length (one b l) <= length l)%nat.
Proof. destruct b; cbn; lia. Qed.

Lemma uplink_commands_len v t x o : (length (uplink_commands v t x o) <= if is_1_1 v then 21 else 16)%nat.
Proof.
  unfold uplink_commands. cbn zeta. rewrite !app_length.
  assert (H0 : forall l, length (one false l) = 0%nat) by reflexivity.
  destruct (is_1_1 v); cbn [andb]; rewrite ?H0; clear H0;
  repeat match goal with |- context [length (one ?b ?l)] =>
    let H := fresh in pose proof (one_len b l) as H; cbn [length] in H; 
    generalize dependent (length (one b l)); intros end; cbn; lia.
Qed.

Lemma mac_commands_spec c x o :
  st_oob (mac_commands c x o) = false /\ st_err (mac_commands c x o) = false /\
  mac_bytes (mac_commands c x o) = uplink_commands (c_l2 c) (c_txps c) x o /\
  (length (mac_bytes (mac_commands c x o)) <= if is_1_1 (c_l2 c) then 21 else 16)%nat.
Proof.
  rewrite mac_commands_writes.
  pose proof (writes_init (pieces c x o) (fill 0 30) 30 ltac:(lia) ltac:(rewrite fill_length; lia)) as H.
  cbn zeta in H. rewrite pieces_spec in H.
  pose proof (uplink_commands_len (c_l2 c) (c_txps c) x o) as Hl.
  destruct H as [H1 H2].
  replace (Z.of_nat (length (uplink_commands (c_l2 c) (c_txps c) x o)) <=? 30) with true in H2
    by (destruct (is_1_1 (c_l2 c)); lia).
  destruct H2 as (H2 & H3 & H4).
  assert (Hb : mac_bytes (writes (Stream_init (fill 0 30) 30) (pieces c x o)) = uplink_commands (c_l2 c) (c_txps c) x o).
  { unfold mac_bytes, Stream_tell. rewrite H3, H4, Nat2Z.id. apply slice_app_l. reflexivity. }
  rewrite Hb. auto.
Qed.

(* FOpts never exceeds 15 bytes *)
Lemma compose_opts confirmed port data maxp macs f f' op st :
  compose confirmed port data maxp macs f = (f', op, st) -> fd_opts f = [] ->
  (length (fd_opts f') <= 15)%nat.
Proof.
  unfold compose. intros H Hf.
  destruct (Z.of_nat (length macs) >? 15) eqn:E.
  - injection H as <- <- <-. cbn. lia.
  - destruct (_ >? maxp); injection H as <- <- <-; cbn; lia.
Qed.
