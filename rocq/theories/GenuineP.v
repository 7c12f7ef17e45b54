(* Frames that are not genuine are ignored. *)
From Verif Require Import Lib StreamM FrameM CommandsM RegionM RadioM SmM MacStateM MacTac MacUtilM OpsM MacCmdM MacProcM MacApiM MacRw CoreP CaseP RxP SpecFrame SpecDecode SpecAes SpecSm SpecHist SpecRx FrameP FrameDecP FrameRtP SmP HistP EndP TxP UplinkP ReadyP JoinP DataP AcceptP.

(* --- the buffer and the bytes heard --- *)

Lemma slice_app_low (a b : bytes) p k : (p + k <= length a)%nat -> slice (a ++ b) p k = slice a p k.
Proof. intros H. unfold slice. rewrite skipn_app, firstn_app, skipn_length. replace (k - (length a - p))%nat with 0%nat by lia. now rewrite firstn_O, app_nil_r. Qed.

Lemma buffer_heard e : exists z, rx_buffer e = heard e ++ z.
Proof. unfold rx_buffer, heard. rewrite firstn_app. eauto. Qed.
Lemma heard_len e : rx_len e = Z.of_nat (length (heard e)) /\ (length (heard e) <= 255)%nat.
Proof. split; [reflexivity|]. unfold heard. apply firstn_le_length. Qed.
Lemma heard_slice e p k : (p + k <= length (heard e))%nat -> slice (rx_buffer e) p k = slice (heard e) p k.
Proof. intros H. destruct (buffer_heard e) as (z & ->). now apply slice_app_low. Qed.
Lemma heard_nth e i : (i < length (heard e))%nat -> nth i (rx_buffer e) 0 = nth i (heard e) 0.
Proof. intros H. destruct (buffer_heard e) as (z & ->). now apply app_nth1. Qed.
Lemma heard_ok e : bytes_ok (e_rx e) -> ok_len (rx_buffer e) (rx_len e).
Proof.
  intros H. unfold ok_len. destruct (heard_len e) as [-> L]. rewrite rx_buffer_length. split; [now apply rx_buffer_ok|]. lia.
Qed.
Lemma heard_bytes e : bytes_ok (e_rx e) -> bytes_ok (heard e).
Proof. intros H. unfold heard. unfold bytes_ok in *. rewrite <- (firstn_skipn 255 (e_rx e)) in H. apply Forall_app in H. apply H. Qed.

Lemma rd_heard e p k : 0 <= p -> 0 <= k -> p + k <= rx_len e -> rd (rx_buffer e) p k = le_val (slice (heard e) (Z.to_nat p) (Z.to_nat k)).
Proof. intros HP HK H. unfold rd, at_. rewrite heard_slice; [reflexivity|]. destruct (heard_len e). lia. Qed.
Lemma rd1_heard e p : 0 <= p < rx_len e -> rd (rx_buffer e) p 1 = nth (Z.to_nat p) (heard e) 0.
Proof.
  intros H. rewrite rd_heard by lia. destruct (heard_len e) as [L _]. unfold slice.
  assert (length (firstn (Z.to_nat p) (heard e)) = Z.to_nat p) as L1 by (rewrite firstn_length; lia).
  assert (1 <= length (skipn (Z.to_nat p) (heard e)))%nat as L2 by (rewrite skipn_length; lia).
  assert (nth (Z.to_nat p) (heard e) 0 = nth 0 (skipn (Z.to_nat p) (heard e)) 0) as ->.
  { pose proof (f_equal (fun l => nth (Z.to_nat p) l 0) (firstn_skipn (Z.to_nat p) (heard e))) as Q. cbv beta in Q.
    rewrite app_nth2 in Q by (rewrite L1; lia). rewrite <- Q. f_equal. rewrite L1. apply Nat.sub_diag. }
  destruct (skipn (Z.to_nat p) (heard e)) as [|x l]; [cbn in L2; lia|]. change (Z.to_nat 1) with 1%nat. cbn [firstn nth le_val fold_right]. lia.
Qed.

(* --- data --- *)

Lemma derive_mod c s p n : 0 <= n < 65536 -> let d := deriveDownCounter c s p n in 0 <= d < 2 ^ 32 /\ d mod 2 ^ 16 = n.
Proof.
  intros H. cbv zeta. unfold deriveDownCounter. cbv zeta. set (hi := if _ && _ then _ else _). clearbody hi.
  rewrite Z.shiftl_mul_pow2 by lia. unfold u32. change (2 ^ 16) with 65536. change (2 ^ 32) with 4294967296. destruct (_ <? _); lia.
Qed.

Lemma ack_bit h : 0 <= h < 256 -> has_bit h 0x20 = Z.testbit h 5.
Proof.
  intros H. assert (forallb (fun x => Bool.eqb (has_bit x 0x20) (Z.testbit x 5)) (map Z.of_nat (seq 0 256)) = true) as G by (vm_compute; reflexivity).
  apply Bool.eqb_prop. apply (proj1 (forallb_forall _ _) G). apply in_map_iff. exists (Z.to_nat h). split; [lia|]. apply in_seq. lia.
Qed.

Lemma data_genuine c m e buf f : bytes_ok (e_rx e) -> receiveFrame c m (rx_buffer e) (rx_len e) = (buf, Some f) -> is_rx_data f = true -> m_op m <> OP_REJOINING ->
  let n := deriveDownCounter c (m_ctx m) (dn_port f) (dn_counter f) in 0 <= n < 2 ^ 32 /\ n mod 2 ^ 16 = fcnt_down (heard e) /\ genuine_as c m (heard e) n.
Proof.
  intros HB H D NR. cbv zeta. pose proof (receiveFrame_op _ _ _ _ _ H) as O. rewrite D in O.
  pose proof (heard_ok e HB) as OK. destruct (heard_len e) as [LN L255]. revert H. unfold receiveFrame.
  rewrite (proj2 (decode_eq (c_l2 c) _ _ OK)). destruct (decode_closed (rx_buffer e) (rx_len e)) as [g|] eqn:E; [|discriminate].
  assert (dn_type g = FT_JOIN_ACCEPT \/ exists ty q, (ty = FT_UNCONF_DOWN /\ rd (rx_buffer e) 0 1 = mhdr UnconfirmedDown \/ ty = FT_CONF_DOWN /\ rd (rx_buffer e) 0 1 = mhdr ConfirmedDown) /\
     12 <= rx_len e /\ g = dframe ty (rx_buffer e) (rx_len e) q) as SH.
  { revert E. unfold decode_closed. destruct (rx_len e <? 1); [discriminate|]. cbv zeta.
    destruct (rd (rx_buffer e) 0 1 =? mhdr JoinAccept) eqn:T1.
    { unfold jdecode. destruct (_ || _); [|discriminate]. intros E. injection E as <-. left. reflexivity. }
    destruct (rd (rx_buffer e) 0 1 =? mhdr UnconfirmedDown) eqn:T2; [|destruct (rd (rx_buffer e) 0 1 =? mhdr ConfirmedDown) eqn:T3; [|discriminate]];
    unfold ddecode; cbv zeta;
    destruct ((rx_len e <? 12) || _) eqn:G; try discriminate; destruct (_ && _ && _); try discriminate;
    intros E; injection E as <-; right; eexists; eexists; (split; [|split; [|reflexivity]]); try lia.
    - left. split; [reflexivity|lia].
    - right. split; [reflexivity|lia]. }
  destruct SH as [T|(ty & q & T & N12 & EG)].
  - rewrite T. intros RJ. exfalso. revert RJ. unfold receiveJoin. cbv zeta. destruct (m_op m); try discriminate; destruct O as [O|O]; first [discriminate O|congruence].
  - intros RD. assert (receiveData c m g (rx_buffer e) (rx_len e) = (buf, Some f)) as RD'.
    { rewrite EG in RD |- *. unfold dframe in RD at 1. cbv zeta in RD. cbn [dn_type] in RD. destruct T as [[-> _]|[-> _]]; exact RD. }
    clear RD. revert RD'. unfold receiveData. destruct (m_op m) eqn:OP; try (intros X; discriminate X); [congruence| |];
    (cbv zeta; destruct (s_devAddr (m_ctx m) =? dn_devAddr g) eqn:EA; [|intros X; discriminate X];
    match goal with |- context [if ?x =? dn_mic g then _ else _] => destruct (x =? dn_mic g) eqn:EM end; [|intros X; discriminate X];
    intros X; apply (f_equal snd) in X; cbn [snd] in X; injection X as <-; unfold genuine_as, fcnt_down; cbv zeta; rewrite OP;
    assert (dn_devAddr g = rd (rx_buffer e) 1 4 /\ dn_counter g = rd (rx_buffer e) 6 2 /\ dn_mic g = rd (rx_buffer e) (rx_len e - 4) 4 /\ dn_ack g = has_bit (rd (rx_buffer e) 5 1) 0x20) as (FA & FC & FM & FK) by (rewrite EG; auto);
    rewrite rd_heard in FA by lia; rewrite rd_heard in FC by lia; rewrite rd_heard in FM by lia;
    pose proof (rd_byte (rx_buffer e) _ 5 OK) as RB; rewrite ack_bit in FK by exact RB; rewrite rd1_heard in FK by lia; rewrite rd1_heard in T by lia;
    change (Z.to_nat 0) with 0%nat in T; change (Z.to_nat 5) with 5%nat in FK; change (Z.to_nat 1) with 1%nat in FA; change (Z.to_nat 4) with 4%nat in FA, FM;
    change (Z.to_nat 6) with 6%nat in FC; change (Z.to_nat 2) with 2%nat in FC;
    assert (0 <= dn_counter g < 65536) as RC by (rewrite EG; exact (rd_range (rx_buffer e) _ 6 2 OK));
    destruct (derive_mod c (m_ctx m) (dn_port g) (dn_counter g) RC) as [D1 D2];
    split; [exact D1|]; split; [rewrite D2; exact FC|]; split; [auto|]; split; [lia|]; split; [tauto|]; split; [lia|];
    replace (length (heard e) - 4)%nat with (Z.to_nat (rx_len e - 4)) by lia; rewrite <- FM;
    rewrite Z.eqb_sym in EM; apply Z.eqb_eq in EM; rewrite EM, FK;
    assert (u8 (rx_len e - 4) = Z.of_nat (length (heard e)) - 4) as -> by (unfold u8; lia);
    rewrite initB_spec by lia; unfold block_B0; rewrite (proj1 (Z.eqb_eq _ _) EA);
    change (firstn (Z.to_nat (rx_len e - 4)) (heard e)) with (slice (heard e) 0 (Z.to_nat (rx_len e - 4)));
    rewrite <- heard_slice by lia; rewrite LN; reflexivity).
Qed.

(* --- join accepts --- *)

Lemma js_header eui dn : length eui = 8%nat ->
  let s := putU16 (putEUI (putU8 blk 0xff) eui) dn in
  slice (st_buf s) 0 (Z.to_nat (Stream_tell s)) = [0xff] ++ rev eui ++ le 2 dn.
Proof.
  intros He. cbv zeta. rewrite <- (eui_rev _ He), <- le16_le. set (l := map (fun i => nth i eui 0) [7; 6; 5; 4; 3; 2; 1; 0]%nat).
  destruct (writes_init [[u8 0xff]; l; le16 dn] (fill 0 16) 16) as [_ H]; [lia | rewrite fill_length; lia |].
  change (Z.of_nat (length (concat [[u8 0xff]; l; le16 dn])) <=? 16) with true in H. cbn iota in H.
  destruct H as (_ & H1 & H2). change (writes (Stream_init (fill 0 16) 16) [[u8 0xff]; l; le16 dn]) with (putU16 (putEUI (putU8 blk 0xff) eui) dn) in *.
  unfold Stream_tell. rewrite H1, H2. unfold slice. change (skipn 0 ?x) with x. rewrite Nat2Z.id. rewrite firstn_app, firstn_all, Nat.sub_diag, app_nil_r.
  cbn [concat]. rewrite app_nil_r. reflexivity.
Qed.

Lemma splice_first b p (d : bytes) : (p <= length b)%nat -> firstn (p + length d) (splice b p d) = firstn p b ++ d.
Proof.
  intros H. unfold splice. rewrite app_assoc.
  assert (p + length d = length (firstn p b ++ d))%nat as -> by (rewrite app_length, firstn_length; lia).
  rewrite firstn_app, firstn_all, Nat.sub_diag, app_nil_r. reflexivity.
Qed.

Lemma opened_plain c m e : in_place c -> (length (heard e) = 17 \/ length (heard e) = 33)%nat ->
  firstn (length (heard e)) (accept_plain c m (rx_buffer e) (rx_len e)) = opened c (m_sm m) (heard e).
Proof.
  intros [_ IE] LH. destruct (heard_len e) as [LN _]. pose proof (rx_buffer_length e) as LB. unfold accept_plain, opened. cbv zeta.
  assert (firstn 1 (rx_buffer e) = firstn 1 (heard e)) as F1 by (apply (heard_slice e 0 1); lia).
  assert (slice (rx_buffer e) 1 16 = slice (heard e) 1 16) as S1 by (apply heard_slice; lia).
  assert (length (c_ecb c (m_sm m) KEY_NWK (slice (heard e) 1 16)) = 16%nat) as LE by (apply IE, slice_length; lia).
  change (Frame_sizeofJoinAccept true) with 33. change (Z.to_nat (Frame_sizeofJoinAccept false)) with 17%nat.
  destruct LH as [H|H]; rewrite H.
  - replace (rx_len e =? 33) with false by lia. change (17 =? 33)%nat with false. cbn iota. rewrite app_nil_r. unfold ecb_at. rewrite S1.
    rewrite <- F1. set (E1 := c_ecb c (m_sm m) KEY_NWK (slice (heard e) 1 16)) in *. rewrite <- (splice_first (rx_buffer e) 1 E1) by lia. rewrite LE. reflexivity.
  - replace (rx_len e =? 33) with true by lia. change (33 =? 33)%nat with true. cbn iota. unfold ecb_at. rewrite S1.
    set (E1 := c_ecb c (m_sm m) KEY_NWK (slice (heard e) 1 16)) in *.
    assert (slice (splice (rx_buffer e) 1 E1) 17 16 = slice (heard e) 17 16) as S2.
    { rewrite <- (heard_slice e 17 16) by lia. unfold splice, slice. rewrite app_assoc. rewrite skipn_app, skipn_all2, LE; [|rewrite app_length, firstn_length, LE; lia].
      rewrite app_length, firstn_length, LE, LB. replace (17 - (Nat.min 1 255 + 16))%nat with 0%nat by lia. reflexivity. }
    rewrite S2. set (E2 := c_ecb c (m_sm m) KEY_NWK (slice (heard e) 17 16)).
    assert (length E2 = 16%nat) as LE2 by (apply IE, slice_length; lia).
    assert (length (splice (rx_buffer e) 1 E1) = 255%nat) as LS by (rewrite splice_length; lia).
    transitivity (firstn (17 + length E2) (splice (splice (rx_buffer e) 1 E1) 17 E2)); [now rewrite LE2|].
    rewrite splice_first by lia. rewrite app_assoc. f_equal. rewrite <- F1, <- (splice_first (rx_buffer e) 1 E1) by lia. rewrite LE. reflexivity.
Qed.

Lemma accept_genuine c m e buf f : octets c -> length (m_joinEUI m) = 8%nat -> bytes_ok (e_rx e) ->
  receiveFrame c m (rx_buffer e) (rx_len e) = (buf, Some f) -> is_rx_data f = false -> m_op m <> OP_REJOINING ->
  exists j, genuine_accept c m (heard e) j /\ reports_accept (accept_plain c m (rx_buffer e) (rx_len e)) f j.
Proof.
  intros OC EJ HB H D NR. destruct (join_received _ _ _ _ _ H D NR) as (O & T & E & LE).
  destruct (accept_plain_ok c m e OC HB) as [B L]. cbv zeta in B, L. destruct (heard_len e) as [LN L255].
  assert (ok_len (accept_plain c m (rx_buffer e) (rx_len e)) (rx_len e)) as OK by (split; [exact B|]; rewrite L; lia).
  destruct (join_sound (c_l2 c) _ (rx_len e) f OK E T) as (j & W & JB & R).
  assert (length (heard e) = 17 \/ length (heard e) = 33)%nat as LH.
  { revert E. rewrite (proj2 (decode_eq _ _ _ OK)). unfold decode_closed. destruct (_ <? 1); [discriminate|]. cbv zeta.
    set (t := rd _ 0 1). destruct (t =? mhdr JoinAccept).
    - unfold jdecode. destruct ((rx_len e =? 17) || (rx_len e =? 33)) eqn:Q; [|discriminate]. intros _. lia.
    - unfold ddecode, dframe. cbv zeta. destruct (t =? _); [|destruct (t =? _); [|discriminate]];
      destruct (_ || _); try discriminate; destruct (_ && _ && _); try discriminate; intros X; injection X as <-; discriminate T. }
  exists j. split; [|exact R]. unfold genuine_accept. split; [exact O|]. split; [exact W|]. split; [exact LH|].
  assert (opened c (m_sm m) (heard e) = accept_bytes j) as OP.
  { rewrite <- (opened_plain c m e (proj1 OC) LH), JB. f_equal. lia. }
  split; [exact OP|]. pose proof R as (_ & RN & _ & _ & RO & _ & _ & _ & RM & _).
  assert (length (accept_bytes j) = length (heard e)) as LA.
  { rewrite JB, firstn_length, L. lia. }
  split; [|rewrite <- RN; exact LE].
  rewrite <- RM. revert H. unfold receiveFrame.
  destruct (Frame_decode (c_l2 c) (rx_buffer e) (rx_len e)) as [g|] eqn:E0; [|intros X; discriminate X].
  assert (forall x, receiveData c m g (rx_buffer e) (rx_len e) <> (x, Some f)) as ND.
  { intros x. unfold receiveData. rewrite O. discriminate. }
  destruct (dn_type g) eqn:TG; try (intros X; discriminate X); try (intros X; exfalso; exact (ND _ X)).
  unfold receiveJoin. rewrite O. cbv zeta. fold (accept_plain c m (rx_buffer e) (rx_len e)).
  set (b2 := accept_plain c m (rx_buffer e) (rx_len e)) in *. rewrite E.
  destruct (match c_l2 c with L2_1_0_3 => _ | _ => _ end); [intros X; discriminate X|].
  rewrite js_header by exact EJ.
  match goal with |- context [if dn_mic f =? ?x then _ else _] => destruct (dn_mic f =? x) eqn:EM end; [|intros X; discriminate X].
  intros _. apply Z.eqb_eq in EM. rewrite EM. unfold accept_mic. cbv zeta. rewrite RO.
  assert (slice b2 0 (Z.to_nat (u8 (rx_len e - 4))) = firstn (length (accept_bytes j) - 4) (accept_bytes j)) as ->; [|reflexivity].
  unfold slice. change (skipn 0 b2) with b2. rewrite LA, JB, firstn_firstn. f_equal. unfold u8. lia.
Qed.

Lemma receive_genuine c m e buf f : octets c -> length (m_joinEUI m) = 8%nat -> bytes_ok (e_rx e) -> m_op m <> OP_REJOINING ->
  receiveFrame c m (rx_buffer e) (rx_len e) = (buf, Some f) -> genuine c m (heard e).
Proof.
  intros OC EJ HB NR H. destruct (is_rx_data f) eqn:D.
  - left. destruct (data_genuine c m e buf f HB H D NR) as (D1 & D2 & G). eexists. eauto.
  - right. destruct (accept_genuine c m e buf f OC EJ HB H D NR) as (j & G & _). eauto.
Qed.

Lemma genuine_core c m m' w : core m' = core m -> genuine c m' w -> genuine c m w.
Proof.
  intros C. apply core_fields in C. unfold same_core in C. destruct C as (E1 & E2 & _ & _ & _ & _ & E3 & E4 & E5 & _).
  unfold genuine, genuine_data, genuine_as, genuine_accept, accept_mic. rewrite E1, E2, E3, E4, E5. auto.
Qed.

(* --- nothing else depends on the bytes received --- *)

Section Hear.
  Context (c : cfg) (w : bytes) (e : env).
  Let d := hear w e.
  Lemma h_timerSet i t m : timerSet d i t m = timerSet e i t m. Proof. reflexivity. Qed.
  Lemma h_bands m : processBands d m = processBands e m. Proof. reflexivity. Qed.
  Lemma h_next m b : next_event d m b = next_event e m b. Proof. reflexivity. Qed.
  Lemma h_band m : setNextBandEvent d m = setNextBandEvent e m. Proof. reflexivity. Qed.
  Lemma h_select m : selectJoinChannelAndRate c d m = selectJoinChannelAndRate c e m. Proof. reflexivity. Qed.
  Lemma h_join n m : fillJoinBuffer c d n m = fillJoinBuffer c e n m.
  Proof.
    cbv delta [fillJoinBuffer] beta. change (e_rand d) with (e_rand e). cbv zeta.
    match goal with |- context [prepareJoinRequest ?a ?b ?c ?d ?e] => destruct (prepareJoinRequest a b c d e) as [buf len] end. apply h_select.
  Qed.
  Lemma h_missing m : downlinkMissing c d m = downlinkMissing c e m.
  Proof.
    cbv delta [downlinkMissing] beta. change (e_rand d) with (e_rand e). cbv zeta.
    match goal with |- context [adaptRate ?a ?b] => destruct (adaptRate a b) as [m1 ch] end.
    rewrite !h_join, !h_timerSet. reflexivity.
  Qed.
  Lemma h_error m : handleRadioError c d m = handleRadioError c e m.
  Proof. cbv delta [handleRadioError] beta. cbv zeta. rewrite !h_missing, !h_timerSet. reflexivity. Qed.
  Lemma h_txdone lag m : tx_done c d lag m = tx_done c e lag m.
  Proof. cbv delta [tx_done] beta. change (timerSet d) with (timerSet e). change (e_now d) with (e_now e). reflexivity. Qed.
  Lemma h_tx ev lag m : processTX c d ev lag m = processTX c e ev lag m.
  Proof. cbv delta [processTX] beta. change (e_st_tx d) with (e_st_tx e). rewrite !h_txdone, !h_error. reflexivity. Qed.
  Lemma h_rx2 ev m : processRX2Lockout c d ev m = processRX2Lockout c e ev m.
  Proof. cbv delta [processRX2Lockout] beta. rewrite h_missing. reflexivity. Qed.
  Lemma h_starttx ev m : processStartRadioForTX c d ev m = processStartRadioForTX c e ev m.
  Proof. cbv delta [processStartRadioForTX] beta. change (timerSet d) with (timerSet e). reflexivity. Qed.
  Lemma h_timeout m : rx_timeout d m = rx_timeout e m.
  Proof. cbv delta [rx_timeout] beta. change (timerSet d) with (timerSet e). reflexivity. Qed.

  (* a packet that is not accepted *)
  Definition rejected (m : mac) : mac :=
    downlinkMissing c e (set_m_rx_snr (e_snr e) (emit (OMode MODE_SLEEP) (timerClear WAITB (timerClear WAITA m)))).
  Definition deafRX (ev : sme) (m : mac) : mac :=
    match ev with
    | SME_TIMER_A => handleRadioError c e m
    | SME_INTERRUPT =>
        if e_st_rx e then rejected m
        else if e_st_timeout e then rx_timeout e m
        else handleRadioError c e m
    | _ => m
    end.

  Lemma h_packet m : (forall buf f m', core m' = core m -> receiveFrame c m' (rx_buffer d) (rx_len d) <> (buf, Some f)) -> rx_packet c d m = rejected m.
  Proof.
    intros H. unfold rx_packet, rejected. cbv zeta. change (e_snr d) with (e_snr e).
    set (m3 := set_m_rx_snr (e_snr e) (emit (OMode MODE_SLEEP) (timerClear WAITB (timerClear WAITA m)))).
    assert (core m3 = core m) as C by reflexivity. clearbody m3.
    destruct (receiveFrame c m3 (rx_buffer d) (rx_len d)) as [buf [f|]] eqn:E; [exfalso; exact (H buf f m3 C E)|]. apply h_missing.
  Qed.

  Lemma h_rx ev m : (forall buf f m', core m' = core m -> receiveFrame c m' (rx_buffer d) (rx_len d) <> (buf, Some f)) -> processRX c d ev m = deafRX ev m.
  Proof.
    intros H. cbv delta [processRX deafRX] beta. rewrite (h_packet m H), h_error, h_timeout. change (e_st_rx d) with (e_st_rx e).
    change (e_st_timeout d) with (e_st_timeout e). reflexivity.
  Qed.

  Definition deaf_dispatch (ev : sme) (lag : Z) (m : mac) : mac :=
    match m_state m with ST_RX1 | ST_RX2 => deafRX ev m | _ => dispatch c e ev lag m end.
  Lemma h_dispatch ev lag m : (forall buf f m', core m' = core m -> receiveFrame c m' (rx_buffer d) (rx_len d) <> (buf, Some f)) ->
    dispatch c d ev lag m = deaf_dispatch ev lag m.
  Proof.
    intros H. unfold deaf_dispatch, dispatch. rewrite h_starttx, h_tx, h_rx2, (h_rx ev m H). destruct (m_state m); reflexivity.
  Qed.

  Definition deaf_process (m : mac) : mac :=
    let p := processBands e m in
    let q := next_event e (fst p) (snd p) in
    setNextBandEvent e (match snd (fst q) with SME_NONE => fst (fst q) | ev => deaf_dispatch ev (snd q) (fst (fst q)) end).
  Lemma h_process m : (forall buf f m', core m' = core m -> receiveFrame c m' (rx_buffer d) (rx_len d) <> (buf, Some f)) -> MAC_process c d m = deaf_process m.
  Proof.
    intros H. unfold MAC_process, deaf_process. cbv zeta. rewrite h_bands. pose proof (processBands_quiet e m) as Q1.
    destruct (processBands e m) as [m1 rdy]. cbn [fst snd] in *. rewrite h_next. pose proof (next_event_quiet e m1 rdy) as Q2.
    destruct (next_event e m1 rdy) as [[m2 ev] lag]. cbn [fst snd] in *. rewrite h_band. f_equal.
    assert (core m2 = core m) as C by (rewrite (proj1 (proj1 Q2)); apply Q1).
    rewrite h_dispatch by (intros buf f m' C'; apply H; congruence). destruct ev; reflexivity.
  Qed.
End Hear.

Theorem ignored c r a e0 h e w w' : octets c -> arg_ok a -> bytes_ok w -> bytes_ok w' ->
  let m := run c h (MAC_init c r a e0) in
  ~ genuine c m (firstn 255 w) -> ~ genuine c m (firstn 255 w') -> step c (hear w e) C_process m = step c (hear w' e) C_process m.
Proof.
  intros OC AO B B' m G G'. pose proof (init_so c r a e0 h) as S. cbv zeta in S. fold m in S.
  destruct (ready_always c h (MAC_init c r a e0) (proj1 OC)) as [_ R]; [exact (init_so c r a e0 [])|now apply ready_init|]. fold m in R.
  destruct R as (_ & LJ & _).
  assert (forall x, bytes_ok x -> ~ genuine c m (firstn 255 x) -> forall buf f m', core m' = core m -> receiveFrame c m' (rx_buffer (hear x e)) (rx_len (hear x e)) <> (buf, Some f)) as N.
  { intros x BX GX buf f m' C E. apply GX. apply (genuine_core c m m' _ C). apply core_fields in C. unfold same_core in C. destruct C as (C1 & C2 & _).
    apply (receive_genuine c m' (hear x e) buf f OC); auto; [congruence|]. rewrite C1. now apply (so_not_rejoining _ (m_state m)). }
  cbn [step]. rewrite (h_process c w e m (N w B G)), (h_process c w' e m (N w' B' G')). reflexivity.
Qed.

Lemma init_eui c r a e0 h : octets c -> arg_ok a -> length (m_joinEUI (run c h (MAC_init c r a e0))) = 8%nat.
Proof.
  intros OC AO. destruct (ready_always c h (MAC_init c r a e0) (proj1 OC)) as [_ R]; [exact (init_so c r a e0 [])|now apply ready_init|]. apply R.
Qed.

Lemma plain_unheard lo : forallb plain lo = true -> forallb unheard lo = true.
Proof.
  intros H. apply forallb_forall. intros o Ho. apply (proj1 (forallb_forall _ _) H) in Ho. destruct o as [[]| | | |]; try discriminate; reflexivity.
Qed.

Definition kept (m m' : mac) (lo : list out) : Prop :=
  forallb unheard lo = true /\ m_sm m' = m_sm m /\ m_joinNonce m' = m_joinNonce m /\
  (backed_off (m_ctx m) (m_ctx m') \/ m_op m = OP_JOINING /\ exists n, m_ctx m' = set_s_devNonce n (m_ctx m)).

Lemma kept_core m m' x lo : core m' = core x -> m_sm x = m_sm m -> m_joinNonce x = m_joinNonce m ->
  (backed_off (m_ctx m) (m_ctx x) \/ m_op m = OP_JOINING /\ exists n, m_ctx x = set_s_devNonce n (m_ctx m)) -> forallb unheard lo = true -> kept m m' lo.
Proof.
  intros C E1 E2 E3 U. apply core_fields in C. unfold same_core in C. destruct C as (_ & _ & _ & _ & _ & _ & C3 & C4 & C5 & _).
  unfold kept. rewrite C3, C4, C5. auto.
Qed.
Lemma backed_refl s : backed_off s s. Proof. left. reflexivity. Qed.

Lemma miss_kept c e m m' lo : miss_case c e m m' -> m_log m' = m_log m ++ lo -> m_op m = OP_JOINING \/ is_data (m_op m) = true -> kept m m' lo.
Proof.
  intros HM L HO. destruct HM as [m2 D ? C S E|m2 D p C S E|m2 O ? C S E|m2 O ? C S E|D O].
  - rewrite E in L. apply same_log_tail in L. subst lo. eapply kept_core; [exact C|reflexivity|reflexivity|left; apply backed_refl|reflexivity].
  - rewrite E in L. apply app_tail in L. subst lo.
    destruct (adaptRate_fields c (next_trial m)) as (s & n & b & E1 & E2 & _). cbv zeta in E1, E2. change (m_ctx (next_trial m)) with (m_ctx m) in E2.
    eapply kept_core; [exact C| | | |].
    + subst p. rewrite E1. reflexivity.
    + subst p. rewrite E1. reflexivity.
    + left. subst p. rewrite E1. ms. unfold backed_off. tauto.
    + rewrite forallb_app. destruct (snd p), (m_op m); reflexivity.
  - rewrite E in L. apply app_tail in L. subst lo.
    destruct (fillJoin_fields c e (u16 (m_devNonce m)) (next_trial m)) as (t & buf & len & dn & E1 & _).
    eapply kept_core; [exact C| | | |reflexivity]; rewrite E1; [reflexivity|reflexivity|]. right. split; [exact O|]. exists dn. reflexivity.
  - rewrite E in L. apply app_tail in L. subst lo. eapply kept_core; [exact C|reflexivity|reflexivity|left; apply backed_refl|reflexivity].
  - destruct HO; congruence.
Qed.

Lemma act_kept c e m m' lo : act c e m C_process RVoid m' -> m_log m' = m_log m ++ lo -> so (m_op m) (m_state m) = true ->
  (forall buf f, receiveFrame c m (rx_buffer e) (rx_len e) <> (buf, Some f)) -> kept m m' lo.
Proof.
  intros HA L HS NG. remember C_process as k eqn:EK. remember RVoid as r eqn:ER. destruct HA; try discriminate EK; try discriminate ER.
  - apply same_log_tail in L. subst. eapply kept_core; [reflexivity|reflexivity|reflexivity|left; apply backed_refl|reflexivity].
  - destruct H as [C (l & E & P)]. rewrite E in L. apply app_tail in L. subst l. eapply kept_core; [exact C|reflexivity|reflexivity|left; apply backed_refl|now apply plain_unheard].
  - rewrite H2 in L. apply app_tail in L. subst lo. eapply kept_core; [exact H1|reflexivity|reflexivity|left; apply backed_refl|reflexivity].
  - rewrite H2 in L. apply app_tail in L. subst lo. eapply kept_core; [exact H0|reflexivity|reflexivity|left; apply backed_refl|reflexivity].
  - eapply miss_kept; eauto. destruct (so_rx _ _ HS) as [D|D]; [tauto|auto|auto].
  - rewrite H3 in L. apply app_tail in L. subst lo. eapply kept_core; [exact H1|reflexivity|reflexivity|left; apply backed_refl|reflexivity].
  - destruct (miss_log _ _ _ _ H1) as (l1 & E1). rewrite H4, E1, <- app_assoc in L. apply app_tail in L. subst lo.
    destruct (miss_kept c e m x l1 H1 E1 (or_introl H0)) as (A & B & C & D). eapply kept_core; [exact H2|exact B|exact C|exact D|]. now rewrite forallb_app, A.
  - exfalso. exact (NG _ _ H0).
  - exfalso. exact (NG _ _ H0).
  - exfalso. destruct H as [H|[H _]]; subst k; discriminate H.
  - exfalso. destruct k; try discriminate EK; try contradiction.
Qed.

Theorem not_genuine_kept c r a e0 h e : octets c -> arg_ok a -> bytes_ok (e_rx e) ->
  let m := run c h (MAC_init c r a e0) in
  let m' := fst (step c e C_process m) in
  ~ genuine c m (heard e) -> kept m m' (new_out m m').
Proof.
  intros OC AO HB m m' G. pose proof (init_so c r a e0 h) as S. cbv zeta in S. fold m in S. pose proof (init_eui c r a e0 h OC AO) as LJ. fold m in LJ.
  destruct (step_cases c e C_process m) as (m1 & m2 & Q1 & A & Q2 & _). fold m' in Q2.
  destruct (quiet_log _ _ Q1) as (l1 & L1 & P1). destruct (quiet_log _ _ Q2) as (l2 & L2 & P2). destruct (act_log _ _ _ _ _ _ A) as (la & LA).
  assert (so (m_op m1) (m_state m1) = true) as S1 by (eapply quiet_so; eauto).
  assert (new_out m m' = l1 ++ la ++ l2) as ->.
  { unfold new_out. rewrite L2, LA, L1, <- !app_assoc. rewrite skipn_app, skipn_all, Nat.sub_diag. reflexivity. }
  destruct Q1 as [[C1 _] _]. destruct Q2 as [[C2 _] _]. pose proof (core_fields _ _ C1) as F1. unfold same_core in F1. destruct F1 as (E1 & E2 & _ & _ & _ & _ & E3 & E4 & E5 & _).
  change (snd (step c e C_process m)) with RVoid in A.
  destruct (act_kept c e m1 m2 la A LA S1) as (U & K1 & K2 & K3).
  { intros buf f RF. apply G. apply (genuine_core c m m1 _ C1). apply (receive_genuine c m1 e buf f OC); auto; [congruence|]. now apply (so_not_rejoining _ (m_state m1)). }
  eapply kept_core; [exact C2|congruence|congruence|rewrite <- E1, <- E4; exact K3|].
  rewrite !forallb_app, U, (plain_unheard _ P1), (plain_unheard _ P2). reflexivity.
Qed.

(* acceptance of a join accept *)
Theorem accepted_genuine c r a e0 h e k : octets c -> arg_ok a -> bytes_ok (e_rx e) ->
  let m := run c h (MAC_init c r a e0) in
  let m' := fst (step c e k m) in
  join_news (new_out m m') <> [] ->
  exists j, genuine_accept c m (heard e) j /\ join_news (new_out m m') = [j_joinNonce j + 1] /\ m_joinNonce m' = j_joinNonce j + 1.
Proof.
  intros OC AO HB m m' J. pose proof (init_so c r a e0 h) as S. cbv zeta in S. fold m in S. pose proof (init_eui c r a e0 h OC AO) as LJ. fold m in LJ.
  destruct (step_cases c e k m) as (m1 & m2 & Q1 & A & Q2 & _). fold m' in Q2.
  destruct (quiet_log _ _ Q1) as (l1 & L1 & P1). destruct (quiet_log _ _ Q2) as (l2 & L2 & P2). destruct (act_log _ _ _ _ _ _ A) as (la & LA).
  assert (so (m_op m1) (m_state m1) = true) as S1 by (eapply quiet_so; eauto).
  assert (new_out m m' = l1 ++ la ++ l2) as EN.
  { unfold new_out. rewrite L2, LA, L1, <- !app_assoc. rewrite skipn_app, skipn_all, Nat.sub_diag. reflexivity. }
  rewrite EN in *. rewrite !news_app, (news_none _ (plain_no_join _ P1)), (news_none _ (plain_no_join _ P2)), app_nil_r in *. cbn [List.app] in *.
  destruct Q1 as [[C1 _] _]. destruct Q2 as [[C2 _] _]. pose proof (core_fields _ _ C1) as F1. unfold same_core in F1. destruct F1 as (E1 & E2 & _ & _ & _ & _ & E3 & E4 & E5 & _).
  destruct (act_join _ _ _ _ _ _ _ A LA S1) as [[_ B]|(_ & buf & f & RF & D & JN & s & EL)]; [exfalso; apply J, news_none, B|].
  assert (m_op m1 <> OP_REJOINING) as NR by now apply (so_not_rejoining _ (m_state m1)).
  assert (length (m_joinEUI m1) = 8%nat) as LJ1 by congruence.
  destruct (accept_genuine c m1 e buf f OC LJ1 HB RF D NR) as (j & G & R). pose proof (nonce_range _ _ _ _ _ OC HB RF D NR) as RG.
  assert (dn_joinNonce f = j_joinNonce j) as EJ by apply R. exists j.
  split. { unfold genuine_accept, accept_mic in *. rewrite E1, E2, E3, E4, E5 in G. exact G. }
  rewrite (core_jn m2 m' C2), JN, EL, EJ. cbn [join_news flat_map List.app]. rewrite EJ in RG. unfold u32. rewrite Z.mod_small by lia. auto.
Qed.
