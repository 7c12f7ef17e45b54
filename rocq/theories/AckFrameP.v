(* The control bits of a data frame, from the request to the air. *)
From Verif Require Import Lib StreamM FrameM CommandsM RegionM RadioM SmM MacStateM MacTac MacUtilM OpsM MacCmdM MacProcM MacApiM MacRw SpecRegion SpecValid CoreP CaseP RxP SpecFrame FrameP AnswerP SpecHist SpecSend HistP EndP TxP UplinkP ReadyP DataP AcceptP CtxP DownP ValidP SentP ChoiceP TriesP SpecAck AckP.

Lemma compose_flags cf port data mtu macs f g op st : compose cf port data mtu macs f = (g, op, st) ->
  fd_ack g = fd_ack f /\ fd_adr g = fd_adr f /\ fd_adrAckReq g = fd_adrAckReq f /\ fd_pending g = fd_pending f.
Proof.
  unfold compose. cbv zeta. destruct (_ >? 15); [|destruct (_ >? mtu)]; intros H; apply (f_equal (fun z => fst (fst z))) in H; cbn [fst] in H; subst g; auto.
Qed.

Lemma fctrl_bits : forall (a b c d : bool) (n : Z), 0 <= n <= 15 ->
  let v := u8 (Z.lor (Z.lor (Z.lor (Z.lor (if a then 0x80 else 0) (if b then 0x40 else 0)) (if c then 0x20 else 0)) (if d then 0x10 else 0)) (Z.land (u8 n) 0xf)) in
  Z.testbit v 7 = a /\ Z.testbit v 6 = b /\ Z.testbit v 5 = c /\ Z.testbit v 4 = d.
Proof.
  intros a b c d n N. assert (exists i, (i < 16)%nat /\ n = Z.of_nat i) as (i & I & ->) by (exists (Z.to_nat n); lia).
  do 16 (destruct i as [|i]; [destruct a, b, c, d; vm_compute; auto|]). lia.
Qed.

Lemma hdr_flags f rest : (length (fd_opts f) <= 15)%nat ->
  is_ack (data_hdr f ++ rest) = fd_ack f /\ asks_ack (data_hdr f ++ rest) = fd_adrAckReq f /\ has_adr (data_hdr f ++ rest) = fd_adr f /\ bit_four (data_hdr f ++ rest) = fd_pending f.
Proof.
  intros L. unfold is_ack, asks_ack, has_adr, bit_four, fctrl_of.
  assert (nth 5 (data_hdr f ++ rest) 0 = u8 (fctrl f)) as -> by reflexivity. unfold fctrl.
  destruct (fctrl_bits (fd_adr f) (fd_adrAckReq f) (fd_ack f) (fd_pending f) (Z.of_nat (length (fd_opts f))) ltac:(lia)) as (H1 & H2 & H3 & H4). auto.
Qed.

Lemma start_flags c e m cf port d o r m' : in_place c -> ready c m -> act c e m (C_data cf port d o) r m' ->
  starts (IReq (C_data cf port d o) r) = Some KData ->
  is_ack (frame_of m') = m_pendingACK m /\ asks_ack (frame_of m') = m_adrAckReq m /\ has_adr (frame_of m') = s_adr (m_ctx m) /\ bit_four (frame_of m') = false.
Proof.
  intros IP R A ST. destruct (act_data_inv _ _ _ _ _ _ _ _ _ A ST) as (tx & f & op & st & _ & _ & _ & _ & _ & _ & _ & C & E).
  destruct R as (LB & _). pose proof (proj2 (proj2 (proj2 (mac_commands_spec c (m_ctx m) (opts_of o))))) as MB.
  assert (length (mac_bytes (mac_commands c (m_ctx m) (opts_of o))) <= 30)%nat as MB30 by (destruct (is_1_1 (c_l2 c)); lia). clear MB.
  destruct (compose_size _ _ _ _ _ _ _ _ _ C eq_refl (mtu_bound _ _) MB30) as (LO & BL & _ & _ & _).
  destruct (compose_flags _ _ _ _ _ _ _ _ _ C) as (F1 & F2 & F3 & F4). cbn [frame0 fd_ack fd_adr fd_adrAckReq fd_pending] in F1, F2, F3, F4.
  destruct (core_frame _ _ E) as [FR _]. clear C E A ST.
  pose proof (data_filled_layout c f (data_base c o tx op m) IP LO LB BL) as DL. cbv zeta in DL. rewrite DL in FR. clear DL.
  set (body := data_body c (data_base c o tx op m) f) in *. assert (length body = body_len f) as LBD by now apply data_body_length.
  assert (frame_of m' = body ++ le 4 (mic_word c (data_base c o tx op m) body)) as F.
  { rewrite FR. unfold frame_of. ms. rewrite Nat2Z.id. unfold slice. cbn [skipn]. rewrite app_assoc, firstn_app, firstn_all2 by (rewrite app_length, le_length; lia).
    rewrite app_length, le_length, LBD. replace (body_len f + 4 - (body_len f + 4))%nat with 0%nat by lia. cbn [firstn]. apply app_nil_r. }
  rewrite F. unfold body, data_body. rewrite <- !app_assoc. rewrite <- F1, <- F2, <- F3, <- F4. apply hdr_flags. exact LO.
Qed.

Theorem flags_sent c r a e0 h1 e cf port d o h2 : in_place c -> arg_ok a ->
  let k := C_data cf port d o in
  let m1 := run c h1 (MAC_init c r a e0) in let m1' := fst (step c e k m1) in
  starts (IReq k (snd (step c e k m1))) = Some KData ->
  accepted (items c h2 m1') = 0 ->
  forall f bw sf p fr, In (OTransmit f bw sf p fr) (outs (items c h2 m1')) -> is_data_frame fr = true ->
    is_ack fr = owed c h1 (MAC_init c r a e0) false /\ asks_ack fr = m_adrAckReq m1 /\ has_adr fr = s_adr (m_ctx m1) /\ bit_four fr = false.
Proof.
  intros IP OK k m1 m1' ST AC f bw sf p fr IN D.
  pose proof (all_alike c r a e0 h1 e cf port d o h2 IP OK ST AC _ IN D) as E. unfold transmit_of in E. cbv zeta in E.
  assert (fr = frame_of m1') as -> by (injection E; intros H _ _ _ _; exact H). clear E.
  destruct (ready_always c h1 (MAC_init c r a e0) IP (init_so c r a e0 []) (ready_init c r a e0 OK)) as [S1 R1]. fold m1 in R1, S1.
  assert (m_pendingACK m1 = owed c h1 (MAC_init c r a e0) false) as <- by (unfold m1; rewrite run_ak; rewrite init_ak; reflexivity).
  destruct (step_cases c e k m1) as (m2 & m3 & _ & A & Q2 & EM). rewrite (EM ltac:(discriminate)) in A. fold m1' in Q2.
  assert (frame_of m1' = frame_of m3) as -> by (apply core_frame; apply Q2).
  exact (start_flags c e m1 cf port d o (snd (step c e k m1)) m3 IP R1 A ST).
Qed.
Theorem owed_always c r a e0 h : m_pendingACK (run c h (MAC_init c r a e0)) = owed c h (MAC_init c r a e0) false.
Proof. rewrite run_ak, init_ak. reflexivity. Qed.
