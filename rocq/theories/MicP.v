(* The integrity code of every data frame sent. *)
From Verif Require Import Lib StreamM FrameM CommandsM RegionM RadioM SmM AesM CmacM CtrM MacStateM MacTac MacUtilM OpsM MacCmdM MacProcM MacApiM MacRw CoreP CaseP SpecFrame SpecAes SpecSm SpecHist SpecKey SpecUp SpecCmac FrameP FrameRtP ModuleP SmP AnswerP HistP EndP TxP UplinkP ReadyP JoinP DataP RestoreP AcceptP CtxP DownP CipherP.

Lemma mic_word_spec c app nwk m body : default_sm c app nwk -> block app -> block nwk -> log_ok (m_sm m) ->
  bytes_ok body -> (0 < length body < 252)%nat -> length body <> 240%nat -> 0 <= tx_rate (m_tx m) < 256 -> 0 <= tx_chIndex (m_tx m) < 256 ->
  let key := key_of (c_l2 c) app nwk (m_sm m) in
  mic_word c m body = uplink_mic (sess_version c (m_ctx m)) (key KEY_FNWKSINT) (key KEY_SNWKSINT) 0
    (tx_rate (m_tx m)) (tx_chIndex (m_tx m)) (s_devAddr (m_ctx m)) (tx_counter (m_tx m)) body.
Proof.
  intros Hsm Ha Hn Hlog Hb Hl Hl2 Hr Hc key. unfold mic_word, uplink_mic. cbv zeta. rewrite u8_id by lia.
  set (n := Z.of_nat (length body)).
  pose proof (initB_block 0 0 0 true (s_devAddr (m_ctx m)) (tx_counter (m_tx m)) n ltac:(lia) ltac:(lia) ltac:(lia)) as B0.
  pose proof (initB_block 0 (tx_rate (m_tx m)) (tx_chIndex (m_tx m)) true (s_devAddr (m_ctx m)) (tx_counter (m_tx m)) n ltac:(lia) Hr Hc) as B1.
  rewrite !initB_spec in * by lia.
  set (b0 := [73] ++ le 2 0 ++ [0; 0] ++ [0] ++ le 4 (s_devAddr (m_ctx m)) ++ le 4 (tx_counter (m_tx m)) ++ [0; n]) in *.
  set (b1 := [73] ++ le 2 0 ++ [tx_rate (m_tx m); tx_chIndex (m_tx m)] ++ [0] ++ le 4 (s_devAddr (m_ctx m)) ++ le 4 (tx_counter (m_tx m)) ++ [0; n]) in *.
  change (block_B0 0 true (s_devAddr (m_ctx m)) (tx_counter (m_tx m)) n) with b0.
  change (block_B1 0 (tx_rate (m_tx m)) (tx_chIndex (m_tx m)) (s_devAddr (m_ctx m)) (tx_counter (m_tx m)) n) with b1.
  assert (Hmic : forall k h, block h -> c_mic c (m_sm m) k h body = mic_of (key k) h body).
  { intros k h [H1 H2]. destruct (Hsm (m_sm m) k) as [E _]. rewrite E. apply SM_mic_spec; auto; try lia.
    apply key_of_block; auto. }
  rewrite !Hmic by auto. destruct (sess_version c (m_ctx m) =? 1); auto.
  apply mic_join. apply (mic_of_range (key KEY_FNWKSINT) b0 body (key_of_block _ _ _ _ _ Ha Hn Hlog) (proj2 B0) Hb).
Qed.

Lemma step_sends c e m k f b sf p fr : In (OTransmit f b sf p fr) (new_out m (fst (step c e k m))) ->
  k = C_process /\ exists m1, core m1 = core m /\ m_state m1 = ST_START_RADIO_FOR_TX /\ fr = frame_of m1.
Proof.
  intros HI. destruct (step_cases c e k m) as (m1 & m2 & Q1 & A & Q2 & _).
  destruct (quiet_log _ _ Q1) as (l1 & L1 & P1). destruct (quiet_log _ _ Q2) as (l2 & L2 & P2). destruct (act_log _ _ _ _ _ _ A) as (la & LA).
  assert (m_log (fst (step c e k m)) = m_log m ++ (l1 ++ la ++ l2)) as E by (rewrite L2, LA, L1, !app_assoc; reflexivity).
  rewrite (new_out_app _ _ _ E), !in_app_iff in HI.
  assert (forall l, forallb no_tx l = true -> ~ In (OTransmit f b sf p fr) l) as N.
  { intros l H X. apply (proj1 (forallb_forall _ _) H) in X. discriminate X. }
  destruct HI as [H|[H|H]]; [destruct (N _ (plain_no_tx _ P1) H)| |destruct (N _ (plain_no_tx _ P2) H)].
  destruct (act_tx _ _ _ _ _ _ _ A LA) as [X|(K & S & _ & _ & X)]; [destruct (N _ X H)|].
  split; [exact K|]. exists m1. destruct Q1 as [[C1 _] _]. split; [exact C1|]. split; [exact S|].
  rewrite X in H. destruct H as [H|[]]. unfold transmit_of in H. cbv zeta in H. apply (f_equal (fun o => match o with OTransmit _ _ _ _ x => x | _ => [] end)) in H. now symmetry.
Qed.

Theorem sent_mic c r a e0 h e k f b sf p fr app nwk : block app -> block nwk -> default_sm c app nwk -> arg_ok a -> session_ok (ia_session a) ->
  Forall (fun x => not_abp (snd x)) h ->
  let m := run c h (MAC_init c r a e0) in
  is_data (m_op m) = true -> In (OTransmit f b sf p fr) (new_out m (fst (step c e k m))) ->
  bytes_ok fr -> 0 <= tx_rate (m_tx m) < 256 -> 0 <= tx_chIndex (m_tx m) < 256 -> length fr <> 244%nat ->
  let key := session_key c app nwk (ia_joinEUI a) (m_ctx m) in
  exists body, (8 <= length body <= 251)%nat /\
    fr = body ++ le 4 (uplink_mic (sess_version c (m_ctx m)) (key KEY_FNWKSINT) (key KEY_SNWKSINT) 0
      (tx_rate (m_tx m)) (tx_chIndex (m_tx m)) (s_devAddr (m_ctx m)) (tx_counter (m_tx m)) body).
Proof.
  intros Ha Hn D OK SO NA m DT HI BF HR HC NL key. pose proof (proj1 (ModuleP.default_octets c app nwk Ha Hn D)) as IP.
  destruct (start_ready c r a e0 h IP OK SO) as (S & R & J & _). fold m in S, R, J.
  destruct (keys_always c r a e0 h app nwk Ha Hn OK NA) as ((_ & _ & _ & LG & _ & _ & KS) & EJ & _). fold m in LG, KS, EJ.
  destruct (KS (proj1 J DT)) as [KK _].
  destruct R as (_ & _ & _ & _ & HD & _). destruct (HD DT) as (body & rest & E1 & E2 & L1 & L2 & _).
  destruct (step_sends _ _ _ _ _ _ _ _ _ HI) as (_ & m1 & C1 & _ & EF). destruct (core_frame _ _ C1) as [X _].
  assert (fr = body ++ le 4 (mic_word c m body)) as F.
  { rewrite EF. change (frame_of m1 = body ++ le 4 (mic_word c m body)). rewrite X. unfold frame_of. rewrite E1, E2, Nat2Z.id. unfold slice. cbn [skipn].
    rewrite app_assoc, firstn_app, firstn_all2 by (rewrite app_length, le_length; lia). rewrite app_length, le_length, Nat.sub_diag. cbn [firstn]. apply app_nil_r. }
  exists body. split; [lia|]. rewrite F in BF |- *. rewrite F, app_length, le_length in NL. apply bytes_ok_app in BF. destruct BF as [BB _].
  rewrite (mic_word_spec c app nwk m body D Ha Hn LG BB) by (try assumption; lia).
  assert (forall q, net_key q -> key_of (c_l2 c) app nwk (m_sm m) q = key q) as KE by (intros q Q; unfold key; rewrite <- EJ, <- (KK q Q); reflexivity).
  rewrite !KE by (unfold net_key; auto). reflexivity.
Qed.

Theorem sent_mic_op c r a e0 h e k f b sf p fr app nwk : block app -> block nwk -> default_sm c app nwk -> arg_ok a -> session_ok (ia_session a) ->
  Forall (fun x => not_abp (snd x)) h ->
  let m := run c h (MAC_init c r a e0) in
  m_op m = OP_DATA_UNCONFIRMED \/ m_op m = OP_DATA_CONFIRMED -> In (OTransmit f b sf p fr) (new_out m (fst (step c e k m))) ->
  bytes_ok fr -> 0 <= tx_rate (m_tx m) < 256 -> 0 <= tx_chIndex (m_tx m) < 256 -> length fr <> 244%nat ->
  let key := session_key c app nwk (ia_joinEUI a) (m_ctx m) in
  exists body, (8 <= length body <= 251)%nat /\
    fr = body ++ le 4 (uplink_mic (sess_version c (m_ctx m)) (key KEY_FNWKSINT) (key KEY_SNWKSINT) 0
      (tx_rate (m_tx m)) (tx_chIndex (m_tx m)) (s_devAddr (m_ctx m)) (tx_counter (m_tx m)) body).
Proof.
  intros Ha Hn D OK SO NA m DT. refine (sent_mic c r a e0 h e k f b sf p fr app nwk Ha Hn D OK SO NA _). fold m. destruct DT as [->| ->]; reflexivity.
Qed.
