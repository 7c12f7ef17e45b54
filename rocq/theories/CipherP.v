(* The keystream of data uplinks. *)
From Verif Require AesP.
From Verif Require Import Lib StreamM FrameM CommandsM RegionM RadioM SmM AesM CmacM CtrM Scenario MacStateM MacTac MacUtilM OpsM MacCmdM MacProcM MacApiM MacRw CoreP CaseP SpecFrame SpecAes SpecSm SpecHist SpecKey SpecUp SpecCmac CtrP FrameP FrameRtP ModuleP SmP AnswerP HistP EndP TxP UplinkP ReadyP JoinP DataP RestoreP AcceptP CtxP DownP.

(* an accepted request prepares the frame with its payload encrypted *)
Lemma act_cipher c e m cf port d o m' : in_place c -> ready c m -> act c e m (C_data cf port (Some d) o) (RStatus STATUS_OK) m' ->
  let F := prepared m' in
  m_op m = OP_NONE /\ s_joined (m_ctx m) = true /\ (length d + 13 <= length F)%nat /\
  before_mic (length d) F =
    c_ctr c (m_sm m) KEY_APPS (block_A true (s_devAddr (m_ctx m)) (s_up (m_ctx m) mod 65536) 1) d.
Proof.
  intros IP R HA. cbv zeta. change (prepared m') with (frame_of m'). unfold before_mic. remember (C_data cf port (Some d) o) as k eqn:EK. remember (RStatus STATUS_OK) as r eqn:ER.
  destruct HA; try discriminate EK; try discriminate ER.
  - exfalso. destruct H as [->|[t ->]]; discriminate EK.
  - exfalso. congruence.
  - split; [exact H|]. split; [exact H0|]. injection EK as -> -> -> ->. injection ER as ->.
    destruct R as (LB & _). pose proof (proj2 (proj2 (proj2 (mac_commands_spec c (m_ctx m) (opts_of o))))) as MB.
    assert (length (mac_bytes (mac_commands c (m_ctx m) (opts_of o))) <= 30)%nat as MB30 by (destruct (is_1_1 (c_l2 c)); lia). clear MB.
    destruct (compose_size _ _ _ _ _ _ _ _ _ H5 eq_refl (mtu_bound _ _) MB30) as (LO & BL & FA & FC & _).
    assert (fd_data f = Some d /\ fd_port f = port) as [FD FP].
    { revert H5. unfold compose. cbv zeta. destruct (_ >? 15); [intros X; apply (f_equal snd) in X; discriminate X|]. destruct (_ >? _); [intros X; apply (f_equal snd) in X; discriminate X|].
      intros X. apply (f_equal (fun z => fst (fst z))) in X. cbn [fst] in X. subst f. auto. }
    cbn [frame0 fd_devAddr fd_counter] in FA, FC. destruct (core_frame _ _ H6) as [FR _]. clear H5 H6 H7 H8.
    pose proof (data_filled_layout c f (data_base c o tx op m) IP LO LB BL) as DL. cbv zeta in DL. rewrite DL in FR. clear DL.
    set (body := data_body c (data_base c o tx op m) f) in *. assert (length body = body_len f) as LBD by now apply data_body_length.
    assert (frame_of m' = body ++ le 4 (mic_word c (data_base c o tx op m) body)) as F.
    { rewrite FR. unfold frame_of. ms. rewrite Nat2Z.id. unfold slice. cbn [skipn]. rewrite app_assoc, firstn_app, firstn_all2 by (rewrite app_length, le_length; lia).
      rewrite app_length, le_length, LBD. replace (body_len f + 4 - (body_len f + 4))%nat with 0%nat by lia. cbn [firstn]. apply app_nil_r. }
    rewrite F. unfold body, data_body in *. clear F FR. unfold sent_payload in *. rewrite FD in *.
    set (cy := c_ctr c (m_sm (data_base c o tx op m)) (if fd_port f =? 0 then KEY_NWKSENC else KEY_APPS) (initA 0 (fd_devAddr f) true (fd_counter f) 1) d) in *.
    assert (length cy = length d) as LC by apply IP.
    set (hd := data_hdr f ++ sent_opts c (data_base c o tx op m) f ++ [u8 (fd_port f)]).
    assert (data_hdr f ++ sent_opts c (data_base c o tx op m) f ++ [u8 (fd_port f)] ++ cy = hd ++ cy) as E1 by (unfold hd; rewrite <- !app_assoc; reflexivity).
    rewrite E1 in *. set (mw := le 4 _). assert (length mw = 4%nat) as LM by apply le_length. clearbody mw.
    assert (9 <= length hd)%nat as LH by (unfold hd; rewrite !app_length, data_hdr_length; cbn [length]; lia).
    rewrite !app_length, LC, LM. split; [lia|].
    replace (length hd + length d + 4 - 4 - length d)%nat with (length hd) by lia.
    rewrite <- app_assoc, skipn_app, skipn_all, Nat.sub_diag. cbn [List.app skipn]. rewrite firstn_app, firstn_all2 by lia.
    rewrite LC, Nat.sub_diag. cbn [firstn]. rewrite app_nil_r. unfold cy. rewrite FA, FC, FP.
    rewrite (initA_spec 0) by lia. assert (port =? 0 = false) as -> by lia. reflexivity.
  - subst k. destruct H1.
Qed.

(* the same for a step *)
Lemma step_cipher c e m cf port d o : in_place c -> so (m_op m) (m_state m) = true -> ready c m ->
  let m' := fst (step c e (C_data cf port (Some d) o) m) in
  snd (step c e (C_data cf port (Some d) o) m) = RStatus STATUS_OK ->
  m_op m = OP_NONE /\ s_joined (m_ctx m) = true /\ (length d + 13 <= length (prepared m'))%nat /\
  before_mic (length d) (prepared m') =
    c_ctr c (m_sm m) KEY_APPS (block_A true (s_devAddr (m_ctx m)) (s_up (m_ctx m) mod 65536) 1) d.
Proof.
  intros IP S R m' E. destruct (step_cases c e (C_data cf port (Some d) o) m) as (m1 & m2 & Q1 & A & Q2 & _). fold m' in Q2.
  rewrite E in A. pose proof (ready_quiet _ _ _ Q1 R) as R1. destruct (act_cipher _ _ _ _ _ _ _ _ IP R1 A) as (H1 & H2 & H3 & H4).
  destruct Q1 as [[C1 _] _]. destruct Q2 as [[C2 _] _].
  assert (prepared m' = prepared m2) as EP. { unfold prepared. destruct (core_frame _ _ C2) as [X _]. exact X. }
  rewrite EP. rewrite (core_op_eq _ _ C1) in H1. rewrite (core_ctx _ _ C1) in H2, H4.
  assert (m_sm m1 = m_sm m) as ES by (destruct (core_fields _ _ C1) as (_ & _ & _ & _ & _ & _ & _ & _ & X & _); exact X). rewrite ES in H4. auto.
Qed.

Lemma start_ready c r a e0 h : in_place c -> arg_ok a -> session_ok (ia_session a) -> let m := run c h (MAC_init c r a e0) in
  so (m_op m) (m_state m) = true /\ ready c m /\ joined_ok m /\ up_ok m.
Proof.
  intros IP OK SO m. destruct (init_facts c r a e0) as (O & S & _). cbv zeta in *.
  assert (so (m_op (MAC_init c r a e0)) (m_state (MAC_init c r a e0)) = true) as S0 by (rewrite O, S; reflexivity).
  pose proof (ready_init c r a e0 OK) as R0. destruct (ready_always c h _ IP S0 R0) as [S1 R1].
  assert (up_ok (MAC_init c r a e0)) as U0 by (unfold up_ok; rewrite (proj1 (init_up c r a e0)); now apply session_ok_up).
  pose proof (up_range c h _ IP S0 R0 U0) as U1. split; [exact S1|]. split; [exact R1|]. split; [|exact U1].
  apply joined_always; [exact S0|]. unfold joined_ok. rewrite O. split; discriminate.
Qed.

(* the payload of a request is encrypted with blocks made from the low half of
   the counter *)
Theorem payload_encrypted c r a e0 h e cf port d o : in_place c -> arg_ok a -> session_ok (ia_session a) ->
  let m := run c h (MAC_init c r a e0) in
  let m' := fst (step c e (C_data cf port (Some d) o) m) in
  snd (step c e (C_data cf port (Some d) o) m) = RStatus STATUS_OK ->
  (length d + 13 <= length (prepared m'))%nat /\
  before_mic (length d) (prepared m') =
    c_ctr c (m_sm m) KEY_APPS (block_A true (s_devAddr (m_ctx m)) (s_up (m_ctx m) mod 65536) 1) d.
Proof.
  intros IP OK SO m m' E. destruct (start_ready c r a e0 h IP OK SO) as (S & R & _). fold m in S, R.
  destruct (step_cipher c e m cf port d o IP S R E) as (_ & _ & H). exact H.
Qed.

Lemma block_A_inj addr a b i j : 0 <= a < 4294967296 -> 0 <= b < 4294967296 ->
  block_A true addr a i = block_A true addr b j -> a = b /\ i = j.
Proof.
  intros A B H. unfold block_A in H. do 3 apply app_inv_head in H. apply app_inv_head in H.
  destruct (FrameRtP.app_inj_len _ _ _ _ (eq_trans (le_length 4 a) (eq_sym (le_length 4 b))) H) as [H1 H2]. split; [now apply SmP.le_inj4|congruence].
Qed.

Lemma new_request c r a e0 h1 e1 k1 st1 h2 : in_place c -> arg_ok a -> session_ok (ia_session a) ->
  (match k1 with C_data _ _ _ _ => True | _ => False end) -> st1 = STATUS_OK ->
  Forall (fun x => not_forget (snd x)) h2 ->
  let m1 := run c h1 (MAC_init c r a e0) in
  let m1' := fst (step c e1 k1 m1) in
  let m2 := run c h2 m1' in
  m_op m1 = OP_NONE -> s_joined (m_ctx m1) = true ->
  snd (step c e1 k1 m1) = RStatus st1 ->
  stay m1 m2 /\ s_up (m_ctx m2) = (s_up (m_ctx m1) + 1 + accepted (items c h2 m1')) mod 4294967296.
Proof.
  intros IP OK SO K1 -> NF m1 m1' m2 O1 J1 E1. destruct (start_ready c r a e0 h1 IP OK SO) as (S & R & J & U). fold m1 in S, R, J, U.
  assert (Forall (fun x => not_forget (snd x)) ((e1, k1) :: h2)) as NF'. { constructor; [cbn [snd]; destruct k1; try destruct K1; discriminate|exact NF]. }
  split; [exact (session_stays c ((e1, k1) :: h2) m1 S J J1 NF')|].
  assert (is_data (m_op m1) = false) as D by (rewrite O1; reflexivity).
  pose proof (session_accepted c r a e0 h1 ((e1, k1) :: h2) IP OK SO D NF') as H. fold m1 in H. cbn [run items] in H. fold m1' in H. fold m2 in H.
  rewrite H, accepted_app. f_equal. enough (accepted (step_items c e1 k1 m1) = 1) as -> by lia.
  unfold step_items. rewrite E1. fold m1'. destruct k1; try destruct K1; cbn [is_request]; rewrite accepted_app, accepted_outs; reflexivity.
Qed.

(* two requests of one session, n more having been accepted between them *)
Theorem two_payloads c r a e0 h1 e1 cf1 p1 d1 o1 h2 e2 cf2 p2 d2 o2 : in_place c -> arg_ok a -> session_ok (ia_session a) ->
  Forall (fun x => not_forget (snd x)) h2 ->
  let m1 := run c h1 (MAC_init c r a e0) in
  let k1 := C_data cf1 p1 (Some d1) o1 in let m1' := fst (step c e1 k1 m1) in
  let m2 := run c h2 m1' in
  let k2 := C_data cf2 p2 (Some d2) o2 in let m2' := fst (step c e2 k2 m2) in
  let n := accepted (items c h2 m1') in
  snd (step c e1 k1 m1) = RStatus STATUS_OK -> snd (step c e2 k2 m2) = RStatus STATUS_OK ->
  exists log addr f1 f2,
    before_mic (length d1) (prepared m1') = c_ctr c log KEY_APPS (block_A true addr f1 1) d1 /\
    before_mic (length d2) (prepared m2') = c_ctr c log KEY_APPS (block_A true addr f2 1) d2 /\
    0 <= f1 < 65536 /\ 0 <= f2 < 65536 /\ f2 = (f1 + 1 + n) mod 65536.
Proof.
  intros IP OK SO NF m1 k1 m1' m2 k2 m2' n E1 E2. destruct (start_ready c r a e0 h1 IP OK SO) as (S1 & R1 & J1 & U1). fold m1 in S1, R1, J1, U1.
  destruct (step_cipher c e1 m1 cf1 p1 d1 o1 IP S1 R1 E1) as (O1 & JJ & _ & C1). fold k1 in C1. fold m1' in C1.
  destruct (start_ready c r a e0 (h1 ++ (e1, k1) :: h2) IP OK SO) as (S2 & R2 & _). rewrite run_app in S2, R2. fold m1 in S2, R2. cbn [run] in S2, R2. fold m1' in S2, R2. fold m2 in S2, R2.
  destruct (step_cipher c e2 m2 cf2 p2 d2 o2 IP S2 R2 E2) as (O2 & _ & _ & C2). fold k2 in C2. fold m2' in C2.
  destruct (new_request c r a e0 h1 e1 k1 STATUS_OK h2 IP OK SO I eq_refl NF O1 JJ E1) as ((T1 & T2 & _) & T4). fold m1 in T1, T2, T4. fold m1' in T1, T2, T4. fold m2 in T1, T2, T4. fold n in T4.
  exists (m_sm m1), (s_devAddr (m_ctx m1)), (s_up (m_ctx m1) mod 65536), (s_up (m_ctx m2) mod 65536).
  split; [exact C1|]. split; [rewrite C2, T1, T2; reflexivity|]. split; [lia|]. split; [lia|].
  rewrite T4. clear - U1. unfold up_ok in U1. lia.
Qed.

Lemma accepted_pos l : 0 <= accepted l.
Proof. unfold accepted, count. lia. Qed.

Theorem payloads_disjoint c r a e0 h1 e1 cf1 p1 d1 o1 h2 e2 cf2 p2 d2 o2 : in_place c -> arg_ok a -> session_ok (ia_session a) ->
  Forall (fun x => not_forget (snd x)) h2 ->
  let m1 := run c h1 (MAC_init c r a e0) in
  let k1 := C_data cf1 p1 (Some d1) o1 in let m1' := fst (step c e1 k1 m1) in
  let m2 := run c h2 m1' in
  let k2 := C_data cf2 p2 (Some d2) o2 in let m2' := fst (step c e2 k2 m2) in
  snd (step c e1 k1 m1) = RStatus STATUS_OK -> snd (step c e2 k2 m2) = RStatus STATUS_OK ->
  accepted (items c h2 m1') < 65535 ->
  exists log addr f1 f2,
    before_mic (length d1) (prepared m1') = c_ctr c log KEY_APPS (block_A true addr f1 1) d1 /\
    before_mic (length d2) (prepared m2') = c_ctr c log KEY_APPS (block_A true addr f2 1) d2 /\
    forall i j, block_A true addr f1 i <> block_A true addr f2 j.
Proof.
  intros IP OK SO NF m1 k1 m1' m2 k2 m2' E1 E2 N.
  destruct (two_payloads c r a e0 h1 e1 cf1 p1 d1 o1 h2 e2 cf2 p2 d2 o2 IP OK SO NF E1 E2) as (log & addr & f1 & f2 & A & B & F1 & F2 & EF).
  exists log, addr, f1, f2. split; [exact A|]. split; [exact B|]. intros i j H. apply block_A_inj in H; [|lia|lia].
  fold m1 in EF. fold k1 in EF. fold m1' in EF. pose proof (accepted_pos (items c h2 m1')) as P. lia.
Qed.

(* and when the second is the 65536th after the first, the blocks are the same *)
Theorem payloads_reuse c r a e0 h1 e1 cf1 p1 d1 o1 h2 e2 cf2 p2 d2 o2 : in_place c -> arg_ok a -> session_ok (ia_session a) ->
  Forall (fun x => not_forget (snd x)) h2 ->
  let m1 := run c h1 (MAC_init c r a e0) in
  let k1 := C_data cf1 p1 (Some d1) o1 in let m1' := fst (step c e1 k1 m1) in
  let m2 := run c h2 m1' in
  let k2 := C_data cf2 p2 (Some d2) o2 in let m2' := fst (step c e2 k2 m2) in
  snd (step c e1 k1 m1) = RStatus STATUS_OK -> snd (step c e2 k2 m2) = RStatus STATUS_OK ->
  (accepted (items c h2 m1') + 1) mod 65536 = 0 ->
  exists log iv,
    before_mic (length d1) (prepared m1') = c_ctr c log KEY_APPS iv d1 /\
    before_mic (length d2) (prepared m2') = c_ctr c log KEY_APPS iv d2.
Proof.
  intros IP OK SO NF m1 k1 m1' m2 k2 m2' E1 E2 N.
  destruct (two_payloads c r a e0 h1 e1 cf1 p1 d1 o1 h2 e2 cf2 p2 d2 o2 IP OK SO NF E1 E2) as (log & addr & f1 & f2 & A & B & F1 & F2 & EF).
  fold m1 in EF. fold k1 in EF. fold m1' in EF. assert (f2 = f1) as -> by lia. eauto.
Qed.

(* with the default security module *)
Lemma ctr_payload key addr n d : (length d < 4080)%nat -> ctr (aes128 key) (block_A true addr n 1) d = payload_cipher key addr n d.
Proof.
  intros L. unfold ctr, payload_cipher. apply map_ext_in. intros j Hj. apply in_seq in Hj. unfold ctr_block.
  refine (f_equal (fun b => Z.lxor (nth j d 0) (nth (j mod 16) (aes128 key b) 0)) _).
  unfold block_A. assert (length (le 4 addr) = 4%nat /\ length (le 4 n) = 4%nat) as [L1 L2] by (rewrite !le_length; auto).
  destruct (le 4 addr) as [|b0 [|b1 [|b2 [|b3 [|]]]]]; try discriminate L1. destruct (le 4 n) as [|q0 [|q1 [|q2 [|q3 [|]]]]]; try discriminate L2.
  cbn [repeat List.app firstn nth]. rewrite Z.mod_small; [reflexivity|]. assert (j / 16 < 255)%nat by (apply Nat.div_lt_upper_bound; lia). lia.
Qed.

Theorem payload_spec c r a e0 h e cf port d o app nwk : block app -> block nwk -> default_sm c app nwk -> arg_ok a -> session_ok (ia_session a) ->
  Forall (fun x => not_abp (snd x)) h ->
  let m := run c h (MAC_init c r a e0) in
  let m' := fst (step c e (C_data cf port (Some d) o) m) in
  snd (step c e (C_data cf port (Some d) o) m) = RStatus STATUS_OK ->
  before_mic (length d) (prepared m') =
    payload_cipher (session_key c app nwk (ia_joinEUI a) (m_ctx m) KEY_APPS) (s_devAddr (m_ctx m)) (s_up (m_ctx m) mod 65536) d.
Proof.
  intros Ha Hn D OK SO NA m m' E. pose proof (proj1 (ModuleP.default_octets c app nwk Ha Hn D)) as IP.
  destruct (start_ready c r a e0 h IP OK SO) as (S & R & _). fold m in S, R.
  destruct (step_cipher c e m cf port d o IP S R E) as (_ & JJ & LN & H). fold m' in LN, H. rewrite H.
  destruct (keys_always c r a e0 h app nwk Ha Hn OK NA) as ((_ & _ & _ & LG & _ & _ & KS) & EJ & _). fold m in LG, KS, EJ.
  destruct (KS JJ) as [KK _]. rewrite <- EJ, <- (KK KEY_APPS) by (unfold net_key; auto). destruct (D (m_sm m) KEY_APPS) as (_ & _ & DC). rewrite DC.
  assert (block (getKey (c_l2 c) (sm_replay (c_l2 c) (SM_init (c_l2 c) app nwk) (m_sm m)) KEY_APPS)) as BK.
  { apply store_key, replay_ok; [now apply init_ok|exact LG]. }
  assert (length d < 256)%nat as LD. { assert (length (prepared m') <= 255)%nat; [|lia]. destruct (ready_always c [(e, C_data cf port (Some d) o)] m IP S R) as [_ (LB & _)].
    cbn [run] in LB. fold m' in LB. unfold prepared. rewrite firstn_length. lia. }
  rewrite SM_ctr_spec; [apply ctr_payload; lia|exact BK| |exact LD].
  split; [unfold block_A; rewrite !app_length, !le_length; reflexivity|].
  unfold block_A. repeat (apply bytes_ok_app; split); try apply le_ok; repeat constructor; lia.
Qed.

(* a one octet payload encrypted with counters 0 and 65536 *)
Lemma one_octet key addr n x : payload_cipher key addr n [x] = [Z.lxor x (nth 0 (aes128 key (block_A true addr n 1)) 0)].
Proof. reflexivity. Qed.
Lemma aes_code key b : block key -> block b -> aes128 key b = aes key b /\ block (aes key b).
Proof. intros K B. split; [symmetry; now apply AesP.aes_spec|now apply aes_ok]. Qed.
Lemma block_A_ok up addr n i : 0 <= i < 256 -> block (block_A up addr n i).
Proof.
  intros I. split; [unfold block_A; rewrite !app_length, !le_length; reflexivity|].
  unfold block_A. repeat (apply bytes_ok_app; split); try apply le_ok; repeat constructor; destruct up; lia.
Qed.
Lemma two_counters root b addr x : block root -> block b ->
  negb (nth 0 (aes (aes root b) (block_A true addr 0 1)) 0 =? nth 0 (aes (aes root b) (block_A true addr 65536 1)) 0) = true ->
  payload_cipher (aes128 root b) addr 0 [x] <> payload_cipher (aes128 root b) addr 65536 [x].
Proof.
  intros R B N. rewrite !one_octet. destruct (aes_code root b R B) as [-> BK].
  rewrite (proj1 (aes_code _ (block_A true addr 0 1) BK (block_A_ok true addr _ 1 ltac:(lia)))), (proj1 (aes_code _ (block_A true addr 65536 1) BK (block_A_ok true addr _ 1 ltac:(lia)))).
  apply negb_true_iff, Z.eqb_neq in N. intros H. apply N. generalize dependent (nth 0 (aes (aes root b) (block_A true addr 0 1)) 0). generalize (nth 0 (aes (aes root b) (block_A true addr 65536 1)) 0). intros p q _ H.
  assert (Z.lxor x q = Z.lxor x p) as E by congruence. apply (f_equal (Z.lxor x)) in E. rewrite <- !Z.lxor_assoc, Z.lxor_nilpotent, !Z.lxor_0_l in E. exact E.
Qed.

Lemma late_payload c r a e x app nwk b addr : block app -> block nwk -> default_sm c app nwk -> arg_ok a -> block b -> is_1_1 (c_l2 c) = false ->
  let m := MAC_init c r a e in let k := C_data false 1 (Some [x]) None in
  s_up (m_ctx m) = 65536 /\ sess_version c (m_ctx m) = 0 /\ s_devAddr (m_ctx m) = addr /\
    kdf_block_1_0 2 (s_joinNonce (m_ctx m)) (s_netID (m_ctx m)) (s_devNonce (m_ctx m)) = b /\ session_ok (ia_session a) /\
    snd (step c e k m) = RStatus STATUS_OK ->
  negb (nth 0 (aes (aes app b) (block_A true addr 0 1)) 0 =? nth 0 (aes (aes app b) (block_A true addr 65536 1)) 0) = true ->
  before_mic (length [x]) (prepared (fst (step c e k m))) <>
    payload_cipher (session_key c app nwk (ia_joinEUI a) (m_ctx m) KEY_APPS) (s_devAddr (m_ctx m)) (s_up (m_ctx m)) [x].
Proof.
  intros Ha Hn D OK B V m k (U & SV & AD & KB & SO & E) N.
  pose proof (payload_spec c r a e [] e false 1 [x] None app nwk Ha Hn D OK SO (Forall_nil _) E) as H. cbn [run] in H. fold m in H. change (C_data false 1 (Some [x]) None) with k in H.
  rewrite H. unfold session_key. rewrite SV, V, U, AD, KB. cbn [Z.eqb]. exact (two_counters app b addr x Ha B N).
Qed.
