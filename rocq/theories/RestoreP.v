(* Keys after a restart. *)
From Verif Require Import Lib StreamM FrameM CommandsM RegionM RadioM SmM MacStateM MacTac MacUtilM OpsM MacCmdM MacProcM MacApiM MacRw Scenario CoreP CaseP RxP SpecFrame SpecAes SpecSm SpecHist SpecKey SmP HistP EndP TxP UplinkP ReadyP JoinP DataP.

Lemma init_sm c r a e : m_sm (MAC_init c r a e) =
  match ia_session a with
  | Some s => if (s_magic s =? sessionMagicNumber) && region_eqb (s_region s) r
              then m_sm (deriveKeys c (set_m_ctx s (initSession c r (mac_zero a)))) else []
  | None => []
  end.
Proof.
  open_def MAC_init. cbv zeta. set (m0 := initSession c r (mac_zero a)).
  assert (m_sm m0 = []) as E0 by reflexivity.
  assert (m_sm (restoreSession c r (ia_session a) m0) =
    match ia_session a with
    | Some s => if (s_magic s =? sessionMagicNumber) && region_eqb (s_region s) r
                then m_sm (deriveKeys c (set_m_ctx s m0)) else []
    | None => []
    end) as E1.
  { unfold restoreSession. destruct (ia_session a) as [s|]; [|exact E0]. destruct (_ && _); [|exact E0]. reflexivity. }
  rewrite <- E1. clear E1 E0. generalize (restoreSession c r (ia_session a) m0). intros x. m_unf. unfold emit. ms. reflexivity.
Qed.

Lemma restored_1_0 c r a e s app nwk :
  block app -> block nwk -> length (ia_joinEUI a) = 8%nat -> bytes_ok (ia_joinEUI a) ->
  ia_session a = Some s -> s_magic s = sessionMagicNumber -> s_region s = r -> sess_version c s = 0 ->
  let kdf t := aes128 (if is_1_1 (c_l2 c) then nwk else app) (kdf_block_1_0 t (s_joinNonce s) (s_netID s) (s_devNonce s)) in
  let key := key_of (c_l2 c) app nwk (m_sm (MAC_init c r a e)) in
  key KEY_FNWKSINT = kdf 1 /\ key KEY_SNWKSINT = kdf 1 /\ key KEY_NWKSENC = kdf 1 /\ key KEY_APPS = kdf 2.
Proof.
  cbv zeta. intros Ha Hn Hj Hb Hs Hm Hr Hv. rewrite init_sm, Hs, Hm, Hr, Z.eqb_refl, (proj2 (region_eqb_eq r r) eq_refl). cbn [andb].
  apply (derived_1_0 c (set_m_ctx s (initSession c r (mac_zero a))) app nwk Ha Hn); [constructor|exact Hj|exact Hb|exact Hv].
Qed.

Lemma restored_1_1 c r a e s app nwk :
  block app -> block nwk -> length (ia_joinEUI a) = 8%nat -> bytes_ok (ia_joinEUI a) ->
  ia_session a = Some s -> s_magic s = sessionMagicNumber -> s_region s = r -> c_l2 c = L2_1_1 -> sess_version c s <> 0 ->
  let kdf root t := aes128 root (kdf_block_1_1 t (s_joinNonce s) (ia_joinEUI a) (s_devNonce s)) in
  let key := key_of L2_1_1 app nwk (m_sm (MAC_init c r a e)) in
  key KEY_FNWKSINT = kdf nwk 1 /\ key KEY_SNWKSINT = kdf nwk 3 /\ key KEY_NWKSENC = kdf nwk 4 /\ key KEY_APPS = kdf app 2.
Proof.
  cbv zeta. intros Ha Hn Hj Hb Hs Hm Hr Hc Hv. rewrite init_sm, Hs, Hm, Hr, Z.eqb_refl, (proj2 (region_eqb_eq r r) eq_refl). cbn [andb].
  apply (derived_1_1 c (set_m_ctx s (initSession c r (mac_zero a))) app nwk Ha Hn); [constructor|exact Hj|exact Hb|exact Hc|exact Hv].
Qed.

Lemma not_restored c r a e : (forall s, ia_session a = Some s -> (s_magic s =? sessionMagicNumber) && region_eqb (s_region s) r = false) ->
  m_sm (MAC_init c r a e) = [].
Proof. intros H. rewrite init_sm. destruct (ia_session a) as [s|]; [|reflexivity]. now rewrite (H s eq_refl). Qed.

(* --- the keys in use after a join --- *)

Lemma accepted_keys c buf f m : exists m1, m_sm (join_accepted c buf f m) = m_sm (deriveKeys c m1) /\
  m_ctx m1 = m_ctx (join_accepted c buf f m) /\ m_joinEUI m1 = m_joinEUI m /\ m_sm m1 = m_sm m.
Proof.
  remember (join_accepted c buf f m) as R eqn:ER. symmetry in ER. open_def join_accepted in ER.
  ltn ER s0. ltn ER s1. ltn ER s2. ltn ER s3. ltn ER s4. ltn ER s5. ltn ER s6. ltn ER s7. ltn ER m1. ltn ER m2. ltn ER m3. ltn ER m4. ltn ER m5.
  exists m1. subst R. rewrite Em5, Em4, Em3. unfold notify, emit, band_set. ms.
  destruct (deriveKeys_sm c m1) as (l & EK). rewrite <- Em2 in EK. split; [now rewrite Em2|]. rewrite EK.
  split; [|split]; [reflexivity|rewrite Em1; reflexivity|rewrite Em1; reflexivity].
Qed.

Lemma joined_1_0 c buf f m app nwk :
  block app -> block nwk -> log_ok (m_sm m) -> length (m_joinEUI m) = 8%nat -> bytes_ok (m_joinEUI m) ->
  let m' := join_accepted c buf f m in
  sess_version c (m_ctx m') = 0 ->
  let kdf t := aes128 (if is_1_1 (c_l2 c) then nwk else app) (kdf_block_1_0 t (dn_joinNonce f) (dn_netID f) (s_devNonce (m_ctx m))) in
  let key := key_of (c_l2 c) app nwk (m_sm m') in
  key KEY_FNWKSINT = kdf 1 /\ key KEY_SNWKSINT = kdf 1 /\ key KEY_NWKSENC = kdf 1 /\ key KEY_APPS = kdf 2.
Proof.
  cbv zeta. intros Ha Hn Hl Hj Hb Hv. destruct (accepted_keys c buf f m) as (m1 & E1 & E2 & E3 & E4).
  destruct (join_accepted_frame c buf f m) as (s & l & _ & S & _ & _ & _ & _ & _ & _ & _ & SN & SJ & _ & _ & SD).
  rewrite E1. rewrite <- SN, <- SJ, <- SD, <- S, <- E2. rewrite <- E2 in Hv.
  apply (derived_1_0 c m1 app nwk Ha Hn); [now rewrite E4|now rewrite E3|now rewrite E3|exact Hv].
Qed.

Lemma joined_1_1 c buf f m app nwk :
  block app -> block nwk -> log_ok (m_sm m) -> length (m_joinEUI m) = 8%nat -> bytes_ok (m_joinEUI m) -> c_l2 c = L2_1_1 ->
  let m' := join_accepted c buf f m in
  sess_version c (m_ctx m') <> 0 ->
  let kdf root t := aes128 root (kdf_block_1_1 t (dn_joinNonce f) (m_joinEUI m) (s_devNonce (m_ctx m))) in
  let key := key_of L2_1_1 app nwk (m_sm m') in
  key KEY_FNWKSINT = kdf nwk 1 /\ key KEY_SNWKSINT = kdf nwk 3 /\ key KEY_NWKSENC = kdf nwk 4 /\ key KEY_APPS = kdf app 2.
Proof.
  cbv zeta. intros Ha Hn Hl Hj Hb Hc Hv. destruct (accepted_keys c buf f m) as (m1 & E1 & E2 & E3 & E4).
  destruct (join_accepted_frame c buf f m) as (s & l & _ & S & _ & _ & _ & _ & _ & _ & _ & SN & SJ & _ & _ & SD).
  rewrite E1. rewrite <- SJ, <- SD, <- S, <- E2, <- E3. rewrite <- E2 in Hv. rewrite <- E3 in Hj, Hb.
  apply (derived_1_1 c m1 app nwk Ha Hn); [now rewrite E4|exact Hj|exact Hb|exact Hc|exact Hv].
Qed.

(* --- a restart with the session saved at the join brings the same keys back --- *)

Lemma rejoin_same c buf f m r a e app nwk k :
  let m' := join_accepted c buf f m in
  block app -> block nwk -> log_ok (m_sm m) -> length (m_joinEUI m) = 8%nat -> bytes_ok (m_joinEUI m) ->
  ia_session a = Some (m_ctx m') -> ia_joinEUI a = m_joinEUI m -> s_magic (m_ctx m) = sessionMagicNumber -> s_region (m_ctx m) = r ->
  net_key k ->
  key_of (c_l2 c) app nwk (m_sm (MAC_init c r a e)) k = key_of (c_l2 c) app nwk (m_sm m') k.
Proof.
  cbv zeta. intros Ha Hn Hl Hj Hb Hs He Hm Hr Hk.
  destruct (join_accepted_frame c buf f m) as (s & l & _ & S & _ & _ & _ & _ & _ & _ & _ & SN & SJ & SR & SM & SD).
  rewrite S in Hs. assert (length (ia_joinEUI a) = 8%nat) as Hj' by now rewrite He. assert (bytes_ok (ia_joinEUI a)) as Hb' by now rewrite He.
  destruct (Z.eq_dec (sess_version c s) 0) as [V|V].
  - destruct (restored_1_0 c r a e s app nwk Ha Hn Hj' Hb' Hs (eq_trans SM Hm) (eq_trans SR Hr) V) as (A1 & A2 & A3 & A4).
    rewrite <- S in V. destruct (joined_1_0 c buf f m app nwk Ha Hn Hl Hj Hb V) as (B1 & B2 & B3 & B4). rewrite SN, SJ, SD in *.
    destruct Hk as [->|[->|[->| ->]]]; congruence.
  - assert (c_l2 c = L2_1_1) as Hc by (unfold sess_version in V; destruct (c_l2 c); cbn in V; congruence).
    rewrite Hc in *.
    destruct (restored_1_1 c r a e s app nwk Ha Hn Hj' Hb' Hs (eq_trans SM Hm) (eq_trans SR Hr) Hc V) as (A1 & A2 & A3 & A4).
    rewrite <- S in V. destruct (joined_1_1 c buf f m app nwk Ha Hn Hl Hj Hb Hc V) as (B1 & B2 & B3 & B4). rewrite SJ, SD, He in *.
    destruct Hk as [->|[->|[->| ->]]]; congruence.
Qed.

(* --- keys match the session, at all times --- *)

Definition kid (s t : session) : Prop :=
  s_joined t = s_joined s /\ s_joinNonce t = s_joinNonce s /\ s_netID t = s_netID s /\ s_devNonce t = s_devNonce s /\ s_version t = s_version s /\
  s_magic t = s_magic s /\ s_region t = s_region s.
Lemma kid_refl s : kid s s. Proof. repeat split. Qed.
Lemma kid_sym s t : kid s t -> kid t s. Proof. unfold kid. intuition congruence. Qed.
Lemma kid_trans s t u : kid s t -> kid t u -> kid s u. Proof. unfold kid. intuition congruence. Qed.
Lemma kid_key c app nwk j s t k : kid s t -> session_key c app nwk j t k = session_key c app nwk j s k.
Proof. intros (_ & A & B & C & D & _). unfold session_key, sess_version. now rewrite A, B, C, D. Qed.
Lemma kid_ident s t : same_ident s t -> kid s t. Proof. unfold same_ident, kid. tauto. Qed.

Definition saves (s : session) (o : out) : Prop := match o with OEvent (EV_SESSION_UPDATED t) => kid s t | _ => True end.
Definition is_sess (o : out) : bool := negb (no_sess o).

Lemma no_sess_saves s lo : forallb no_sess lo = true -> Forall (saves s) lo.
Proof.
  intros H. apply Forall_forall. intros o Ho. apply (proj1 (forallb_forall _ _) H) in Ho. destruct o as [[]| | | |]; try discriminate; exact I.
Qed.

Lemma cancel_core c e m x : act c e m C_cancel RVoid x -> core x = core (set_m_op OP_NONE m).
Proof.
  intros HA. remember C_cancel as k eqn:K. remember RVoid as r eqn:R. destruct HA; try discriminate K; try discriminate R.
  - destruct H as [E|[t E]]; rewrite E in K; discriminate K.
  - exact H0.
  - subst k. destruct H1.
Qed.

(* one action *)
Definition key_step (c : cfg) (app nwk : list Z) (m m' : mac) (lo : list out) : Prop :=
  m_joinEUI m' = m_joinEUI m /\ m_devEUI m' = m_devEUI m /\ log_ok (m_sm m') /\
  s_magic (m_ctx m') = sessionMagicNumber /\ s_region (m_ctx m') = s_region (m_ctx m) /\
  (m_op m' = OP_JOINING -> s_joined (m_ctx m') = false /\ (m_sm m' = m_sm m /\ m_op m = OP_JOINING \/
     m_sm m' = m_sm (if is_1_1 (c_l2 c) then deriveJoinKeys m else m))) /\
  (s_joined (m_ctx m') = true -> Forall (saves (m_ctx m')) lo /\
     (kid (m_ctx m) (m_ctx m') /\ m_sm m' = m_sm m \/
      existsb is_sess lo = true /\ forall k, net_key k -> key_of (c_l2 c) app nwk (m_sm m') k = session_key c app nwk (m_joinEUI m') (m_ctx m') k)).

(* the part of the core this is about *)
Definition kcore (m m' : mac) : Prop := m_joinEUI m' = m_joinEUI m /\ m_devEUI m' = m_devEUI m /\ m_sm m' = m_sm m /\ m_ctx m' = m_ctx m /\ m_op m' = m_op m.
Lemma core_k m m' : core m' = core m -> kcore m m'.
Proof. intros C. apply core_fields in C. unfold same_core in C. unfold kcore. tauto. Qed.

(* the session keeps its identity and the keys stay *)
Lemma ks_kid c app nwk m m' lo : log_ok (m_sm m) -> s_magic (m_ctx m) = sessionMagicNumber -> (m_op m = OP_JOINING -> s_joined (m_ctx m) = false) ->
  m_joinEUI m' = m_joinEUI m -> m_devEUI m' = m_devEUI m -> m_sm m' = m_sm m -> kid (m_ctx m) (m_ctx m') ->
  (m_op m' = OP_JOINING -> m_op m = OP_JOINING) -> Forall (saves (m_ctx m)) lo -> key_step c app nwk m m' lo.
Proof.
  intros HL HM HJ E1 E2 E3 K HO HS. pose proof K as (K1 & _ & _ & _ & _ & K6 & K7). unfold key_step. rewrite E3.
  split; [exact E1|]. split; [exact E2|]. split; [exact HL|]. split; [congruence|]. split; [exact K7|]. split.
  - intros O. specialize (HO O). split; [rewrite K1; auto|left; auto].
  - intros J. split; [|left; auto]. eapply Forall_impl; [|exact HS]. intros o. destruct o as [[]| | | |]; cbn [saves]; auto. intros Q. exact (kid_trans _ _ _ (kid_sym _ _ K) Q).
Qed.
Lemma ks_core c app nwk m m' lo : log_ok (m_sm m) -> s_magic (m_ctx m) = sessionMagicNumber -> (m_op m = OP_JOINING -> s_joined (m_ctx m) = false) ->
  core m' = core m -> Forall (saves (m_ctx m)) lo -> key_step c app nwk m m' lo.
Proof.
  intros HL HM HJ C HS. destruct (core_k _ _ C) as (A1 & A2 & A3 & A4 & A5). apply ks_kid; auto; [rewrite A4; apply kid_refl|congruence].
Qed.
Lemma ks_op c app nwk m m' lo : log_ok (m_sm m) -> s_magic (m_ctx m) = sessionMagicNumber -> (m_op m = OP_JOINING -> s_joined (m_ctx m) = false) ->
  core m' = core (set_m_op OP_NONE m) -> forallb no_sess lo = true -> key_step c app nwk m m' lo.
Proof.
  intros HL HM HJ C HS. destruct (core_k _ _ C) as (A1 & A2 & A3 & A4 & A5). ms_in A5.
  apply ks_kid; auto; [rewrite A4; apply kid_refl|congruence|now apply no_sess_saves].
Qed.
(* no network *)
Lemma ks_out c app nwk m m' lo : log_ok (m_sm m') -> s_magic (m_ctx m') = sessionMagicNumber -> s_region (m_ctx m') = s_region (m_ctx m) ->
  m_joinEUI m' = m_joinEUI m -> m_devEUI m' = m_devEUI m -> s_joined (m_ctx m') = false ->
  (m_op m' = OP_JOINING -> m_sm m' = m_sm m /\ m_op m = OP_JOINING \/ m_sm m' = m_sm (if is_1_1 (c_l2 c) then deriveJoinKeys m else m)) ->
  key_step c app nwk m m' lo.
Proof. intros. unfold key_step. repeat (split; [assumption|]). split; [auto|congruence]. Qed.

Lemma miss_keys c e app nwk m m' lo : log_ok (m_sm m) -> s_magic (m_ctx m) = sessionMagicNumber -> (m_op m = OP_JOINING -> s_joined (m_ctx m) = false) ->
  miss_case c e m m' -> m_log m' = m_log m ++ lo -> m_op m = OP_JOINING \/ is_data (m_op m) = true -> key_step c app nwk m m' lo.
Proof.
  intros HL HM HJ HC L HO. destruct HC as [m2 D ? C S E|m2 D p C S E|m2 O ? C S E|m2 O ? C S E|D O].
  - rewrite E in L. apply same_log_tail in L. subst lo. destruct (core_k _ _ C) as (A1 & A2 & A3 & A4 & A5).
    apply ks_kid; auto; [rewrite A4; apply kid_refl|]. rewrite A5. auto.
  - rewrite E in L. apply app_tail in L. subst lo.
    destruct (adaptRate_fields c (next_trial m)) as (s & n & b & E1 & E2 & _). cbv zeta in E1, E2. change (m_ctx (next_trial m)) with (m_ctx m) in E2.
    assert (kid (m_ctx m) s) as K by (destruct E2 as [->|[->|[->| ->]]]; repeat split; reflexivity).
    assert (m_ctx (fst p) = s) as EC by (subst p; rewrite E1; reflexivity).
    destruct (core_k _ _ C) as (A1 & A2 & A3 & A4 & A5). ms_in A1. ms_in A2. ms_in A3. ms_in A4. ms_in A5. subst p. rewrite E1 in A1, A2, A3, A4.
    apply ks_kid; auto; [rewrite A4; exact K|congruence|].
    apply Forall_app. split; [|constructor; [destruct (m_op m); exact I|constructor]].
    destruct (snd _); [|constructor]. constructor; [|constructor]. cbn [saves]. rewrite EC. exact K.
  - rewrite E in L. apply app_tail in L. subst lo.
    destruct (fillJoin_fields c e (u16 (m_devNonce m)) (next_trial m)) as (t & buf & len & dn & E1 & _).
    assert (exists y, kcore (set_m_ctx (set_s_devNonce dn (m_ctx m)) m) y /\ core m2 = core y) as (y & Y & YC).
    { eexists. split; [|exact C]. rewrite E1. unfold kcore. repeat split. }
    destruct (core_k _ _ YC) as (A1 & A2 & A3 & A4 & A5). destruct Y as (B1 & B2 & B3 & B4 & B5). ms_in B1. ms_in B2. ms_in B3. ms_in B4. ms_in B5.
    apply ks_out; [rewrite A3, B3; exact HL|rewrite A4, B4; exact HM|rewrite A4, B4; reflexivity|congruence|congruence|rewrite A4, B4; exact (HJ O)|].
    intros _. left. split; congruence.
  - rewrite E in L. apply app_tail in L. subst lo. destruct (core_k _ _ C) as (A1 & A2 & A3 & A4 & A5). ms_in A5.
    apply (ks_kid c app nwk m m2 _ HL HM HJ A1 A2 A3); [rewrite A4; apply kid_refl|intros _; exact O|repeat constructor].
  - destruct HO; congruence.
Qed.

Lemma ks_joined c app nwk m x s lo jn net dev : m_ctx x = s -> m_op x = OP_NONE -> m_log x = m_log m ++ [OEvent (EV_JOIN_COMPLETE jn net dev)] ->
  m_joinEUI x = m_joinEUI m -> m_devEUI x = m_devEUI m -> log_ok (m_sm x) -> s_magic s = sessionMagicNumber -> s_region s = s_region (m_ctx m) ->
  (forall k, net_key k -> key_of (c_l2 c) app nwk (m_sm x) k = session_key c app nwk (m_joinEUI x) s k) ->
  m_log (pushSessionUpdate x) = m_log m ++ lo -> key_step c app nwk m (pushSessionUpdate x) lo.
Proof.
  intros CX O LG E1 E2 LO MG RG KK L. unfold pushSessionUpdate, notify, emit in *. ms_in L. rewrite LG, <- !app_assoc in L. apply app_tail in L. subst lo.
  unfold key_step. ms. rewrite CX. repeat (split; [assumption|]). split; [congruence|]. intros _. split; [|right; split; [reflexivity|exact KK]].
  constructor; [exact I|]. constructor; [|constructor]. cbn [saves]. apply kid_refl.
Qed.

Lemma deriveKeys_ok c m : log_ok (m_sm m) -> length (m_joinEUI m) = 8%nat -> bytes_ok (m_joinEUI m) -> log_ok (m_sm (deriveKeys c m)).
Proof.
  intros HL Hj Hb. assert (forall b, 0 <= b < 256 -> block (key_iv c m b)) as Hiv by (intros; now apply key_iv_block).
  unfold deriveKeys. destruct (_ =? 0); unfold sm_update; cbn [m_sm set_m_sm]; repeat apply log_ok_app; try exact HL; apply Hiv; lia.
Qed.
Lemma deriveJoinKeys_ok m : log_ok (m_sm m) -> length (m_devEUI m) = 8%nat -> bytes_ok (m_devEUI m) -> log_ok (m_sm (deriveJoinKeys m)).
Proof.
  intros HL He Heb. destruct (js_blocks (m_devEUI m) He) as [J5 J6].
  assert (I5 := kdf_js_block 5 (m_devEUI m) ltac:(lia) He Heb).
  assert (I6 := kdf_js_block 6 (m_devEUI m) ltac:(lia) He Heb).
  unfold deriveJoinKeys. cbv zeta. rewrite J5, J6. unfold sm_update. cbn [m_sm set_m_sm]. now repeat apply log_ok_app.
Qed.

Lemma session_keys c m app nwk : block app -> block nwk -> log_ok (m_sm m) -> length (m_joinEUI m) = 8%nat -> bytes_ok (m_joinEUI m) ->
  forall k, net_key k -> key_of (c_l2 c) app nwk (m_sm (deriveKeys c m)) k = session_key c app nwk (m_joinEUI m) (m_ctx m) k.
Proof.
  intros Ha Hn Hl Hj Hb k Hk. unfold session_key. destruct (sess_version c (m_ctx m) =? 0) eqn:V.
  - destruct (derived_1_0 c m app nwk Ha Hn Hl Hj Hb ltac:(lia)) as (A1 & A2 & A3 & A4).
    destruct Hk as [->|[->|[->| ->]]]; assumption.
  - assert (c_l2 c = L2_1_1) as Hc by (unfold sess_version in V; destruct (c_l2 c); cbn in V; congruence).
    destruct (derived_1_1 c m app nwk Ha Hn Hl Hj Hb Hc ltac:(lia)) as (A1 & A2 & A3 & A4). rewrite Hc.
    destruct Hk as [->|[->|[->| ->]]]; assumption.
Qed.

Definition not_abp (k : call) : Prop := match k with C_abp _ => False | _ => True end.

Lemma act_keys c e m k r m' lo app nwk : act c e m k r m' -> not_abp k -> m_log m' = m_log m ++ lo -> so (m_op m) (m_state m) = true ->
  block app -> block nwk -> log_ok (m_sm m) -> eui_ok (m_joinEUI m) -> eui_ok (m_devEUI m) -> s_magic (m_ctx m) = sessionMagicNumber ->
  (m_op m = OP_JOINING -> s_joined (m_ctx m) = false) -> key_step c app nwk m m' lo.
Proof.
  intros HA NA L HS Ha Hn HL [Hj Hjb] [Hd Hdb] HM HJ. destruct HA.
  - apply same_log_tail in L. subst. apply ks_core; auto.
  - destruct H as [C (l & E & P)]. rewrite E in L. apply app_tail in L. subst l. apply ks_core; auto. apply no_sess_saves, plain_no_sess, P.
  - rewrite H2 in L. apply app_tail in L. subst lo. apply ks_core; [assumption..|repeat constructor].
  - rewrite H2 in L. apply app_tail in L. subst lo. apply ks_op; auto.
  - eapply miss_keys; eauto. destruct (so_rx _ _ HS) as [D|D]; [tauto|auto|auto].
  - rewrite H3 in L. apply app_tail in L. subst lo. apply ks_op; auto.
  - destruct (miss_log _ _ _ _ H1) as (l1 & E1). rewrite H4, E1, <- app_assoc in L. apply app_tail in L. subst lo.
    pose proof (miss_keys c e app nwk m x l1 HL HM HJ H1 E1 (or_introl H0)) as K.
    destruct (core_k _ _ H2) as (A1 & A2 & A3 & A4 & A5). unfold key_step in *. rewrite A1, A2, A3, A4, A5.
    destruct K as (Q1 & Q2 & Q3 & Q4 & Q5 & Q6 & K). repeat (split; [assumption|]). intros J. destruct (K J) as [K1 K2].
    split; [apply Forall_app; split; [exact K1|repeat constructor]|]. destruct K2 as [K2|[K2 K3]]; [left; exact K2|right; split; [|exact K3]]. rewrite existsb_app, K2. reflexivity.
  - destruct (data_received_frame c e buf f m) as (s & l & C & CX & _ & LG & I & T). cbv zeta in *.
    set (x := data_received c e buf f m) in *. clearbody x. unfold pushSessionUpdate, notify, emit in *. ms_in L. rewrite LG, <- !app_assoc in L. apply app_tail in L. subst lo.
    assert (kid (m_ctx m) s) as K.
    { apply (kid_trans _ (syncDownCounter c (dn_port f) (dn_counter f) (m_ctx m))); [|now apply kid_ident].
      unfold syncDownCounter. destruct (_ && _); repeat split; reflexivity. }
    destruct (core_k _ _ C) as (A1 & A2 & A3 & A4 & A5). ms_in A1. ms_in A2. ms_in A3. ms_in A5.
    apply ks_kid; auto; ms; [rewrite CX; exact K|congruence|].
    apply Forall_app. split; [apply no_sess_saves, told_no_sess, T|]. apply Forall_app. split.
    + apply no_sess_saves. unfold down_end. destruct (m_op m), (dn_ack f); reflexivity.
    + constructor; [|constructor]. cbn [saves]. rewrite CX. exact K.
  - destruct (join_accepted_frame c buf f m) as (s & l & C & CX & _ & LG & U & _ & _ & _ & _ & _ & _ & RG & MG & _). cbv zeta in *.
    destruct (accepted_keys c buf f m) as (m1 & E1 & E2 & E3 & E4).
    destruct (core_k _ _ C) as (A1 & A2 & A3 & A4 & A5). ms_in A1. ms_in A2. ms_in A5.
    apply (ks_joined c app nwk m (join_accepted c buf f m) s lo _ _ _ CX A5 LG A1 A2); [| | |  |exact L].
    + rewrite E1. apply deriveKeys_ok; rewrite ?E4, ?E3; assumption.
    + congruence.
    + exact RG.
    + intros k Hk. rewrite E1, A1, <- E3, <- CX, <- E2. apply session_keys; rewrite ?E4, ?E3; assumption.
  - subst m'. apply same_log_tail in L. subst lo. apply ks_kid; auto; apply kid_refl.
  - rewrite H1 in L. apply same_log_tail in L. subst lo. destruct (core_k _ _ H0) as (A1 & A2 & A3 & A4 & A5). ms_in A5.
    apply ks_kid; auto; [rewrite A4; apply kid_refl|congruence].
  - rewrite H3 in L. apply app_tail in L. subst lo.
    destruct (fillJoin_fields c e (u16 (m_devNonce m)) (set_m_sm (m_sm m ++ sm) (set_m_trials 0 m))) as (t & buf & len & dn & E1 & _).
    assert (exists y, kcore (set_m_op OP_JOINING (set_m_sm (m_sm m ++ sm) (set_m_ctx (set_s_devNonce dn (m_ctx m)) m))) y /\ core m' = core y) as (y & Y & YC).
    { eexists. split; [|exact H2]. subst x. rewrite E1. unfold kcore. repeat split. }
    destruct (core_k _ _ YC) as (A1 & A2 & A3 & A4 & A5). destruct Y as (B1 & B2 & B3 & B4 & B5). ms_in B1. ms_in B2. ms_in B3. ms_in B4. ms_in B5.
    apply ks_out; [|rewrite A4, B4; exact HM|rewrite A4, B4; reflexivity|congruence|congruence|rewrite A4, B4; exact H0|].
    + rewrite A3, B3, H5. destruct (is_1_1 _); [now apply deriveJoinKeys_ok|exact HL].
    + intros _. right. congruence.
  - destruct NA.
  - rewrite H7 in L. apply app_tail in L. subst lo.
    assert (exists y, kcore (set_m_op op (set_m_ctx (sess_data c m) m)) y /\ core m' = core y) as (y & Y & YC).
    { eexists. split; [|exact H6]. unfold kcore. repeat split. }
    destruct (compose_op _ _ _ _ _ _ _ _ _ H5) as [D _].
    destruct (core_k _ _ YC) as (A1 & A2 & A3 & A4 & A5). destruct Y as (B1 & B2 & B3 & B4 & B5). ms_in B1. ms_in B2. ms_in B3. ms_in B4. ms_in B5.
    assert (kid (m_ctx m) (sess_data c m)) as K.
    { unfold sess_data, clear_single_shot, clearPendingCommand. destruct (is_1_1 (c_l2 c)), (c_txps c); repeat split; reflexivity. }
    apply (ks_kid c app nwk m m' _ HL HM HJ (eq_trans A1 B1) (eq_trans A2 B2) (eq_trans A3 B3)); [rewrite A4, B4; exact K|intros O; rewrite A5, B5 in O; rewrite O in D; discriminate D|constructor; [exact K|constructor]].
  - rewrite H2 in L. apply app_tail in L. subst lo. apply ks_op; auto. destruct (m_state m), (m_op m); reflexivity.
  - destruct (core_k _ _ H0) as (A1 & A2 & A3 & A4 & A5). pose proof (cancel_core _ _ _ _ HA) as CO. destruct (core_k _ _ CO) as (B1 & B2 & B3 & B4 & B5).
    ms_in B1. ms_in B2. ms_in B3. ms_in B4. ms_in B5.
    assert (m_ctx m' = forgotten (m_ctx m) (m_maxDutyCycle x) (c_txps c)) as EC by (rewrite A4, <- B4; reflexivity).
    destruct (forgotten_facts (m_ctx m) (m_maxDutyCycle x) (c_txps c)) as (_ & F1 & F2 & F3 & _). rewrite <- EC in F1, F2, F3.
    assert (m_sm m' = m_sm m) as ES by (rewrite A3, <- B3; reflexivity).
    apply ks_out; auto.
    + now rewrite ES.
    + rewrite A1, <- B1. reflexivity.
    + rewrite A2, <- B2. reflexivity.
    + intros O. change (m_op (forgetNetwork c x)) with (m_op x) in A5. congruence.
  - destruct H as (r0 & p & a & dd & cc & kk & ->). destruct (core_k _ _ H2) as (A1 & A2 & A3 & A4 & A5). ms_in A1. ms_in A2. ms_in A3. ms_in A4. ms_in A5.
    apply ks_kid; auto; [rewrite A4; repeat split; reflexivity|congruence|].
    destruct H4 as [E|E]; rewrite E in L; [apply same_log_tail in L|apply app_tail in L]; subst lo; [constructor|].
    constructor; [|constructor]. repeat split; reflexivity.
Qed.

Definition keys_ok (c : cfg) (app nwk : list Z) (so0 : option session) (l : list out) (m : mac) : Prop :=
  so (m_op m) (m_state m) = true /\ eui_ok (m_joinEUI m) /\ eui_ok (m_devEUI m) /\ log_ok (m_sm m) /\ s_magic (m_ctx m) = sessionMagicNumber /\
  (m_op m = OP_JOINING -> s_joined (m_ctx m) = false /\
     (is_1_1 (c_l2 c) = true -> key_of L2_1_1 app nwk (m_sm m) KEY_JSINT = aes128 nwk (kdf_block_js 6 (m_devEUI m)) /\
                                key_of L2_1_1 app nwk (m_sm m) KEY_JSENC = aes128 nwk (kdf_block_js 5 (m_devEUI m)))) /\
  (s_joined (m_ctx m) = true ->
     (forall k, net_key k -> key_of (c_l2 c) app nwk (m_sm m) k = session_key c app nwk (m_joinEUI m) (m_ctx m) k) /\
     exists s, last_session so0 l = Some s /\ kid (m_ctx m) s).

Lemma last_app so0 l l' : last_session so0 (l ++ l') = last_session (last_session so0 l) l'.
Proof. apply fold_left_app. Qed.
Lemma last_kid t lo so0 : Forall (saves t) lo -> (exists s, so0 = Some s /\ kid t s) \/ existsb is_sess lo = true -> exists s, last_session so0 lo = Some s /\ kid t s.
Proof.
  revert so0. induction lo as [|o lo IH]; intros so0 F H.
  - destruct H as [H|H]; [exact H|discriminate H].
  - inversion F as [|x y F1 F2]; subst. unfold last_session in *. cbn [fold_left]. cbn [existsb] in H.
    destruct o as [[]| | | |]; try (apply IH; [exact F2|destruct H as [H|H]; [left; exact H|right; exact H]]).
    apply IH; [exact F2|]. left. eexists. split; [reflexivity|exact F1].
Qed.

Lemma keys_step c app nwk so0 l m m' lo : keys_ok c app nwk so0 l m -> so (m_op m') (m_state m') = true -> block app -> block nwk ->
  key_step c app nwk m m' lo -> keys_ok c app nwk so0 (l ++ lo) m' /\ m_joinEUI m' = m_joinEUI m /\ m_devEUI m' = m_devEUI m /\ s_region (m_ctx m') = s_region (m_ctx m).
Proof.
  intros (S & EJ & ED & LO & MG & J & N) S' Ha Hn (K1 & K2 & K3 & K4 & K5 & K6 & K7).
  split; [|split; [exact K1|split; [exact K2|exact K5]]]. unfold keys_ok. rewrite K1, K2. repeat (split; [assumption|]). split.
  - intros O. destruct (K6 O) as [A B]. split; [exact A|]. intros V. destruct B as [[B1 B2]|B].
    + rewrite B1. now apply J.
    + rewrite B, V. apply derived_join; try assumption; apply ED.
  - intros JN. destruct (K7 JN) as [F B]. rewrite last_app. destruct B as [[B1 B2]|[B1 B2]].
    + pose proof B1 as (B3 & _). rewrite JN in B3. symmetry in B3. destruct (N B3) as [N1 (s & N2 & N3)]. split.
      * intros k Hk. rewrite B2, N1 by exact Hk. symmetry. now apply kid_key.
      * apply last_kid; [exact F|]. left. exists s. split; [exact N2|]. exact (kid_trans _ _ _ (kid_sym _ _ B1) N3).
    + split; [rewrite <- K1; exact B2|]. apply last_kid; [exact F|]. right. exact B1.
Qed.

Lemma keys_start c r a e app nwk : block app -> block nwk -> arg_ok a -> keys_ok c app nwk (ia_session a) [] (MAC_init c r a e).
Proof.
  intros Ha Hn ([J1 J2] & [D1 D2] & _). destruct (init_facts c r a e) as (E1 & E2 & _ & _ & _ & E6 & E7 & _). cbv zeta in *.
  destruct (init_up c r a e) as (_ & MG & _). unfold keys_ok. rewrite E1, E2, E6, E7.
  split; [reflexivity|]. split; [split; assumption|]. split; [split; assumption|].
  assert (log_ok (m_sm (MAC_init c r a e)) /\ (s_joined (m_ctx (MAC_init c r a e)) = true ->
    (forall k, net_key k -> key_of (c_l2 c) app nwk (m_sm (MAC_init c r a e)) k = session_key c app nwk (ia_joinEUI a) (m_ctx (MAC_init c r a e)) k) /\
    exists s, ia_session a = Some s /\ kid (m_ctx (MAC_init c r a e)) s)) as [A B].
  { rewrite init_sm, init_ctx. destruct (fresh_facts c r) as (_ & _ & _ & FJ & _). destruct (ia_session a) as [s|]; [|split; [constructor|rewrite FJ; discriminate]].
    destruct (_ && _); [|split; [constructor|rewrite FJ; discriminate]]. set (y := set_m_ctx s (initSession c r (mac_zero a))).
    assert (log_ok (m_sm y) /\ m_joinEUI y = ia_joinEUI a /\ m_ctx y = s) as (Y1 & Y2 & Y3) by (repeat split; constructor). clearbody y. split.
    - apply deriveKeys_ok; [assumption|rewrite Y2; assumption|rewrite Y2; assumption].
    - intros _. split; [|exists s; split; [reflexivity|apply kid_refl]]. rewrite <- Y3, <- Y2. apply session_keys; rewrite ?Y2; assumption. }
  split; [exact A|]. split; [exact MG|]. split; [discriminate|exact B].
Qed.

Theorem keys_always c r a e h app nwk : block app -> block nwk -> arg_ok a -> Forall (fun x => not_abp (snd x)) h ->
  let m := run c h (MAC_init c r a e) in
  keys_ok c app nwk (ia_session a) (m_log m) m /\ m_joinEUI m = ia_joinEUI a /\ m_devEUI m = ia_devEUI a /\ s_region (m_ctx m) = r.
Proof.
  intros Ha Hn OK NA m. subst m. set (m0 := MAC_init c r a e).
  destruct (init_facts c r a e) as (_ & _ & LG & _ & _ & E6 & E7 & _). cbv zeta in *. destruct (init_up c r a e) as (_ & _ & RG). fold m0 in LG, E6, E7, RG.
  assert (m_log (run c h m0) = outs (items c h m0)) as EL by (rewrite outs_items, LG; reflexivity). rewrite EL.
  refine (hist_ind c (fun x => not_abp (snd x)) (fun l m => keys_ok c app nwk (ia_session a) (outs l) m /\ m_joinEUI m = ia_joinEUI a /\ m_devEUI m = ia_devEUI a /\ s_region (m_ctx m) = r) _ _ h [] m0 _ NA).
  - intros l x x' lo (K & I1 & I2 & I3) Q L P. rewrite outs_app, outs_map. pose proof K as (S & _ & _ & LO & MG & J & _).
    destruct (keys_step c app nwk (ia_session a) (outs l) x x' lo K) as (A & B1 & B2 & B3); [eapply quiet_so; eauto|assumption|assumption| |].
    + apply ks_core; [assumption|assumption|apply J|apply Q|]. apply no_sess_saves, plain_no_sess, P.
    + split; [exact A|]. split; [congruence|]. split; congruence.
  - intros l x e1 k ret x' lo (K & I1 & I2 & I3) NK AC L. cbn [snd] in NK. rewrite !outs_app, outs_reqs, outs_map. cbn [List.app]. pose proof K as (S & EJ & ED & LO & MG & J & _).
    destruct (keys_step c app nwk (ia_session a) (outs l) x x' lo K) as (A & B1 & B2 & B3); [eapply act_so; eauto|assumption|assumption| |].
    + eapply act_keys; eauto. apply J.
    + split; [exact A|]. split; [congruence|]. split; congruence.
  - split; [apply keys_start; assumption|]. split; [assumption|]. split; assumption.
Qed.

(* while joined, the keys in use are those of the session *)
Theorem keys_match c r a e h app nwk : block app -> block nwk -> arg_ok a -> Forall (fun x => not_abp (snd x)) h ->
  let m := run c h (MAC_init c r a e) in s_joined (m_ctx m) = true ->
  forall k, net_key k -> key_of (c_l2 c) app nwk (m_sm m) k = session_key c app nwk (ia_joinEUI a) (m_ctx m) k.
Proof.
  intros Ha Hn OK NA m JN. destruct (keys_always c r a e h app nwk Ha Hn OK NA) as ((_ & _ & _ & _ & _ & _ & N) & I1 & _). fold m in N, I1.
  rewrite <- I1. exact (proj1 (N JN)).
Qed.

(* while joining, the join keys of a 1.1 build are those of the device *)
Theorem join_keys_match c r a e h app nwk : block app -> block nwk -> arg_ok a -> Forall (fun x => not_abp (snd x)) h -> c_l2 c = L2_1_1 ->
  let m := run c h (MAC_init c r a e) in m_op m = OP_JOINING ->
  let key := key_of L2_1_1 app nwk (m_sm m) in
  key KEY_JSINT = aes128 nwk (kdf_block_js 6 (ia_devEUI a)) /\ key KEY_JSENC = aes128 nwk (kdf_block_js 5 (ia_devEUI a)).
Proof.
  intros Ha Hn OK NA V m O. destruct (keys_always c r a e h app nwk Ha Hn OK NA) as ((_ & _ & _ & _ & _ & J & _) & _ & I2 & _). fold m in J, I2.
  cbv zeta. rewrite <- I2. apply J; [exact O|]. now rewrite V.
Qed.

(* a restart from the last session handed over brings the same keys back *)
Theorem keys_survive c r a e h a' e' app nwk : block app -> block nwk -> arg_ok a -> Forall (fun x => not_abp (snd x)) h ->
  let m := run c h (MAC_init c r a e) in s_joined (m_ctx m) = true ->
  ia_session a' = last_session (ia_session a) (m_log m) -> ia_joinEUI a' = ia_joinEUI a ->
  let m' := MAC_init c r a' e' in
  s_joined (m_ctx m') = true /\ s_devNonce (m_ctx m') = s_devNonce (m_ctx m) /\
  forall k, net_key k -> key_of (c_l2 c) app nwk (m_sm m') k = key_of (c_l2 c) app nwk (m_sm m) k.
Proof.
  intros Ha Hn OK NA m JN ES EJ m'. destruct (keys_always c r a e h app nwk Ha Hn OK NA) as ((_ & _ & _ & _ & MG & _ & N) & I1 & I2 & I3). fold m in MG, N, I1, I3.
  destruct (N JN) as [N1 (s & N2 & K)]. pose proof K as (K1 & _ & _ & K4 & _ & K6 & K7). rewrite N2 in ES.
  assert (m_ctx m' = s) as EC.
  { unfold m'. rewrite init_ctx, ES, K6, K7, MG, I3, Z.eqb_refl, (proj2 (region_eqb_eq r r) eq_refl). reflexivity. }
  rewrite EC. split; [congruence|]. split; [exact K4|]. intros k Hk. rewrite N1 by exact Hk. rewrite <- (kid_key c app nwk _ _ s) by exact K. rewrite I1, <- EJ.
  unfold m'. rewrite init_sm, ES, K6, K7, MG, I3, Z.eqb_refl, (proj2 (region_eqb_eq r r) eq_refl). cbn [andb].
  apply (session_keys c (set_m_ctx s (initSession c r (mac_zero a')))); try assumption; try constructor; cbn; rewrite EJ; apply OK.
Qed.
