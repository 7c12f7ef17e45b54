(* What accepting a downlink changes. *)
From Verif Require Import Lib StreamM FrameM CommandsM RegionM RadioM SmM MacStateM MacTac MacUtilM OpsM MacCmdM MacProcM MacApiM MacRw CoreP CaseP SpecExec ExecP.

(* identity and counters of a session *)
Definition same_ident (s s' : session) : Prop :=
  s_up s' = s_up s /\ s_appDown s' = s_appDown s /\ s_nwkDown s' = s_nwkDown s /\
  s_devAddr s' = s_devAddr s /\ s_joined s' = s_joined s /\ s_version s' = s_version s /\
  s_netID s' = s_netID s /\ s_joinNonce s' = s_joinNonce s /\ s_devNonce s' = s_devNonce s /\
  s_region s' = s_region s /\ s_magic s' = s_magic s /\ s_adr s' = s_adr s.

Lemma ident_refl s : same_ident s s. Proof. unfold same_ident. repeat split; reflexivity. Qed.
Lemma ident_trans a b c : same_ident a b -> same_ident b c -> same_ident a c.
Proof. unfold same_ident. intros H1 H2. decompose [and] H1. decompose [and] H2. repeat split; congruence. Qed.

Definition reported (o : out) : bool :=
  match o with OEvent (EV_LINK_STATUS _ _) | OEvent (EV_DEVICE_TIME _ _) => true | _ => false end.

(* only the session and the log, and those in this way *)
Definition told (m m' : mac) : Prop :=
  exists s l, m' = set_m_ctx s (set_m_log (m_log m ++ l) m) /\ same_ident (m_ctx m) s /\ forallb reported l = true.

Lemma told_ctx m s : same_ident (m_ctx m) s -> told m (set_m_ctx s m).
Proof. intros H. exists s, []. rewrite app_nil_r. split; [destruct m; reflexivity|auto]. Qed.
Lemma told_refl m : told m m.
Proof. exists (m_ctx m), []. rewrite app_nil_r. split; [destruct m; reflexivity|]. split; [apply ident_refl|reflexivity]. Qed.
Lemma told_emit m o : reported o = true -> told m (emit o m).
Proof. intros H. exists (m_ctx m), [o]. split; [destruct m; reflexivity|]. split; [apply ident_refl|]. cbn. now rewrite H. Qed.
Lemma told_trans a b c : told a b -> told b c -> told a c.
Proof.
  intros (s1 & l1 & -> & I1 & R1) (s2 & l2 & -> & I2 & R2). exists s2, (l1 ++ l2).
  split; [|split; [|rewrite forallb_app, R1, R2; reflexivity]].
  - change (m_log (set_m_ctx s1 (set_m_log (m_log a ++ l1) a))) with (m_log a ++ l1). rewrite <- app_assoc. reflexivity.
  - eapply ident_trans; eauto.
Qed.

Lemma ident_pending t s s' : same_ident s s' -> same_ident s (setPendingCommand t s').
Proof. intros H. exact H. Qed.
Lemma ident_clear t s s' : same_ident s s' -> same_ident s (clearPendingCommand t s').
Proof. intros H. exact H. Qed.

Lemma linkADR_ident dr pw mk ctl nb last s st : same_ident s (fst (do_linkADR dr pw mk ctl nb last s st)).
Proof.
  destruct (do_linkADR_frame dr pw mk ctl nb last s st) as [E _]. cbv zeta in E. rewrite E. generalize (fst (do_linkADR dr pw mk ctl nb last s st)).
  intros x. apply (ident_refl s).
Qed.
Lemma setChannel_ident s ch f lo hi : same_ident s (fst (setChannel s ch f lo hi)).
Proof.
  unfold setChannel. destruct (_ && _); [|apply ident_refl]. cbv zeta. destruct (_ =? 0); [apply (ident_refl s)|].
  destruct (validateFreq _ _); apply (ident_refl s).
Qed.

Lemma do_command_told c e d last m st : told m (fst (do_command c e d last m st)).
Proof.
  destruct d; cbn [do_command fst];
  try (apply told_ctx; apply (ident_refl (m_ctx m)));
  try (apply told_emit; reflexivity); try apply told_refl.
  - match goal with |- context [do_linkADR ?a ?b ?x ?d ?n last (m_ctx m) st] =>
      pose proof (linkADR_ident a b x d n last (m_ctx m) st) as H end.
    destruct (do_linkADR _ _ _ _ _ _ _ _) as [s st']. apply told_ctx. exact H.
  - destruct (isDynamic _); [|apply told_refl]. apply told_ctx. apply ident_pending.
    destruct (_ && _); [|apply (ident_refl (m_ctx m))].
    eapply ident_trans; [|apply setChannel_ident]. apply (ident_refl (m_ctx m)).
  - destruct (_ && _); [|apply told_refl]. apply told_ctx. apply (ident_refl (m_ctx m)).
  - destruct (isDynamic _); [|apply told_refl]. apply told_ctx. apply (ident_refl (m_ctx m)).
  - destruct (_ =? _); [|apply told_refl]. apply told_ctx. apply (ident_refl (m_ctx m)).
Qed.

Lemma processCommands_told c e l m : told m (processCommands c e l m).
Proof.
  apply processCommands_inv.
  - intros d last x st H. eapply told_trans; [exact H|apply do_command_told].
  - apply told_ctx. apply (ident_refl (m_ctx m)).
  - intros x H. eapply told_trans; [exact H|]. apply told_ctx. apply (ident_refl (m_ctx x)).
Qed.

Lemma core_op v m : core (set_m_op v m) = set_m_op v (core m). Proof. reflexivity. Qed.
Lemma core_ctx v m : core (set_m_ctx v m) = set_m_ctx v (core m). Proof. reflexivity. Qed.
Lemma ctx_ctx v w m : set_m_ctx v (set_m_ctx w m) = set_m_ctx v m. Proof. reflexivity. Qed.

Definition told_rx (o : out) : bool :=
  reported o || match o with OEvent (EV_RX _ _) => true | _ => false end.

(* the events that end the operation *)
Definition down_end (m : mac) (f : frame_down) : list out :=
  match m_op m with
  | OP_DATA_CONFIRMED => [OEvent (if dn_ack f then EV_DATA_COMPLETE else EV_DATA_TIMEOUT)]
  | OP_REJOINING => []
  | _ => [OEvent EV_DATA_COMPLETE]
  end.

Lemma data_received_frame c e buf f m :
  exists s l, let m' := data_received c e buf f m in
  core m' = core (set_m_op OP_NONE (set_m_ctx s (set_m_fPending (dn_pending f) (set_m_adrAckReq false (set_m_adrAckCounter 0 m))))) /\
  m_ctx m' = s /\ m_state m' = ST_IDLE /\ m_log m' = m_log m ++ l ++ down_end m f /\
  same_ident (syncDownCounter c (dn_port f) (dn_counter f) (m_ctx m)) s /\ forallb told_rx l = true.
Proof.
  cbv zeta. remember (data_received c e buf f m) as R eqn:ER. symmetry in ER. open_def data_received in ER.
  ltn ER ma. ltn ER mb. ltn ER mc. ltn ER m1.
  assert (core m1 = core (set_m_ctx (m_ctx m1) (set_m_fPending (dn_pending f) (set_m_adrAckReq false (set_m_adrAckCounter 0 m))))) as E1.
  { unfold on_ctx in Emc. revert Emc. generalize (clearPendingCommand CMD_RX_TIMING_SETUP (clearPendingCommand CMD_DL_CHANNEL
               (clearPendingCommand CMD_RX_PARAM_SETUP
                 (syncDownCounter c (dn_port f) (dn_counter f) (m_ctx mb))))). intros s0 Emc.
    rewrite Em1, Emc. ms. rewrite Emb, Ema. reflexivity. }
  assert (m_log m1 = m_log m) as L1 by (subst; reflexivity).
  assert (m_op m1 = m_op m) as O1 by (subst; reflexivity).
  assert (same_ident (syncDownCounter c (dn_port f) (dn_counter f) (m_ctx m)) (m_ctx m1)) as I1
    by (subst; apply (ident_refl (syncDownCounter c (dn_port f) (dn_counter f) (m_ctx m)))).
  clear Ema Emb Emc Em1 ma mb mc. ltn ER m2.
  assert (told m1 m2) as (s2 & l2 & E2 & I2 & R2)
    by (rewrite Em2; destruct (dn_opts f); [apply processCommands_told|apply told_refl]).
  clear Em2. ltn ER m3.
  assert (exists s3 l3, m3 = set_m_ctx s3 (set_m_log (m_log m2 ++ l3) m2) /\ same_ident (m_ctx m2) s3 /\ forallb told_rx l3 = true)
    as (s3 & l3 & E3 & I3 & R3).
  { assert (forall x, told m2 x -> exists s3 l3, x = set_m_ctx s3 (set_m_log (m_log m2 ++ l3) m2) /\ same_ident (m_ctx m2) s3 /\ forallb told_rx l3 = true) as HT.
    { intros x (s & l & E & I0 & R0). exists s, l. split; [exact E|]. split; [exact I0|].
      apply forallb_forall. intros o Ho. unfold told_rx. rewrite (proj1 (forallb_forall _ _) R0 o Ho). reflexivity. }
    rewrite Em3. destruct (dn_data f) as [off|]; [|apply HT; apply told_refl]. cbv zeta.
    destruct (dn_port f =? 0); [apply HT; apply processCommands_told|].
    exists (m_ctx m2). eexists. split; [|split; [apply ident_refl|]].
    - unfold notify, emit. instantiate (1 := [_]). destruct m2; reflexivity.
    - reflexivity. }
  clear Em3. ltn ER m4.
  assert (m_op m3 = m_op m) as O3 by (rewrite E3, E2; ms; exact O1).
  assert (m4 = set_m_log (m_log m3 ++ down_end m f) m3) as E4.
  { rewrite Em4. unfold down_end. rewrite O3. destruct (m_op m); try reflexivity. rewrite app_nil_r. destruct m3; reflexivity. }
  clear Em4 O3. subst R.
  exists s3, (l2 ++ l3). subst m4 m3 m2.
  split; [|split; [|split; [|split; [|split]]]].
  - rewrite core_op, core_state, core_log, core_ctx, core_log, core_ctx, core_log, ctx_ctx, E1, core_ctx, ctx_ctx. reflexivity.
  - reflexivity.
  - reflexivity.
  - ms. rewrite L1, <- !app_assoc. reflexivity.
  - eapply ident_trans; [exact I1|]. eapply ident_trans; [exact I2|exact I3].
  - rewrite forallb_app, R3, andb_true_r. apply forallb_forall. intros o Ho. unfold told_rx.
    rewrite (proj1 (forallb_forall _ _) R2 o Ho). reflexivity.
Qed.

Lemma deriveKeys_sm c m : exists l, deriveKeys c m = set_m_sm (m_sm m ++ l) m.
Proof.
  open_def deriveKeys. destruct (_ =? 0); unfold sm_update; eexists (_ :: _ :: _ :: _ :: nil); ms;
  rewrite <- !app_assoc; reflexivity.
Qed.

Lemma chan_step_ident s x : same_ident s (chan_step s x).
Proof. destruct x; cbn [chan_step]; [apply setChannel_ident|apply (ident_refl s)|apply (ident_refl s)]. Qed.
Lemma chan_steps_ident l : forall s, same_ident s (chan_steps s l).
Proof.
  induction l as [|x l IH]; intros s; [apply ident_refl|]. cbn [chan_steps fold_left].
  eapply ident_trans; [apply (chan_step_ident s x)|apply IH].
Qed.

Lemma join_accepted_frame c buf f m :
  exists s l, let m' := join_accepted c buf f m in
  core m' = core (set_m_op OP_NONE (set_m_joinNonce (u32 (dn_joinNonce f + 1)) (set_m_sm (m_sm m ++ l) (set_m_ctx s m)))) /\
  m_ctx m' = s /\ m_state m' = ST_IDLE /\
  m_log m' = m_log m ++ [OEvent (EV_JOIN_COMPLETE (u32 (dn_joinNonce f + 1)) (dn_netID f) (dn_devAddr f))] /\
  s_up s = s_up (m_ctx m) /\ s_appDown s = s_appDown (m_ctx m) /\ s_nwkDown s = s_nwkDown (m_ctx m) /\
  s_joined s = true /\ s_devAddr s = dn_devAddr f /\ s_netID s = dn_netID f /\ s_joinNonce s = dn_joinNonce f /\
  s_region s = s_region (m_ctx m) /\ s_magic s = s_magic (m_ctx m) /\ s_devNonce s = s_devNonce (m_ctx m).
Proof.
  cbv zeta. remember (join_accepted c buf f m) as R eqn:ER. symmetry in ER. open_def join_accepted in ER.
  ltn ER s0. ltn ER s1. ltn ER s2. ltn ER s3. ltn ER s4. ltn ER s5. ltn ER s6. ltn ER s7. ltn ER m1. ltn ER m2. ltn ER m3. ltn ER m4. ltn ER m5.
  assert (same_ident s3 s4) as I4 by (rewrite Es4; destruct (dn_cfList f); [apply chan_steps_ident|apply ident_refl]).
  assert (same_ident (set_s_version (s_version s6) s5) s6) as I6.
  { rewrite Es6. destruct (is_1_1 _); [|destruct s5; apply ident_refl]. cbv zeta. destruct (_ >? 0); apply (ident_refl (set_s_version (if dn_optNeg f then 1 else 0) s5)). }
  clear Es4 Es6.
  destruct (deriveKeys_sm c m1) as (l & EK). rewrite <- Em2 in EK.
  exists s7, l. subst R.
  assert (m_sm m1 = m_sm m) as SM by (rewrite Em1; reflexivity).
  split; [|split; [|split; [|split]]].
  - rewrite Em5, Em4, Em3, EK, SM, Em1. unfold notify, emit, band_set. rewrite core_log, !core_op, core_state, core_day, core_band. reflexivity.
  - rewrite Em5, Em4, Em3, EK, Em1. unfold notify, emit, band_set. ms. reflexivity.
  - rewrite Em5. unfold notify, emit. ms. reflexivity.
  - rewrite Em5, Em4, Em3, EK, Em1. unfold notify, emit, band_set. ms. rewrite Es7. ms.
    do 4 f_equal. unfold same_ident in I6. decompose [and] I6.
    assert (s_devAddr s6 = s_devAddr s5) as -> by assumption. rewrite Es5. reflexivity.
  - unfold same_ident in I4, I6. decompose [and] I4. decompose [and] I6. clear I4 I6.
    rewrite Es7. ms. repeat match goal with H : ?p s6 = _ |- _ => ms_in H; rewrite H; clear H end.
    rewrite Es5. ms. repeat match goal with H : ?p s4 = _ |- _ => ms_in H; rewrite H; clear H end.
    rewrite Es3, Es2, Es1, Es0. ms. repeat split; reflexivity.
Qed.

(* --- which frames are accepted during which operation --- *)

Lemma decode_type v inb n f : Frame_decode v inb n = Some f ->
  exists b, snd (StreamM.Stream_read (StreamM.Stream_initReadOnly inb n) 1) = Some b /\ getFrameType v (byte_at b 0) = Some (dn_type f).
Proof.
  unfold Frame_decode, Frame_decode_s. cbv zeta.
  destruct (StreamM.Stream_read _ _) as [s [b|]]; [|discriminate]. cbn [snd]. intros H. exists b. split; [reflexivity|].
  assert (forall s f, snd (decode_join s) = Some f -> dn_type f = FT_JOIN_ACCEPT) as HJ.
  { clear. intros s f. unfold decode_join. repeat (match goal with |- context [let (_, _) := ?x in _] => destruct x end).
    cbn [snd]. destruct (_ && _); [|discriminate]. intros [= <-]. reflexivity. }
  assert (forall ty s f, snd (decode_data ty s) = Some f -> dn_type f = ty) as HD.
  { clear. intros ty s f. unfold decode_data. cbv zeta.
    repeat (match goal with |- snd (let (_, _) := ?x in _) = _ -> _ => destruct x end).
    cbn [snd]. destruct (_ && _); [|discriminate]. intros [= <-]. reflexivity. }
  destruct (getFrameType v (byte_at b 0)) as [[]|]; try discriminate H; [rewrite (HJ _ _ H)|rewrite (HD _ _ _ H)|rewrite (HD _ _ _ H)]; reflexivity.
Qed.

Lemma first_splice l off d : (0 < off)%nat -> (0 < length l)%nat -> slice (splice l off d) 0 1 = slice l 0 1.
Proof.
  intros H1 H2. destruct l as [|x l]; [cbn in H2; lia|]. destruct off as [|off]; [lia|]. reflexivity.
Qed.

Lemma decode_type_same v a b n f g : slice a 0 1 = slice b 0 1 ->
  Frame_decode v a n = Some f -> Frame_decode v b n = Some g -> dn_type f = dn_type g.
Proof.
  intros E Hf Hg. apply decode_type in Hf. apply decode_type in Hg.
  destruct Hf as (x & X1 & X2), Hg as (y & Y1 & Y2). unfold Stream_read, Stream_initReadOnly in *.
  cbn [st_err st_size st_pos st_buf snd] in *. destruct (1 <=? n - 0); cbn [snd] in *; try discriminate.
  change (Z.to_nat 0) with 0%nat in *. change (Z.to_nat 1) with 1%nat in *. congruence.
Qed.

Lemma rx_buffer_length e : length (rx_buffer e) = 255%nat.
Proof. unfold rx_buffer, fill. rewrite firstn_length, app_length, repeat_length. lia. Qed.

Lemma receiveFrame_op c m e buf f : receiveFrame c m (rx_buffer e) (rx_len e) = (buf, Some f) ->
  if is_rx_data f then is_data (m_op m) = true \/ m_op m = OP_REJOINING
  else (m_op m = OP_JOINING \/ m_op m = OP_REJOINING) /\ dn_type f = FT_JOIN_ACCEPT.
Proof.
  unfold receiveFrame. destruct (Frame_decode (c_l2 c) (rx_buffer e) (rx_len e)) as [g|] eqn:D; [|discriminate].
  destruct (dn_type g) eqn:T; try discriminate.
  - unfold receiveJoin.
    set (joining := match m_op m with OP_JOINING => true | _ => false end).
    set (key := if joining then KEY_NWK else KEY_JSENC). 
    set (b1 := ecb_at c m key 1 (rx_buffer e)).
    set (b2 := if rx_len e =? Frame_sizeofJoinAccept true then _ else b1).
    assert (slice b2 0 1 = slice (rx_buffer e) 0 1) as SL.
    { assert (slice b1 0 1 = slice (rx_buffer e) 0 1) as S1 by (apply first_splice; [lia|rewrite rx_buffer_length; lia]).
      assert (0 < length b1)%nat as L1.
      { unfold b1, ecb_at, splice. rewrite !app_length, firstn_length, rx_buffer_length. cbn. lia. }
      unfold b2. destruct (_ =? _); [|exact S1]. rewrite <- S1. apply first_splice; [cbn; lia|exact L1]. }
    cbv zeta. clearbody b2. clear b1.
    destruct (m_op m) eqn:O; try discriminate;
    (destruct (Frame_decode (c_l2 c) b2 (rx_len e)) as [h|] eqn:D2; [|discriminate];
     destruct (match c_l2 c with L2_1_0_3 => _ | _ => _ end); [discriminate|];
     destruct (_ =? _); [|discriminate]; intros H; injection H; intros EF _; rewrite <- EF;
     assert (dn_type h = FT_JOIN_ACCEPT) as TH by (rewrite (decode_type_same _ _ _ _ _ _ SL D2 D); exact T);
     unfold is_rx_data; rewrite TH; auto).
  - unfold receiveData. destruct (m_op m) eqn:O; try discriminate;
    (destruct (_ =? _); [|discriminate]; cbv zeta; destruct (_ =? _); [|discriminate]; intros H; injection H; intros EF _; rewrite <- EF;
    unfold is_rx_data; rewrite T; auto).
  - unfold receiveData. destruct (m_op m) eqn:O; try discriminate;
    (destruct (_ =? _); [|discriminate]; cbv zeta; destruct (_ =? _); [|discriminate]; intros H; injection H; intros EF _; rewrite <- EF;
    unfold is_rx_data; rewrite T; auto).
Qed.
