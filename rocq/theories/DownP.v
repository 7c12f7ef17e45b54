(* Downlinks: what is delivered, the counter they are checked with, and that
   nothing stops a repeated one. *)
From Verif Require Import Lib StreamM FrameM CommandsM RegionM RadioM SmM MacStateM MacTac MacUtilM OpsM MacCmdM MacProcM MacApiM MacRw CoreP CaseP RxP SpecFrame SpecHist SpecDecode SpecAes SpecSm SpecRx FrameP FrameDecP FrameRtP SmP HistP EndP TxP WindowP UplinkP ReadyP DataP AcceptP GenuineP CtxP.

(* --- the same session --- *)

Definition joined_ok (m : mac) : Prop :=
  (is_data (m_op m) = true -> s_joined (m_ctx m) = true) /\ (m_op m = OP_JOINING -> s_joined (m_ctx m) = false).
Definition stay (m m' : mac) : Prop :=
  m_sm m' = m_sm m /\ s_devAddr (m_ctx m') = s_devAddr (m_ctx m) /\ s_version (m_ctx m') = s_version (m_ctx m) /\ s_joined (m_ctx m') = s_joined (m_ctx m).
Lemma stay_refl m : stay m m. Proof. repeat split. Qed.
Lemma stay_trans a b d : stay a b -> stay b d -> stay a d.
Proof. unfold stay. intros (?&?&?&?) (?&?&?&?). repeat split; congruence. Qed.
Lemma core_stay m m' : core m' = core m -> stay m m'.
Proof. intros C. apply core_fields in C. unfold same_core in C. unfold stay. destruct C as (_ & _ & _ & _ & _ & _ & _ & E3 & E4 & _). rewrite E3, E4. auto. Qed.

Definition keeps (m m' : mac) : Prop := joined_ok m' /\ (s_joined (m_ctx m) = true -> stay m m').
Lemma keeps_core m x m' : core m' = core x -> keeps m x -> keeps m m'.
Proof.
  intros C [[K1 K2] K3]. pose proof (core_stay _ _ C) as S. pose proof (core_op_eq _ _ C) as O. split.
  - unfold joined_ok. rewrite O, (core_ctx _ _ C). auto.
  - intros J. eapply stay_trans; [apply K3, J|exact S].
Qed.
Lemma keeps_refl m : joined_ok m -> keeps m m.
Proof. intros. split; [assumption|]. intros. apply stay_refl. Qed.
Lemma keeps_none m x : m_op x = OP_NONE -> (s_joined (m_ctx m) = true -> stay m x) -> keeps m x.
Proof. intros O S. split; [|exact S]. unfold joined_ok. rewrite O. split; discriminate. Qed.

Lemma mic_stay c m : m_sm (micDataFrame c m) = m_sm m /\ m_ctx (micDataFrame c m) = m_ctx m /\ m_op (micDataFrame c m) = m_op m.
Proof. repeat split. Qed.

Lemma miss_keeps c e m m' : miss_case c e m m' -> m_op m = OP_JOINING \/ is_data (m_op m) = true -> joined_ok m -> keeps m m'.
Proof.
  intros HM HO [J1 J2]. destruct HM as [m2 D ? C S E|m2 D p C S E|m2 O ? C S E|m2 O ? C S E|D O].
  - eapply keeps_core; [exact C|]. destruct (mic_stay c (next_trial m)) as (E1 & E2 & E3). split.
    + unfold joined_ok. rewrite E2, E3. exact (conj J1 J2).
    + intros _. unfold stay. rewrite E1, E2. repeat split.
  - eapply keeps_core; [exact C|]. apply keeps_none; [reflexivity|].
    destruct (adaptRate_fields c (next_trial m)) as (s & n & b & E1 & E2 & _). cbv zeta in E1, E2. change (m_ctx (next_trial m)) with (m_ctx m) in E2.
    subst p. rewrite E1. intros _. destruct E2 as [->|[->|[->| ->]]]; repeat split.
  - eapply keeps_core; [exact C|].
    destruct (fillJoin_fields c e (u16 (m_devNonce m)) (next_trial m)) as (t & buf & len & dn & E1 & _). rewrite E1. split.
    + split; [|exact J2]. ms. change (m_op (next_trial m)) with (m_op m). rewrite O. discriminate.
    + intros _. repeat split.
  - eapply keeps_core; [exact C|]. apply keeps_none; [reflexivity|]. intros _. repeat split.
  - destruct HO; congruence.
Qed.

Lemma data_keeps c f o tx op m : s_joined (m_ctx m) = true -> is_data op = true -> keeps m (data_filled c f (data_base c o tx op m)).
Proof.
  intros J D. assert (m_ctx (data_filled c f (data_base c o tx op m)) = sess_data c m) as EC by (rewrite filled_ctx; reflexivity).
  assert (m_op (data_filled c f (data_base c o tx op m)) = op) as EO by reflexivity.
  assert (m_sm (data_filled c f (data_base c o tx op m)) = m_sm m) as ES by reflexivity.
  revert EC EO ES. generalize (data_filled c f (data_base c o tx op m)). intros x EC EO ES.
  assert (s_joined (sess_data c m) = s_joined (m_ctx m) /\ s_devAddr (sess_data c m) = s_devAddr (m_ctx m) /\ s_version (sess_data c m) = s_version (m_ctx m)) as (A & B & C).
  { unfold sess_data, clear_single_shot, clearPendingCommand. destruct (is_1_1 (c_l2 c)), (c_txps c); repeat split; reflexivity. }
  split.
  - unfold joined_ok. rewrite EC, EO, A. split; [auto|]. intros ->. discriminate D.
  - intros _. unfold stay. rewrite EC, ES. auto.
Qed.

Lemma push_core x : core (pushSessionUpdate x) = core x. Proof. reflexivity. Qed.

Lemma act_keeps c e m k r m' : act c e m k r m' -> k <> C_forget -> so (m_op m) (m_state m) = true -> joined_ok m -> keeps m m'.
Proof.
  intros HA NF HS J. destruct HA.
  - now apply keeps_refl.
  - destruct H as [C _]. eapply keeps_core; [exact C|now apply keeps_refl].
  - eapply keeps_core; [exact H1|now apply keeps_refl].
  - eapply keeps_core; [exact H0|]. apply keeps_none; [reflexivity|repeat split].
  - eapply miss_keeps; eauto. destruct (so_rx _ _ HS) as [D|D]; [tauto|auto|auto].
  - eapply keeps_core; [exact H1|]. apply keeps_none; [reflexivity|repeat split].
  - eapply keeps_core; [exact H2|]. eapply miss_keeps; eauto.
  - destruct (data_received_frame c e buf f m) as (s & l & C & _ & _ & _ & I & _). cbv zeta in *.
    apply (keeps_core _ _ _ (eq_trans (push_core _) C)).
    apply keeps_none; [reflexivity|]. intros _. unfold same_ident in I. decompose [and] I. unfold syncDownCounter in *. unfold stay. ms.
    destruct (_ && _) in *; repeat split; assumption.
  - destruct (join_accepted_frame c buf f m) as (s & l & C & _ & _ & _ & _). cbv zeta in *.
    apply (keeps_core _ _ _ (eq_trans (push_core _) C)).
    apply keeps_none; [reflexivity|]. intros JJ. exfalso. pose proof (receiveFrame_op _ _ _ _ _ H0) as O. rewrite H1 in O. destruct O as [[O|O] _].
    + destruct J as [_ J]. specialize (J O). congruence.
    + exact (so_not_rejoining _ _ HS O).
  - subst m'. exact (keeps_refl m J).
  - eapply keeps_core; [exact H0|]. split; [|intros _; repeat split]. split; discriminate.
  - eapply keeps_core; [exact H2|].
    destruct (fillJoin_fields c e (u16 (m_devNonce m)) (set_m_sm (m_sm m ++ sm) (set_m_trials 0 m))) as (t & buf & len & dn & E1 & _).
    subst x. rewrite E1. split; [|intros; congruence]. split; [discriminate|]. intros _. exact H0.
  - eapply keeps_core; [exact H1|]. apply keeps_none; [exact H|]. intros; congruence.
  - eapply keeps_core; [exact H6|]. apply data_keeps; [assumption|]. exact (proj1 (compose_op _ _ _ _ _ _ _ _ _ H5)).
  - destruct H as [->|[-> _]]; [|congruence]. eapply keeps_core; [exact H0|]. apply keeps_none; [reflexivity|repeat split].
  - congruence.
  - eapply keeps_core; [exact H2|]. destruct H as (r0 & p & a & dd & cc & kk & ->). split; [exact J|repeat split].
Qed.

Lemma act_joined_ok c e m k r m' : act c e m k r m' -> so (m_op m) (m_state m) = true -> joined_ok m -> joined_ok m'.
Proof.
  intros A S J. destruct k; try (eapply act_keeps; eauto; discriminate). 
  remember C_forget as k eqn:EK. destruct A; try discriminate EK; try (exfalso; subst; contradiction).
  - exact J.
  - subst m'. exact J.
  - eapply (keeps_core m _ m' H0). apply keeps_none; [reflexivity|repeat split].
  - apply core_op_eq in H0. change (m_op (forgetNetwork c x)) with (m_op x) in H0.
    inversion A; subst; try discriminate; try contradiction.
    + destruct H3 as [E3|[t E3]]; discriminate E3.
    + apply core_op_eq in H4. unfold joined_ok. rewrite H0, H4. split; discriminate.
Qed.

Theorem session_stays c h : forall m, so (m_op m) (m_state m) = true -> joined_ok m -> s_joined (m_ctx m) = true ->
  Forall (fun x => not_forget (snd x)) h -> stay m (run c h m).
Proof.
  intros m S J JM F.
  pose proof (hist_ind c (fun x => not_forget (snd x)) (fun _ x => so (m_op x) (m_state x) = true /\ joined_ok x /\ stay m x)) as H.
  destruct (fun A B => H A B h [] m (conj S (conj J (stay_refl m))) F) as (_ & _ & R); [| |exact R].
  - intros _ x x' lo (S1 & J1 & T1) QQ E P. pose proof (quiet_so _ _ QQ S1) as S2. destruct QQ as [[C _] _].
    split; [exact S2|]. destruct (keeps_core _ _ _ C (keeps_refl x J1)) as [K1 K2]. split; [exact K1|]. eapply stay_trans; [exact T1|]. now apply core_stay.
  - intros _ x e k r x' lo (S1 & J1 & T1) NF A E. destruct (act_keeps _ _ _ _ _ _ A NF S1 J1) as [K1 K2].
    split; [exact (act_so _ _ _ _ _ _ A S1)|]. split; [exact K1|]. eapply stay_trans; [exact T1|]. apply K2. destruct T1 as (_ & _ & _ & T). congruence.
Qed.

Lemma joined_always c h : forall m, so (m_op m) (m_state m) = true -> joined_ok m -> joined_ok (run c h m).
Proof.
  intros m S J.
  pose proof (hist_ind c (fun _ => True) (fun _ x => so (m_op x) (m_state x) = true /\ joined_ok x)) as H.
  destruct (fun A B => H A B h [] m (conj S J) (proj2 (Forall_forall _ _) (fun _ _ => I))) as (_ & R); [| |exact R].
  - intros _ x x' lo (S1 & J1) QQ E P. pose proof (quiet_so _ _ QQ S1) as S2. destruct QQ as [[C _] _]. split; [exact S2|]. exact (proj1 (keeps_core _ _ _ C (keeps_refl x J1))).
  - intros _ x e k r x' lo (S1 & J1) _ A E. split; [exact (act_so _ _ _ _ _ _ A S1)|]. exact (act_joined_ok _ _ _ _ _ _ A S1 J1).
Qed.

(* --- what is delivered --- *)

Definition rx_out (buf : bytes) (f : frame_down) : list out :=
  match dn_data f with
  | Some off => if dn_port f =? 0 then [] else [OEvent (EV_RX (dn_port f) (slice buf (Z.to_nat off) (Z.to_nat (dn_dataLen f))))]
  | None => []
  end.

Lemma filter_none l : forallb (fun o => negb (is_rx o)) l = true -> filter is_rx l = [].
Proof. induction l as [|o l IH]; [reflexivity|]. cbn. destruct (is_rx o); [discriminate|]. exact IH. Qed.
Lemma plain_no_rx lo : forallb plain lo = true -> filter is_rx lo = [].
Proof.
  intros H. apply filter_none, forallb_forall. intros o Ho. apply (proj1 (forallb_forall _ _) H) in Ho. destruct o as [[]| | | |]; try discriminate; reflexivity.
Qed.
Lemma reported_no_rx lo : forallb reported lo = true -> filter is_rx lo = [].
Proof.
  intros H. apply filter_none, forallb_forall. intros o Ho. apply (proj1 (forallb_forall _ _) H) in Ho. destruct o as [[]| | | |]; try discriminate; reflexivity.
Qed.
Lemma unheard_no_rx lo : forallb unheard lo = true -> filter is_rx lo = [].
Proof.
  intros H. apply filter_none, forallb_forall. intros o Ho. apply (proj1 (forallb_forall _ _) H) in Ho. destruct o as [[]| | | |]; try discriminate; reflexivity.
Qed.

Lemma data_rx c e buf f m : exists l, m_log (data_received c e buf f m) = m_log m ++ l /\ filter is_rx l = rx_out buf f.
Proof.
  remember (data_received c e buf f m) as R eqn:ER. symmetry in ER. open_def data_received in ER.
  ltn ER ma. ltn ER mb. ltn ER mc. ltn ER m1. assert (m_log m1 = m_log m) as L1 by (subst; reflexivity). clear Ema Emb Emc Em1 ma mb mc.
  ltn ER m2.
  assert (told m1 m2) as (s2 & l2 & E2 & _ & R2) by (rewrite Em2; destruct (dn_opts f); [apply processCommands_told|apply told_refl]). clear Em2.
  assert (m_log m2 = m_log m ++ l2) as L2 by (rewrite E2; ms; now rewrite L1). clear E2 L1.
  ltn ER m3.
  assert (exists l3, m_log m3 = m_log m2 ++ l3 /\ filter is_rx l3 = rx_out buf f) as (l3 & L3 & F3).
  { rewrite Em3. unfold rx_out. destruct (dn_data f) as [off|]; [|exists []; rewrite app_nil_r; auto]. cbv zeta.
    destruct (dn_port f =? 0).
    - destruct (processCommands_told c e (slice buf (Z.to_nat off) (Z.to_nat (dn_dataLen f))) m2) as (s & l & E & _ & RR). rewrite E. exists l. split; [reflexivity|now apply reported_no_rx].
    - eexists [_]. split; [reflexivity|reflexivity]. }
  clear Em3. ltn ER m4.
  assert (exists l4, m_log m4 = m_log m3 ++ l4 /\ filter is_rx l4 = []) as (l4 & L4 & F4).
  { rewrite Em4. destruct (m_op m3); try (eexists [_]; split; reflexivity).
    - exists []. rewrite app_nil_r. auto.
    - destruct (dn_ack f); (eexists [_]; split; reflexivity). }
  clear Em4. exists (l2 ++ l3 ++ l4). rewrite <- ER. split.
  - change (m_log m4 = m_log m ++ l2 ++ l3 ++ l4). rewrite L4, L3, L2, <- !app_assoc. reflexivity.
  - rewrite !filter_app, F3, F4, (reported_no_rx _ R2), app_nil_r. reflexivity.
Qed.

Lemma receive_core c m m' b n : core m' = core m -> receiveFrame c m' b n = receiveFrame c m b n.
Proof.
  intros C. apply core_fields in C. unfold same_core in C. destruct C as (E1 & E2 & _ & _ & _ & _ & E3 & E4 & E5 & _).
  unfold receiveFrame, receiveJoin, receiveData, ecb_at, ctr_at. rewrite E1, E2, E3, E4, E5. reflexivity.
Qed.

(* every delivery comes from one accepted frame, which ends the operation *)
Lemma act_rx c e m k r m' lo : act c e m k r m' -> m_log m' = m_log m ++ lo -> so (m_op m) (m_state m) = true ->
  filter is_rx lo = [] \/
  (k = C_process /\ in_rx (m_state m) = true /\ is_data (m_op m) = true /\ m_op m' = OP_NONE /\
   exists buf f, receiveFrame c m (rx_buffer e) (rx_len e) = (buf, Some f) /\ is_rx_data f = true /\ filter is_rx lo = rx_out buf f /\
     s_appDown (m_ctx m') = s_appDown (syncDownCounter c (dn_port f) (dn_counter f) (m_ctx m))).
Proof.
  intros HA L HS. destruct HA.
  - left. apply same_log_tail in L. subst. reflexivity.
  - left. destruct H as [C (l & E & P)]. rewrite E in L. apply app_tail in L. subst l. now apply plain_no_rx.
  - left. rewrite H2 in L. apply app_tail in L. subst lo. reflexivity.
  - left. rewrite H2 in L. apply app_tail in L. subst lo. reflexivity.
  - left. apply unheard_no_rx. eapply miss_kept; eauto. destruct (so_rx _ _ HS) as [D|D]; [tauto|auto|auto].
  - left. rewrite H3 in L. apply app_tail in L. subst lo. reflexivity.
  - left. destruct (miss_log _ _ _ _ H1) as (l1 & E1). rewrite H4, E1, <- app_assoc in L. apply app_tail in L. subst lo.
    rewrite filter_app. destruct (miss_kept c e m x l1 H1 E1 (or_introl H0)) as (A & _). now rewrite (unheard_no_rx _ A).
  - right. split; [reflexivity|]. split; [exact H|]. pose proof (receiveFrame_op _ _ _ _ _ H0) as O. rewrite H1 in O.
    split. { destruct O as [O|O]; [exact O|]. exfalso. exact (so_not_rejoining _ _ HS O). }
    destruct (data_received_frame c e buf f m) as (s & l & C & EC & _ & _ & I & _). cbv zeta in C, EC. split. { rewrite (core_op_eq _ _ (eq_trans (push_core _) C)). reflexivity. }
    exists buf, f. split; [exact H0|]. split; [exact H1|]. destruct (data_rx c e buf f m) as (l0 & L0 & F0).
    revert L L0 EC. generalize (data_received c e buf f m). intros x L L0 EC. unfold pushSessionUpdate, notify, emit in L. ms_in L. rewrite L0, <- app_assoc in L. apply app_tail in L. subst lo.
    split; [rewrite filter_app, F0; apply app_nil_r|]. change (m_ctx (pushSessionUpdate x)) with (m_ctx x). rewrite EC. unfold same_ident in I. tauto.
  - left. destruct (join_accepted_frame c buf f m) as (s & l & _ & _ & _ & LG & _). cbv zeta in *.
    revert L LG. generalize (join_accepted c buf f m). intros x L LG. unfold pushSessionUpdate, notify, emit in L. ms_in L. rewrite LG, <- app_assoc in L. apply app_tail in L. subst lo. reflexivity.
  - left. subst m'. apply same_log_tail in L. subst lo. reflexivity.
  - left. rewrite H1 in L. apply same_log_tail in L. subst lo. reflexivity.
  - left. rewrite H3 in L. apply app_tail in L. subst lo. reflexivity.
  - left. rewrite H2 in L. apply same_log_tail in L. subst lo. reflexivity.
  - left. rewrite H7 in L. apply app_tail in L. subst lo. reflexivity.
  - left. rewrite H2 in L. apply app_tail in L. subst lo. destruct (m_state m), (m_op m); reflexivity.
  - left. inversion HA; subst; try discriminate; try contradiction.
    + destruct H3 as [E3|[t E3]]; discriminate E3.
    + rewrite H2, H6, <- !app_assoc in L. apply app_tail in L. subst lo. destruct (m_state m), (m_op m); reflexivity.
  - left. destruct H4 as [E|E]; rewrite E in L; [apply same_log_tail in L|apply app_tail in L]; subst lo; reflexivity.
Qed.

Lemma step_rx c e k m : so (m_op m) (m_state m) = true ->
  let m' := fst (step c e k m) in let lo := new_out m m' in
  filter is_rx lo = [] \/
  (k = C_process /\ in_rx (m_state m) = true /\ is_data (m_op m) = true /\ m_op m' = OP_NONE /\
   exists buf f, receiveFrame c m (rx_buffer e) (rx_len e) = (buf, Some f) /\ is_rx_data f = true /\ filter is_rx lo = rx_out buf f /\
     s_appDown (m_ctx m') = s_appDown (syncDownCounter c (dn_port f) (dn_counter f) (m_ctx m))).
Proof.
  intros S m' lo. destruct (step_cases c e k m) as (m1 & m2 & Q1 & A & Q2 & _). fold m' in Q2.
  destruct (quiet_log _ _ Q1) as (l1 & L1 & P1). destruct (quiet_log _ _ Q2) as (l2 & L2 & P2). destruct (act_log _ _ _ _ _ _ A) as (la & LA).
  assert (so (m_op m1) (m_state m1) = true) as S1 by (eapply quiet_so; eauto).
  assert (lo = l1 ++ la ++ l2) as ->.
  { unfold lo, new_out. rewrite L2, LA, L1, <- !app_assoc. rewrite skipn_app, skipn_all, Nat.sub_diag. reflexivity. }
  rewrite !filter_app, (plain_no_rx _ P1), (plain_no_rx _ P2), app_nil_r. cbn [List.app].
  destruct Q1 as [[C1 _] ST1]. destruct Q2 as [[C2 _] _].
  destruct (act_rx _ _ _ _ _ _ _ A LA S1) as [N|(EK & R & D & O & buf & f & RF & DF & F & AD)]; [auto|]. right.
  rewrite (receive_core _ _ _ _ _ C1) in RF. rewrite (core_op_eq _ _ C1) in D. rewrite ST1 in R. rewrite (core_op_eq _ _ C2). rewrite (core_ctx _ _ C1), <- (core_ctx _ _ C2) in AD. eauto 12.
Qed.

(* a window in which a frame has arrived *)
Lemma window_rx c e m buf f : in_rx (m_state m) = true -> inputPending m = true -> e_st_rx e = true ->
  receiveFrame c m (rx_buffer e) (rx_len e) = (buf, Some f) -> is_rx_data f = true ->
  filter is_rx (new_out m (fst (step c e C_process m))) = rx_out buf f.
Proof.
  intros R I X RF D. destruct (process_I c e m I) as (m2 & lag & Q & _ & _ & E). cbn [step fst]. rewrite E.
  destruct (quiet_log _ _ Q) as (l1 & L1 & P1). destruct Q as [[C _] ST].
  assert (dispatch c e SME_INTERRUPT lag m2 = rx_packet c e m2) as ->.
  { unfold dispatch. rewrite ST. destruct (m_state m); try discriminate R; unfold processRX; rewrite X; reflexivity. }
  open_def rx_packet. cbv zeta. set (m3 := set_m_rx_snr (e_snr e) _).
  assert (core m3 = core m) as C3. { rewrite <- C. unfold m3, emit, timerClear, set_timer. autorewrite with core. reflexivity. }
  assert (m_log m3 = m_log m ++ l1 ++ [OMode MODE_SLEEP]) as L3.
  { unfold m3, emit, timerClear, set_timer. ms. rewrite L1, <- app_assoc. reflexivity. }
  rewrite (receive_core _ _ _ _ _ C3), RF. unfold is_rx_data in D.
  assert (forall y, (match dn_type f with FT_CONF_DOWN | FT_UNCONF_DOWN => data_received c e buf f m3 | _ => y end) = data_received c e buf f m3) as -> by (intros; destruct (dn_type f); try discriminate D; reflexivity).
  destruct (data_rx c e buf f m3) as (l0 & L0 & F0). revert L0. generalize (data_received c e buf f m3). intros x L0.
  pose proof (setNext_quiet e (pushSessionUpdate x)) as Q4. destruct (quiet_log _ _ Q4) as (l4 & L4 & P4).
  assert (m_log (setNextBandEvent e (pushSessionUpdate x)) = m_log m ++ (l1 ++ [OMode MODE_SLEEP]) ++ l0 ++ [OEvent (EV_SESSION_UPDATED (m_ctx x))] ++ l4) as LL.
  { rewrite L4. unfold pushSessionUpdate, notify, emit. ms. rewrite L0, L3, <- !app_assoc. reflexivity. }
  rewrite (new_out_app _ _ _ LL), !filter_app, F0, (plain_no_rx _ P1), (plain_no_rx _ P4). cbn [filter is_rx List.app]. now rewrite !app_nil_r.
Qed.

(* --- counters --- *)

Lemma derive_low c s port n : low_down s -> 0 <= n < 65536 -> deriveDownCounter c s port n = n.
Proof.
  intros [A B] R. unfold deriveDownCounter. rewrite A, B. destruct (_ && _); change (u32 (Z.shiftl 0 16)) with 0; cbv zeta; (destruct (n <? 0) eqn:E; [lia|]); unfold u32; lia.
Qed.
Lemma sync_low c s port n : low_down s -> 0 <= n < 65536 -> low_down (syncDownCounter c port n s).
Proof.
  intros L R. unfold syncDownCounter. rewrite (derive_low c s port n L R).
  assert (u16 (Z.shiftr n 16) = 0) as -> by (rewrite Z.shiftr_div_pow2 by lia; unfold u16; lia).
  destruct L. destruct (_ && _); split; assumption || reflexivity.
Qed.

Lemma receive_decode c m e buf f : receiveFrame c m (rx_buffer e) (rx_len e) = (buf, Some f) -> is_rx_data f = true -> m_op m <> OP_REJOINING ->
  Frame_decode (c_l2 c) (rx_buffer e) (rx_len e) = Some f.
Proof.
  intros H D NR. pose proof (receiveFrame_op _ _ _ _ _ H) as O. rewrite D in O. revert H. unfold receiveFrame.
  destruct (Frame_decode (c_l2 c) (rx_buffer e) (rx_len e)) as [g|]; [|discriminate].
  assert (receiveData c m g (rx_buffer e) (rx_len e) = (buf, Some f) -> Some g = Some f) as RD.
  { unfold receiveData. destruct (m_op m); try discriminate;
    (cbv zeta; destruct (s_devAddr (m_ctx m) =? dn_devAddr g); [|discriminate];
     match goal with |- context [if ?x =? dn_mic g then _ else _] => destruct (x =? dn_mic g) end; [|discriminate];
     intros X; apply (f_equal snd) in X; exact X). }
  destruct (dn_type g); try discriminate; try exact RD.
  unfold receiveJoin. cbv zeta. destruct (m_op m); try discriminate; destruct O as [O|O]; first [discriminate O|congruence].
Qed.

Lemma data_fields c m e buf f : bytes_ok (e_rx e) -> receiveFrame c m (rx_buffer e) (rx_len e) = (buf, Some f) -> is_rx_data f = true -> m_op m <> OP_REJOINING ->
  0 <= dn_counter f < 65536 /\ dn_counter f = fcnt_down (heard e) /\ dn_ack f = Z.testbit (nth 5 (heard e) 0) 5.
Proof.
  intros HB H D NR. pose proof (receive_decode _ _ _ _ _ H D NR) as E. pose proof (heard_ok e HB) as OK. destruct (heard_len e) as [LN L255].
  rewrite (proj2 (decode_eq (c_l2 c) _ _ OK)) in E.
  assert (exists ty q, 12 <= rx_len e /\ f = dframe ty (rx_buffer e) (rx_len e) q) as (ty & q & N12 & EF).
  { revert E. unfold decode_closed. destruct (rx_len e <? 1); [discriminate|]. cbv zeta.
    destruct (rd (rx_buffer e) 0 1 =? mhdr JoinAccept) eqn:T1.
    { unfold jdecode. destruct (_ || _); [|discriminate]. intros E. injection E as <-. discriminate D. }
    destruct (rd (rx_buffer e) 0 1 =? mhdr UnconfirmedDown) eqn:T2; [|destruct (rd (rx_buffer e) 0 1 =? mhdr ConfirmedDown) eqn:T3; [|discriminate]];
    unfold ddecode; cbv zeta;
    destruct ((rx_len e <? 12) || _) eqn:G; try discriminate; destruct (_ && _ && _); try discriminate;
    intros E; injection E as <-; eexists; eexists; (split; [|reflexivity]); lia. }
  assert (dn_counter f = rd (rx_buffer e) 6 2 /\ dn_ack f = has_bit (rd (rx_buffer e) 5 1) 0x20) as (FC & FK) by (rewrite EF; auto).
  split; [rewrite FC; exact (rd_range (rx_buffer e) _ 6 2 OK)|]. split.
  - rewrite FC, rd_heard by lia. reflexivity.
  - pose proof (rd_byte (rx_buffer e) _ 5 OK) as RB. rewrite FK, ack_bit, rd1_heard by (lia || exact RB). reflexivity.
Qed.

Lemma ident_low s s' : same_ident s s' -> low_down s -> low_down s'.
Proof. unfold same_ident, low_down. intros I [A B]. decompose [and] I. split; congruence. Qed.

Lemma forgotten_low s d t : low_down (forgotten s d t).
Proof.
  unfold forgotten. cbv zeta. match goal with |- context [chan_steps ?x ?l] => pose proof (chan_steps_ident l x) as I end.
  eapply ident_low; [exact I|]. split; reflexivity.
Qed.

Lemma case_low c e k m s : bytes_ok (e_rx e) -> so (m_op m) (m_state m) = true -> low_down (m_ctx m) -> ctx_case c e m k s -> low_down s.
Proof.
  intros HB HS L HC. destruct HC.
  - exact L.
  - destruct (adaptRate_fields c (next_trial m)) as (s & n & b & E1 & E2 & _). cbv zeta in E1, E2. change (m_ctx (next_trial m)) with (m_ctx m) in E2.
    rewrite E1. destruct L. destruct E2 as [->|[->|[->| ->]]]; split; assumption.
  - destruct L. split; assumption.
  - destruct (data_received_frame c e buf f m) as (s & l & _ & EC & _ & _ & I & _). cbv zeta in *. rewrite EC. eapply ident_low; [exact I|].
    apply sync_low; [exact L|]. apply (data_fields c m e buf f HB H0 H1). exact (so_not_rejoining _ _ HS).
  - destruct (join_accepted_frame c buf f m) as (s & l & _ & EC & _ & _ & _ & A & B & _). cbv zeta in *. rewrite EC. destruct L. split; congruence.
  - destruct L. split; assumption.
  - destruct L as [A B]. unfold sess_data, clear_single_shot, clearPendingCommand. destruct (is_1_1 (c_l2 c)), (c_txps c); split; assumption.
  - apply forgotten_low.
  - destruct H as (r0 & p & a & dd & cc & kk & EQ). rewrite EQ. destruct L. split; assumption.
Qed.

Lemma init_low c r a e : low_start (ia_session a) -> low_down (m_ctx (MAC_init c r a e)).
Proof.
  intros H. rewrite init_ctx. pose proof (forgotten_low session_zero 0 (c_txps c)) as F.
  assert (low_down (fresh c r)) as FR by (destruct (fresh_values c r) as (_ & A & B & _); split; assumption).
  destruct (ia_session a) as [s|]; [|exact FR]. destruct (_ && _); [exact H|exact FR].
Qed.

Lemma init_log c r a e : m_log (MAC_init c r a e) = [].
Proof. pose proof (init_facts c r a e) as H. cbv zeta in H. tauto. Qed.

Theorem low_always c r a e0 h : low_start (ia_session a) -> air_ok h ->
  let m := run c h (MAC_init c r a e0) in
  low_down (m_ctx m) /\ forall s, In (OEvent (EV_SESSION_UPDATED s)) (m_log m) -> low_down s.
Proof.
  intros L A m.
  destruct (session_inv c (fun x => bytes_ok (e_rx (fst x))) low_down) with (h := h) (m := MAC_init c r a e0) as [H1 H2].
  - intros e k x s B S Q CC. exact (case_low c e k x s B S Q CC).
  - exact (init_so c r a e0 []).
  - now apply init_low.
  - rewrite init_log. constructor.
  - exact A.
  - split; [exact H1|]. intros s. exact (saved_all_in _ _ s H2).
Qed.

(* --- accepted means accepted again --- *)

Lemma receive_again c m1 m2 e1 e2 buf f : bytes_ok (e_rx e1) -> e_rx e2 = e_rx e1 -> low_down (m_ctx m1) -> low_down (m_ctx m2) ->
  is_data (m_op m1) = true -> is_data (m_op m2) = true -> m_sm m2 = m_sm m1 -> s_devAddr (m_ctx m2) = s_devAddr (m_ctx m1) -> sess_version c (m_ctx m2) = sess_version c (m_ctx m1) ->
  sess_version c (m_ctx m1) <> 1 \/ Z.testbit (nth 5 (heard e1) 0) 5 = false ->
  receiveFrame c m1 (rx_buffer e1) (rx_len e1) = (buf, Some f) -> is_rx_data f = true ->
  receiveFrame c m2 (rx_buffer e2) (rx_len e2) = (buf, Some f).
Proof.
  intros HB EX L1 L2 D1 D2 ES EA EV NA H D. assert (m_op m1 <> OP_REJOINING) as NR by (intros E; rewrite E in D1; discriminate).
  destruct (data_fields c m1 e1 buf f HB H D NR) as (RC & _ & FK). pose proof (receive_decode _ _ _ _ _ H D NR) as DE.
  assert (rx_buffer e2 = rx_buffer e1) as EB by (unfold rx_buffer; now rewrite EX). assert (rx_len e2 = rx_len e1) as EN by (unfold rx_len; now rewrite EX).
  rewrite EB, EN, <- H. unfold receiveFrame. rewrite DE. unfold is_rx_data in D.
  assert (receiveData c m2 f (rx_buffer e1) (rx_len e1) = receiveData c m1 f (rx_buffer e1) (rx_len e1)) as ->; [|destruct (dn_type f); try discriminate D; reflexivity].
  unfold receiveData, ctr_at. rewrite ES, EA, EV, !(derive_low _ _ _ _ L1 RC), !(derive_low _ _ _ _ L2 RC).
  assert ((if (sess_version c (m_ctx m1) =? 1) && dn_ack f then u16 (s_up (m_ctx m2) - 1) else 0) =
          (if (sess_version c (m_ctx m1) =? 1) && dn_ack f then u16 (s_up (m_ctx m1) - 1) else 0)) as ->.
  { rewrite FK. destruct NA as [NA| ->]; [|now rewrite andb_false_r]. apply Z.eqb_neq in NA. now rewrite NA. }
  destruct (m_op m1); try discriminate D1; destruct (m_op m2); try discriminate D2; reflexivity.
Qed.

Theorem accepted_again c r a e0 h1 e1 k1 h2 e2 : low_start (ia_session a) -> air_ok h1 -> air_ok h2 -> bytes_ok (e_rx e1) ->
  Forall (fun x => not_forget (snd x)) h2 ->
  let m1 := run c h1 (MAC_init c r a e0) in
  let m1' := fst (step c e1 k1 m1) in
  let m2 := run c h2 m1' in
  count_rx (new_out m1 m1') <> 0%nat ->
  sess_version c (m_ctx m1) = 0 \/ Z.testbit (nth 5 (heard e1) 0) 5 = false ->
  is_data (m_op m2) = true -> in_rx (m_state m2) = true -> inputPending m2 = true -> e_st_rx e2 = true -> e_rx e2 = e_rx e1 ->
  filter is_rx (new_out m2 (fst (step c e2 C_process m2))) = filter is_rx (new_out m1 m1').
Proof.
  intros LS A1 A2 HB NF m1 m1' m2 N V D2 R2 I2 X2 EX.
  pose proof (init_so c r a e0 h1) as S1. cbv zeta in S1. fold m1 in S1.
  assert (so (m_op m1') (m_state m1') = true) as S1' by (apply (so_always c [(e1, k1)] m1), S1).
  destruct (init_facts c r a e0) as (O0 & _). cbv zeta in O0.
  assert (joined_ok m1) as J1. { apply joined_always; [exact (init_so c r a e0 [])|]. unfold joined_ok. rewrite O0. split; discriminate. }
  assert (joined_ok m1') as J1' by exact (joined_always c [(e1, k1)] m1 S1 J1).
  destruct (step_rx c e1 k1 m1 S1) as [Z|(-> & R1 & D1 & O1 & buf & f & RF & DF & F & _)]; [|fold m1' in O1, F].
  { exfalso. apply N. unfold count_rx. fold m1' in Z. rewrite Z. reflexivity. }
  assert (s_joined (m_ctx m1) = true) as JJ by (apply J1, D1).
  assert (stay m1 m1') as T1. { apply (session_stays c [(e1, C_process)] m1 S1 J1 JJ). repeat constructor. discriminate. }
  assert (stay m1' m2) as T2. { apply session_stays; auto. destruct T1 as (_ & _ & _ & E). congruence. }
  pose proof (stay_trans _ _ _ T1 T2) as (E1 & E2 & E3 & _).
  assert (sess_version c (m_ctx m2) = sess_version c (m_ctx m1)) as EV by (unfold sess_version; now rewrite E3).
  destruct (low_always c r a e0 h1 LS A1) as [L1 _]. fold m1 in L1.
  destruct (low_always c r a e0 (h1 ++ (e1, C_process) :: h2) LS) as [L2 _].
  { apply Forall_app. split; [exact A1|]. constructor; assumption. }
  rewrite run_app in L2. cbn [run] in L2. fold m1 in L2. fold m1' in L2. fold m2 in L2.
  rewrite F. apply window_rx; auto. apply (receive_again c m1 m2 e1 e2 buf f HB EX L1 L2 D1 D2 E1 E2 EV); auto. destruct V as [V|V]; [left; lia|auto].
Qed.

(* a frame is checked with FCnt alone as the counter *)
Theorem fcnt_alone c r a e0 h e : octets c -> arg_ok a -> low_start (ia_session a) -> air_ok h -> bytes_ok (e_rx e) ->
  let m := run c h (MAC_init c r a e0) in
  let m' := fst (step c e C_process m) in
  ~ genuine_as c m (heard e) (fcnt_down (heard e)) -> ~ (exists j, genuine_accept c m (heard e) j) -> kept m m' (new_out m m').
Proof.
  intros OC AO LS A HB m m' G GA. pose proof (init_so c r a e0 h) as S. cbv zeta in S. fold m in S. pose proof (init_eui c r a e0 h OC AO) as LJ. fold m in LJ.
  destruct (low_always c r a e0 h LS A) as [L _]. fold m in L.
  destruct (step_cases c e C_process m) as (m1 & m2 & Q1 & AC & Q2 & _). fold m' in Q2.
  destruct (quiet_log _ _ Q1) as (l1 & L1 & P1). destruct (quiet_log _ _ Q2) as (l2 & L2 & P2). destruct (act_log _ _ _ _ _ _ AC) as (la & LA).
  assert (so (m_op m1) (m_state m1) = true) as S1 by (eapply quiet_so; eauto).
  assert (new_out m m' = l1 ++ la ++ l2) as ->.
  { unfold new_out. rewrite L2, LA, L1, <- !app_assoc. rewrite skipn_app, skipn_all, Nat.sub_diag. reflexivity. }
  destruct Q1 as [[C1 _] _]. destruct Q2 as [[C2 _] _]. pose proof (core_fields _ _ C1) as F1. unfold same_core in F1. destruct F1 as (E1 & E2 & _ & _ & _ & _ & E3 & E4 & E5 & _).
  change (snd (step c e C_process m)) with RVoid in AC.
  assert (m_op m <> OP_REJOINING) as NR by exact (so_not_rejoining _ _ S).
  destruct (act_kept c e m1 m2 la AC LA S1) as (U & K1 & K2 & K3).
  { intros buf f RF. rewrite (receive_core _ _ _ _ _ C1) in RF. destruct (is_rx_data f) eqn:D.
    - apply G. destruct (data_fields c m e buf f HB RF D NR) as (RC & FC & _). destruct (data_genuine c m e buf f HB RF D NR) as (_ & _ & GG).
      rewrite (derive_low _ _ _ _ L RC), FC in GG. exact GG.
    - apply GA. destruct (accept_genuine c m e buf f OC LJ HB RF D NR) as (j & GJ & _). eauto. }
  eapply kept_core; [exact C2|congruence|congruence|rewrite <- E1, <- E4; exact K3|].
  rewrite !forallb_app, U, (plain_unheard _ P1), (plain_unheard _ P2). reflexivity.
Qed.

(* one delivery per step, and it ends the operation it answers *)
Theorem delivered_once c r a e0 h e k :
  let m := run c h (MAC_init c r a e0) in let m' := fst (step c e k m) in
  count_rx (new_out m m') <> 0%nat -> count_rx (new_out m m') = 1%nat /\ is_data (m_op m) = true /\ m_op m' = OP_NONE.
Proof.
  intros m m' N. destruct (step_rx c e k m (init_so c r a e0 h)) as [Z|(_ & _ & D & O & buf & f & _ & _ & F & _)]; [fold m' in Z|fold m' in O, F].
  - exfalso. apply N. unfold count_rx. rewrite Z. reflexivity.
  - split; [|auto]. revert N. unfold count_rx. rewrite F. unfold rx_out. destruct (dn_data f); [destruct (_ =? 0)|]; cbn [length]; intros N; first [reflexivity|now contradiction N].
Qed.

Lemma derive_high c s port n : 0 <= n < 65536 ->
  let hi := if (sess_version c s >? 0) && (port =? 0) then s_nwkDown s else s_appDown s in
  0 < hi < 65535 -> deriveDownCounter c s port n = (hi + 1) * 65536 + n.
Proof.
  intros R hi H. unfold deriveDownCounter. fold hi. cbv zeta. rewrite Z.shiftl_mul_pow2 by lia. change (2 ^ 16) with 65536.
  replace (u32 (hi * 65536)) with (hi * 65536) by (unfold u32; lia). destruct (n <? hi * 65536) eqn:E; [|lia]. unfold u32. lia.
Qed.

(* a session with a high half: the device expects it to grow with every frame *)
Theorem high_jump c r a e0 h e k : bytes_ok (e_rx e) ->
  let m := run c h (MAC_init c r a e0) in let m' := fst (step c e k m) in
  let hi := s_appDown (m_ctx m) in
  count_rx (new_out m m') <> 0%nat -> 0 < hi < 65535 ->
  genuine_as c m (heard e) ((hi + 1) * 65536 + fcnt_down (heard e)) /\ s_appDown (m_ctx m') = hi + 1.
Proof.
  intros HB m m' hi N H. pose proof (init_so c r a e0 h) as S. cbv zeta in S. fold m in S.
  destruct (step_rx c e k m S) as [Z|(_ & _ & D & O & buf & f & RF & DF & F & AD)]; [fold m' in Z|fold m' in O, F, AD].
  - exfalso. apply N. unfold count_rx. rewrite Z. reflexivity.
  - assert (m_op m <> OP_REJOINING) as NR by exact (so_not_rejoining _ _ S).
    destruct (data_fields c m e buf f HB RF DF NR) as (RC & FC & _). destruct (data_genuine c m e buf f HB RF DF NR) as (_ & _ & GG).
    assert ((dn_port f =? 0) = false) as P0.
    { revert N. unfold count_rx. rewrite F. unfold rx_out. destruct (dn_data f); [|intros N; now contradiction N]. destruct (_ =? 0); [intros N; now contradiction N|reflexivity]. }
    assert (deriveDownCounter c (m_ctx m) (dn_port f) (dn_counter f) = (hi + 1) * 65536 + dn_counter f) as E.
    { pose proof (derive_high c (m_ctx m) (dn_port f) (dn_counter f) RC) as X. cbv zeta in X. rewrite P0, andb_false_r in X. exact (X H). }
    rewrite E, FC in GG. split; [exact GG|]. rewrite AD. unfold syncDownCounter. rewrite P0, andb_false_r. rewrite E. ms.
    change (u16 (Z.shiftr ((hi + 1) * 65536 + dn_counter f) 16) = hi + 1). rewrite Z.shiftr_div_pow2 by lia. unfold u16. lia.
Qed.
