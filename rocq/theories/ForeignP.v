(* After a packet, nothing more is heard before the next transmission. *)
From Verif Require Import Lib FrameM CommandsM RegionM RadioM SmM MacStateM MacTac MacUtilM OpsM MacCmdM MacProcM MacApiM MacRw CoreP CaseP RxP SpecHist SpecEffect SpecInput HistP EndP TxP InputP ReadyP AcceptP CtxP ListenP.
From Verif Require SpecForeign.

Lemma tx_none l : SpecForeign.transmits l = false <-> forallb no_tx l = true.
Proof. unfold SpecForeign.transmits. induction l as [|o l IH]; [now split|]. cbn [existsb forallb]. destruct o; cbn; try exact IH. split; discriminate. Qed.
Lemma rx_none l : SpecForeign.listens l = false <-> forallb no_rx l = true.
Proof. unfold SpecForeign.listens. induction l as [|o l IH]; [now split|]. cbn [existsb forallb]. destruct o; cbn; try exact IH. split; discriminate. Qed.

Lemma act_off c e m k r m' lo : act c e m k r m' -> m_log m' = m_log m ++ lo -> so (m_op m) (m_state m) = true -> on_air (m_state m) = false ->
  on_air (m_state m') = false \/ forallb no_tx lo = false.
Proof.
  intros HA L S T. destruct HA.
  - now left.
  - left. destruct (on_air (m_state m')) eqn:E; [|reflexivity]. rewrite <- T. symmetry. exact (arrow_air _ _ _ H0 E).
  - right. rewrite H2 in L. apply app_inv_head in L. subst lo. unfold transmit_of. reflexivity.
  - left. rewrite H1. reflexivity.
  - left. eapply miss_air; [eassumption|]. eapply rx_busy; eauto.
  - left. rewrite H2. reflexivity.
  - left. rewrite H3. reflexivity.
  - left. destruct (data_received_frame c e buf f m) as (s & l & _ & _ & E & _). cbv zeta in E. rewrite push_state, E. reflexivity.
  - left. destruct (join_accepted_frame c buf f m) as (s & l & _ & _ & E & _). cbv zeta in E. rewrite push_state, E. reflexivity.
  - left. subst m'. exact T.
  - left. rewrite H2. now apply (start_air (m_op m)).
  - left. rewrite H4. now apply (start_air (m_op m)).
  - left. rewrite H3, H in *. destruct (m_state m); try discriminate S; reflexivity.
  - left. rewrite H8. now apply (start_air (m_op m)).
  - left. rewrite H1. destruct (m_state m); reflexivity.
  - left. rewrite H1. exact (cancel_air _ _ _ _ _ _ HA eq_refl eq_refl).
  - left. rewrite H3. exact T.
Qed.

Lemma step_off c e k m : so (m_op m) (m_state m) = true -> on_air (m_state m) = false ->
  let m' := fst (step c e k m) in exists lo, m_log m' = m_log m ++ lo /\ forallb no_rx lo = true /\ (on_air (m_state m') = false \/ forallb no_tx lo = false).
Proof.
  intros S T. cbv zeta.
  assert (deaf m (fst (step c e k m))) as (lo & E & R).
  { destruct (step_listen c e k m S) as [D|(_ & l & o & _ & _ & LS)]; [exact D|]. exfalso. destruct LS as (y & [[E _]|[E _]]); rewrite E in T; discriminate T. }
  exists lo. split; [exact E|]. split; [exact R|].
  destruct (step_cases c e k m) as (m1 & m2 & Q1 & A & Q2 & _).
  destruct (quiet_log _ _ Q1) as (l1 & L1 & P1). destruct (quiet_log _ _ Q2) as (l2 & L2 & P2). destruct (act_log _ _ _ _ _ _ A) as (la & LA).
  assert (lo = l1 ++ la ++ l2) as EL by (apply (app_inv_head (m_log m)); rewrite <- E, L2, LA, L1, !app_assoc; reflexivity).
  pose proof (quiet_so _ _ Q1 S) as S1. destruct Q1 as [_ E1], Q2 as [_ E2]. rewrite <- E1 in T.
  destruct (act_off _ _ _ _ _ _ _ A LA S1 T) as [H|H]; [left; rewrite E2; exact H|right].
  rewrite EL, !forallb_app, H. destruct (forallb no_tx l1); reflexivity.
Qed.

Lemma so_step c e k m : so (m_op m) (m_state m) = true -> so (m_op (fst (step c e k m))) (m_state (fst (step c e k m))) = true.
Proof.
  intros S. destruct (step_cases c e k m) as (m1 & m2 & Q1 & A & Q2 & _).
  eapply quiet_so; [exact Q2|]. eapply act_so; [exact A|]. eapply quiet_so; eauto.
Qed.

Lemma run_log c h : forall m, exists lo, m_log (run c h m) = m_log m ++ lo.
Proof.
  induction h as [|[e k] h IH]; intros m; [exists []; cbn [run]; now rewrite app_nil_r|].
  cbn [run]. destruct (IH (fst (step c e k m))) as (l2 & ->). destruct (step_cases c e k m) as (m1 & m2 & Q1 & A & Q2 & _).
  destruct (quiet_log _ _ Q1) as (l1 & L1 & _). destruct (quiet_log _ _ Q2) as (l3 & -> & _). destruct (act_log _ _ _ _ _ _ A) as (la & ->).
  rewrite L1, <- !app_assoc. eauto.
Qed.

Lemma off_run c h : forall m, so (m_op m) (m_state m) = true -> on_air (m_state m) = false ->
  exists lo, m_log (run c h m) = m_log m ++ lo /\ (forallb no_tx lo = true -> forallb no_rx lo = true).
Proof.
  induction h as [|[e k] h IH]; intros m S T.
  - exists []. cbn [run]. rewrite app_nil_r. auto.
  - destruct (step_off c e k m S T) as (lo & E & R & H). cbv zeta in *. cbn [run]. pose proof (so_step c e k m S) as S1.
    destruct H as [H|H].
    + destruct (IH _ S1 H) as (l2 & E2 & P2). exists (lo ++ l2). rewrite E2, E, app_assoc. split; [reflexivity|].
      rewrite !forallb_app, !andb_true_iff. intros [_ X]. auto.
    + destruct (run_log c h (fst (step c e k m))) as (l2 & E2). exists (lo ++ l2). rewrite E2, E, app_assoc. split; [reflexivity|].
      rewrite forallb_app, H. discriminate.
Qed.

Lemma packet_off c e m : busy (m_op m) = true -> on_air (m_state (rx_packet c e m)) = false.
Proof.
  intros B. open_def rx_packet. cbv zeta. set (m1 := set_m_rx_snr _ _). assert (m_op m1 = m_op m) as O by reflexivity. clearbody m1.
  destruct (receiveFrame c m1 (rx_buffer e) (rx_len e)) as [buf [f|]].
  - rewrite push_state. destruct (data_received_frame c e buf f m1) as (s & l & _ & _ & E & _). destruct (join_accepted_frame c buf f m1) as (s2 & l2 & _ & _ & E2 & _). cbv zeta in *.
    destruct (dn_type f); rewrite ?E, ?E2; reflexivity.
  - eapply miss_air; [apply missing_cases|congruence].
Qed.

Lemma process_packet c e m : inputPending m = true -> window_open m = true -> e_st_rx e = true -> so (m_op m) (m_state m) = true ->
  on_air (m_state (MAC_process c e m)) = false.
Proof.
  intros I W X S. unfold MAC_process. pose proof (processBands_quiet e m) as QB. pose proof (processBands_calm e m) as [BI _].
  destruct (processBands e m) as [m1 rd]. cbn [fst] in *. pose proof (quiet_so _ _ QB S) as S1. destruct QB as [_ ES].
  unfold next_event, inputCheck. unfold inputPending in I. rewrite BI, I. cbv beta iota zeta.
  set (m2 := set_m_inputs _ m1). assert (m_state m2 = m_state m /\ m_op m2 = m_op m1) as [S2 O2] by (split; [exact ES|reflexivity]). clearbody m2.
  match goal with |- on_air (m_state (setNextBandEvent e ?y)) = _ => destruct (setNext_quiet e y) as [_ ->] end.
  assert (busy (m_op m2) = true) as B by (rewrite O2; apply (rx_busy _ _ S1); rewrite ES; right; unfold window_open in W; destruct (m_state m); try discriminate W; reflexivity).
  unfold dispatch, processRX. rewrite S2, X. unfold window_open in W. destruct (m_state m); try discriminate W; now apply packet_off.
Qed.

Theorem packet_ends c r a e0 h e h2 : let m := run c h (MAC_init c r a e0) in
  window_open m = true -> inputPending m = true -> e_st_rx e = true ->
  let m' := run c ((e, C_process) :: h2) m in
  SpecForeign.transmits (new_out m m') = false -> SpecForeign.listens (new_out m m') = false.
Proof.
  cbv zeta. set (m := run c h _). assert (so (m_op m) (m_state m) = true) as S by apply (init_so c r a e0 h). clearbody m.
  intros W I X. cbn [run]. pose proof (process_packet c e m I W X S) as F.
  assert (deaf m (fst (step c e C_process m))) as (l1 & E1 & R1).
  { destruct (step_listen c e C_process m S) as [D|(_ & l & o & _ & _ & LS)]; [exact D|]. exfalso.
    unfold window_open in W. destruct LS as (y & [[E _]|[E _]]); rewrite E in W; discriminate W. }
  pose proof (so_step c e C_process m S) as S1. cbn [step fst] in *.
  destruct (off_run c h2 _ S1 F) as (l2 & E2 & P2). rewrite E1, <- app_assoc in E2. rewrite (new_out_app _ _ _ E2), tx_none, rx_none, !forallb_app, !andb_true_iff.
  intros [_ T]. split; [exact R1|auto].
Qed.
