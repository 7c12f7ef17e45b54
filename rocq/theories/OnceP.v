(* Answers wait for the next request, or for a downlink. *)
From Verif Require Import Lib StreamM FrameM CommandsM RegionM RadioM SmM MacStateM MacTac MacUtilM OpsM MacCmdM MacProcM MacApiM MacRw
  CoreP CaseP RxP ExecP SpecHist HistP EndP TxP UplinkP DataP DownP CtxP SpecAnswer SpecEffect SpecOnce.

Definition keeps (m m' : mac) : Prop := forall t, waiting (m_ctx m') t = waiting (m_ctx m) t.
Lemma keeps_ctx m m' : m_ctx m' = m_ctx m -> keeps m m'. Proof. intros E t. now rewrite E. Qed.
Lemma keeps_core m m' : core m' = core m -> keeps m m'. Proof. intros C. apply keeps_ctx, core_ctx, C. Qed.
Lemma keeps_trans a b d : keeps a b -> keeps b d -> keeps a d. Proof. intros A B t. now rewrite B. Qed.

Lemma adapt_keeps c m : keeps m (fst (adaptRate c m)).
Proof.
  destruct (adaptRate_fields c m) as (s & n & b & E1 & E2 & _). cbv zeta in E1, E2. intros t. rewrite E1.
  destruct E2 as [->|[->|[->| ->]]]; reflexivity.
Qed.
Lemma miss_keeps c e m m' : miss_case c e m m' -> keeps m m'.
Proof.
  intros HM. destruct (miss_log _ _ _ _ HM) as (lo & L). destruct (miss_ctx _ _ _ _ _ HM L) as [CC _].
  destruct HM as [m2 D ? C S E|m2 D p C S E|m2 O ? C S E|m2 O ? C S E|D O].
  - exact (keeps_core (micDataFrame c (next_trial m)) m2 C).
  - intros t. rewrite (core_ctx _ _ C). exact (adapt_keeps c (next_trial m) t).
  - destruct (fillJoin_fields c e (u16 (m_devNonce m)) (next_trial m)) as (t & buf & len & dn & EF & _). rewrite EF in C. intros x. rewrite (core_ctx _ _ C). reflexivity.
  - exact (keeps_core (set_m_op OP_NONE (next_trial m)) m2 C).
  - apply keeps_ctx. reflexivity.
Qed.
Lemma error_keeps c e m : keeps m (handleRadioError c e m).
Proof.
  open_def handleRadioError. cbv zeta. set (x := timerClear WAITB (timerClear WAITA (inputDisarm m))).
  assert (m_ctx x = m_ctx m) as XC by reflexivity. clearbody x.
  assert (forall y, keeps m y -> keeps m (timerSet e WAITA (m_tps y / 1024) (emit (OMode MODE_RESET) (set_m_state ST_RADIO_RESET y)))) as K by (intros y H; exact H).
  destruct (m_op x) eqn:O; apply K; try (apply keeps_ctx; exact XC).
  apply (keeps_trans m x); [now apply keeps_ctx|]. apply miss_keeps with (c := c) (e := e), missing_cases.
Qed.

Definition request (c : cfg) (s : session) (t : cmd_type) : bool := waiting s t && negb (sent_once t && in_build c t).
Lemma sess_waiting c m t : waiting (sess_data c m) t = request c (m_ctx m) t.
Proof.
  unfold sess_data, clear_single_shot, request. set (x := set_s_up _ (m_ctx m)). assert (waiting x t = waiting (m_ctx m) t) as <- by reflexivity. clearbody x.
  destruct (is_1_1 (c_l2 c)) eqn:E1, (c_txps c) eqn:E2; rewrite !waiting_clear, <- !andb_assoc; f_equal; destruct t; cbn [sent_once in_build]; rewrite ?E1, ?E2; reflexivity.
Qed.

Lemma tuned_waiting s s' t : tuned s s' -> waiting s' t = waiting s t.
Proof. intros (r & p & a & d & cc & k & ->). reflexivity. Qed.

Lemma act_unheard c e m k r m' : act c e m k r m' -> k <> C_process -> k <> C_forget ->
  forall t, waiting (m_ctx m') t = if asked k r then request c (m_ctx m) t else waiting (m_ctx m) t.
Proof.
  intros A NP NF t. destruct A; try (contradiction NP; reflexivity).
  - destruct H as [->|(x & ->)]; [contradiction NP; reflexivity|reflexivity].
  - subst m'. assert (asked k (RStatus st) = false) as ->; [|reflexivity].
    unfold asked. destruct k; try reflexivity; destruct st; try reflexivity; congruence.
  - cbn [asked]. rewrite (core_ctx _ _ H0). reflexivity.
  - cbn [asked]. rewrite (core_ctx _ _ H2). unfold x. destruct (fillJoin_fields c e (u16 (m_devNonce m)) (set_m_sm (m_sm m ++ sm) (set_m_trials 0 m))) as (tt & buf & len & dn & EF & _). rewrite EF. reflexivity.
  - cbn [asked]. rewrite (core_ctx _ _ H1). reflexivity.
  - rewrite (core_ctx _ _ H6). destruct (compose_op _ _ _ _ _ _ _ _ _ H5) as [_ ST].
    assert (asked (C_data cf port data o) (RStatus st) = true) as -> by (destruct ST as [-> | ->]; reflexivity).
    rewrite <- sess_waiting, filled_ctx. reflexivity.
  - destruct H as [->|[-> _]]; [|contradiction NF; reflexivity]. cbn [asked]. rewrite (core_ctx _ _ H0). reflexivity.
  - contradiction NF; reflexivity.
  - rewrite (core_ctx _ _ H2). assert (asked k r = false) as ->. { destruct k; try contradiction; reflexivity. }
    exact (tuned_waiting _ _ t H).
Qed.

Lemma step_unheard c e k m : k <> C_forget ->
  (k = C_process -> window_open m = true -> e_st_rx e = true -> snd (receiveFrame c m (rx_buffer e) (rx_len e)) = None) ->
  (forall t, waiting (m_ctx (fst (step c e k m))) t = if asked k (snd (step c e k m)) then request c (m_ctx m) t else waiting (m_ctx m) t).
Proof.
  intros NF N t.
  assert (k = C_process \/ k <> C_process) as [->|NP] by (destruct k; auto; right; discriminate).
  - cbn [asked]. revert t. change (keeps m (fst (step c e C_process m))). cbn [step fst].
    destruct (process_cases c e m) as (m1 & m2 & [[C1 _] S1] & HC & [[C2 _] _]).
    apply (keeps_trans m m1); [now apply keeps_core|]. apply (keeps_trans m1 m2); [|now apply keeps_core].
    destruct HC as [|m2 HM HA|m2 X1 X2 HC HL|S|S|S|S|S R].
    + intros x; reflexivity.
    + destruct HM as [C _]. now apply keeps_core.
    + now apply keeps_core.
    + intros x; reflexivity.
    + exact (miss_keeps _ _ _ _ (missing_cases c e m1)).
    + apply (keeps_trans m1 (registerTime m1)); [|apply error_keeps]. apply keeps_ctx. unfold registerTime. cbv zeta. destruct (getBand _ _); destruct (m_op m1); try (destruct (_ >? _)); reflexivity.
    + apply error_keeps.
    + open_def rx_packet. cbv zeta. set (m3 := set_m_rx_snr (e_snr e) _).
      assert (core m3 = core m1) as C3 by (unfold m3, emit, timerClear, set_timer; autorewrite with core; reflexivity). clearbody m3.
      assert (snd (receiveFrame c m1 (rx_buffer e) (rx_len e)) = None) as NN.
      { rewrite (receive_core _ _ _ _ _ C1). apply N; [reflexivity| |exact R]. rewrite S1 in S. unfold window_open. destruct (m_state m); try discriminate S; reflexivity. }
      rewrite <- (receive_core _ _ _ _ _ C3) in NN. destruct (receiveFrame c m3 (rx_buffer e) (rx_len e)) as [buf [f|]]; [discriminate NN|].
      apply (keeps_trans m1 m3); [now apply keeps_core|]. exact (miss_keeps _ _ _ _ (missing_cases c e m3)).
  - destruct (step_cases c e k m) as (m1 & m2 & _ & A & Q2 & E1). assert (m1 = m) as -> by (apply E1; exact NP).
    destruct Q2 as [[C2 _] _]. rewrite (core_ctx _ _ C2). exact (act_unheard _ _ _ _ _ _ A NP NF t).
Qed.

Lemma step_accepted c e k m : existsb is_accepted (step_items c e k m) = asked k (snd (step c e k m)).
Proof.
  assert (forall l, existsb is_accepted (map IOut l) = false) as O by (induction l; [reflexivity|exact IHl]).
  unfold step_items. rewrite existsb_app, O, orb_false_r. generalize (snd (step c e k m)). intros r.
  destruct k; try reflexivity; destruct r as [|[]|]; reflexivity.
Qed.

Lemma answers_kept c t h : forall m, unheard c h m ->
  waiting (m_ctx (run c h m)) t = waiting (m_ctx m) t && negb (sent_once t && in_build c t && existsb is_accepted (items c h m)).
Proof.
  induction h as [|[e k] h IH]; intros m U.
  - cbn [run items existsb]. rewrite !andb_false_r, andb_true_r. reflexivity.
  - cbn [unheard] in U. destruct U as (F & N & U). cbn [run items]. rewrite (IH _ U), existsb_app, step_accepted, (step_unheard c e k m F N t).
    unfold request. destruct (asked k _); cbn [orb]; [|reflexivity].
    destruct (waiting (m_ctx m) t), (sent_once t && in_build c t); reflexivity.
Qed.
