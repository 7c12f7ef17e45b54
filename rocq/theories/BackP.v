(* ADR back-off over histories without downlinks (C31). *)
From Verif Require Import Lib StreamM FrameM CommandsM RegionM RadioM SmM MacStateM MacTac MacUtilM OpsM MacCmdM MacProcM MacApiM MacRw CoreP CaseP RxP SpecHist HistP EndP TxP UplinkP DataP DownP SpecBack.
From Verif Require TriesP.

Definition bstep (min : Z) (d : dials) : dials :=
  if d_on d then
    if d_count d <? 255 then
      let n := d_count d in
      let t := d_limit d + d_delay d in
      let up := u8 (n + 1) in
      if (n >=? d_limit d) && (n >=? t) && ((n - t) mod d_delay d =? 0) then
        if d_power d =? 0 then
          if d_rate d >? min then mkDials (d_on d) (d_limit d) (d_delay d) (d_power d) (d_rate d - 1) (d_mask d) up
          else mkDials (d_on d) (d_limit d) (d_delay d) (d_power d) (d_rate d) (unmaskAllChannels (d_mask d)) 0
        else mkDials (d_on d) (d_limit d) (d_delay d) 0 (d_rate d) (d_mask d) up
      else mkDials (d_on d) (d_limit d) (d_delay d) (d_power d) (d_rate d) (d_mask d) up
    else d
  else d.

Lemma adapt_dials c m : dials_of (fst (adaptRate c m)) = bstep (MIN_RATE (c_noSF12 c)) (dials_of m).
Proof.
  open_def adaptRate. cbv zeta. unfold bstep. cbv zeta.
  assert (dials_of m = mkDials (s_adr (m_ctx m)) (s_adr_ack_limit (m_ctx m)) (s_adr_ack_delay (m_ctx m)) (s_power (m_ctx m)) (s_rate (m_ctx m)) (s_chMask (m_ctx m)) (m_adrAckCounter m)) as -> by reflexivity.
  change (m_ctx (set_m_adrAckReq false m)) with (m_ctx m). change (m_adrAckCounter (set_m_adrAckReq false m)) with (m_adrAckCounter m).
  cbn [d_on d_limit d_delay d_power d_rate d_mask d_count].
  destruct (s_adr (m_ctx m)) eqn:A; [|cbn [fst]; unfold dials_of; ms; rewrite A; reflexivity].
  destruct (m_adrAckCounter m <? 255); [|cbn [fst]; unfold dials_of; ms; rewrite A; reflexivity].
  destruct (m_adrAckCounter m >=? s_adr_ack_limit (m_ctx m)); cbn [andb]; [|cbn [fst]; unfold dials_of; ms; rewrite A; reflexivity].
  destruct (_ && _); [|cbn [fst]; unfold dials_of; ms; rewrite A; reflexivity].
  destruct (s_power (m_ctx m) =? 0) eqn:P; [|cbn [fst]; unfold dials_of; ms; cbn; rewrite A; reflexivity].
  destruct (s_rate (m_ctx m) >? _); cbn [fst]; unfold dials_of, on_ctx; ms; cbn; rewrite A; reflexivity.
Qed.

Lemma core_dials m m' : core m' = core m -> dials_of m' = dials_of m.
Proof. intros C. apply core_fields in C. unfold same_core in C. decompose [and] C. unfold dials_of. congruence. Qed.

(* what one step does *)
Definition backs (c : cfg) (m m' : mac) (lo : list out) : Prop :=
  dials_of m' = Nat.iter (length (filter is_done lo)) (bstep (MIN_RATE (c_noSF12 c))) (dials_of m).

Lemma done_none (P : out -> bool) l : (forall o, P o = true -> is_done o = false) -> forallb P l = true -> filter is_done l = [].
Proof.
  intros H. induction l as [|o l IH]; intros F; [reflexivity|]. cbn [forallb] in F. apply andb_true_iff in F as [F1 F2].
  cbn [filter]. rewrite (H _ F1). auto.
Qed.
Lemma plain_done l : forallb plain l = true -> filter is_done l = [].
Proof. apply done_none. intros [[]| | | |]; try discriminate; reflexivity. Qed.

Lemma miss_backs c e m m' lo : miss_case c e m m' -> m_log m' = m_log m ++ lo -> backs c m m' lo.
Proof.
  intros HM L. unfold backs. destruct HM as [m2 D ? C S E|m2 D p C S E|m2 O ? C S E|m2 O ? C S E|D O].
  - rewrite E in L. apply same_log_tail in L. subst lo. cbn [filter length Nat.iter]. rewrite (core_dials _ _ C).
    unfold micDataFrame, next_trial. cbv zeta. unfold dials_of. ms. reflexivity.
  - rewrite E in L. apply app_tail in L. subst lo. rewrite filter_app, app_length.
    assert (length (filter is_done (if snd p then [OEvent (EV_SESSION_UPDATED (m_ctx (fst p)))] else [])) = 0%nat) as -> by (destruct (snd p); reflexivity).
    assert (length (filter is_done [OEvent (data_done (m_op m))]) = 1%nat) as -> by (destruct (m_op m); reflexivity).
    cbn [Nat.add Nat.iter]. rewrite (core_dials _ _ C). change (dials_of (set_m_op OP_NONE (fst p))) with (dials_of (fst p)). unfold p.
    rewrite adapt_dials. reflexivity.
  - rewrite E in L. apply app_tail in L. subst lo. cbn [filter is_done length Nat.iter]. rewrite (core_dials _ _ C).
    destruct (fillJoin_fields c e (u16 (m_devNonce m)) (next_trial m)) as (t & buf & len & dn & E1 & _). rewrite E1. reflexivity.
  - rewrite E in L. apply app_tail in L. subst lo. cbn [filter is_done length Nat.iter]. rewrite (core_dials _ _ C). reflexivity.
  - change (m_log (next_trial m)) with (m_log m) in L. apply same_log_tail in L. subst lo. reflexivity.
Qed.

Lemma act_backs c e m k r m' lo : act c e m k r m' -> m_log m' = m_log m ++ lo -> leaves_settings k = true ->
  (forall buf f, k = C_process -> receiveFrame c m (rx_buffer e) (rx_len e) = (buf, Some f) -> in_rx (m_state m) = true -> False) -> backs c m m' lo.
Proof.
  intros HA L LS N. destruct HA.
  - apply same_log_tail in L. subst. reflexivity.
  - destruct H as [C (l & E & P)]. rewrite E in L. apply app_tail in L. subst l. unfold backs. rewrite (plain_done _ P). exact (core_dials _ _ C).
  - rewrite H2 in L. apply app_tail in L. subst lo. exact (core_dials _ _ H1).
  - rewrite H2 in L. apply app_tail in L. subst lo. exact (core_dials _ _ H0).
  - eapply miss_backs; eauto.
  - rewrite H3 in L. apply app_tail in L. subst lo. exact (core_dials _ _ H1).
  - destruct (miss_log _ _ _ _ H1) as (l1 & E1). rewrite H4, E1, <- app_assoc in L. apply app_tail in L. subst lo.
    unfold backs. rewrite (core_dials _ _ H2), filter_app, app_length. cbn [filter is_done length]. rewrite Nat.add_0_r. exact (miss_backs _ _ _ _ _ H1 E1).
  - exfalso. eapply N; eauto.
  - exfalso. eapply N; eauto.
  - subst m'. apply same_log_tail in L. subst lo. reflexivity.
  - rewrite H1 in L. apply same_log_tail in L. subst lo. exact (core_dials _ _ H0).
  - discriminate LS.
  - discriminate LS.
  - rewrite H7 in L. apply app_tail in L. subst lo. unfold backs. cbn [filter is_done length Nat.iter]. rewrite (core_dials _ _ H6).
    assert (m_ctx (data_filled c f (data_base c o tx op m)) = sess_data c m) as CX by apply filled_ctx.
    assert (m_adrAckCounter (data_filled c f (data_base c o tx op m)) = m_adrAckCounter m) as CN.
    { unfold data_filled. cbv zeta. unfold micDataFrame. cbv zeta. ms. reflexivity. }
    unfold dials_of. rewrite CX, CN. unfold sess_data, clear_single_shot. cbv zeta. destruct (is_1_1 _), (c_txps c); reflexivity.
  - rewrite H2 in L. apply app_tail in L. subst lo. unfold backs. rewrite filter_app, app_length.
    replace (length (filter is_done _)) with 0%nat by (destruct (m_state m); reflexivity). replace (length (filter is_done _)) with 0%nat by (destruct (m_op m); reflexivity).
    exact (core_dials _ _ H0).
  - discriminate LS.
  - destruct k; try discriminate LS; contradiction.
Qed.

Lemma iter_add {A} (f : A -> A) a b x : Nat.iter (a + b) f x = Nat.iter b f (Nat.iter a f x).
Proof. induction b as [|b IH]; [rewrite Nat.add_0_r; reflexivity|]. rewrite Nat.add_succ_r. cbn [Nat.iter]. unfold Nat.iter in *. cbn [nat_rect]. rewrite IH. reflexivity. Qed.

Lemma error_backs c e m : exists lo, m_log (handleRadioError c e m) = m_log m ++ lo /\ backs c m (handleRadioError c e m) lo.
Proof.
  open_def handleRadioError. set (x := timerClear WAITB (timerClear WAITA (inputDisarm m))). cbv zeta.
  assert (dials_of x = dials_of m /\ m_log x = m_log m) as (XD & XL) by (split; reflexivity). clearbody x. unfold backs. rewrite <- XD, <- XL.
  destruct (m_op x) eqn:O.
  3: { pose proof (missing_cases c e x) as HM. destruct (miss_log _ _ _ _ HM) as (lo & L). pose proof (miss_backs _ _ _ _ _ HM L) as B. clear HM.
       revert L B. generalize (downlinkMissing c e x). intros y L B. exists (lo ++ [OMode MODE_RESET]).
       split; [m_unf; unfold emit; ms; rewrite L, app_assoc; reflexivity|]. rewrite filter_app, app_length. cbn [filter is_done length]. rewrite Nat.add_0_r. exact B. }
  all: exists ([OEvent EV_OP_ERROR; OMode MODE_RESET]); split; [m_unf; unfold emit; ms; rewrite <- ?app_assoc; reflexivity|reflexivity].
Qed.

Lemma quiet_backs c a b x y lo : quiet a b -> quiet x y -> m_log x = m_log b ++ lo -> backs c b x lo -> backs c a y (new_out a y).
Proof.
  intros [[C1 (l1 & E1 & P1)] _] [[C2 (l2 & E2 & P2)] _] L B. rewrite (new_out_app a y (l1 ++ lo ++ l2)) by (rewrite E2, L, E1, <- !app_assoc; reflexivity).
  unfold backs in *. rewrite !filter_app, (plain_done _ P1), (plain_done _ P2), app_nil_r. cbn [List.app]. rewrite (core_dials _ _ C2), B, (core_dials _ _ C1). reflexivity.
Qed.

Lemma step_backs c e k m : leaves_settings k = true ->
  (k = C_process -> listening (m_state m) = true -> e_st_rx e = true -> snd (receiveFrame c m (rx_buffer e) (rx_len e)) = None) ->
  backs c m (fst (step c e k m)) (new_out m (fst (step c e k m))).
Proof.
  intros LS N.
  assert (exists m1 m2, quiet m m1 /\ quiet m2 (fst (step c e k m)) /\ exists lo, m_log m2 = m_log m1 ++ lo /\ backs c m1 m2 lo) as (m1 & m2 & Q1 & Q2 & lo & L2 & B);
    [|exact (quiet_backs _ _ _ _ _ _ Q1 Q2 L2 B)].
  destruct (e_st_rx e) eqn:RX.
  - destruct (step_cases c e k m) as (m1 & m2 & Q1 & HA & Q2 & _). exists m1, m2. split; [exact Q1|]. split; [exact Q2|].
    destruct (act_log _ _ _ _ _ _ HA) as (lo & L). exists lo. split; [exact L|]. eapply act_backs; [exact HA|exact L|exact LS|].
    intros buf f K R X. specialize (N K). destruct Q1 as [[C1 _] S1]. rewrite S1 in X. rewrite (receive_core _ _ _ _ _ C1) in R.
    rewrite R in N. cbn [snd] in N. assert (listening (m_state m) = true) as LI by (destruct (m_state m); try discriminate X; reflexivity). specialize (N LI eq_refl). discriminate N.
  - destruct k; try discriminate LS;
    try (match goal with |- context [step ?c ?e ?k ?m] => destruct (step_cases c e k m) as (m1 & m2 & Q1 & HA & Q2 & _) end; exists m1, m2; split; [exact Q1|]; split; [exact Q2|];
      destruct (act_log _ _ _ _ _ _ HA) as (lo & L); exists lo; split; [exact L|]; eapply act_backs; [exact HA|exact L|exact LS|intros; discriminate]).
    clear N. cbn [step fst snd]. destruct (process_cases c e m) as (m1 & m2 & Q1 & HC & Q2).
    destruct HC as [|m2 HM HA|m2 S1 S2 HC HL|S|S|S|S|S R].
    + exists m1, m1. split; [exact Q1|]. split; [exact Q2|]. exists []. rewrite app_nil_r. split; reflexivity.
    + exists m1, m2. split; [exact Q1|]. split; [exact Q2|]. destruct HM as [C (l & E & P)]. exists l. split; [exact E|]. unfold backs. rewrite (plain_done _ P). exact (core_dials _ _ C).
    + exists m1, m2. split; [exact Q1|]. split; [exact Q2|]. eexists. split; [exact HL|]. exact (core_dials _ _ HC).
    + exists m1, (processEntropy e SME_TIMER_A m1). split; [exact Q1|]. split; [exact Q2|]. pose proof (entropy_done_act c e m1 S) as HA.
      destruct (act_log _ _ _ _ _ _ HA) as (lo & L). exists lo. split; [exact L|]. eapply act_backs; [exact HA|exact L|reflexivity|]. intros buf f _ _ X. rewrite S in X. discriminate X.
    + exists m1, (downlinkMissing c e m1). split; [exact Q1|]. split; [exact Q2|]. pose proof (missing_cases c e m1) as HM.
      destruct (miss_log _ _ _ _ HM) as (lo & L). exists lo. split; [exact L|]. eapply miss_backs; eauto.
    + exists (registerTime m1), (handleRadioError c e (registerTime m1)). split; [eapply quiet_trans; [exact Q1|apply registerTime_quiet]|]. split; [exact Q2|]. apply error_backs.
    + exists m1, (handleRadioError c e m1). split; [exact Q1|]. split; [exact Q2|]. apply error_backs.
    + congruence.
Qed.

Lemma run_backs c h : forall m, silent c h m ->
  dials_of (run c h m) = Nat.iter (length (filter is_done (outs (items c h m)))) (bstep (MIN_RATE (c_noSF12 c))) (dials_of m).
Proof.
  induction h as [|[e k] h IH]; intros m S; [reflexivity|]. cbn [silent] in S. destruct S as (L & N & S).
  cbn [run items]. rewrite (IH _ S), (step_backs c e k m L N).
  assert (forall l1 l2, outs (l1 ++ l2) = outs l1 ++ outs l2) as OA by (intros; apply flat_map_app).
  rewrite OA, filter_app, app_length, iter_add. f_equal.
  rewrite TriesP.step_outs. reflexivity.
Qed.

(* --- how far it gets --- *)

Lemma due_step lim del n : 0 < del -> 0 <= n ->
  steps_due lim del (n + 1) = steps_due lim del n + (if (n >=? lim + del) && ((n - (lim + del)) mod del =? 0) then 1 else 0).
Proof.
  intros D N. unfold steps_due. set (t := lim + del). destruct (n >=? t) eqn:G; cbn [andb].
  - replace (n + 1 <=? t) with false by lia. replace (n + 1 - 1 - t) with (n - t) by lia.
    destruct (n <=? t) eqn:E.
    + replace (n - t) with 0 by lia. rewrite Z.div_0_l, Z.mod_0_l by lia. reflexivity.
    + set (x := n - t). replace (n - 1 - t) with (x - 1) by (unfold x; lia). assert (0 < x) by (unfold x; lia). clearbody x.
      pose proof (Z.div_mod x del ltac:(lia)). pose proof (Z.mod_pos_bound x del D).
      destruct (x mod del =? 0) eqn:M.
      * assert ((x - 1) / del = x / del - 1) as ->; [|lia]. symmetry. apply (Z.div_unique _ _ _ (del - 1)); lia.
      * assert ((x - 1) / del = x / del) as ->; [|lia]. symmetry. apply (Z.div_unique _ _ _ (x mod del - 1)); lia.
  - replace (n + 1 <=? t) with true by lia. replace (n <=? t) with true by lia. reflexivity.
Qed.
Lemma due_nonneg lim del n : 0 < del -> 0 <= steps_due lim del n.
Proof. intros D. unfold steps_due. destruct (_ <=? _) eqn:E; [lia|]. assert (0 <= (n - 1 - (lim + del)) / del) by (apply Z.div_pos; lia). lia. Qed.
Lemma due_mono lim del a b : 0 < del -> a <= b -> steps_due lim del a <= steps_due lim del b.
Proof.
  intros D L. unfold steps_due. destruct (a <=? lim + del) eqn:A, (b <=? lim + del) eqn:B; try lia.
  - assert (0 <= (b - 1 - (lim + del)) / del) by (apply Z.div_pos; lia). lia.
  - assert ((a - 1 - (lim + del)) / del <= (b - 1 - (lim + del)) / del) by (apply Z.div_le_mono; lia). lia.
Qed.

Definition fixed (d d' : dials) : Prop := d_on d' = d_on d /\ d_limit d' = d_limit d /\ d_delay d' = d_delay d.

Lemma bstep_fixed min d : fixed d (bstep min d).
Proof. unfold bstep, fixed. cbv zeta. destruct (d_on d) eqn:O; [|auto]. destruct (_ <? _); [|auto]. destruct (_ && _); [destruct (_ =? _); [destruct (_ >? _)|]|]; cbn; auto. Qed.

Lemma unmask_zero l : Forall (eq 0) (unmaskAllChannels l).
Proof. unfold unmaskAllChannels, fill. apply Forall_forall. intros x I. apply repeat_spec in I. auto. Qed.

Lemma bstep_robust min d : robust min d -> robust min (bstep min d).
Proof.
  intros (P & R & M). unfold robust, bstep. cbv zeta. rewrite P, R. change (0 =? 0) with true. replace (min >? min) with false by lia.
  destruct (d_on d); [|auto]. destruct (_ <? _); [|auto]. destruct (_ && _); cbn; auto using unmask_zero.
Qed.

(* state after n ends of operations *)
Definition before_robust (min n : Z) (d d' : dials) : Prop :=
  let k := Z.min (steps_due (d_limit d) (d_delay d) n) (steps_possible (d_limit d) (d_delay d)) in
  fixed d d' /\ d_count d' = Z.min n 255 /\ k < steps_needed min d /\ after_steps k d d'.

Lemma bstep_progress min n d d' : d_on d = true -> 0 <= d_limit d -> 0 < d_delay d -> 0 <= d_power d -> min <= d_rate d -> 0 <= n ->
  before_robust min n d d' ->
  before_robust min (n + 1) d (bstep min d') \/
  (robust min (bstep min d') /\ n < 255 /\ steps_due (d_limit d) (d_delay d) (n + 1) = steps_needed min d).
Proof.
  intros ON L D P R N (F & C & K & A). cbv zeta in *. pose proof (bstep_fixed min d') as F'.
  assert (fixed d (bstep min d')) as F2 by (unfold fixed in *; intuition congruence). destruct F as (F0 & F1 & F3).
  set (lim := d_limit d) in *. set (del := d_delay d) in *.
  destruct (Z_lt_ge_dec n 255) as [S|S].
  - assert (steps_due lim del n <= steps_possible lim del) as B1 by (apply due_mono; lia).
    assert (steps_due lim del (n + 1) <= steps_possible lim del) as B2 by (apply due_mono; lia).
    rewrite Z.min_l in K, A by lia. pose proof (due_step lim del n D N) as DS. pose proof (due_nonneg lim del n D) as DN.
    revert F2. unfold bstep. rewrite F0, ON, F1, F3, C. fold lim del. replace (Z.min n 255) with n by lia. replace (n <? 255) with true by lia.
    cbv zeta. replace (n >=? lim) with ((n >=? lim) || (n >=? lim + del)) by lia.
    replace (((n >=? lim) || (n >=? lim + del)) && (n >=? lim + del)) with (n >=? lim + del) by (destruct (n >=? lim), (n >=? lim + del); reflexivity).
    assert (u8 (n + 1) = n + 1) as U by (unfold u8; change (2 ^ 8) with 256; apply Z.mod_small; lia). rewrite U.
    assert (Z.min (n + 1) 255 = n + 1) as MN by lia.
    destruct A as (A1 & A2 & A3). set (k := steps_due lim del n) in *.
    destruct ((n >=? lim + del) && ((n - (lim + del)) mod del =? 0)); intros F2.
    + destruct (Z_lt_ge_dec (k + 1) (steps_needed min d)) as [G|G].
      * left. unfold before_robust. cbv zeta. fold lim del. replace (Z.min (steps_due lim del (n + 1)) (steps_possible lim del)) with (steps_due lim del (n + 1)) by lia. rewrite DS, MN. split; [exact F2|].
        unfold steps_needed in *. unfold after_steps.
        replace (k + 1 =? 0) with false by lia.
        destruct (d_power d' =? 0) eqn:P0; [destruct (d_rate d' >? min) eqn:R0|]; cbn [d_count d_power d_rate d_mask].
        -- split; [reflexivity|]. split; [exact G|]. rewrite A3, A2. destruct (k =? 0) eqn:K0, (d_power d >? 0) eqn:PP; (split; [lia|split; [lia|reflexivity]]).
        -- exfalso. destruct (k =? 0) eqn:K0, (d_power d >? 0) eqn:PP; lia.
        -- split; [reflexivity|]. split; [exact G|]. rewrite A3, A2. destruct (k =? 0) eqn:K0, (d_power d >? 0) eqn:PP; (split; [lia|split; [lia|reflexivity]]).
      * right. split; [|split; [lia|lia]]. unfold steps_needed in *.
        destruct (d_power d' =? 0) eqn:P0; [destruct (d_rate d' >? min) eqn:R0|]; unfold robust; cbn [d_power d_rate d_mask].
        -- exfalso. destruct (k =? 0) eqn:K0, (d_power d >? 0) eqn:PP; lia.
        -- split; [lia|]. split; [|apply unmask_zero]. destruct (k =? 0) eqn:K0, (d_power d >? 0) eqn:PP; lia.
        -- exfalso. destruct (k =? 0) eqn:K0, (d_power d >? 0) eqn:PP; lia.
    + left. unfold before_robust. cbv zeta. fold lim del. replace (Z.min (steps_due lim del (n + 1)) (steps_possible lim del)) with (steps_due lim del (n + 1)) by lia. rewrite DS, Z.add_0_r, MN. cbn [d_count]. split; [exact F2|]. split; [reflexivity|].
      split; [exact K|]. unfold after_steps. cbn [d_power d_rate d_mask]. auto.
  - left. assert (bstep min d' = d') as E by (unfold bstep; rewrite F0, ON, C; replace (Z.min n 255 <? 255) with false by lia; reflexivity).
    rewrite E in *. unfold before_robust. cbv zeta. fold lim del.
    assert (steps_possible lim del <= steps_due lim del n) as B1 by (apply due_mono; lia).
    assert (steps_possible lim del <= steps_due lim del (n + 1)) as B2 by (apply due_mono; lia).
    rewrite Z.min_r in K, A by lia. replace (Z.min (steps_due lim del (n + 1)) (steps_possible lim del)) with (steps_possible lim del) by lia. rewrite C. split; [exact F2|]. split; [lia|]. auto.
Qed.

Lemma iter_state min d n : d_on d = true -> 0 <= d_limit d -> 0 < d_delay d -> 0 <= d_power d -> min <= d_rate d -> d_count d = 0 ->
  let d' := Nat.iter n (bstep min) d in
  before_robust min (Z.of_nat n) d d' \/
  (robust min d' /\ steps_needed min d <= Z.min (steps_due (d_limit d) (d_delay d) (Z.of_nat n)) (steps_possible (d_limit d) (d_delay d))).
Proof.
  intros ON L D P R C. cbv zeta. induction n as [|n IH].
  - left. change (Nat.iter 0 (bstep min) d) with d. unfold before_robust. cbv zeta. assert (steps_due (d_limit d) (d_delay d) 0 = 0) as Z0 by (unfold steps_due; replace (0 <=? d_limit d + d_delay d) with true by lia; reflexivity).
    change (Z.of_nat 0) with 0. rewrite Z0. pose proof (due_nonneg (d_limit d) (d_delay d) 255 D). fold (steps_possible (d_limit d) (d_delay d)) in H. replace (Z.min 0 (steps_possible (d_limit d) (d_delay d))) with 0 by lia.
    split; [unfold fixed; auto|]. split; [exact C|]. split; [unfold steps_needed; destruct (_ >? _); lia|]. unfold after_steps. change (0 =? 0) with true.
    split; [reflexivity|]. split; [destruct (d_power d >? 0); lia|reflexivity].
  - change (Nat.iter (S n) (bstep min) d) with (bstep min (Nat.iter n (bstep min) d)). replace (Z.of_nat (S n)) with (Z.of_nat n + 1) by lia.
    destruct IH as [B|[B G]].
    + destruct (bstep_progress min (Z.of_nat n) d _ ON L D P R ltac:(lia) B) as [B'|(B' & N & E)]; [now left|right].
      split; [exact B'|]. rewrite E. assert (steps_due (d_limit d) (d_delay d) (Z.of_nat n + 1) <= steps_possible (d_limit d) (d_delay d)) by (apply due_mono; lia). lia.
    + right. split; [now apply bstep_robust|]. pose proof (due_mono (d_limit d) (d_delay d) (Z.of_nat n) (Z.of_nat n + 1) D ltac:(lia)). lia.
Qed.

(* --- statements --- *)

(* without the radio reporting a frame *)
Lemma no_packet c h : forallb (fun x => leaves_settings (snd x) && negb (e_st_rx (fst x))) h = true -> forall m, silent c h m.
Proof.
  induction h as [|[e k] h IH]; intros F m; [exact I|]. cbn [forallb fst snd] in F. apply andb_true_iff in F as [F1 F2]. apply andb_true_iff in F1 as [F1 F3].
  cbn [silent]. split; [exact F1|]. split; [|auto]. intros _ _ X. rewrite X in F3. discriminate F3.
Qed.

Theorem back_off c h m : silent c h m -> let min := MIN_RATE (c_noSF12 c) in let d := dials_of m in starts_fresh min d ->
  let d' := dials_of (run c h m) in
  let k := Z.min (steps_due (d_limit d) (d_delay d) (finished (outs (items c h m)))) (steps_possible (d_limit d) (d_delay d)) in
  if k <? steps_needed min d then after_steps k d d' else robust min d'.
Proof.
  intros S. cbv zeta. intros (H1 & H2 & H3 & H4 & H5 & H6). rewrite (run_backs c h m S). unfold finished.
  destruct (iter_state (MIN_RATE (c_noSF12 c)) (dials_of m) (length (filter is_done (outs (items c h m)))) H1 H2 H3 H4 H5 H6) as [(F & C & K & A)|[B G]].
  - cbv zeta in K, A. replace (_ <? _) with true by lia. exact A.
  - replace (_ <? _) with false by lia. exact B.
Qed.

Theorem reached c h m : silent c h m -> let min := MIN_RATE (c_noSF12 c) in let d := dials_of m in starts_fresh min d ->
  steps_needed min d <= steps_possible (d_limit d) (d_delay d) ->
  d_limit d + d_delay d * steps_needed min d < finished (outs (items c h m)) -> robust min (dials_of (run c h m)).
Proof.
  intros S. cbv zeta. intros F L N. pose proof (back_off c h m S F) as H. cbv zeta in H. destruct F as (F1 & F2 & F3 & F4 & F5 & F6).
  set (d := dials_of m) in *. set (n := finished _) in *. set (min := MIN_RATE _) in *.
  assert (1 <= steps_needed min d) as NP by (unfold steps_needed; destruct (_ >? _); lia).
  assert (steps_needed min d <= steps_due (d_limit d) (d_delay d) n) as G.
  { unfold steps_due. replace (n <=? d_limit d + d_delay d) with false by nia.
    assert (steps_needed min d - 1 <= (n - 1 - (d_limit d + d_delay d)) / d_delay d); [|lia]. apply Z.div_le_lower_bound; [lia|]. nia. }
  replace (_ <? _) with false in H by lia. exact H.
Qed.

Theorem never_reached c h m : silent c h m -> let min := MIN_RATE (c_noSF12 c) in let d := dials_of m in starts_fresh min d ->
  steps_possible (d_limit d) (d_delay d) < steps_needed min d ->
  let d' := dials_of (run c h m) in d_mask d' = d_mask d /\
  d_rate d - Z.max 0 (steps_possible (d_limit d) (d_delay d) - (if d_power d >? 0 then 1 else 0)) <= d_rate d'.
Proof.
  intros S. cbv zeta. intros F L. pose proof (back_off c h m S F) as H. cbv zeta in H.
  set (k := Z.min _ _) in *. assert (k <= steps_possible (d_limit (dials_of m)) (d_delay (dials_of m))) by (unfold k; lia).
  replace (_ <? _) with true in H by lia. destruct H as (_ & R & M). split; [exact M|]. rewrite R. lia.
Qed.
