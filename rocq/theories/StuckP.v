(* States from which nothing follows: no timer is running and the state reacts
   to nothing else. *)
From Verif Require Import Lib FrameM CommandsM RegionM RadioM SmM MacStateM MacTac MacUtilM OpsM MacCmdM MacProcM MacApiM MacRw CoreP CaseP RxP SpecHist SpecTime HistP EndP TxP TimeP.

Definition armed (i : nat) (m : mac) : bool := tm_armed (get_timer m i).

(* waiting for a timer that is not running *)
Definition dead (m : mac) : Prop :=
  (m_state m = ST_RADIO_RESET \/ m_state m = ST_WAIT_RX2) /\ armed WAITA m = false /\ armed WAITB m = false.

Lemma armed_timers i m m' : m_timers m' = m_timers m -> armed i m' = armed i m.
Proof. unfold armed, get_timer. now intros ->. Qed.

Lemma clear_armed i j m : armed i (timerClear j m) = if Nat.eqb i j then false else armed i m.
Proof.
  unfold armed, timerClear, set_timer, get_timer. ms. rewrite nth_upd.
  destruct (Nat.eqb_spec i j) as [->|N].
  - destruct (j <? length (m_timers m))%nat eqn:L; cbn [andb]; [reflexivity|].
    rewrite nth_overflow by (apply Nat.ltb_ge; exact L). reflexivity.
  - reflexivity.
Qed.

Lemma band_timer_armed i e m : i <> TBAND -> armed i (setNextBandEvent e m) = armed i m.
Proof.
  intros N. unfold setNextBandEvent. cbv zeta. destruct (_ <? _).
  - unfold armed, timerSet, set_timer, get_timer. ms. rewrite nth_upd. destruct (Nat.eqb_spec i TBAND); [congruence|reflexivity].
  - rewrite clear_armed. destruct (Nat.eqb_spec i TBAND); [congruence|reflexivity].
Qed.

Lemma band_event_state e m : m_state (setNextBandEvent e m) = m_state m /\ m_op (setNextBandEvent e m) = m_op m /\
  m_log (setNextBandEvent e m) = m_log m.
Proof. unfold setNextBandEvent. cbv zeta. destruct (_ <? _); repeat split. Qed.

Lemma bands_fields e m : let m' := fst (processBands e m) in
  m_timers m' = m_timers m /\ m_state m' = m_state m /\ m_op m' = m_op m /\ logs plain m m'.
Proof.
  cbv zeta. destruct (processBands_quiet e m) as [[C L] S]. split; [|split; [exact S|split; [now apply core_op_eq|exact L]]].
  unfold processBands. destruct (mt_parked _); [reflexivity|]. destruct (elapsed _ _). cbv zeta. destruct (_ && _); reflexivity.
Qed.

Lemma check_off e i m : armed i m = false -> timerCheck e i m = (m, None).
Proof. unfold armed, timerCheck. cbv zeta. now intros ->. Qed.

Lemma dead_process c e m : dead m ->
  let m' := MAC_process c e m in dead m' /\ m_state m' = m_state m /\ m_op m' = m_op m /\ logs plain m m'.
Proof.
  intros (S & A & B). unfold MAC_process. destruct (bands_fields e m) as (T1 & S1 & O1 & L1). cbv zeta in *.
  destruct (processBands e m) as [m1 rd]. cbn [fst] in *.
  assert (armed WAITA m1 = false /\ armed WAITB m1 = false) as [A1 B1] by (rewrite !(armed_timers _ m m1 T1); auto).
  assert (exists m2 ev lag, next_event e m1 rd = (m2, ev, lag) /\ (ev = SME_INTERRUPT \/ ev = SME_BAND \/ ev = SME_NONE) /\
            m_timers m2 = m_timers m1 /\ m_state m2 = m_state m1 /\ m_op m2 = m_op m1 /\ m_log m2 = m_log m1) as (m2 & ev & lag & E & HE & T2 & S2 & O2 & L2).
  { unfold next_event, inputCheck. destruct (in_state _).
    - eexists _, _, _. split; [reflexivity|]. repeat split; auto.
    - rewrite (check_off e WAITA m1 A1), (check_off e WAITB m1 B1). destruct rd; eexists _, _, _; (split; [reflexivity|]); repeat split; auto. }
  rewrite E. assert ((match ev with SME_NONE => m2 | _ => dispatch c e ev lag m2 end) = m2) as ->.
  { assert (dispatch c e ev lag m2 = m2) as D; [|destruct ev; auto].
    unfold dispatch. rewrite S2, S1. destruct S as [-> | ->], HE as [-> |[-> | ->]]; reflexivity. }
  destruct (band_event_state e m2) as (S3 & O3 & L3).
  assert (dead (setNextBandEvent e m2)) as HD.
  { split; [rewrite S3, S2, S1; exact S|]. rewrite !band_timer_armed by discriminate.
    rewrite !(armed_timers _ m1 m2 T2). auto. }
  split; [exact HD|]. split; [congruence|]. split; [congruence|].
  destruct L1 as (l & EL & PL). exists l. split; [congruence|exact PL].
Qed.

Lemma sel_start_fields c m : m_timers (sel_start c m) = m_timers m /\ m_state (sel_start c m) = m_state m.
Proof. split; reflexivity. Qed.

Lemma cancel_timers m : m_state m <> ST_IDLE ->
  (m_timers (MAC_cancel m) = m_timers m /\ m_state (MAC_cancel m) = m_state m) \/
  (m_state (MAC_cancel m) = ST_RADIO_RESET /\ armed WAITA (MAC_cancel m) = false /\ armed WAITB (MAC_cancel m) = false).
Proof.
  intros NI. remember (MAC_cancel m) as r eqn:R. symmetry in R. open_def MAC_cancel in R. ltn R op. ltn R m1. ltn R m2.
  assert ((m_timers m2 = m_timers m /\ m_state m2 = m_state m /\ m_state m2 <> ST_TX) \/
    (m_state m2 = ST_RADIO_RESET /\ armed WAITA m2 = false /\ armed WAITB m2 = false)) as H.
  { subst m1. change (m_state (set_m_op OP_NONE m)) with (m_state m) in Em2.
    destruct (m_state m) eqn:S; try congruence; subst m2;
    try (left; split; [reflexivity|split; [exact S|change (m_state m <> ST_TX); congruence]]);
    (right; split; [reflexivity|];
     match goal with |- armed _ ?y = _ /\ _ => rewrite !(armed_timers _ (timerClear WAITB (timerClear WAITA (set_m_op OP_NONE m))) y eq_refl) end;
     rewrite !clear_armed; auto). }
  clear Em2. ltn R m3.
  assert (m3 = m2) as -> by (subst m3; destruct H as [(_ & _ & H)|(H & _)]; destruct (m_state m2); congruence).
  assert (m_timers r = m_timers m2 /\ m_state r = m_state m2) as [T S] by (subst r; destruct op; split; reflexivity).
  rewrite T, S, !(armed_timers _ _ _ T). destruct H as [(H1 & H2 & _)|H]; auto.
Qed.

(* requests start a timer only when the state is idle *)
Lemma api_timers c e k m : k <> C_process -> m_state m <> ST_IDLE ->
  let m' := fst (step c e k m) in
  (m_timers m' = m_timers m /\ m_state m' = m_state m) \/
  ((k = C_cancel \/ k = C_forget) /\ m_state m' = ST_RADIO_RESET /\ armed WAITA m' = false /\ armed WAITB m' = false).
Proof.
  intros NP NI. cbv zeta. destruct k; cbn [step]; unfold st_ret, bool_ret; cbn [fst]; try congruence.
  - left. open_def MAC_entropy. destruct (m_op m); cbn [fst]; auto. cbv zeta. ms.
    destruct (m_state m) eqn:S; try congruence; rewrite <- S; split; reflexivity.
  - left. open_def MAC_otaa. destruct (s_joined (m_ctx m)); [auto|]. destruct (m_op m); cbn [fst]; auto.
    destruct (m_devNonce m <=? 65535); cbn [fst]; auto. cbv zeta.
    match goal with |- context [fillJoinBuffer c e ?n ?x] =>
      assert (m_timers x = m_timers m /\ m_state x = m_state m) as [E1 E2] by (destruct (is_1_1 (c_l2 c)); split; reflexivity);
      destruct (fillJoin_fields c e n x) as (t & buf & len & dn & -> & _); revert E1 E2; generalize x end.
    intros x E1 E2. m_unf. unfold emit. ms. rewrite E2. destruct (m_state m) eqn:S; try congruence; ms; rewrite E2, E1; auto.
  - left. open_def MAC_abp. destruct (s_joined (m_ctx m)); [auto|]. destruct (m_op m); cbn [fst]; auto.
  - left. open_def MAC_data. destruct (negb _); [auto|]. destruct (m_op m); cbn [fst]; auto.
    destruct (_ && _); [|auto]. destruct (band_global m =? 0); [|auto]. cbv zeta. fold (sel_start c m).
    destruct (selectChannel _ _ _ _ _) as [tx fd]. destruct fd; [|split; reflexivity].
    destruct (_ <=? _); [|split; reflexivity]. destruct (compose _ _ _ _ _ _) as [[f op] st].
    match goal with |- context [prepareData c ?y f ?d ?n] => assert (m_timers y = m_timers m /\ m_state y = m_state m) as [E1 E2] by (split; reflexivity);
      revert E1 E2; generalize y; intros x E1 E2 end.
    destruct (prepareData _ _ _ _ _) as [buf n]. unfold micDataFrame. cbv zeta. m_unf. unfold emit. cbn [fst]. ms. rewrite E2.
    destruct (m_state m) eqn:S; try congruence; ms; rewrite ?E2, ?E1; auto.
  - destruct (cancel_timers m NI) as [H|H]; auto.
  - assert (m_timers (MAC_forget c m) = m_timers (MAC_cancel m) /\ m_state (MAC_forget c m) = m_state (MAC_cancel m)) as [E1 E2]
      by (unfold MAC_forget; cbv zeta; destruct (s_joined _); split; reflexivity).
    rewrite E1, E2, !(armed_timers _ _ _ E1). destruct (cancel_timers m NI) as [H|H]; auto.
  - left. open_def MAC_setRate. destruct (rateSettingIsValid _ _); split; reflexivity.
  - left. open_def MAC_setPower. destruct (validateTXPower _ _); split; reflexivity.
  - left. split; reflexivity.
  - left. split; reflexivity.
  - left. open_def MAC_addChannel. destruct (setChannel _ _ _ _ _). split; reflexivity.
  - left. open_def MAC_maskChannel. destruct (maskChannel _ _ _). split; reflexivity.
  - left. open_def MAC_unmaskChannel. destruct (unmaskChannel _ _ _). split; reflexivity.
  - left. unfold inputSignal. destruct (_ && _); split; reflexivity.
Qed.

Lemma dead_api c e k m : k <> C_process -> dead m -> dead (fst (step c e k m)).
Proof.
  intros NP (S & A & B). assert (m_state m <> ST_IDLE) as NI by (destruct S; congruence).
  destruct (api_timers c e k m NP NI) as [[T E]|(_ & E & A' & B')]; cbv zeta in *.
  - split; [rewrite E; exact S|]. rewrite !(armed_timers _ _ _ T). auto.
  - split; auto.
Qed.

Theorem dead_forever c h m : dead m -> dead (run c h m).
Proof.
  revert m. induction h as [|[e k] h IH]; intros m D; [exact D|]. cbn [run]. apply IH.
  destruct k; try (apply dead_api; [discriminate|exact D]). apply (dead_process c e m D).
Qed.

Lemma dead_not_ready m : dead m -> MAC_ready m = false.
Proof. intros ([S|S] & _); unfold MAC_ready; rewrite S; reflexivity. Qed.


Definition not_stop (k : call) : Prop := k <> C_cancel /\ k <> C_forget.

Lemma api_no_end c e m k r m' lo : act c e m k r m' -> k <> C_process -> not_stop k -> m_log m' = m_log m ++ lo -> forallb inert lo = true.
Proof.
  intros HA NP NS. revert lo. destruct HA; intros lo L; try congruence; try (destruct NS; congruence).
  - apply same_log_tail in L. subst. reflexivity.
  - rewrite H in L. change (m_log (set_m_tx tx m)) with (m_log m) in L. apply same_log_tail in L. subst. reflexivity.
  - rewrite H1 in L. apply same_log_tail in L. subst. reflexivity.
  - rewrite H3 in L. apply app_tail in L. subst lo. reflexivity.
  - rewrite H2 in L. apply same_log_tail in L. subst. reflexivity.
  - rewrite H7 in L. apply app_tail in L. subst lo. reflexivity.
  - destruct NS. destruct H as [|[]]; congruence.
  - destruct H4 as [E|E]; rewrite E in L; [apply same_log_tail in L|apply app_tail in L]; subst lo; reflexivity.
Qed.

Lemma dead_step_out c e k m : dead m -> forallb no_tx (new_out m (fst (step c e k m))) = true /\
  (not_stop k -> forallb inert (new_out m (fst (step c e k m))) = true).
Proof.
  intros D. assert (k = C_process \/ k <> C_process) as [->|NP] by (destruct k; auto; right; discriminate).
  - destruct (dead_process c e m D) as (_ & _ & _ & (l & E & P)). cbn [step fst]. rewrite (new_out_app _ _ _ E).
    split; [now apply plain_no_tx|intros _; now apply plain_inert].
  - destruct (step_cases c e k m) as (m1 & m2 & Q1 & A & Q2 & E1). rewrite (E1 NP) in A. clear m1 Q1 E1.
    destruct (act_log _ _ _ _ _ _ A) as (la & LA). destruct (quiet_log _ _ Q2) as (l2 & L2 & P2).
    rewrite (new_out_app m _ (la ++ l2)) by (rewrite L2, LA, app_assoc; reflexivity).
    rewrite !forallb_app, (plain_no_tx _ P2), (plain_inert _ P2). split.
    + destruct (act_tx _ _ _ _ _ _ _ A LA) as [->|(X & _)]; [reflexivity|congruence].
    + intros NS. now rewrite (api_no_end _ _ _ _ _ _ _ A NP NS LA).
Qed.

Lemma dead_run c e k m : dead m -> dead (fst (step c e k m)).
Proof. intros D. exact (dead_forever c [(e, k)] m D). Qed.

(* nothing is transmitted any more *)
Theorem dead_silent c h m o : dead m -> In (IOut o) (items c h m) -> no_tx o = true.
Proof.
  revert m. induction h as [|[e k] h IH]; intros m D; [intros []|]. cbn [items]. intros I. apply in_app_or in I.
  destruct I as [I|I]; [|exact (IH _ (dead_run c e k m D) I)].
  destruct (dead_step_out c e k m D) as [H _]. unfold step_items in I. apply in_app_or in I.
  destruct I as [I|I]; [destruct k; try (destruct I as [I|[]]; discriminate I); destruct I|].
  apply in_map_iff in I. destruct I as (o' & E & I). injection E as ->. exact (proj1 (forallb_forall _ _) H o I).
Qed.

(* and nothing ends unless the application cancels it *)
Theorem dead_no_end c h m x : dead m -> Forall (fun x => not_stop (snd x)) h -> In x (items c h m) -> ends x = None.
Proof.
  revert m. induction h as [|[e k] h IH]; intros m D F; [intros []|]. inversion F as [|? ? NS F']; subst. cbn [items]. intros I.
  apply in_app_or in I. destruct I as [I|I]; [|exact (IH _ (dead_run c e k m D) F' I)].
  destruct (dead_step_out c e k m D) as [_ H]. specialize (H NS). unfold step_items in I. apply in_app_or in I.
  destruct I as [I|I]; [destruct k; try (destruct I as [<-|[]]; reflexivity); destruct I|].
  apply in_map_iff in I. destruct I as (o' & <- & I). pose proof (proj1 (forallb_forall _ _) H o' I) as HI.
  unfold inert, is_end in HI. destruct (ends (IOut o')); [discriminate|reflexivity].
Qed.

Definition running (s : mac_state) : bool := match s with ST_INIT | ST_RADIO_RESET | ST_RADIO_BOOT => false | _ => true end.

(* cancelling in any state but start-up ends there *)
Theorem cancel_dead m : running (m_state m) = true -> dead (MAC_cancel m).
Proof.
  intros H. destruct (m_state m) eqn:S; try discriminate;
  try (destruct (cancel_timers m) as [[T E]|(E & A & B)]; [rewrite S; discriminate| |split; auto];
       exfalso; revert E; unfold MAC_cancel; cbv zeta; change (m_state (set_m_op OP_NONE m)) with (m_state m);
       rewrite S; destruct (m_op m); discriminate).
  assert (m_state (MAC_cancel m) = ST_RADIO_RESET /\ m_timers (MAC_cancel m) = m_timers (timerClear WAITB (timerClear WAITA m))) as [E1 E2].
  { unfold MAC_cancel. cbv zeta. change (m_state (set_m_op OP_NONE m)) with (m_state m). rewrite S. destruct (m_op m); split; reflexivity. }
  split; [auto|]. rewrite !(armed_timers _ _ _ E2), !clear_armed. auto.
Qed.

Lemma forget_dead c m : running (m_state m) = true -> dead (MAC_forget c m).
Proof.
  intros H. destruct (cancel_dead m H) as (S & A & B).
  assert (m_timers (MAC_forget c m) = m_timers (MAC_cancel m) /\ m_state (MAC_forget c m) = m_state (MAC_cancel m)) as [E1 E2]
      by (unfold MAC_forget; cbv zeta; destruct (s_joined _); split; reflexivity).
  split; [rewrite E2; exact S|]. rewrite !(armed_timers _ _ _ E1). auto.
Qed.

(* --- start-up runs to idle --- *)

Lemma bands_inputs e m : m_inputs (fst (processBands e m)) = m_inputs m /\ m_time (fst (processBands e m)) = m_time (fst (processBands e m)).
Proof.
  unfold processBands. destruct (mt_parked _); [auto|]. destruct (elapsed _ _). cbv zeta. destruct (_ && _); auto.
Qed.

(* timer A due and no interrupt pending *)
Lemma process_A c e D T m : inputPending m = false -> get_timer m WAITA = mkTimer (clock D) true -> e_now e = clock T ->
  D <= T < D + 2 ^ 31 - 1 ->
  exists m2 lag, quiet m m2 /\ m_inputs m2 = m_inputs m /\
    m_timers m2 = upd (m_timers m) WAITA (mkTimer (clock D) false) /\
    MAC_process c e m = setNextBandEvent e (dispatch c e SME_TIMER_A lag m2).
Proof.
  intros I G N R. unfold MAC_process. destruct (bands_fields e m) as (T1 & _ & _ & _). destruct (bands_inputs e m) as [I1 _].
  pose proof (processBands_quiet e m) as Q1. cbv zeta in *. destruct (processBands e m) as [m1 rd]. cbn [fst] in *.
  assert (get_timer m1 WAITA = mkTimer (clock D) true) as G1 by (unfold get_timer in *; rewrite T1; exact G).
  unfold next_event, inputCheck. rewrite I1. unfold inputPending in I. rewrite I.
  pose proof (timer_check D T WAITA e m1 G1 N ltac:(lia)) as H.
  pose proof (timerCheck_quiet e WAITA m1) as Q2.
  unfold timerCheck in *. rewrite G1 in *. cbn [tm_armed tm_time] in *.
  destruct (timerDelta (clock D) (e_now e) <? INT32_MAX) eqn:EL; cbn [fst snd] in *; [|lia].
  eexists _, _. split; [eapply quiet_trans; [exact Q1|exact Q2]|]. split; [exact I1|]. split; [|reflexivity].
  unfold set_timer. ms. rewrite T1. reflexivity.
Qed.

Lemma band_event_timers e m i : i <> TBAND -> get_timer (setNextBandEvent e m) i = get_timer m i.
Proof.
  intros N. unfold setNextBandEvent. cbv zeta. destruct (_ <? _);
  unfold timerSet, timerClear, set_timer, get_timer; ms; rewrite nth_upd; (destruct (Nat.eqb_spec i TBAND); [congruence|reflexivity]).
Qed.
Lemma band_event_inputs e m : m_inputs (setNextBandEvent e m) = m_inputs m /\ m_tps (setNextBandEvent e m) = m_tps m /\
  length (m_timers (setNextBandEvent e m)) = length (m_timers m).
Proof. unfold setNextBandEvent. cbv zeta. destruct (_ <? _); unfold timerSet, timerClear, set_timer; ms; rewrite upd_length; auto. Qed.

Lemma quiet_tps m m' : quiet m m' -> m_tps m' = m_tps m /\ m_op m' = m_op m /\ m_state m' = m_state m.
Proof. intros [[C _] S]. apply core_fields in C. unfold same_core in C. decompose [and] C. auto. Qed.

Definition boot_tick (s : mac_state) (tps : Z) : Z := match s with ST_INIT => tps / 1024 | _ => tps / 128 end.
Definition boot_next (s : mac_state) : mac_state := match s with ST_INIT => ST_RADIO_RESET | ST_RADIO_RESET => ST_RADIO_BOOT | _ => ST_IDLE end.

Lemma boot_step c e D T m : running (m_state m) = false -> m_op m = OP_NONE -> inputPending m = false -> length (m_timers m) = 3%nat ->
  0 <= m_tps m < 2 ^ 32 -> get_timer m WAITA = mkTimer (clock D) true -> e_now e = clock T -> D <= T < D + 2 ^ 31 - 1 ->
  let m' := MAC_process c e m in
  m_state m' = boot_next (m_state m) /\ m_op m' = OP_NONE /\ inputPending m' = false /\ length (m_timers m') = 3%nat /\ m_tps m' = m_tps m /\
  (m_state m <> ST_RADIO_BOOT -> get_timer m' WAITA = mkTimer (clock (T + boot_tick (m_state m) (m_tps m))) true).
Proof.
  intros R O I L P G N B. cbv zeta. destruct (process_A c e D T m I G N B) as (m2 & lag & Q & I2 & T2 & ->).
  destruct (quiet_tps _ _ Q) as (P2 & O2 & S2).
  destruct (band_event_state e (dispatch c e SME_TIMER_A lag m2)) as (-> & -> & _).
  destruct (band_event_inputs e (dispatch c e SME_TIMER_A lag m2)) as (EI & -> & ->). unfold inputPending in *. rewrite EI, band_event_timers by discriminate.
  assert (length (m_timers m2) = 3%nat) as L2 by (rewrite T2, upd_length; exact L).
  unfold dispatch. rewrite S2. destruct (m_state m); try discriminate R; cbn [boot_next boot_tick].
  - unfold processInit. split; [reflexivity|]. split; [change (m_op m2 = OP_NONE); congruence|].
    split; [change (in_state (m_inputs m2) = false); congruence|]. split; [unfold timerSet, set_timer; ms; rewrite upd_length; exact L2|].
    split; [exact P2|]. intros _. rewrite <- P2.
    apply timer_deadline; [change (WAITA < length (m_timers m2))%nat; rewrite L2; repeat constructor|rewrite <- P2 in P; ms; lia|exact N].
  - unfold processRadioReset. split; [reflexivity|]. split; [change (m_op m2 = OP_NONE); congruence|].
    split; [change (in_state (m_inputs m2) = false); congruence|]. split; [unfold timerSet, set_timer; ms; rewrite upd_length; exact L2|].
    split; [exact P2|]. intros _. rewrite <- P2.
    apply timer_deadline; [change (WAITA < length (m_timers m2))%nat; rewrite L2; repeat constructor|rewrite <- P2 in P; ms; lia|exact N].
  - unfold processRadioBoot. cbv zeta. change (m_op (emit (OMode MODE_SLEEP) m2)) with (m_op m2). rewrite O2, O.
    split; [reflexivity|]. split; [change (m_op m2 = OP_NONE); congruence|].
    split; [change (in_state (m_inputs m2) = false); congruence|]. split; [exact L2|]. split; [exact P2|]. congruence.
Qed.

(* from start-up, with timer A due, three calls at the times asked for *)
Theorem boot_recovers c e1 e2 e3 D T1 T2 T3 m : m_state m = ST_INIT -> m_op m = OP_NONE -> inputPending m = false ->
  length (m_timers m) = 3%nat -> 0 <= m_tps m < 2 ^ 32 -> get_timer m WAITA = mkTimer (clock D) true ->
  e_now e1 = clock T1 -> e_now e2 = clock T2 -> e_now e3 = clock T3 ->
  D <= T1 < D + 2 ^ 31 - 1 -> T1 + m_tps m / 1024 <= T2 < T1 + 2 ^ 31 - 1 -> T2 + m_tps m / 128 <= T3 < T2 + 2 ^ 31 - 1 ->
  let m' := run c [(e1, C_process); (e2, C_process); (e3, C_process)] m in m_state m' = ST_IDLE /\ m_op m' = OP_NONE.
Proof.
  intros S O I L P G N1 N2 N3 B1 B2 B3. cbv zeta. cbn [run step fst].
  destruct (boot_step c e1 D T1 m) as (S1 & O1 & I1 & L1 & P1 & G1); try assumption; [rewrite S; reflexivity|].
  rewrite S in *. specialize (G1 ltac:(discriminate)). cbn [boot_next boot_tick] in *.
  destruct (boot_step c e2 (T1 + m_tps m / 1024) T2 (MAC_process c e1 m)) as (S2 & O2 & I2 & L2 & P2 & G2); try assumption;
    [rewrite S1; reflexivity|rewrite P1; exact P|lia|].
  rewrite S1 in *. specialize (G2 ltac:(discriminate)). cbn [boot_next boot_tick] in *.
  destruct (boot_step c e3 (T2 + m_tps m / 128) T3 (MAC_process c e2 (MAC_process c e1 m))) as (S3 & O3 & _); try assumption;
    [rewrite S2; reflexivity|rewrite P2, P1; exact P|rewrite G2, P1; reflexivity|lia|].
  rewrite S2 in S3. auto.
Qed.

Lemma cancel_init m : m_state m = ST_INIT ->
  m_state (MAC_cancel m) = ST_INIT /\ m_op (MAC_cancel m) = OP_NONE /\ m_inputs (MAC_cancel m) = m_inputs m /\
  m_timers (MAC_cancel m) = m_timers m /\ m_tps (MAC_cancel m) = m_tps m.
Proof.
  intros S. unfold MAC_cancel. cbv zeta. change (m_state (set_m_op OP_NONE m)) with (m_state m). rewrite S.
  change (m_state (set_m_op OP_NONE m)) with (m_state m). rewrite S. destruct (m_op m); repeat split; exact S.
Qed.

Theorem cancel_boot c e1 e2 e3 D T1 T2 T3 m : m_state m = ST_INIT -> inputPending m = false ->
  length (m_timers m) = 3%nat -> 0 <= m_tps m < 2 ^ 32 -> get_timer m WAITA = mkTimer (clock D) true ->
  e_now e1 = clock T1 -> e_now e2 = clock T2 -> e_now e3 = clock T3 ->
  D <= T1 < D + 2 ^ 31 - 1 -> T1 + m_tps m / 1024 <= T2 < T1 + 2 ^ 31 - 1 -> T2 + m_tps m / 128 <= T3 < T2 + 2 ^ 31 - 1 ->
  let m' := run c [(e1, C_process); (e2, C_process); (e3, C_process)] (MAC_cancel m) in m_state m' = ST_IDLE /\ m_op m' = OP_NONE.
Proof.
  intros S I L P G. destruct (cancel_init m S) as (S1 & O1 & I1 & T & P1).
  rewrite <- P1, <- T in *. unfold get_timer in G. rewrite <- T in G. unfold inputPending in I. rewrite <- I1 in I.
  exact (boot_recovers c e1 e2 e3 D T1 T2 T3 (MAC_cancel m) S1 O1 I L P G).
Qed.
