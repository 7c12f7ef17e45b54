(* What the commands of a downlink do to the settings of the device. *)
From Verif Require RegionP.
From Verif Require Import Lib StreamM FrameM CommandsM RegionM SmM MacStateM MacTac MacUtilM OpsM MacCmdM MacRw SpecFrame SpecCmd SpecAnswer SpecExec SpecRegion SpecEffect CmdP ChanP ExecP RxP SpecTime TimeP SmP ValidP MacProcM MacApiM CoreP CaseP SpecHist HistP EndP WindowP StuckP DataP CtxP DownP.

Local Notation nets := net_settings.

Definition pick {A} (o : option A) (a : A) : A := match o with Some v => v | None => a end.

Lemma new_channel_nets s s0 ch f lo hi (b : bool) x : nets s0 = nets s -> s_region s0 = s_region s ->
  nets (setPendingCommand CMD_NEW_CHANNEL (if b then fst (setChannel (set_s_nch_ans x s0) ch f lo hi) else set_s_nch_ans x s0)) = nets s.
Proof.
  intros H _. destruct b; [|exact H]. destruct (set_frame (set_s_nch_ans x s0) ch f lo hi) as [-> _]. exact H.
Qed.

Lemma step_nets c e d last m st : let s := m_ctx m in let s' := m_ctx (fst (do_command c e d last m st)) in
  nets s' = (pick (duty_of d) (s_maxDutyCycle s), pick (rx_of d) (s_rx1DROffset s, s_rx2DataRate s, s_rx2Freq s), pick (delay_of d) (s_rx1Delay s),
             pick (param_of (c_txps c) (s_region s) d) (s_tx_param s), pick (limits_of d) (s_adr_ack_limit s, s_adr_ack_delay s)).
Proof.
  cbv zeta. destruct d; cbn [do_command duty_of rx_of delay_of limits_of param_of pick]; try reflexivity.
  - pose proof (do_linkADR_frame dataRate txPower channelMask channelMaskControl nbTrans last (m_ctx m) st) as [E _]. cbv zeta in E.
    destruct (do_linkADR _ _ _ _ _ _ _ _) as [s' st']. cbn [fst] in E |- *. change (m_ctx (set_m_ctx s' m)) with s'. rewrite E. reflexivity.
  - destruct (isDynamic _); [|reflexivity]. apply (new_channel_nets (m_ctx m) (m_ctx m)); reflexivity.
  - destruct (s_region (m_ctx m)), (c_txps c); reflexivity.
  - destruct (isDynamic _); reflexivity.
  - destruct (_ =? _); reflexivity.
Qed.

Lemma step_told c e d last m st : let m' := fst (do_command c e d last m st) in
  s_region (m_ctx m') = s_region (m_ctx m) /\ m_tps m' = m_tps m /\ m_ticks_at_tx m' = m_ticks_at_tx m.
Proof.
  cbv zeta. destruct (do_command_told c e d last m st) as (s & l & -> & I & _). split; [|split; reflexivity].
  unfold same_ident in I. decompose [and] I. assumption.
Qed.

Lemma exec_cons c e x l m st : exec_cmds c e (x :: l) m st =
  exec_cmds c e l (fst (do_command c e (fst x) (closes_block (snd x)) m st)) (snd (do_command c e (fst x) (closes_block (snd x)) m st)).
Proof. unfold exec_cmds. cbn [fold_left fst snd]. destruct (do_command _ _ _ _ _ _). reflexivity. Qed.

Lemma exec_nets c e l : forall m st, let s := m_ctx m in let s' := m_ctx (fst (exec_cmds c e l m st)) in let k := map fst l in
  nets s' = (latest duty_of k (s_maxDutyCycle s), latest rx_of k (s_rx1DROffset s, s_rx2DataRate s, s_rx2Freq s), latest delay_of k (s_rx1Delay s),
             latest (param_of (c_txps c) (s_region s)) k (s_tx_param s), latest limits_of k (s_adr_ack_limit s, s_adr_ack_delay s)).
Proof.
  induction l as [|x l IH]; intros m st; cbv zeta in *; [reflexivity|]. rewrite exec_cons, IH. clear IH.
  destruct (step_told c e (fst x) (closes_block (snd x)) m st) as [-> _].
  pose proof (step_nets c e (fst x) (closes_block (snd x)) m st) as N. cbv zeta in N.
  set (m1 := fst (do_command _ _ _ _ _ _)) in *. clearbody m1. unfold net_settings in N. unfold latest. cbn [map fold_left].
  injection N as N1 N2 N3 N4 N5.
  unfold pick in *. f_equal; [f_equal; [f_equal; [f_equal|]|]|].
  - rewrite N1. destruct (duty_of (fst x)); reflexivity.
  - rewrite N2. destruct (rx_of (fst x)) as [[[? ?] ?]|]; reflexivity.
  - rewrite N3. destruct (delay_of (fst x)); reflexivity.
  - rewrite N4. destruct (param_of _ _ (fst x)); reflexivity.
  - rewrite N5. destruct (limits_of (fst x)) as [[? ?]|]; reflexivity.
Qed.

Theorem settings_after c e l m : bytes_ok l -> (length l < 256)%nat ->
  let s := m_ctx m in let s' := m_ctx (processCommands c e l m) in let k := map fst (parse_cmds fields_read (c_l2 c) l) in
  s_maxDutyCycle s' = latest duty_of k (s_maxDutyCycle s) /\
  (s_rx1DROffset s', s_rx2DataRate s', s_rx2Freq s') = latest rx_of k (s_rx1DROffset s, s_rx2DataRate s, s_rx2Freq s) /\
  s_rx1Delay s' = latest delay_of k (s_rx1Delay s) /\
  s_tx_param s' = latest (param_of (c_txps c) (s_region s)) k (s_tx_param s) /\
  (s_adr_ack_limit s', s_adr_ack_delay s') = latest limits_of k (s_adr_ack_limit s, s_adr_ack_delay s).
Proof.
  intros B L. cbv zeta. rewrite (processCommands_spec c e l m B L).
  pose proof (exec_nets c e (parse_cmds fields_read (c_l2 c) l) (on_ctx (set_maskOK true) m) NO_ADR) as N. cbv zeta in N.
  destruct (exec_cmds _ _ _ _ _) as [m' st]. cbn [fst] in N.
  assert (nets (m_ctx (match st with ADR_BAD => on_ctx (adr_rollback (m_ctx m)) m' | _ => m' end)) = nets (m_ctx m')) as E by (destruct st; reflexivity).
  rewrite N in E. clear N. unfold net_settings in E. apply pair_equal_spec in E. destruct E as [E E5]. apply pair_equal_spec in E. destruct E as [E E4].
  apply pair_equal_spec in E. destruct E as [E E3]. apply pair_equal_spec in E. destruct E as [E1 E2]. auto.
Qed.

(* --- channels --- *)
Definition chan_cmd (d : down_cmd) : Prop :=
  match d with DNewChannel i f hi lo => 0 <= i /\ 0 <= f /\ f mod 100 = 0 /\ 0 <= lo < 16 /\ 0 <= hi < 16
             | DDeviceTime sec fr => 0 <= sec /\ 0 <= fr < 256 | _ => True end.

Lemma bits_range hi lo v : 0 <= lo <= hi -> 0 <= bits hi lo v < 2 ^ (hi - lo + 1).
Proof. intros H. unfold bits. apply Z.mod_pos_bound. apply Z.pow_pos_nonneg; lia. Qed.
Lemma nth_byte l i : bytes_ok l -> 0 <= nth i l 0 < 256.
Proof.
  intros B. destruct (Nat.lt_ge_cases i (length l)) as [H|H]; [|rewrite nth_overflow by lia; lia].
  unfold bytes_ok in B. rewrite Forall_forall in B. apply B, nth_In, H.
Qed.
Lemma firstn_bytes n l : bytes_ok l -> bytes_ok (firstn n l).
Proof. unfold bytes_ok. rewrite !Forall_forall. intros B x I. apply B. rewrite <- (firstn_skipn n l). apply in_or_app. auto. Qed.
Lemma skipn_bytes n l : bytes_ok l -> bytes_ok (skipn n l).
Proof. unfold bytes_ok. rewrite !Forall_forall. intros B x I. apply B. rewrite <- (firstn_skipn n l). apply in_or_app. auto. Qed.

Lemma fields_chan cid p : bytes_ok p -> chan_cmd (fields_read cid p).
Proof.
  intros B. unfold fields_read. destruct (cid =? 14) eqn:E; [exact I|]. unfold fields.
  assert (forall a b, 0 <= le_val [nth a p 0; nth b p 0]) as L2 by (intros; cbn [le_val fold_right]; pose proof (nth_byte p a B); pose proof (nth_byte p b B); lia).
  do 4 (destruct cid as [|cid|cid]; try exact I); repeat (destruct cid as [cid|cid|]; try exact I); cbn [chan_cmd].
  all: try exact I.
  all: pose proof (nth_byte p 0%nat B); pose proof (nth_byte p 1%nat B); pose proof (nth_byte p 2%nat B); pose proof (nth_byte p 3%nat B); pose proof (nth_byte p 4%nat B).
  all: pose proof (bits_range 7 4 (nth 4 p 0) ltac:(lia)) as R1; pose proof (bits_range 3 0 (nth 4 p 0) ltac:(lia)) as R2; change (2 ^ (7 - 4 + 1)) with 16 in R1; change (2 ^ (3 - 0 + 1)) with 16 in R2.
  all: cbn [le_val fold_right]; try (repeat split; try lia).
Qed.
Lemma parsed_chan v : forall fuel l, bytes_ok l -> Forall (fun x => chan_cmd (fst x)) (cmds fields_read fuel v l).
Proof.
  induction fuel as [|n IH]; intros l B; [constructor|]. cbn [cmds]. unfold next_cmd. destruct l as [|cid l]; [constructor|].
  destruct (payload_len v cid) as [k|]; [|constructor]. destruct (_ <? _)%nat; [constructor|].
  assert (bytes_ok l) as B' by (inversion B; assumption).
  constructor; [apply fields_chan, firstn_bytes, B'|apply IH, skipn_bytes, B'].
Qed.

Lemma allowed_spec r ch f lo hi : isDynamic r = true -> 0 <= ch -> 0 <= lo -> validateRate r ch lo hi && validateFreq r f = ((ch <? 16) && channel_allowed r f lo hi)%bool.
Proof.
  intros D C L. unfold validateRate, upRateRange, validateFreq, channel_allowed.
  destruct r; try discriminate D; destruct (ch <? 16); cbn [andb]; try reflexivity; lia.
Qed.

Lemma linkADR_mask dr pw mk ctl nb last s st : length (s_chMask (fst (do_linkADR dr pw mk ctl nb last s st))) = length (s_chMask s).
Proof.
  unfold do_linkADR. destruct (negb _); [|reflexivity].
  pose proof (adr_mask_length (s_region s) mk ctl (s_chMask s)) as L. destruct (adr_mask _ _ _ _) as [mask ok]. cbn [fst] in L.
  assert (s_chMask (if ok then set_s_chMask mask s else set_maskOK false (set_s_chMask mask s)) = mask) as V by (destruct ok; reflexivity).
  cbv zeta. generalize dependent (if ok then set_s_chMask mask s else set_maskOK false (set_s_chMask mask s)). intros x V.
  destruct last; [|cbn [fst]; congruence]. unfold adr_final. cbv zeta. cbn [fst].
  rewrite <- L, <- V. f_equal. destruct (nb >? 0), (dr <? 15); repeat match goal with |- context [if ?b then _ else _] => destruct b end; reflexivity.
Qed.
Lemma linkADR_tables dr pw mk ctl nb last s st : tables_ok s -> tables_ok (fst (do_linkADR dr pw mk ctl nb last s st)).
Proof.
  intros [A B]. pose proof (linkADR_mask dr pw mk ctl nb last s st) as M.
  pose proof (do_linkADR_frame dr pw mk ctl nb last s st) as [E _]. cbv zeta in E.
  destruct (do_linkADR _ _ _ _ _ _ _ _) as [s' st']. cbn [fst] in *. split; [rewrite E|congruence].
  exact A.
Qed.

Lemma step_channel c e d last m st ch : chan_cmd d -> tables_ok (m_ctx m) -> isDynamic (s_region (m_ctx m)) = true -> 0 <= ch < 16 ->
  let s' := m_ctx (fst (do_command c e d last m st)) in
  tables_ok s' /\ getChannel s' ch = pick (channel_of (s_region (m_ctx m)) ch d) (getChannel (m_ctx m) ch).
Proof.
  intros W T D C. cbv zeta. destruct d; cbn [do_command channel_of pick]; try (split; [exact T|reflexivity]).
  - pose proof (do_linkADR_frame dataRate txPower channelMask channelMaskControl nbTrans last (m_ctx m) st) as [E _]. cbv zeta in E.
    pose proof (linkADR_tables dataRate txPower channelMask channelMaskControl nbTrans last (m_ctx m) st T) as T'.
    destruct (do_linkADR _ _ _ _ _ _ _ _) as [s' st']. cbn [fst] in E, T' |- *. change (m_ctx (set_m_ctx s' m)) with s'. split; [exact T'|]. rewrite E. reflexivity.
  - rewrite D. destruct W as (W1 & W2 & W3 & W4 & W5). cbn [fst].
    assert (forall s, getChannel (setPendingCommand CMD_NEW_CHANNEL s) ch = getChannel s ch) as GP by reflexivity.
    match goal with |- tables_ok (m_ctx (on_ctx ?g m)) /\ _ => change (m_ctx (on_ctx g m)) with (g (m_ctx m)) end. cbv beta zeta.
    set (s0 := set_s_nch_ans (mkNewChAns (validateRate (s_region (m_ctx m)) chIndex minDR maxDR) (validateFreq (s_region (m_ctx m)) freq)) (m_ctx m)). assert (tables_ok s0 /\ s_region s0 = s_region (m_ctx m) /\ getChannel s0 ch = getChannel (m_ctx m) ch) as (T0 & R0 & G0) by (split; [exact T|split; reflexivity]).
    clearbody s0. rewrite (allowed_spec _ chIndex freq minDR maxDR D W1 (proj1 W4)). split.
    { destruct (_ && _); [|exact T0]. destruct (set_frame s0 chIndex freq minDR maxDR) as [E1 E2]. unfold tables_ok. rewrite E1. mred. 
      change (length (s_chConfig (fst (setChannel s0 chIndex freq minDR maxDR))) = 16%nat /\ length (s_chMask s0) = 9%nat). rewrite E2. exact T0. }
    rewrite GP. destruct (channel_allowed _ _ _ _) eqn:A; [|rewrite !andb_false_r; exact G0]. rewrite !andb_true_r.
    destruct (chIndex =? ch) eqn:E.
    + assert (chIndex = ch) as -> by lia. assert (ch <? 16 = true) as -> by lia. cbn [pick].
      assert (validateFreq (s_region s0) freq = true /\ freq <> 0) as [VF NZ]. { rewrite R0. unfold channel_allowed in A. unfold validateFreq. destruct (s_region (m_ctx m)); try discriminate D; lia. }
      rewrite set_get; try assumption; try lia; [|rewrite R0; exact D|].
      * assert (freq =? 0 = false) as -> by lia. rewrite (Z.mod_small maxDR) by lia. do 3 f_equal. pose proof (Z.div_mod freq 100). lia.
      * destruct (set_result s0 ch freq minDR maxDR T0) as [-> _]. unfold set_ok. rewrite VF, orb_true_r, andb_true_r. rewrite R0. unfold NUM_CHCONFIG. destruct (s_region (m_ctx m)); try discriminate D; cbn [numChannels]; lia.
    + cbn [pick]. destruct (chIndex <? 16); [|exact G0]. rewrite set_other by lia. exact G0.
  - destruct (_ && _); split; try exact T; reflexivity.
  - rewrite D. split; [exact T|reflexivity].
  - destruct (_ =? _); split; try exact T; reflexivity.
Qed.

Lemma exec_channel c e l ch : forall m st, Forall (fun x => chan_cmd (fst x)) l -> tables_ok (m_ctx m) -> isDynamic (s_region (m_ctx m)) = true -> 0 <= ch < 16 ->
  tables_ok (m_ctx (fst (exec_cmds c e l m st))) /\
  getChannel (m_ctx (fst (exec_cmds c e l m st))) ch = latest (channel_of (s_region (m_ctx m)) ch) (map fst l) (getChannel (m_ctx m) ch).
Proof.
  induction l as [|x l IH]; intros m st F T D C; [split; [exact T|reflexivity]|]. rewrite exec_cons.
  pose proof (step_channel c e (fst x) (closes_block (snd x)) m st ch ltac:(inversion F; assumption) T D C) as [T1 G]. cbv zeta in T1, G.
  destruct (step_told c e (fst x) (closes_block (snd x)) m st) as [R _].
  destruct (IH (fst (do_command c e (fst x) (closes_block (snd x)) m st)) (snd (do_command c e (fst x) (closes_block (snd x)) m st))) as [T2 G2];
    [inversion F; assumption|exact T1|rewrite R; exact D|exact C|]. split; [exact T2|]. rewrite G2, R, G. reflexivity.
Qed.

Theorem channels_after c e l m ch : bytes_ok l -> (length l < 256)%nat -> tables_ok (m_ctx m) -> isDynamic (s_region (m_ctx m)) = true -> 0 <= ch < 16 ->
  tables_ok (m_ctx (processCommands c e l m)) /\
  getChannel (m_ctx (processCommands c e l m)) ch =
  latest (channel_of (s_region (m_ctx m)) ch) (map fst (parse_cmds fields_read (c_l2 c) l)) (getChannel (m_ctx m) ch).
Proof.
  intros B L T D C. rewrite (processCommands_spec c e l m B L).
  pose proof (exec_channel c e (parse_cmds fields_read (c_l2 c) l) ch (on_ctx (set_maskOK true) m) NO_ADR (parsed_chan _ _ _ B) T D C) as [N1 N2].
  destruct (exec_cmds _ _ _ _ _) as [m' st]. cbn [fst] in N1, N2. split; [|destruct st; exact N2].
  destruct st; try exact N1. destruct N1 as [A _]. destruct T as [_ M]. exact (conj A M).
Qed.

(* --- answers --- *)
Lemma step_waiting c e d last m st t : t <> CMD_LINK_ADR -> t <> CMD_REKEY ->
  waiting (m_ctx (fst (do_command c e d last m st))) t = waiting (m_ctx m) t || asks_for (c_txps c) (s_region (m_ctx m)) t d.
Proof.
  intros A K. unfold asks_for. destruct d; cbn [do_command asks]; try (symmetry; apply orb_false_r);
  try (match goal with |- waiting (m_ctx (fst (on_ctx ?g ?m, _))) _ = _ => change (m_ctx (fst (on_ctx g m, st))) with (g (m_ctx m)) end; cbv beta; rewrite waiting_set; reflexivity).
  - pose proof (do_linkADR_waiting dataRate txPower channelMask channelMaskControl nbTrans last (m_ctx m) st t A) as E.
    destruct (do_linkADR _ _ _ _ _ _ _ _) as [s' st']. cbn [fst] in E |- *. change (m_ctx (set_m_ctx s' m)) with s'. rewrite E, orb_false_r. reflexivity.
  - destruct (isDynamic _); [|symmetry; apply orb_false_r].
    match goal with |- waiting (m_ctx (fst (on_ctx ?g m, _))) _ = _ => change (m_ctx (fst (on_ctx g m, st))) with (g (m_ctx m)) end. cbv beta zeta.
    rewrite waiting_set. destruct (_ && _); [|reflexivity]. unfold waiting. destruct (set_dev_ans (set_s_nch_ans {| nc_rate := validateRate (s_region (m_ctx m)) chIndex minDR maxDR;
            nc_freq := validateFreq (s_region (m_ctx m)) freq |} (m_ctx m)) chIndex freq minDR maxDR) as [E1 E2]. rewrite E2. reflexivity.
  - unfold txParamSetupImplemented. destruct (c_txps c), (s_region (m_ctx m)); cbn [andb]; try (symmetry; apply orb_false_r).
    match goal with |- waiting (m_ctx (fst (on_ctx ?g m, _))) _ = _ => change (m_ctx (fst (on_ctx g m, st))) with (g (m_ctx m)) end. cbv beta. rewrite waiting_set. reflexivity.
  - destruct (isDynamic _); [|symmetry; apply orb_false_r].
    match goal with |- waiting (m_ctx (fst (on_ctx ?g m, _))) _ = _ => change (m_ctx (fst (on_ctx g m, st))) with (g (m_ctx m)) end. cbv beta. rewrite waiting_set. reflexivity.
  - rewrite orb_false_r. destruct (_ =? _); [|reflexivity].
    change (m_ctx (fst (on_ctx (clearPendingCommand CMD_REKEY) m, st))) with (clearPendingCommand CMD_REKEY (m_ctx m)). rewrite waiting_clear.
    assert (cmd_bit CMD_REKEY =? cmd_bit t = false) as -> by (destruct t; try congruence; reflexivity). apply andb_true_r.
Qed.
Lemma exec_waiting c e l t : t <> CMD_LINK_ADR -> t <> CMD_REKEY -> forall m st,
  waiting (m_ctx (fst (exec_cmds c e l m st))) t = waiting (m_ctx m) t || existsb (asks_for (c_txps c) (s_region (m_ctx m)) t) (map fst l).
Proof.
  intros A K. induction l as [|x l IH]; intros m st; [symmetry; apply orb_false_r|]. rewrite exec_cons, IH.
  destruct (step_told c e (fst x) (closes_block (snd x)) m st) as [-> _]. rewrite step_waiting by assumption. cbn [map existsb]. rewrite orb_assoc. reflexivity.
Qed.
Theorem answers_after c e l m t : bytes_ok l -> (length l < 256)%nat -> t <> CMD_LINK_ADR -> t <> CMD_REKEY ->
  waiting (m_ctx (processCommands c e l m)) t =
  waiting (m_ctx m) t || existsb (asks_for (c_txps c) (s_region (m_ctx m)) t) (map fst (parse_cmds fields_read (c_l2 c) l)).
Proof.
  intros B L A K. rewrite (processCommands_spec c e l m B L).
  pose proof (exec_waiting c e (parse_cmds fields_read (c_l2 c) l) t A K (on_ctx (set_maskOK true) m) NO_ADR) as N.
  destruct (exec_cmds _ _ _ _ _) as [m' st]. cbn [fst] in N. destruct st; exact N.
Qed.

Lemma step_contents c e d last m st : chan_cmd d -> let s := m_ctx m in let r := s_region s in let s' := m_ctx (fst (do_command c e d last m st)) in
  contents s' = (pick (rxp_of d) (s_rxp_ans s), pick (nch_of r d) (s_nch_ans s), pick (dlc_of r d) (s_dlc_ans s), pick (rjp_of d) (s_rjp_ans s)).
Proof.
  intros W. cbv zeta. destruct d; cbn [do_command rxp_of nch_of dlc_of rjp_of pick]; try reflexivity.
  - pose proof (do_linkADR_frame dataRate txPower channelMask channelMaskControl nbTrans last (m_ctx m) st) as [E _]. cbv zeta in E.
    destruct (do_linkADR _ _ _ _ _ _ _ _) as [s' st']. cbn [fst] in E |- *. change (m_ctx (set_m_ctx s' m)) with s'. rewrite E. reflexivity.
  - destruct (isDynamic (s_region (m_ctx m))) eqn:D; [|reflexivity]. cbn [fst pick].
    assert (mkNewChAns (validateRate (s_region (m_ctx m)) chIndex minDR maxDR) (validateFreq (s_region (m_ctx m)) freq) = mkNewChAns ((chIndex <? 16) && (maxDR <=? 5)) (freq_allowed (s_region (m_ctx m)) freq)) as V.
    { destruct W as (W1 & W2 & W3 & W4 & W5). unfold validateRate, upRateRange, validateFreq, freq_allowed. destruct (s_region (m_ctx m)); try discriminate D; f_equal; destruct (chIndex <? 16); cbn [andb]; try reflexivity; lia. }
    match goal with |- contents (m_ctx (on_ctx ?g m)) = _ => change (m_ctx (on_ctx g m)) with (g (m_ctx m)) end. cbv beta zeta. rewrite V.
    destruct (validateRate _ _ _ _ && _); [|reflexivity]. match goal with |- context [fst (setChannel ?s ?a ?b ?c ?d)] => destruct (set_frame s a b c d) as [-> _] end. reflexivity.
  - destruct (_ && _); reflexivity.
  - destruct (isDynamic (s_region (m_ctx m))) eqn:D; [|reflexivity]. cbn [fst pick].
    match goal with |- contents (m_ctx (on_ctx ?g m)) = _ => change (m_ctx (on_ctx g m)) with (g (m_ctx m)) end. cbv beta zeta.
    assert (validateFreq (s_region (m_ctx m)) freq = freq_allowed (s_region (m_ctx m)) freq) as -> by (unfold validateFreq, freq_allowed; destruct (s_region (m_ctx m)); try discriminate D; reflexivity). reflexivity.
  - destruct (_ =? _); reflexivity.
Qed.
Lemma exec_contents c e l : forall m st, Forall (fun x => chan_cmd (fst x)) l ->
  contents (m_ctx (fst (exec_cmds c e l m st))) = contents_by (s_region (m_ctx m)) (map fst l) (m_ctx m).
Proof.
  induction l as [|x l IH]; intros m st F; [reflexivity|]. rewrite exec_cons, IH by (inversion F; assumption).
  pose proof (step_contents c e (fst x) (closes_block (snd x)) m st ltac:(inversion F; assumption)) as N. cbv zeta in N.
  destruct (step_told c e (fst x) (closes_block (snd x)) m st) as [-> _].
  set (m1 := fst (do_command _ _ _ _ _ _)) in *. clearbody m1. unfold contents in N. unfold contents_by, latest. cbn [map fold_left].
  apply pair_equal_spec in N as [N E4]. apply pair_equal_spec in N as [N E3]. apply pair_equal_spec in N as [E1 E2]. rewrite E1, E2, E3, E4. reflexivity.
Qed.
Theorem contents_after c e l m : bytes_ok l -> (length l < 256)%nat ->
  contents (m_ctx (processCommands c e l m)) = contents_by (s_region (m_ctx m)) (map fst (parse_cmds fields_read (c_l2 c) l)) (m_ctx m).
Proof.
  intros B L. rewrite (processCommands_spec c e l m B L).
  pose proof (exec_contents c e (parse_cmds fields_read (c_l2 c) l) (on_ctx (set_maskOK true) m) NO_ADR (parsed_chan _ _ _ B)) as N.
  destruct (exec_cmds _ _ _ _ _) as [m' st]. cbn [fst] in N. destruct st; exact N.
Qed.

(* --- what the application is told --- *)
Lemma device_time_spec tps a b sec fr : 0 < tps -> 0 <= a < 2 ^ 32 -> 0 <= b < 2 ^ 32 -> 0 <= sec -> 0 <= fr < 256 ->
  device_time tps a b sec fr = let t := 256 * sec + fr + 256 * ((b - a) mod 2 ^ 32 - (if b <? a then 1 else 0)) / tps in (t / 256 mod 2 ^ 32, t mod 256).
Proof.
  intros P A B S F. change (2 ^ 32) with 4294967296 in *. unfold device_time. rewrite timerDelta_spec by assumption. cbv zeta.
  assert (Z.lor (Z.shiftl sec 8) fr = 256 * sec + fr) as ->.
  { rewrite lor_shift8 by lia. lia. }
  rewrite Z.shiftr_div_pow2 by lia. unfold u32, u8, timeTPS. change (2 ^ 8) with 256. rewrite (Z.mul_comm _ 256). reflexivity.
Qed.

Lemma step_log c e d last m st : chan_cmd d -> 0 < m_tps m -> 0 <= m_ticks_at_tx m <= e_now e -> e_now e < 2 ^ 32 ->
  m_log (fst (do_command c e d last m st)) = m_log m ++ told_by (m_tps m) (m_ticks_at_tx m) (e_now e) d.
Proof.
  intros W P A B. destruct d; cbn [do_command told_by]; rewrite ?app_nil_r; try reflexivity.
  - destruct (do_linkADR _ _ _ _ _ _ _ _) as [s' st']. reflexivity.
  - destruct (isDynamic _); reflexivity.
  - destruct (_ && _); reflexivity.
  - destruct (isDynamic _); reflexivity.
  - cbn [chan_cmd] in W. rewrite device_time_spec by lia. unfold network_time. assert (e_now e <? m_ticks_at_tx m = false) as -> by lia. rewrite Z.sub_0_r. reflexivity.
  - destruct (_ =? _); reflexivity.
Qed.
Lemma exec_log c e l : forall m st, Forall (fun x => chan_cmd (fst x)) l -> 0 < m_tps m -> 0 <= m_ticks_at_tx m <= e_now e -> e_now e < 2 ^ 32 ->
  m_log (fst (exec_cmds c e l m st)) = m_log m ++ flat_map (told_by (m_tps m) (m_ticks_at_tx m) (e_now e)) (map fst l).
Proof.
  induction l as [|x l IH]; intros m st F P A B; [symmetry; apply app_nil_r|]. rewrite exec_cons.
  destruct (step_told c e (fst x) (closes_block (snd x)) m st) as (_ & E1 & E2).
  rewrite IH; [|inversion F; assumption|rewrite E1; exact P|rewrite E2; exact A|exact B]. rewrite E1, E2.
  rewrite step_log; [|inversion F; assumption|exact P|exact A|exact B]. cbn [map flat_map]. rewrite app_assoc. reflexivity.
Qed.
Theorem told_after c e l m : bytes_ok l -> (length l < 256)%nat -> 0 < m_tps m -> 0 <= m_ticks_at_tx m <= e_now e -> e_now e < 2 ^ 32 ->
  m_log (processCommands c e l m) = m_log m ++ flat_map (told_by (m_tps m) (m_ticks_at_tx m) (e_now e)) (map fst (parse_cmds fields_read (c_l2 c) l)).
Proof.
  intros B L P A N. rewrite (processCommands_spec c e l m B L).
  pose proof (exec_log c e (parse_cmds fields_read (c_l2 c) l) (on_ctx (set_maskOK true) m) NO_ADR (parsed_chan _ _ _ B) P A N) as H.
  destruct (exec_cmds _ _ _ _ _) as [m' st]. cbn [fst] in H. destruct st; exact H.
Qed.

(* the wrap of the tick counter costs one tick *)
Theorem time_wrapped tps a b sec fr : 0 < tps -> 0 <= b < a -> a < 2 ^ 32 -> 0 <= sec -> 0 <= fr < 256 ->
  device_time tps a b sec fr = network_time tps (a + 1) b sec fr.
Proof.
  intros P A B S F. rewrite device_time_spec by (change (2 ^ 32) with 4294967296 in *; lia). unfold network_time. assert (b <? a = true) as -> by lia.
  change (2 ^ 32) with 4294967296 in *.
  assert ((b - a) mod 4294967296 - 1 = (b - (a + 1)) mod 4294967296) as -> by lia. reflexivity.
Qed.

(* --- a received frame --- *)
Lemma latest_app {A} (sel : down_cmd -> option A) l l' a : latest sel (l ++ l') a = latest sel l' (latest sel l a).
Proof. unfold latest. apply fold_left_app. Qed.

Lemma commands_region c e l m : s_region (m_ctx (processCommands c e l m)) = s_region (m_ctx m) /\ m_tps (processCommands c e l m) = m_tps m /\ m_ticks_at_tx (processCommands c e l m) = m_ticks_at_tx m.
Proof.
  destruct (processCommands_told c e l m) as (s & l0 & -> & I & _). split; [|split; reflexivity]. unfold same_ident in I. decompose [and] I. assumption.
Qed.

Definition effect (c : cfg) (e : env) (k : list down_cmd) (m m' : mac) : Prop :=
  let s := m_ctx m in let s' := m_ctx m' in
  (s_region s' = s_region s /\ m_tps m' = m_tps m /\ m_ticks_at_tx m' = m_ticks_at_tx m) /\
  nets s' = settings_by (c_txps c) k s /\
  contents s' = contents_by (s_region s) k s /\
  (tables_ok s -> isDynamic (s_region s) = true -> tables_ok s' /\ forall ch, 0 <= ch < 16 -> getChannel s' ch = latest (channel_of (s_region s) ch) k (getChannel s ch)) /\
  (forall t, t <> CMD_LINK_ADR -> t <> CMD_REKEY -> waiting s' t = waiting s t || existsb (asks_for (c_txps c) (s_region s) t) k) /\
  (0 < m_tps m -> 0 <= m_ticks_at_tx m <= e_now e -> e_now e < 2 ^ 32 ->
     filter is_report (m_log m') = filter is_report (m_log m) ++ flat_map (told_by (m_tps m) (m_ticks_at_tx m) (e_now e)) k).

Lemma effect_refl c e m : effect c e [] m m.
Proof.
  split; [repeat split|]. split; [reflexivity|]. split; [reflexivity|]. split; [intros; split; [assumption|reflexivity]|]. split; [intros; symmetry; apply orb_false_r|]. intros. symmetry. apply app_nil_r.
Qed.
Lemma effect_trans c e k1 k2 a b d : effect c e k1 a b -> effect c e k2 b d -> effect c e (k1 ++ k2) a d.
Proof.
  intros ((R1 & P1 & T1) & N1 & X1 & C1 & W1 & L1) ((R2 & P2 & T2) & N2 & X2 & C2 & W2 & L2). split; [repeat split; congruence|]. split; [|split; [|split; [|split]]].
  - unfold settings_by in *. rewrite N2, R1, !latest_app. unfold net_settings in N1.
    assert (forall A B (x y : A) (u v : B), (x, u) = (y, v) -> x = y /\ u = v) as PE by (intros A B x y u v E; now inversion E).
    apply PE in N1 as [N1 E5]. apply PE in N1 as [N1 E4]. apply PE in N1 as [N1 E3]. apply PE in N1 as [E1 E2]. rewrite E1, E2, E3, E4, E5. reflexivity.
  - unfold contents_by in *. rewrite X2, R1, !latest_app. unfold contents in X1.
    apply pair_equal_spec in X1 as [X1 E4]. apply pair_equal_spec in X1 as [X1 E3]. apply pair_equal_spec in X1 as [E1 E2]. rewrite E1, E2, E3, E4. reflexivity.
  - intros T D. destruct (C1 T D) as [T' G1]. destruct (C2 T' ltac:(rewrite R1; exact D)) as [T'' G2]. split; [exact T''|].
    intros ch H. rewrite G2, G1, R1, latest_app by assumption. reflexivity.
  - intros t A K. rewrite W2, W1, R1, existsb_app, orb_assoc by assumption. reflexivity.
  - intros P T N. rewrite L2 by (rewrite ?P1, ?T1; assumption). rewrite L1 by assumption. rewrite P1, T1, flat_map_app, app_assoc. reflexivity.
Qed.
Lemma reports_all tps a b k : filter is_report (flat_map (told_by tps a b) k) = flat_map (told_by tps a b) k.
Proof.
  induction k as [|d k IH]; [reflexivity|]. cbn [flat_map]. rewrite filter_app, IH. f_equal. destruct d; reflexivity.
Qed.
Lemma commands_effect c e l m : bytes_ok l -> (length l < 256)%nat -> effect c e (map fst (parse_cmds fields_read (c_l2 c) l)) m (processCommands c e l m).
Proof.
  intros B L. split; [apply commands_region|]. split; [|split; [|split; [|split]]].
  - destruct (settings_after c e l m B L) as (E1 & E2 & E3 & E4 & E5). unfold net_settings, settings_by. rewrite E1, E2, E3, E4, E5. reflexivity.
  - now apply contents_after.
  - intros T D. split; [exact (proj1 (channels_after c e l m 0 B L T D ltac:(lia)))|]. intros ch H. exact (proj2 (channels_after c e l m ch B L T D H)).
  - intros t A K. now apply answers_after.
  - intros. rewrite told_after by assumption. rewrite filter_app, reports_all. reflexivity.
Qed.

Lemma field_ok buf off n : bytes_ok buf -> (length buf <= 255)%nat -> bytes_ok (field buf off n) /\ (length (field buf off n) < 256)%nat.
Proof.
  intros B LB. unfold field. destruct off; [|split; [constructor|cbn; lia]]. split; [now apply bytes_ok_slice|].
  unfold slice. rewrite firstn_length, skipn_length. lia.
Qed.

(* before the commands *)
Definition opened (c : cfg) (f : frame_down) (m : mac) : mac :=
  set_m_adrAckReq false (set_m_adrAckCounter 0 (on_ctx (fun s =>
           clearPendingCommand CMD_RX_TIMING_SETUP (clearPendingCommand CMD_DL_CHANNEL
             (clearPendingCommand CMD_RX_PARAM_SETUP
               (syncDownCounter c (dn_port f) (dn_counter f) s))))
  (set_m_pendingACK (match dn_type f with FT_CONF_DOWN => true | _ => false end) (set_m_fPending (dn_pending f) m)))).


Lemma effect_same c e k a b d : effect c e k a b -> m_ctx d = m_ctx b -> m_tps d = m_tps b -> m_ticks_at_tx d = m_ticks_at_tx b ->
  filter is_report (m_log d) = filter is_report (m_log b) -> effect c e k a d.
Proof.
  intros (R & N & K & C & W & L) EC EP ET EL. unfold effect in *. rewrite EC, EP, ET, EL. auto 10.
Qed.
Lemma notify_effect c e k a b v : effect c e k a b -> is_report (OEvent v) = false -> effect c e k a (notify v b).
Proof.
  intros E R. apply (effect_same _ _ _ _ _ _ E); try reflexivity. unfold notify, emit. ms. rewrite filter_app. cbn [filter]. rewrite R. apply app_nil_r.
Qed.

Lemma received_effect c e buf f m : bytes_ok buf -> (length buf <= 255)%nat -> effect c e (frame_cmds (c_l2 c) buf f) (opened c f m) (data_received c e buf f m).
Proof.
  intros B LB. remember (data_received c e buf f m) as R eqn:ER. symmetry in ER. open_def data_received in ER.
  ltn ER ma. ltn ER mb. ltn ER mc. ltn ER m1. assert (m1 = opened c f m) as E1 by (subst; reflexivity). clear Ema Emb Emc Em1 ma mb mc. rewrite <- E1. clear E1.
  ltn ER m2.
  assert (effect c e (map fst (parse_cmds fields_read (c_l2 c) (field buf (dn_opts f) (dn_optsLen f)))) m1 m2) as F2.
  { rewrite Em2. destruct (field_ok buf (dn_opts f) (dn_optsLen f) B LB) as [O1 O2]. unfold field in *. destruct (dn_opts f); [apply commands_effect; assumption|apply effect_refl]. }
  clear Em2. ltn ER m3.
  assert (effect c e (if dn_port f =? 0 then map fst (parse_cmds fields_read (c_l2 c) (field buf (dn_data f) (dn_dataLen f))) else []) m2 m3) as F3.
  { rewrite Em3. destruct (field_ok buf (dn_data f) (dn_dataLen f) B LB) as [O1 O2]. unfold field in *. destruct (dn_data f) as [off|]; [|destruct (_ =? 0); apply effect_refl]. cbv zeta.
    destruct (dn_port f =? 0); [apply commands_effect; assumption|]. apply notify_effect; [apply effect_refl|reflexivity]. }
  clear Em3. pose proof (effect_trans _ _ _ _ _ _ _ F2 F3) as F. fold (frame_cmds (c_l2 c) buf f) in F. clear F2 F3. ltn ER m4.
  assert (effect c e (frame_cmds (c_l2 c) buf f) m1 m4) as F4.
  { rewrite Em4. destruct (m_op m3); try (apply notify_effect; [exact F|try reflexivity]); [exact F|]. destruct (dn_ack f); reflexivity. }
  rewrite <- ER. apply (effect_same _ _ _ _ _ _ F4); reflexivity.
Qed.

Lemma process_at c e m : inputPending m = true ->
  exists m2 lag, quiet m m2 /\ m_ticks_at_tx m2 = m_ticks_at_tx m /\ MAC_process c e m = setNextBandEvent e (dispatch c e SME_INTERRUPT lag m2).
Proof.
  intros I. unfold MAC_process. destruct (bands_inputs e m) as [I1 _].
  assert (m_ticks_at_tx (fst (processBands e m)) = m_ticks_at_tx m) as A1.
  { unfold processBands. destruct (mt_parked _); [reflexivity|]. destruct (elapsed _ _). cbv zeta. destruct (_ && _); reflexivity. }
  pose proof (processBands_quiet e m) as Q1. cbv zeta in *. destruct (processBands e m) as [m1 rd]. cbn [fst] in *.
  unfold next_event. pose proof (inputCheck_quiet e m1) as Q2. unfold inputCheck in *. rewrite I1 in *. unfold inputPending in I. rewrite I in *. cbn [fst] in Q2.
  eexists. eexists. split; [eapply quiet_trans; [exact Q1|exact Q2]|]. split; [exact A1|reflexivity].
Qed.

Lemma plain_report lo : forallb plain lo = true -> filter is_report lo = [].
Proof.
  intros H. induction lo as [|o lo IH]; [reflexivity|]. cbn [forallb filter] in *. apply andb_prop in H as [H1 H2]. rewrite (IH H2). destruct o as [[]| | | |]; try discriminate H1; reflexivity.
Qed.

Theorem window_effect c e m buf f : in_rx (m_state m) = true -> inputPending m = true -> e_st_rx e = true ->
  receiveFrame c m (rx_buffer e) (rx_len e) = (buf, Some f) -> is_rx_data f = true -> bytes_ok buf -> (length buf <= 255)%nat ->
  effect c e (frame_cmds (c_l2 c) buf f) (opened c f m) (fst (step c e C_process m)).
Proof.
  intros R I X RF D B LB. destruct (process_at c e m I) as (m2 & lag & Q & A & E). cbn [step fst]. rewrite E.
  destruct (quiet_log _ _ Q) as (l1 & L1 & P1). destruct Q as [[C _] ST].
  assert (dispatch c e SME_INTERRUPT lag m2 = rx_packet c e m2) as ->.
  { unfold dispatch. rewrite ST. destruct (m_state m); try discriminate R; unfold processRX; rewrite X; reflexivity. }
  open_def rx_packet. cbv zeta. set (m3 := set_m_rx_snr (e_snr e) _).
  assert (core m3 = core m) as C3. { rewrite <- C. unfold m3, emit, timerClear, set_timer. autorewrite with core. reflexivity. }
  assert (m_log m3 = m_log m ++ l1 ++ [OMode MODE_SLEEP]) as L3.
  { unfold m3, emit, timerClear, set_timer. ms. rewrite L1, <- app_assoc. reflexivity. }
  assert (m_ticks_at_tx m3 = m_ticks_at_tx m) as A3 by exact A. clearbody m3.
  rewrite (receive_core _ _ _ _ _ C3), RF. unfold is_rx_data in D.
  assert (forall y, (match dn_type f with FT_CONF_DOWN | FT_UNCONF_DOWN => data_received c e buf f m3 | _ => y end) = data_received c e buf f m3) as -> by (intros; destruct (dn_type f); try discriminate D; reflexivity).
  pose proof (received_effect c e buf f m3 B LB) as F. revert F. generalize (data_received c e buf f m3). intros x F.
  pose proof (setNext_quiet e (pushSessionUpdate x)) as Q4. destruct (quiet_log _ _ Q4) as (l4 & L4 & P4).
  assert (m_ticks_at_tx (setNextBandEvent e (pushSessionUpdate x)) = m_ticks_at_tx x) as A4 by (unfold setNextBandEvent; cbv zeta; destruct (_ <? _); reflexivity).
  destruct Q4 as [[C4 _] _]. apply core_fields in C4, C3. unfold same_core in C3, C4.
  assert (m_ctx (opened c f m3) = m_ctx (opened c f m) /\ m_tps (opened c f m3) = m_tps (opened c f m) /\ m_ticks_at_tx (opened c f m3) = m_ticks_at_tx (opened c f m)) as (O1 & O2 & O3).
  { split; [|split; [|exact A3]].
    - change (m_ctx (opened c f m3)) with (clearPendingCommand CMD_RX_TIMING_SETUP (clearPendingCommand CMD_DL_CHANNEL
             (clearPendingCommand CMD_RX_PARAM_SETUP (syncDownCounter c (dn_port f) (dn_counter f) (m_ctx m3))))). assert (m_ctx m3 = m_ctx m) as -> by tauto. reflexivity.
    - change (m_tps m3 = m_tps m). tauto. }
  assert (filter is_report (m_log (opened c f m3)) = filter is_report (m_log (opened c f m))) as O4.
  { change (filter is_report (m_log m3) = filter is_report (m_log m)). rewrite L3, !filter_app, (plain_report _ P1). cbn [filter is_report List.app]. apply app_nil_r. }
  assert (effect c e (frame_cmds (c_l2 c) buf f) (opened c f m) x) as F' by (unfold effect in F |- *; rewrite O1, O2, O3, O4 in F; exact F).
  apply (effect_same _ _ _ _ _ _ F').
  - transitivity (m_ctx (pushSessionUpdate x)); [tauto|reflexivity].
  - transitivity (m_tps (pushSessionUpdate x)); [tauto|reflexivity].
  - exact A4.
  - rewrite L4, filter_app, (plain_report _ P4), app_nil_r. unfold pushSessionUpdate, notify, emit. ms. rewrite filter_app. cbn [filter is_report]. apply app_nil_r.
Qed.

(* --- nothing else changes them --- *)
Lemma opened_nets c f m : net_settings (m_ctx (opened c f m)) = net_settings (m_ctx m) /\ s_region (m_ctx (opened c f m)) = s_region (m_ctx m).
Proof.
  change (m_ctx (opened c f m)) with (clearPendingCommand CMD_RX_TIMING_SETUP (clearPendingCommand CMD_DL_CHANNEL
             (clearPendingCommand CMD_RX_PARAM_SETUP (syncDownCounter c (dn_port f) (dn_counter f) (m_ctx m))))).
  unfold syncDownCounter. destruct (_ && _); split; reflexivity.
Qed.
Lemma settings_by_eq on k s s' : net_settings s = net_settings s' -> s_region s = s_region s' -> settings_by on k s = settings_by on k s'.
Proof. unfold settings_by, net_settings. intros E ->. injection E as -> -> -> -> -> -> -> ->. reflexivity. Qed.

Lemma chan_steps_nets l : forall s, net_settings (chan_steps s l) = net_settings s.
Proof.
  induction l as [|x l IH]; intros s; [reflexivity|]. cbn [chan_steps fold_left]. unfold chan_steps in IH. rewrite IH.
  destruct x; cbn [chan_step]; try reflexivity. match goal with |- context [fst (setChannel ?s ?a ?b ?c ?d)] => destruct (set_frame s a b c d) as [-> _] end. reflexivity.
Qed.
Lemma joined_nets c buf f m : let s' := m_ctx (join_accepted c buf f m) in let s := m_ctx m in
  net_settings s' = settings_joined f s.
Proof.
  cbv zeta. remember (join_accepted c buf f m) as R eqn:ER. symmetry in ER. open_def join_accepted in ER.
  ltn ER s0. ltn ER s1. ltn ER s2. ltn ER s3. ltn ER s4. ltn ER s5. ltn ER s6. ltn ER s7. ltn ER m1. ltn ER m2. ltn ER m3. ltn ER m4. ltn ER m5.
  destruct (deriveKeys_sm c m1) as (l & EK). rewrite <- Em2 in EK.
  assert (m_ctx R = s7) as ->.
  { subst R. rewrite Em5, Em4, Em3, EK, Em1. unfold notify, emit, band_set. ms. reflexivity. }
  rewrite Es7. change (net_settings (set_s_joinNonce (dn_joinNonce f) (set_s_netID (dn_netID f) s6))) with (net_settings s6).
  assert (net_settings s6 = net_settings s5) as ->. { rewrite Es6. destruct (is_1_1 _); [|reflexivity]. cbv zeta. destruct (_ >? 0); reflexivity. }
  rewrite Es5. change (net_settings (set_s_devAddr (dn_devAddr f) s4)) with (net_settings s4).
  assert (net_settings s4 = net_settings s3) as ->. { rewrite Es4. destruct (dn_cfList f); [apply chan_steps_nets|reflexivity]. }
  rewrite Es3, Es2, Es1, Es0. reflexivity.
Qed.
Lemma forgotten_nets s d t : net_settings (forgotten s d t) = settings_none t (s_region s) d.
Proof. unfold forgotten. cbv zeta. rewrite chan_steps_nets. reflexivity. Qed.

Lemma tune_nets c e m k : (match k with C_setRate _ | C_setPower _ | C_setADR _ | C_addChannel _ _ _ _ | C_maskChannel _ | C_unmaskChannel _ => True | _ => False end) ->
  net_settings (m_ctx (fst (step c e k m))) = net_settings (m_ctx m).
Proof.
  intros K. destruct k; try contradiction; cbn [step].
  - unfold MAC_setRate. destruct (rateSettingIsValid _ _); reflexivity.
  - unfold MAC_setPower. destruct (validateTXPower _ _); reflexivity.
  - reflexivity.
  - unfold MAC_addChannel. match goal with |- context [setChannel ?s ?a ?b ?c ?d] => destruct (set_frame s a b c d) as [E _]; destruct (setChannel s a b c d) as [s' ok] end.
    cbn [fst] in E. change (net_settings s' = net_settings (m_ctx m)). rewrite E. reflexivity.
  - unfold MAC_maskChannel. destruct (maskChannel _ _ _) as [k ok]. reflexivity.
  - unfold MAC_unmaskChannel. destruct (unmaskChannel _ _ _) as [k ok]. reflexivity.
Qed.

Theorem settings_only c e k m : let s := m_ctx m in let s' := m_ctx (fst (step c e k m)) in
  net_settings s' = net_settings s \/
  (k = C_process /\ in_rx (m_state m) = true /\ exists buf f, receiveFrame c m (rx_buffer e) (rx_len e) = (buf, Some f) /\
     (is_rx_data f = true -> bytes_ok buf -> (length buf <= 255)%nat -> net_settings s' = settings_by (c_txps c) (frame_cmds (c_l2 c) buf f) s) /\
     (is_rx_data f = false -> net_settings s' = settings_joined f s)) \/
  (k = C_forget /\ net_settings s' = settings_none (c_txps c) (s_region s) (m_maxDutyCycle m)) \/
  (exists v, k = C_setMaxDCycle v /\ s' = set_s_maxDutyCycle (Z.land v 15) s).
Proof.
  cbv zeta. destruct (step_cases c e k m) as (m1 & m2 & Q1 & A & Q2 & _).
  destruct (act_log _ _ _ _ _ _ A) as (la & LA). destruct (act_ctx _ _ _ _ _ _ _ A LA) as [CC _]. clear A LA la.
  destruct Q1 as [[C1 _] ST1]. destruct Q2 as [[C2 _] _]. pose proof (core_ctx _ _ C1) as X1. pose proof (core_ctx _ _ C2) as X2. clear C2.
  rewrite X2. destruct CC.
  - left. now rewrite X1.
  - left. destruct (adaptRate_fields c (next_trial m1)) as (s & n & b & E1 & E2 & _). cbv zeta in E1, E2. change (m_ctx (next_trial m1)) with (m_ctx m1) in E2.
    rewrite E1. rewrite <- X1. destruct E2 as [->|[->|[->| ->]]]; reflexivity.
  - left. rewrite X1. reflexivity.
  - right. left. split; [reflexivity|]. rewrite <- ST1. split; [assumption|]. exists buf, f. rewrite (receive_core _ _ _ _ _ C1) in H0. split; [assumption|]. split; [|congruence].
    intros _ B L. destruct (received_effect c e buf f m1 B L) as (_ & N & _). rewrite N. destruct (opened_nets c f m1) as [N1 N2]. rewrite <- X1. now apply settings_by_eq.
  - right. left. split; [reflexivity|]. rewrite <- ST1. split; [assumption|]. exists buf, f. rewrite (receive_core _ _ _ _ _ C1) in H0. split; [assumption|]. split; [congruence|].
    intros _. rewrite <- X1. apply joined_nets.
  - left. rewrite X1. reflexivity.
  - left. rewrite <- X1. unfold sess_data, clear_single_shot, clearPendingCommand. destruct (is_1_1 (c_l2 c)), (c_txps c); reflexivity.
  - right. right. left. split; [reflexivity|]. rewrite forgotten_nets, X1. apply core_fields in C1. unfold same_core in C1. f_equal. tauto.
  - destruct k; try contradiction; try (left; rewrite <- X1; apply tune_nets; exact I).
    right. right. right. eexists. split; [reflexivity|]. rewrite <- X1. reflexivity.
Qed.

Lemma opened_waiting c f m t : waiting (m_ctx (opened c f m)) t = waiting (m_ctx m) t && negb (repeated t).
Proof.
  change (m_ctx (opened c f m)) with (clearPendingCommand CMD_RX_TIMING_SETUP (clearPendingCommand CMD_DL_CHANNEL
             (clearPendingCommand CMD_RX_PARAM_SETUP (syncDownCounter c (dn_port f) (dn_counter f) (m_ctx m))))).
  rewrite !waiting_clear. assert (waiting (syncDownCounter c (dn_port f) (dn_counter f) (m_ctx m)) t = waiting (m_ctx m) t) as -> by (unfold syncDownCounter; destruct (_ && _); reflexivity).
  rewrite <- !andb_assoc. f_equal. destruct t; reflexivity.
Qed.

Lemma step_log_grows c e k m : exists lo, m_log (fst (step c e k m)) = m_log m ++ lo.
Proof.
  destruct (step_cases c e k m) as (m1 & m2 & Q1 & A & Q2 & _).
  destruct (quiet_log _ _ Q1) as (l1 & L1 & _). destruct (quiet_log _ _ Q2) as (l2 & L2 & _). destruct (act_log _ _ _ _ _ _ A) as (la & LA).
  exists (l1 ++ la ++ l2). rewrite L2, LA, L1, <- !app_assoc. reflexivity.
Qed.

Theorem downlink_effect c e m buf f : in_rx (m_state m) = true -> inputPending m = true -> e_st_rx e = true ->
  receiveFrame c m (rx_buffer e) (rx_len e) = (buf, Some f) -> is_rx_data f = true -> bytes_ok buf -> (length buf <= 255)%nat ->
  let s := m_ctx m in let m' := fst (step c e C_process m) in let s' := m_ctx m' in let k := frame_cmds (c_l2 c) buf f in
  net_settings s' = settings_by (c_txps c) k s /\ contents s' = contents_by (s_region s) k s /\
  (tables_ok s -> isDynamic (s_region s) = true -> forall ch, 0 <= ch < 16 -> getChannel s' ch = latest (channel_of (s_region s) ch) k (getChannel s ch)) /\
  (forall t, t <> CMD_LINK_ADR -> t <> CMD_REKEY -> waiting s' t = waiting s t && negb (repeated t) || existsb (asks_for (c_txps c) (s_region s) t) k) /\
  (0 < m_tps m -> 0 <= m_ticks_at_tx m <= e_now e -> e_now e < 2 ^ 32 ->
   filter is_report (new_out m m') = flat_map (told_by (m_tps m) (m_ticks_at_tx m) (e_now e)) k).
Proof.
  intros R I X RF D B L. cbv zeta. destruct (window_effect c e m buf f R I X RF D B L) as (_ & N & KK & C & W & T). destruct (opened_nets c f m) as [N1 N2].
  assert (forall ch, getChannel (m_ctx (opened c f m)) ch = getChannel (m_ctx m) ch) as G.
  { intros ch. change (m_ctx (opened c f m)) with (clearPendingCommand CMD_RX_TIMING_SETUP (clearPendingCommand CMD_DL_CHANNEL
             (clearPendingCommand CMD_RX_PARAM_SETUP (syncDownCounter c (dn_port f) (dn_counter f) (m_ctx m))))). unfold syncDownCounter. destruct (_ && _); reflexivity. }
  assert (tables_ok (m_ctx m) -> tables_ok (m_ctx (opened c f m))) as TT.
  { change (m_ctx (opened c f m)) with (clearPendingCommand CMD_RX_TIMING_SETUP (clearPendingCommand CMD_DL_CHANNEL
             (clearPendingCommand CMD_RX_PARAM_SETUP (syncDownCounter c (dn_port f) (dn_counter f) (m_ctx m))))). unfold syncDownCounter. destruct (_ && _); intros H; exact H. }
  assert (contents (m_ctx (opened c f m)) = contents (m_ctx m)) as K0.
  { change (m_ctx (opened c f m)) with (clearPendingCommand CMD_RX_TIMING_SETUP (clearPendingCommand CMD_DL_CHANNEL
             (clearPendingCommand CMD_RX_PARAM_SETUP (syncDownCounter c (dn_port f) (dn_counter f) (m_ctx m))))). unfold syncDownCounter. destruct (_ && _); reflexivity. }
  split; [|split; [|split; [|split]]].
  - rewrite N. now apply settings_by_eq.
  - rewrite KK, N2. unfold contents in K0. unfold contents_by. apply pair_equal_spec in K0 as [K0 E4]. apply pair_equal_spec in K0 as [K0 E3]. apply pair_equal_spec in K0 as [E1 E2]. rewrite E1, E2, E3, E4. reflexivity.
  - intros T0 D0 ch H. rewrite N2 in C. destruct (C (TT T0) D0) as [_ C']. rewrite C', G by assumption. reflexivity.
  - intros t A K. rewrite W, opened_waiting, N2 by assumption. reflexivity.
  - intros P A N0. specialize (T P A N0). change (m_log (opened c f m)) with (m_log m) in T. change (m_tps (opened c f m)) with (m_tps m) in T. change (m_ticks_at_tx (opened c f m)) with (m_ticks_at_tx m) in T.
    revert T. destruct (step_log_grows c e C_process m) as (lo & E). rewrite (new_out_app _ _ _ E), E, filter_app. apply app_inv_head.
Qed.

Theorem channels_in_band c e m buf f ch fq lo hi : in_rx (m_state m) = true -> inputPending m = true -> e_st_rx e = true ->
  receiveFrame c m (rx_buffer e) (rx_len e) = (buf, Some f) -> is_rx_data f = true -> bytes_ok buf -> (length buf <= 255)%nat ->
  let s := m_ctx m in tables_ok s -> isDynamic (s_region s) = true -> 0 <= ch < 16 ->
  let x := getChannel (m_ctx (fst (step c e C_process m))) ch in
  x = getChannel s ch \/ (x = Some (fq, lo, hi) -> freq_allowed (s_region s) fq = true /\ 0 <= lo /\ hi <= 5).
Proof.
  intros R I X RF D B L s T DY C x. destruct (downlink_effect c e m buf f R I X RF D B L) as (_ & _ & H & _). fold s in H.
  assert (x = latest (channel_of (s_region s) ch) (frame_cmds (c_l2 c) buf f) (getChannel s ch)) as -> by exact (H T DY ch C).
  clear H. generalize (frame_cmds (c_l2 c) buf f). clear T I X RF D B L. intros l. revert fq lo hi. induction l as [|d l IH] using rev_ind; intros fq lo hi; [left; reflexivity|].
  rewrite latest_app. unfold latest at 1 3. cbn [fold_left]. unfold channel_of at 1 3. destruct d; try exact (IH fq lo hi).
  destruct ((chIndex =? ch) && channel_allowed (s_region s) freq minDR maxDR) eqn:E; [|exact (IH fq lo hi)]. right. intros Q. apply andb_prop in E as [_ E].
  assert (freq = fq /\ minDR = lo /\ maxDR = hi) as (-> & -> & ->) by (apply RegionP.some3_inj in Q; tauto).
  unfold channel_allowed, freq_allowed in *. destruct (s_region s); try discriminate E; lia.
Qed.

Theorem two_counters c e m buf f : in_rx (m_state m) = true -> inputPending m = true -> e_st_rx e = true -> m_op m <> OP_REJOINING -> bytes_ok (e_rx e) ->
  receiveFrame c m (rx_buffer e) (rx_len e) = (buf, Some f) -> is_rx_data f = true ->
  let s := m_ctx m in let s' := m_ctx (fst (step c e C_process m)) in
  if network_frame c s f
  then s_appDown s' = s_appDown s /\ (0 <= s_nwkDown s < 65535 -> s_nwkDown s' = moves_on (s_nwkDown s))
  else s_nwkDown s' = s_nwkDown s /\ (0 <= s_appDown s < 65535 -> s_appDown s' = moves_on (s_appDown s)).
Proof.
  intros R I X NR HB RF D. cbv zeta. destruct (DownP.data_fields c m e buf f HB RF D NR) as (RC & _ & _).
  assert (same_ident (syncDownCounter c (dn_port f) (dn_counter f) (m_ctx m)) (m_ctx (fst (step c e C_process m)))) as ID.
  { destruct (process_at c e m I) as (m2 & lag & Q & A & E). cbn [step fst]. rewrite E. destruct Q as [[C _] ST].
    assert (dispatch c e SME_INTERRUPT lag m2 = rx_packet c e m2) as ->.
    { unfold dispatch. rewrite ST. destruct (m_state m); try discriminate R; unfold processRX; rewrite X; reflexivity. }
    open_def rx_packet. cbv zeta. set (m3 := set_m_rx_snr (e_snr e) _).
    assert (core m3 = core m) as C3. { rewrite <- C. unfold m3, emit, timerClear, set_timer. autorewrite with core. reflexivity. }
    clearbody m3. rewrite (receive_core _ _ _ _ _ C3), RF. unfold is_rx_data in D.
    assert (forall y, (match dn_type f with FT_CONF_DOWN | FT_UNCONF_DOWN => data_received c e buf f m3 | _ => y end) = data_received c e buf f m3) as -> by (intros; destruct (dn_type f); try discriminate D; reflexivity).
    destruct (data_received_frame c e buf f m3) as (s & l & _ & EC & _ & _ & J & _). cbv zeta in EC. revert EC. generalize (data_received c e buf f m3). intros x EC.
    pose proof (setNext_quiet e (pushSessionUpdate x)) as [[C4 _] _]. rewrite (DataP.core_ctx _ _ C4). change (m_ctx (pushSessionUpdate x)) with (m_ctx x). rewrite EC, <- (DataP.core_ctx _ _ C3). exact J. }
  destruct ID as (_ & A & N & _). rewrite A, N. clear A N.
  assert (forall hi, 0 <= hi < 65535 -> let mine := u32 (Z.shiftl hi 16) in
    u16 (Z.shiftr (if dn_counter f <? mine then u32 (mine + 0x10000 + dn_counter f) else u32 (mine + dn_counter f)) 16) = moves_on hi) as K.
  { intros hi H. cbv zeta. rewrite Z.shiftl_mul_pow2, Z.shiftr_div_pow2 by lia. change (2 ^ 16) with 65536. replace (u32 (hi * 65536)) with (hi * 65536) by (unfold u32; lia).
    unfold moves_on, u16, u32. destruct (hi =? 0) eqn:E0; destruct (_ <? _) eqn:E1; lia. }
  unfold network_frame, syncDownCounter, deriveDownCounter. destruct ((sess_version c (m_ctx m) >? 0) && (dn_port f =? 0)); ms; (split; [reflexivity|]); intros H; apply K, H.
Qed.
