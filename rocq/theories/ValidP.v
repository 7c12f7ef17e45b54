(* The settings of a session stay valid. *)
From Verif Require Import Lib StreamM FrameM CommandsM RegionM RadioM SmM MacStateM MacTac MacUtilM OpsM MacCmdM MacProcM MacApiM MacRw SpecRegion SpecValid RegionP ChanP CoreP CaseP SpecExec ExecP RxP SpecHist HistP DataP AcceptP CtxP SelectP DownP.

Definition power_cmd (d : down_cmd) : Prop := match d with DLinkADR _ pw _ _ _ => 0 <= pw | _ => True end.

Lemma parsed_power v s s' d : getDownCommand v s = (s', Some d) -> power_cmd d.
Proof.
  unfold getDownCommand. destruct (Stream_read s 1) as [s1 [b|]]; [|discriminate]. destruct (tagToType v (byte_at b 0)) as [t|]; [|discriminate].
  destruct (getPayload t s1) as [s2 d2] eqn:E. destruct (Stream_error s2); [discriminate|]. intros H. assert (d2 = d) as <- by congruence. clear H.
  destruct t; cbn [getPayload] in E;
  repeat match type of E with context [let (_, _) := ?x in _] => destruct x end; try (assert (X := f_equal snd E); cbn [snd] in X; subst d2; exact I).
  all: try (assert (X := f_equal snd E); cbn [snd] in X; subst d2; cbn [power_cmd]; apply Z.land_nonneg; right; lia).
Qed.

Lemma cmd_loop_ind2 c e (Q : mac -> Prop) :
  (forall d last m st, power_cmd d -> Q m -> Q (fst (do_command c e d last m st))) ->
  forall fuel s m st, Q m -> Q (fst (cmd_loop fuel c e s m st)).
Proof.
  intros Hs. induction fuel as [|fuel IH]; intros s m st Hm; [exact Hm|].
  cbn [cmd_loop]. destruct (getDownCommand (c_l2 c) s) as [s' [d|]] eqn:G; [|exact Hm].
  pose proof (Hs d (block_ends c s') m st (parsed_power _ _ _ _ G) Hm).
  destruct (do_command c e d (block_ends c s') m st) as [m' st']. apply IH. exact H.
Qed.
Lemma processCommands_inv2 c e (Q : mac -> Prop) l m :
  (forall d last m st, power_cmd d -> Q m -> Q (fst (do_command c e d last m st))) ->
  Q (on_ctx (set_maskOK true) m) ->
  (forall m', Q m' -> Q (on_ctx (adr_rollback (m_ctx m)) m')) ->
  Q (processCommands c e l m).
Proof.
  intros Hs H0 Hr. unfold processCommands.
  pose proof (cmd_loop_ind2 c e Q Hs (S (length l)) (Stream_initReadOnly l (Z.of_nat (length l))) _ NO_ADR H0) as H.
  destruct (cmd_loop _ _ _ _ _ _) as [m' st]. cbn [fst] in H. destruct st; auto.
Qed.

Lemma rate_valid r rate : rateSettingIsValid r rate = true -> uplink_rate r rate.
Proof.
  intros H. unfold rateSettingIsValid in H. apply existsb_exists in H. destruct H as (ch & I & V). apply channels_in in I.
  unfold validateRate, upRateRange in V. destruct r; cbn [uplink_rate numChannels] in *.
  - destruct (ch <? 16); [|discriminate]. cbv beta iota in V. lia.
  - destruct (ch <=? 71); [|discriminate]. destruct (ch <=? 63); cbv beta iota in V; lia.
  - destruct (ch <=? 71); [|discriminate]. destruct (ch <=? 63); cbv beta iota in V; lia.
  - destruct (ch <? 16); [|discriminate]. cbv beta iota in V. lia.
Qed.
Lemma power_valid r p : 0 <= p -> validateTXPower r p = true -> 0 <= p <= top_power r.
Proof. destruct r; cbn [validateTXPower top_power]; lia. Qed.

Lemma mask16_length r mk base l : length (apply_mask16 r mk base l) = length l.
Proof.
  unfold apply_mask16. generalize (seq 0 16). intros is. revert l. induction is as [|i is IH]; intros l; [reflexivity|].
  cbn [fold_left]. rewrite IH. cbv zeta. destruct (_ >? 0); [apply unmask_length|apply mask_length].
Qed.
Lemma all125_length r on l : length (apply_all125 r on l) = length l.
Proof.
  unfold apply_all125. generalize (seq 0 64). intros is. revert l. induction is as [|i is IH]; intros l; [reflexivity|].
  cbn [fold_left]. rewrite IH. destruct on; [apply unmask_length|apply mask_length].
Qed.
Lemma adr_mask_length r mk ctl l : length (fst (adr_mask r mk ctl l)) = length l.
Proof.
  unfold adr_mask. destruct (isDynamic r).
  - destruct (_ =? 0); [apply mask16_length|]. destruct (_ =? 6); [apply fill_length|reflexivity].
  - destruct (_ || _); [apply all125_length|apply mask16_length].
Qed.

Lemma linkADR_valid r dr pw mk ctl nb last s st : 0 <= pw -> valid_settings r s -> valid_settings r (fst (do_linkADR dr pw mk ctl nb last s st)).
Proof.
  intros P V. unfold do_linkADR. destruct (negb _); [|exact V].
  pose proof (adr_mask_length (s_region s) mk ctl (s_chMask s)) as L. destruct (adr_mask _ _ _ _) as [mask ok]. cbn [fst] in L.
  assert (valid_settings r (set_s_chMask mask s)) as V1.
  { destruct V as (V1 & [V2 V3] & V4). split; [exact V1|]. split; [split; [exact V2|cbn [s_chMask set_s_chMask]; congruence]|exact V4]. }
  assert (valid_settings r (if ok then set_s_chMask mask s else set_maskOK false (set_s_chMask mask s))) as V2 by (destruct ok; exact V1).
  cbv zeta. generalize dependent (if ok then set_s_chMask mask s else set_maskOK false (set_s_chMask mask s)). intros x V2.
  destruct last; [|exact V2]. unfold adr_final. cbv zeta. cbn [fst].
  set (x1 := set_powerOK true (set_rateOK true x)). assert (valid_settings r x1) as W1 by exact V2. assert (s_region x = s_region x1) as -> by reflexivity. clearbody x1. clear V1 V2 L.
  match goal with |- context [if nb >? 0 then ?a else _] => set (x2 := if nb >? 0 then a else x1) end.
  assert (valid_settings r x2 /\ s_region x1 = s_region x2) as [W2 ->].
  { unfold x2. destruct (nb >? 0); [|auto]. split; [|reflexivity]. destruct W1 as (A & B & C & D & E). repeat (split; [assumption|]). cbn [s_nbTrans set_s_nbTrans].
    assert (0 <= Z.land nb 15) by (apply Z.land_nonneg; right; lia). unfold REDUNDANCY_MAX. destruct (_ >? 3) eqn:G; lia. }
  clearbody x2. clear W1.
  match goal with |- context [if dr <? 15 then ?a else x2] => set (x3 := if dr <? 15 then a else x2) end.
  assert (valid_settings r x3 /\ s_region x2 = s_region x3) as [W3 ->].
  { unfold x3. destruct (dr <? 15); [|auto]. destruct (rateSettingIsValid (s_region x2) dr) eqn:RV; [|split; [exact W2|reflexivity]]. split; [|reflexivity].
    apply rate_valid in RV. destruct W2 as (A & B & C & D). rewrite A in RV. split; [exact A|]. split; [exact B|]. split; [exact RV|exact D]. }
  clearbody x3. clear W2.
  match goal with |- context [if pw <? 15 then ?a else x3] => set (x4 := if pw <? 15 then a else x3) end.
  assert (valid_settings r x4) as W4.
  { unfold x4. destruct (pw <? 15); [|auto]. destruct (validateTXPower (s_region x3) pw) eqn:RV; [|exact W3].
    apply (power_valid _ _ P) in RV. destruct W3 as (A & B & C & D & E). rewrite A in RV. split; [exact A|]. split; [exact B|]. split; [exact C|]. split; [exact RV|exact E]. }
  clearbody x4. destruct (allChannelsAreMasked _); exact W4.
Qed.

Lemma setChannel_valid r s ch f lo hi : valid_settings r s -> valid_settings r (fst (setChannel s ch f lo hi)).
Proof.
  intros V. pose proof V as (A & B & C). pose proof (tables_set s ch f lo hi B) as T. revert T. unfold setChannel. destruct (_ && _); [|auto]. cbv zeta.
  destruct (f =? 0); [intros T; split; [exact A|split; [exact T|exact C]]|]. destruct (validateFreq _ _); [intros T; split; [exact A|split; [exact T|exact C]]|auto].
Qed.
Lemma chan_step_valid r s k : valid_settings r s -> valid_settings r (chan_step s k).
Proof.
  intros V. destruct k; cbn [chan_step]; [now apply setChannel_valid| |]; destruct V as (A & [B B'] & C); split; try exact A; split; try exact C;
  split; try exact B; cbn [s_chMask set_s_chMask]; [rewrite mask_length|rewrite unmask_length]; exact B'.
Qed.
Lemma chan_steps_valid r l : forall s, valid_settings r s -> valid_settings r (chan_steps s l).
Proof. induction l as [|k l IH]; intros s V; [exact V|]. cbn [chan_steps fold_left]. apply IH. now apply chan_step_valid. Qed.

Lemma do_command_valid c e r d last m st : power_cmd d -> valid_settings r (m_ctx m) -> valid_settings r (m_ctx (fst (do_command c e d last m st))).
Proof.
  intros P V. destruct d; cbn [do_command fst power_cmd] in *; try exact V.
  1: { match goal with |- context [do_linkADR ?a ?b ?x ?d ?n last (m_ctx m) st] =>
      pose proof (linkADR_valid r a b x d n last (m_ctx m) st P V) as H end.
    destruct (do_linkADR _ _ _ _ _ _ _ _) as [s st']. exact H. }
  all: try (destruct (isDynamic _); [|exact V]); cbv zeta; cbn [fst]; try exact V.
  all: try (destruct (_ && _); [|exact V]; try exact V).
  all: try (destruct (device_time _ _ _ _ _); exact V).
  all: try (destruct (_ =? _); exact V).
  exact (setChannel_valid r (set_s_nch_ans _ (m_ctx m)) chIndex freq minDR maxDR V).
Qed.

Lemma processCommands_valid c e r l m : valid_settings r (m_ctx m) -> valid_settings r (m_ctx (processCommands c e l m)).
Proof.
  intros V. apply (processCommands_inv2 c e (fun x => valid_settings r (m_ctx x))).
  - intros. now apply do_command_valid.
  - exact V.
  - intros x (A & [B B'] & C). destruct V as (_ & [_ V1] & V2 & V3 & V4). split; [exact A|]. split; [split; [exact B|exact V1]|]. split; [exact V2|]. split; [exact V3|exact V4].
Qed.

Lemma data_received_valid c e r buf f m : valid_settings r (m_ctx m) -> valid_settings r (m_ctx (data_received c e buf f m)).
Proof.
  intros V. open_def data_received. cbv zeta.
  match goal with |- context [on_ctx ?g ?x] => set (x1 := on_ctx g x) end.
  assert (valid_settings r (m_ctx x1)) as V1. { unfold x1, on_ctx, clearPendingCommand, syncDownCounter. cbv zeta. ms. destruct (_ && _); exact V. } clearbody x1.
  change (valid_settings r (m_ctx (set_m_adrAckReq false (set_m_adrAckCounter 0 x1)))) in V1. generalize dependent (set_m_adrAckReq false (set_m_adrAckCounter 0 x1)). clear x1. intros x V1.
  set (x2 := match dn_opts f with Some off => processCommands c e (slice buf (Z.to_nat off) (Z.to_nat (dn_optsLen f))) x | None => x end).
  assert (valid_settings r (m_ctx x2)) as V2. { unfold x2. destruct (dn_opts f); [now apply processCommands_valid|exact V1]. } clearbody x2.
  set (x3 := match dn_data f with Some off => if dn_port f =? 0 then processCommands c e (slice buf (Z.to_nat off) (Z.to_nat (dn_dataLen f))) x2 else notify (EV_RX (dn_port f) (slice buf (Z.to_nat off) (Z.to_nat (dn_dataLen f)))) x2 | None => x2 end).
  assert (valid_settings r (m_ctx x3)) as V3. { unfold x3. destruct (dn_data f); [|exact V2]. destruct (_ =? 0); [now apply processCommands_valid|exact V2]. } clearbody x3.
  destruct (m_op x3); exact V3.
Qed.

Lemma join_rate_any noSF12 r trial : uplink_rate r (getJoinRate noSF12 r trial).
Proof. destruct r; cbn [uplink_rate getJoinRate]; unfold u8; destruct noSF12; cbn [MIN_RATE]; try lia; destruct (Z.odd _); lia. Qed.
Lemma derive_ctx c m : m_ctx (deriveKeys c m) = m_ctx m.
Proof. unfold deriveKeys. destruct (_ =? 0); reflexivity. Qed.
Lemma join_accepted_valid c r buf f m : valid_settings r (m_ctx m) -> valid_settings r (m_ctx (join_accepted c buf f m)).
Proof.
  intros V. open_def join_accepted. cbv zeta.
  match goal with |- context [set_s_rate ?v ?x] => set (x1 := set_s_rate v x) end.
  assert (valid_settings r x1) as V1.
  { unfold x1. destruct V as (A & B & C & D). split; [exact A|]. split; [exact B|]. split; [|exact D]. cbn [s_rate set_s_rate]. ms.
    destruct (s_adr (m_ctx m)); [|exact C]. rewrite A. apply join_rate_any. }
  clearbody x1.
  match goal with |- context [set_s_rx1Delay ?v ?x] => set (x2 := set_s_rx1Delay v x) end. assert (valid_settings r x2) as V2 by exact V1. clearbody x2.
  set (x3 := match dn_cfList f with Some off => chan_steps x2 (processCFList (s_region x2) (slice buf (Z.to_nat off) (Z.to_nat (dn_cfListLen f)))) | None => x2 end).
  assert (valid_settings r x3) as V3. { unfold x3. destruct (dn_cfList f); [now apply chan_steps_valid|exact V2]. } clearbody x3.
  match goal with |- context [set_s_joinNonce ?v ?x] => set (x4 := set_s_joinNonce v x) end.
  assert (valid_settings r x4) as V4. { unfold x4. destruct (is_1_1 (c_l2 c)); [|exact V3]. destruct (_ >? 0); exact V3. } clearbody x4.
  change (valid_settings r (m_ctx (deriveKeys c (set_m_ctx x4 m)))). rewrite derive_ctx. exact V4.
Qed.

Lemma forgotten_zero b : tables_ok (forgotten session_zero 0 b) /\ s_nbTrans (forgotten session_zero 0 b) = 0.
Proof. destruct b; vm_compute; auto. Qed.
Lemma start_valid r rate s : tables_ok s -> s_nbTrans s = 0 -> uplink_rate r rate ->
  valid_settings r (set_s_adr true (set_s_power 0 (set_s_rate rate (set_s_region r s)))).
Proof.
  intros T N U. split; [reflexivity|]. split; [exact T|]. split; [exact U|]. split; [destruct r; vm_compute; intuition discriminate|].
  change (0 <= s_nbTrans s <= 15). lia.
Qed.
Lemma min_uplink b r : uplink_rate r (MIN_RATE b).
Proof. destruct b, r; vm_compute; intuition discriminate. Qed.
Lemma fresh_valid c r : valid_settings r (fresh c r).
Proof. destruct (forgotten_zero (c_txps c)) as [T N]. exact (start_valid r _ _ T N (min_uplink _ _)). Qed.

Lemma chan_steps_settings l : forall s, s_rate (chan_steps s l) = s_rate s /\ s_power (chan_steps s l) = s_power s /\ s_nbTrans (chan_steps s l) = s_nbTrans s.
Proof.
  induction l as [|k l IH]; intros s; [auto|]. cbn [chan_steps fold_left]. destruct (IH (chan_step s k)) as (A & B & C). unfold chan_steps in A, B, C. rewrite A, B, C.
  destruct k; cbn [chan_step]; try (repeat split; reflexivity). unfold setChannel. destruct (_ && _); [|auto]. cbv zeta. destruct (_ =? 0); [auto|]. destruct (validateFreq _ _); auto.
Qed.

Lemma forgotten_valid r s d b : valid_settings r s -> valid_settings r (forgotten s d b).
Proof.
  intros (A & B & C & D & E). unfold forgotten. cbv zeta. apply chan_steps_valid.
  split; [exact A|]. split; [split; reflexivity|]. split; [exact C|]. split; [exact D|]. change (0 <= 0 <= 15). lia.
Qed.

Lemma adapt_valid c r m : valid_settings r (m_ctx m) -> valid_settings r (m_ctx (fst (adaptRate c m))).
Proof.
  intros V. unfold adaptRate. cbv zeta. ms. destruct (s_adr (m_ctx m)); [|exact V]. destruct (_ <? 255); [|exact V].
  destruct (_ >=? _); [|exact V]. destruct (_ && _); [|exact V]. destruct (_ =? 0) eqn:PZ.
  - destruct (_ >? _) eqn:G.
    + destruct V as (A & B & C & D). split; [exact A|]. split; [exact B|]. split; [|exact D].
      change (uplink_rate r (s_rate (m_ctx m) - 1)). unfold MIN_RATE in G. destruct (c_noSF12 c), r; cbn [uplink_rate] in *; lia.
    + destruct V as (A & [B B'] & C & D). split; [exact A|]. split; [|split; [exact C|exact D]]. split; [exact B|]. cbn [fst]. change (length (fill 0 (length (s_chMask (m_ctx m)))) = 9%nat). rewrite fill_length. exact B'.
  - destruct V as (A & B & C & D & E). split; [exact A|]. split; [exact B|]. split; [exact C|]. split; [|exact E]. change (0 <= 0 <= top_power r). destruct r; cbn; lia.
Qed.

Lemma case_valid c e k m r s : power_arg k -> valid_settings r (m_ctx m) -> ctx_case c e m k s -> valid_settings r s.
Proof.
  intros P V HC. destruct HC.
  - exact V.
  - apply adapt_valid. exact V.
  - exact V.
  - now apply data_received_valid.
  - now apply join_accepted_valid.
  - exact V.
  - unfold sess_data, clear_single_shot, clearPendingCommand. destruct (is_1_1 (c_l2 c)), (c_txps c); exact V.
  - now apply forgotten_valid.
  - destruct k; try destruct H0; cbn [step]; unfold st_ret, bool_ret; cbn [fst].
    + open_def MAC_setRate. destruct (rateSettingIsValid _ _) eqn:RV; [|exact V]. apply rate_valid in RV. destruct V as (A & B & C & D). rewrite A in RV.
      split; [exact A|]. split; [exact B|]. split; [exact RV|exact D].
    + open_def MAC_setPower. destruct (validateTXPower _ _) eqn:RV; [|exact V]. apply (power_valid _ _ P) in RV. destruct V as (A & B & C & D & E). rewrite A in RV.
      split; [exact A|]. split; [exact B|]. split; [exact C|]. split; [exact RV|exact E].
    + exact V.
    + exact V.
    + open_def MAC_addChannel. pose proof (setChannel_valid r (m_ctx m) ch freq lo hi V) as W. destruct (setChannel _ _ _ _ _) as [x ok]. exact W.
    + pose proof (chan_step_valid r (m_ctx m) (MaskChannel ch) V) as W. open_def MAC_maskChannel. cbn [chan_step] in W. destruct (maskChannel _ _ _) as [x ok]. exact W.
    + pose proof (chan_step_valid r (m_ctx m) (UnmaskChannel ch) V) as W. open_def MAC_unmaskChannel. cbn [chan_step] in W. destruct (unmaskChannel _ _ _) as [x ok]. exact W.
Qed.

Lemma init_valid c r a e : valid_start r (ia_session a) -> valid_settings r (m_ctx (MAC_init c r a e)).
Proof.
  intros V. rewrite init_ctx. unfold valid_start in V. destruct (ia_session a) as [s|]; [|apply fresh_valid].
  destruct (_ && _) eqn:E; [|apply fresh_valid]. apply andb_true_iff in E. destruct E as [_ E]. apply region_eqb_eq in E. now apply V.
Qed.

Theorem valid_always c r a e0 h : valid_start r (ia_session a) -> Forall (fun x => power_arg (snd x)) h ->
  let m := run c h (MAC_init c r a e0) in
  valid_settings r (m_ctx m) /\ forall s, In (OEvent (EV_SESSION_UPDATED s)) (m_log m) -> valid_settings r s.
Proof.
  intros L A m.
  destruct (session_inv c (fun x => power_arg (snd x)) (valid_settings r)) with (h := h) (m := MAC_init c r a e0) as [H1 H2].
  - intros e k x s B S Q CC. exact (case_valid c e k x r s B Q CC).
  - exact (init_so c r a e0 []).
  - now apply init_valid.
  - rewrite init_log. constructor.
  - exact A.
  - split; [exact H1|]. intros s. exact (saved_all_in _ _ s H2).
Qed.
