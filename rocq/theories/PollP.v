(* Asking whether, and how much, can be sent. *)
From Verif Require Import Lib StreamM FrameM CommandsM RegionM RadioM SmM MacStateM MacTac MacUtilM OpsM MacCmdM MacProcM MacApiM MacRw SpecRegion SpecValid SpecChan RegionP ChanP CoreP CaseP SpecHist SpecSend HistP ReqP AcceptP SelectP ValidP UplinkP ChoiceP SpecAnswer AnswerP SpecPoll SpecWait.
From Verif Require Import BandP.
From Verif Require JoinChanP.

Lemma ready_exact m : mask_room (m_ctx m) -> in_range (m_band m) ->
  MAC_ready m = true <-> m_state m = ST_IDLE /\ band_global m = 0 /\ exists ch, open_channel m 0 ch.
Proof.
  intros R G. unfold MAC_ready. split.
  - destruct (m_state m); try discriminate. intros E. apply Z.eqb_eq in E. split; [reflexivity|].
    destruct (JoinChanP.fold_min (timeUntilAvailable m) (channels (s_region (m_ctx m))) UINT32_MAX) as (_ & _ & C). cbv zeta in C.
    change (fold_left _ (channels (s_region (m_ctx m))) UINT32_MAX) with (timeUntilNextChannel m) in C. rewrite E in C.
    destruct C as [C|(ch & I & C)]; [discriminate C|]. apply channels_in in I.
    destruct (proj1 (JoinChanP.until_open m ch 0 R I ltac:(reflexivity))) as [O B]; [lia|].
    split; [|exists ch; exact O]. pose proof (range_nth (m_band m) BAND_GLOBAL G) as X. unfold band_global in *. lia.
  - intros (-> & B & ch & O). apply Z.eqb_eq.
    destruct (JoinChanP.fold_min (timeUntilAvailable m) (channels (s_region (m_ctx m))) UINT32_MAX) as (_ & L & C). cbv zeta in L, C.
    change (fold_left _ (channels (s_region (m_ctx m))) UINT32_MAX) with (timeUntilNextChannel m) in L, C.
    pose proof (open_range _ _ _ O) as RG. specialize (L ch ltac:(now apply channels_in)).
    assert (timeUntilAvailable m ch <= 0) as U by (apply JoinChanP.until_open; [exact R|exact RG|reflexivity|split; [exact O|lia]]).
    assert (forall x, 0 <= timeUntilAvailable m x) as NN.
    { intros x. unfold timeUntilAvailable. cbv zeta. destruct (negb _); [|discriminate]. destruct (getChannel _ x) as [[[f lo] hi]|]; [|discriminate].
      destruct (f >? 0); [|discriminate]. destruct (getBand _ f) as [b|]; [|discriminate].
      destruct (_ >? _); [apply (range_nth _ (Z.to_nat b) G)|unfold band_global; apply (range_nth _ BAND_GLOBAL G)]. }
    destruct C as [C|(x & _ & C)]; [rewrite C in L; exfalso; unfold UINT32_MAX in L; lia|]. specialize (NN x). lia.
Qed.

Lemma compose_status cf port d mx macs f n : Z.of_nat (length macs) = n ->
  snd (compose cf port d mx macs f) = if (n <=? 15) && (len_of d + n <=? mx - 8) then STATUS_OK else STATUS_MACPRIORITY.
Proof.
  intros <-. unfold compose. cbv zeta. fold (len_of d). change Frame_dataOverhead with 8. set (k := Z.of_nat (length macs)). clearbody k.
  destruct (k >? 15) eqn:A; cbn [snd]; [replace (k <=? 15) with false by lia; reflexivity|]. replace (k <=? 15) with true by lia. cbn [andb].
  destruct (_ >? mx) eqn:B; cbn [snd]; [replace (_ <=? _) with false by lia|replace (_ <=? _) with true by lia]; reflexivity.
Qed.

Lemma verdict_exact c e m cf port d o : mask_room (m_ctx m) -> 0 <= e_rand e RND_CHANNEL ->
  s_joined (m_ctx m) = true -> m_op m = OP_NONE -> 1 <= port <= 223 -> band_global m = 0 -> (exists ch, open_channel m 0 ch) ->
  snd (step c e (C_data cf port d o) m) = RStatus (verdict (c_l2 c) (c_txps c) (m_ctx m) d o).
Proof.
  intros R RN J O P G OC. cbn [step]. unfold st_ret. cbn [snd]. f_equal.
  destruct (select_found (sel_start c m) (s_rate (m_ctx m)) 0 (e_rand e RND_CHANNEL) (m_tx (sel_start c m)) R RN) as [SF _].
  change (open_channel (sel_start c m) 0) with (open_channel m 0) in SF. apply (proj2 SF) in OC. clear SF R RN.
  pose proof (proj1 (proj2 (proj2 (mac_commands_spec c (m_ctx m) (opts_of o))))) as MC.
  unfold verdict. change (uplink_commands (c_l2 c) (c_txps c) (m_ctx m) (wanted o)) with (uplink_commands (c_l2 c) (c_txps c) (m_ctx m) (opts_of o)). rewrite <- MC. clear MC. open_def MAC_data. rewrite J, O. cbn [negb].
  replace ((port >? 0) && (port <=? 223)) with true by lia. rewrite G. cbn [Z.eqb]. fold (sel_start c m). cbv zeta.
  revert OC. destruct (selectChannel (sel_start c m) _ _ _ _) as [tx fd]. cbn [snd]. intros ->.
  fold (len_of d). change (octets_of d) with (len_of d). change Frame_dataOverhead with 8.
  fold (opts_of o).
  match goal with |- context [compose cf port d ?mp ?ma ?f] => destruct (compose cf port d mp ma f) as [[f' op] st] eqn:C end.
  destruct (prepareData _ _ _ _ _) as [b n] eqn:PD. clear PD.
  destruct (_ <=? _) eqn:E1; [|cbn [snd]; replace (_ <? _) with true by lia; reflexivity].
  cbn [snd]. replace (_ <? _) with false by lia. apply (f_equal snd) in C. cbn [snd] in C. subst st. apply compose_status. reflexivity.
Qed.

(* --- the size --- *)

Lemma rate_kept s : mask_room s -> rate_everywhere s -> mtu_rate s = s_rate s.
Proof.
  intros R E. unfold mtu_rate. assert (forall ch, In ch (channels (s_region s)) -> 0 <= ch < numChannels (s_region s)) as I by (intros ch; apply channels_in).
  generalize (eq_refl (s_rate s)). generalize (s_rate s) at 1 3. revert I. induction (channels (s_region s)) as [|ch l IH]; intros I x X; [exact X|]. cbn [fold_left].
  apply IH; [intros y Y; apply I; now right|]. rewrite masked_bit by (specialize (I ch (or_introl eq_refl)); lia).
  specialize (I ch (or_introl eq_refl)). assert (mask_ok (s_chMask s) (s_region s) ch = true) as -> by (unfold mask_ok, mask_room in *; lia). cbn [andb].
  destruct (Z.testbit _ _) eqn:T; [exact X|]. destruct (getChannel s ch) as [[[f lo] hi]|] eqn:GC; [|exact X].
  destruct (f >? 0) eqn:F; [|exact X]. specialize (E ch f lo hi I T GC ltac:(lia)). unfold requiredRate.
  replace (x <? lo) with false by lia. replace (x >? hi) with false by lia. exact X.
Qed.

Lemma add_len s t o : 0 <= o <= 250 -> u8 (o + (if commandIsPending s t then sizeofCommandUp t else 0)) = o + (if waiting s t then sizeofCommandUp t else 0).
Proof. intros B. rewrite waiting_pending. unfold u8. destruct (waiting s t); destruct t; cbn [sizeofCommandUp]; lia. Qed.
Lemma add_bound s t : 0 <= (if waiting s t then sizeofCommandUp t else 0) <= 3.
Proof. destruct (waiting s t); destruct t; cbn [sizeofCommandUp]; lia. Qed.
Lemma one_size (b : bool) (l : list Z) n : Z.of_nat (length l) = n -> Z.of_nat (length (one b l)) = if b then n else 0.
Proof. intros <-. destruct b; reflexivity. Qed.

Lemma mtu_value c m o : mask_room (m_ctx m) -> s_joined (m_ctx m) = true -> rate_everywhere (m_ctx m) -> plain (c_txps c) (m_ctx m) o ->
  MAC_mtu c m = Z.max 0 (rate_mtu (s_region (m_ctx m)) (s_rate (m_ctx m)) - 8 - Z.of_nat (length (uplink_commands (c_l2 c) (c_txps c) (m_ctx m) (wanted o)))).
Proof.
  intros R J E (P1 & P2 & P3). unfold MAC_mtu. cbv zeta. rewrite (rate_kept _ R E), J. change Frame_dataOverhead with 8.
  unfold uplink_commands. cbv zeta. rewrite P1, P2, P3. set (s := m_ctx m) in *. clearbody s.
  pose proof (mtu_bound (s_region s) (s_rate s)) as MB. set (mx := rate_mtu (s_region s) (s_rate s)) in *. clearbody mx. clear - MB.
  rewrite !app_length, !Nat2Z.inj_add.
  rewrite (one_size (waiting s CMD_RX_PARAM_SETUP) _ (sizeofCommandUp CMD_RX_PARAM_SETUP)) by reflexivity. rewrite (one_size (waiting s CMD_DL_CHANNEL) _ (sizeofCommandUp CMD_DL_CHANNEL)) by reflexivity. rewrite (one_size (waiting s CMD_RX_TIMING_SETUP) _ (sizeofCommandUp CMD_RX_TIMING_SETUP)) by reflexivity. rewrite (one_size (waiting s CMD_LINK_ADR) _ (sizeofCommandUp CMD_LINK_ADR)) by reflexivity. rewrite (one_size (waiting s CMD_DEV_STATUS) _ (sizeofCommandUp CMD_DEV_STATUS)) by reflexivity. rewrite (one_size (waiting s CMD_NEW_CHANNEL) _ (sizeofCommandUp CMD_NEW_CHANNEL)) by reflexivity. rewrite (one_size (waiting s CMD_DUTY_CYCLE) _ (sizeofCommandUp CMD_DUTY_CYCLE)) by reflexivity.
  pose proof (add_bound s CMD_RX_PARAM_SETUP); pose proof (add_bound s CMD_DL_CHANNEL); pose proof (add_bound s CMD_RX_TIMING_SETUP); pose proof (add_bound s CMD_LINK_ADR);
  pose proof (add_bound s CMD_DEV_STATUS); pose proof (add_bound s CMD_NEW_CHANNEL); pose proof (add_bound s CMD_DUTY_CYCLE);
  pose proof (add_bound s CMD_REKEY); pose proof (add_bound s CMD_REJOIN_PARAM_SETUP); pose proof (add_bound s CMD_ADR_PARAM_SETUP).
  destruct (is_1_1 (c_l2 c)); cbn [andb].
  - rewrite (one_size (waiting s CMD_REKEY) _ (sizeofCommandUp CMD_REKEY)) by reflexivity. rewrite (one_size (waiting s CMD_REJOIN_PARAM_SETUP) _ (sizeofCommandUp CMD_REJOIN_PARAM_SETUP)) by reflexivity. rewrite (one_size (waiting s CMD_ADR_PARAM_SETUP) _ (sizeofCommandUp CMD_ADR_PARAM_SETUP)) by reflexivity.
    rewrite (add_len s CMD_LINK_ADR) by lia. rewrite (add_len s CMD_DUTY_CYCLE) by lia. rewrite (add_len s CMD_RX_PARAM_SETUP) by lia. rewrite (add_len s CMD_DEV_STATUS) by lia.
    rewrite (add_len s CMD_NEW_CHANNEL) by lia. rewrite (add_len s CMD_RX_TIMING_SETUP) by lia. rewrite (add_len s CMD_DL_CHANNEL) by lia. rewrite (add_len s CMD_REKEY) by lia.
    rewrite (add_len s CMD_ADR_PARAM_SETUP) by lia. rewrite (add_len s CMD_REJOIN_PARAM_SETUP) by lia.
    cbn [one length Z.of_nat]. unfold u8. destruct (_ >? mx) eqn:E; lia.
  - rewrite (add_len s CMD_LINK_ADR) by lia. rewrite (add_len s CMD_DUTY_CYCLE) by lia. rewrite (add_len s CMD_RX_PARAM_SETUP) by lia. rewrite (add_len s CMD_DEV_STATUS) by lia.
    rewrite (add_len s CMD_NEW_CHANNEL) by lia. rewrite (add_len s CMD_RX_TIMING_SETUP) by lia. rewrite (add_len s CMD_DL_CHANNEL) by lia.
    cbn [one length Z.of_nat]. unfold u8. destruct (_ >? mx) eqn:E; lia.
Qed.

(* --- over histories --- *)

Lemma polled c r a e0 h : valid_start r (ia_session a) -> Forall (fun x => power_arg (snd x)) h ->
  let m := run c h (MAC_init c r a e0) in mask_room (m_ctx m) /\ in_range (m_band m) /\ (m_state m = ST_IDLE -> m_op m = OP_NONE).
Proof.
  intros V PA m. destruct (valid_always c r a e0 h V PA) as [VS _]. split; [exact (valid_room _ _ VS)|].
  split; [exact (proj2 (bands_run c h _ (bands_init c r a e0)))|]. pose proof (init_so c r a e0 h) as S. cbv zeta in S. fold m in S.
  intros I. rewrite I in S. destruct (m_op m); try discriminate S. reflexivity.
Qed.

Theorem ready_always c r a e0 h : valid_start r (ia_session a) -> Forall (fun x => power_arg (snd x)) h ->
  let m := run c h (MAC_init c r a e0) in
  MAC_ready m = true <-> m_state m = ST_IDLE /\ band_global m = 0 /\ exists ch, open_channel m 0 ch.
Proof. intros V PA m. destruct (polled c r a e0 h V PA) as (R & G & _). exact (ready_exact m R G). Qed.

Theorem ready_taken c r a e0 h e cf port d o : valid_start r (ia_session a) -> Forall (fun x => power_arg (snd x)) h -> 0 <= e_rand e RND_CHANNEL ->
  let m := run c h (MAC_init c r a e0) in
  s_joined (m_ctx m) = true -> 1 <= port <= 223 -> m_state m = ST_IDLE ->
  snd (step c e (C_data cf port d o) m) = RStatus (if MAC_ready m then verdict (c_l2 c) (c_txps c) (m_ctx m) d o else STATUS_NOCHANNEL).
Proof.
  intros V PA RN m J P I. destruct (polled c r a e0 h V PA) as (R & G & O). fold m in R, G, O. specialize (O I).
  destruct (ready_exact m R G) as [E1 E2]. destruct (MAC_ready m).
  - destruct (E1 eq_refl) as (_ & B & X). apply verdict_exact; assumption.
  - apply nochannel_exact; try assumption. destruct (Z.eq_dec (band_global m) 0) as [Z0|N]; [|left; exact N]. right. intros ch X.
    assert (false = true) as D by (apply E2; eauto). discriminate D.
Qed.

Theorem mtu_always c r a e0 h e cf port d o : valid_start r (ia_session a) -> Forall (fun x => power_arg (snd x)) h -> 0 <= e_rand e RND_CHANNEL ->
  let m := run c h (MAC_init c r a e0) in
  s_joined (m_ctx m) = true -> 1 <= port <= 223 -> MAC_ready m = true -> rate_everywhere (m_ctx m) -> plain (c_txps c) (m_ctx m) o ->
  let st := snd (step c e (C_data cf port d o) m) in
  (st = RStatus STATUS_OK -> octets_of d <= MAC_mtu c m) /\
  (1 <= MAC_mtu c m -> octets_of d <= MAC_mtu c m -> Z.of_nat (length (uplink_commands (c_l2 c) (c_txps c) (m_ctx m) (wanted o))) <= 15 -> st = RStatus STATUS_OK).
Proof.
  intros V PA RN m J P RD RE PL st. destruct (polled c r a e0 h V PA) as (R & G & O). fold m in R, G, O.
  assert (m_state m = ST_IDLE) as I by (apply (ready_exact m R G); exact RD).
  pose proof (ready_taken c r a e0 h e cf port d o V PA RN J P I) as T. cbv zeta in T. fold m in T. rewrite RD in T. unfold st. rewrite T. clear T st.
  rewrite (mtu_value c m o R J RE PL). unfold verdict. cbv zeta. set (n := Z.of_nat (length _)). assert (0 <= n) as N0 by lia. set (mx := rate_mtu _ _). clearbody n mx.
  destruct (mx - 8 <? octets_of d) eqn:A; [split; [intros X; discriminate X|intros; exfalso; lia]|].
  destruct ((n <=? 15) && (octets_of d + n <=? mx - 8)) eqn:B; [split; intros; [lia|reflexivity]|]. split; [intros X; discriminate X|intros; exfalso; lia].
Qed.
