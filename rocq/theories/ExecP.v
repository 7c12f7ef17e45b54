(* processCommands executes exactly the commands of the field. *)
From Verif Require Import Lib StreamM FrameM CommandsM RegionM MacStateM MacTac MacUtilM OpsM MacCmdM MacApiM
  SpecFrame SpecCmd SpecAnswer SpecExec FrameDecP FrameRtP CmdP AnswerP.

Lemma closes_spec l : closes_block l = match l with [] => true | x :: _ => negb (x =? 3) end.
Proof.
  destruct l as [|x l]; [reflexivity|]. unfold closes_block.
  destruct (Z.eqb_spec x 3) as [->|H]; [reflexivity|].
  destruct x as [|x|x]; try reflexivity. destruct x as [x|x|]; try reflexivity.
  destruct x as [x|x|]; try reflexivity. now contradiction H.
Qed.

Lemma block_ends_R c buf n p : ok_len buf n -> 0 <= p <= n ->
  block_ends c (R buf n p) = closes_block (rest buf n p).
Proof.
  intros Hok Hp. unfold block_ends, peekNextCommand, Stream_peek, Stream_remaining, R.
  cbn [st_size st_pos st_buf st_w st_err st_oob].
  pose proof (rest_length buf n p Hok Hp) as Hl. rewrite closes_spec.
  rewrite (u8_id (n - p)) by (unfold ok_len in Hok; lia).
  destruct (0 <? n - p) eqn:E; cbn [snd].
  - rewrite (rest_cons buf n p Hok) by lia.
    assert (nth (Z.to_nat p) buf 0 = rd buf p 1) as ->.
    { unfold rd. transitivity (byte_at (at_ buf p 1) 0).
      - rewrite nth_at by lia. f_equal. lia.
      - apply rd1. rewrite (at_length buf n) by (auto; lia). reflexivity. }
    pose proof (tag_cases (c_l2 c) (rd buf p 1)) as Ht.
    destruct (tagToType (c_l2 c) (rd buf p 1)) as [t|] eqn:Et.
    + destruct Ht as [Hc _]. clear Et. revert Hc. generalize (rd buf p 1). intros z Hc. destruct t; cbn [cid_of] in Hc; subst z; reflexivity.
    + destruct (Z.eqb_spec (rd buf p 1) 3) as [E3|E3]; [|reflexivity].
      rewrite E3 in Ht. discriminate.
  - assert (n = p) by lia. subst. destruct (rest buf p p); [reflexivity|cbn in Hl; lia].
Qed.

Lemma cmd_loop_R c e buf n : ok_len buf n -> forall fuel p m st, 0 <= p <= n ->
  (Z.to_nat (n - p) < fuel)%nat ->
  cmd_loop fuel c e (R buf n p) m st = exec_cmds c e (parse_cmds fields_read (c_l2 c) (rest buf n p)) m st.
Proof.
  intros Hok. induction fuel as [|fuel IH]; intros p m st Hp Hf; [lia|].
  cbn [cmd_loop]. pose proof (getDown_R (c_l2 c) buf n p Hok Hp) as Hg.
  unfold parse_cmds. rewrite (rest_length buf n p Hok Hp).
  destruct (next_cmd fields_read (c_l2 c) (rest buf n p)) as [[d l]|] eqn:E.
  - destruct Hg as (p' & Hp' & El & ->).
    rewrite (cmds_fuel _ (c_l2 c) (Z.to_nat (n - p)) (S (Z.to_nat (n - p)))) by (rewrite (rest_length buf n p Hok Hp); lia).
    cbn [cmds]. rewrite E. unfold exec_cmds. cbn [fold_left fst snd].
    rewrite (block_ends_R c buf n p') by (auto; lia). subst l.
    destruct (do_command c e d (closes_block (rest buf n p')) m st) as [m' st'].
    rewrite IH by lia. unfold exec_cmds, parse_cmds. rewrite (rest_length buf n p' Hok) by lia.
    rewrite (cmds_fuel _ (c_l2 c) (Z.to_nat (n - p)) (Z.to_nat (n - p'))) by (rewrite (rest_length buf n p' Hok) by lia; lia).
    reflexivity.
  - destruct Hg as (s & -> & _). destruct (Z.to_nat (n - p)); [reflexivity|].
    cbn [cmds]. rewrite E. reflexivity.
Qed.

Lemma cmd_loop_spec c e l m st : bytes_ok l -> (length l < 256)%nat ->
  cmd_loop (S (length l)) c e (Stream_initReadOnly l (Z.of_nat (length l))) m st =
  exec_cmds c e (parse_cmds fields_read (c_l2 c) l) m st.
Proof.
  intros Hb Hl. destruct (init_R l Hl Hb) as (-> & Hok & Hr).
  rewrite (cmd_loop_R c e l _ Hok) by lia. now rewrite Hr.
Qed.

(* a whole field *)
Lemma processCommands_spec c e l m : bytes_ok l -> (length l < 256)%nat ->
  processCommands c e l m =
  let '(m', st) := exec_cmds c e (parse_cmds fields_read (c_l2 c) l) (on_ctx (set_maskOK true) m) NO_ADR in
  match st with ADR_BAD => on_ctx (adr_rollback (m_ctx m)) m' | _ => m' end.
Proof. intros Hb Hl. unfold processCommands. rewrite cmd_loop_spec by auto. reflexivity. Qed.

(* induction over the executed commands *)
Lemma exec_ind c e (Q : mac -> Prop) l :
  (forall d last m st, Q m -> Q (fst (do_command c e d last m st))) ->
  forall m st, Q m -> Q (fst (exec_cmds c e l m st)).
Proof.
  intros Hs. unfold exec_cmds. induction l as [|x l IH]; intros m st Hm; [exact Hm|].
  cbn [fold_left fst snd]. pose proof (Hs (fst x) (closes_block (snd x)) m st Hm).
  destruct (do_command c e (fst x) (closes_block (snd x)) m st) as [m' st']. apply IH. exact H.
Qed.

Lemma processCommands_ind c e (Q : mac -> Prop) m l :
  (forall d last m st, Q m -> Q (fst (do_command c e d last m st))) ->
  Q (on_ctx (set_maskOK true) m) ->
  (forall m', Q m' -> Q (on_ctx (adr_rollback (m_ctx m)) m')) ->
  bytes_ok l -> (length l < 256)%nat -> Q (processCommands c e l m).
Proof.
  intros Hs H0 Hr Hb Hl. rewrite processCommands_spec by auto.
  pose proof (exec_ind c e Q (parse_cmds fields_read (c_l2 c) l) Hs _ NO_ADR H0) as H.
  destruct (exec_cmds _ _ _ _ _) as [m' st]. cbn [fst] in H. destruct st; auto.
Qed.

(* the same without assumption on the bytes: for invariants *)
Lemma cmd_loop_ind c e (Q : mac -> Prop) :
  (forall d last m st, Q m -> Q (fst (do_command c e d last m st))) ->
  forall fuel s m st, Q m -> Q (fst (cmd_loop fuel c e s m st)).
Proof.
  intros Hs. induction fuel as [|fuel IH]; intros s m st Hm; [exact Hm|].
  cbn [cmd_loop]. destruct (getDownCommand (c_l2 c) s) as [s' [d|]]; [|exact Hm].
  pose proof (Hs d (block_ends c s') m st Hm).
  destruct (do_command c e d (block_ends c s') m st) as [m' st']. apply IH. exact H.
Qed.

Lemma processCommands_inv c e (Q : mac -> Prop) l m :
  (forall d last m st, Q m -> Q (fst (do_command c e d last m st))) ->
  Q (on_ctx (set_maskOK true) m) ->
  (forall m', Q m' -> Q (on_ctx (adr_rollback (m_ctx m)) m')) ->
  Q (processCommands c e l m).
Proof.
  intros Hs H0 Hr. unfold processCommands.
  pose proof (cmd_loop_ind c e Q Hs (S (length l)) (Stream_initReadOnly l (Z.of_nat (length l))) _ NO_ADR H0) as H.
  destruct (cmd_loop _ _ _ _ _ _) as [m' st]. cbn [fst] in H. destruct st; auto.
Qed.

(* --- device status --- *)

Lemma waiting_set s t t' : waiting (setPendingCommand t s) t' = waiting s t' || (cmd_bit t =? cmd_bit t').
Proof.
  unfold waiting, setPendingCommand. mred. assert (0 <= cmd_bit t /\ 0 <= cmd_bit t') by (destruct t, t'; cbn; lia).
  rewrite Z.lor_spec, Z.pow2_bits_eqb by lia. reflexivity.
Qed.

Lemma waiting_clear s t t' : waiting (clearPendingCommand t s) t' = waiting s t' && negb (cmd_bit t =? cmd_bit t').
Proof.
  unfold waiting, clearPendingCommand. mred. assert (0 <= cmd_bit t /\ 0 <= cmd_bit t') by (destruct t, t'; cbn; lia).
  rewrite Z.ldiff_spec, Z.pow2_bits_eqb by lia. reflexivity.
Qed.

Definition clamp (lo hi x : Z) : Z := Z.max lo (Z.min hi x).

Lemma snr_margin_clamp x : snr_margin x = clamp (-32) 31 x.
Proof. unfold snr_margin, clamp. destruct (x >? 31) eqn:A; [lia|]. destruct (x <? -32) eqn:B; lia. Qed.

(* the fields a LinkADRReq can change *)
Definition adr_part (a s : session) : session :=
  set_s_pending (s_pending a) (set_s_adr_ans (s_adr_ans a) (set_s_power (s_power a)
    (set_s_rate (s_rate a) (set_s_nbTrans (s_nbTrans a) (set_s_chMask (s_chMask a) s))))).

Lemma adr_final_frame dr pw nb s :
  let s' := fst (adr_final dr pw nb s) in
  s' = adr_part s' s /\ s_pending s' = Z.lor (s_pending s) 2 /\ s_chMask s' = s_chMask s.
Proof.
  cbv zeta. unfold adr_final, adr_part, setPendingCommand, set_maskOK, set_rateOK, set_powerOK. destruct s.
  mred. cbn [la_power la_rate la_mask].
  destruct (nb >? 0); destruct (dr <? 15); [destruct (rateSettingIsValid _ dr)| |destruct (rateSettingIsValid _ dr)|];
  (destruct (pw <? 15); [destruct (validateTXPower _ pw)|]); mred; destruct (allChannelsAreMasked _); mred;
  (split; [reflexivity|split; reflexivity]).
Qed.

Lemma do_linkADR_frame dr pw mk ctl nb last s st :
  let s' := fst (do_linkADR dr pw mk ctl nb last s st) in
  s' = adr_part s' s /\ (s_pending s' = s_pending s \/ s_pending s' = Z.lor (s_pending s) 2).
Proof.
  cbv zeta. unfold do_linkADR. destruct (negb _).
  2:{ cbn [fst]. split; [|now left]. destruct s; reflexivity. }
  destruct (adr_mask _ mk ctl _) as [mask ok].
  set (s1 := if ok then _ else _).
  assert (s1 = adr_part s1 s /\ s_pending s1 = s_pending s) as [E1 E2].
  { unfold s1. destruct ok; destruct s; split; reflexivity. }
  destruct last; cbn [fst]; [|split; [exact E1|now left]].
  destruct (adr_final_frame dr pw nb s1) as (E3 & E4 & _). cbv zeta in *.
  split; [|right; now rewrite E4, E2].
  rewrite E3 at 1. rewrite E1. destruct s. reflexivity.
Qed.

Lemma do_linkADR_waiting dr pw mk ctl nb last s st t : t <> CMD_LINK_ADR ->
  waiting (fst (do_linkADR dr pw mk ctl nb last s st)) t = waiting s t.
Proof.
  intros Ht. destruct (do_linkADR_frame dr pw mk ctl nb last s st) as [_ [E|E]]; cbv zeta in E;
    unfold waiting; rewrite E; auto.
  assert (0 <= cmd_bit t /\ cmd_bit t <> 1) by (destruct t; cbn; split; try lia; congruence).
  rewrite Z.lor_spec. change 2 with (2 ^ 1). rewrite Z.pow2_bits_eqb by lia.
  replace (1 =? cmd_bit t) with false by lia. apply orb_false_r.
Qed.

Lemma set_dev_ans s ch f lo hi : s_dev_ans (fst (setChannel s ch f lo hi)) = s_dev_ans s /\
  s_pending (fst (setChannel s ch f lo hi)) = s_pending s.
Proof.
  unfold setChannel. destruct (_ && _); [|auto]. destruct (f =? 0); [auto|]. destruct (validateFreq _ _); auto.
Qed.

Lemma dev_status_kept c e d last m st a :
  d <> DDevStatus -> waiting (m_ctx m) CMD_DEV_STATUS = true -> s_dev_ans (m_ctx m) = a ->
  let m' := fst (do_command c e d last m st) in
  waiting (m_ctx m') CMD_DEV_STATUS = true /\ s_dev_ans (m_ctx m') = a.
Proof.
  intros Hd Hw Ha. cbv zeta. destruct d; cbn [do_command]; try (mred; auto; fail);
  try (mred; rewrite waiting_set; unfold waiting in *; mred; rewrite Hw; auto; fail).
  - destruct (do_linkADR_frame dataRate txPower channelMask channelMaskControl nbTrans last (m_ctx m) st) as [E _].
    pose proof (do_linkADR_waiting dataRate txPower channelMask channelMaskControl nbTrans last (m_ctx m) st CMD_DEV_STATUS ltac:(discriminate)) as E2.
    cbv zeta in E. destruct (do_linkADR _ _ _ _ _ _ _ _) as [s' st']. mred_all. rewrite E2. split; [exact Hw|].
    rewrite E. unfold adr_part. mred. exact Ha.
  - congruence.
  - destruct (isDynamic _); [|mred; auto]. mred. rewrite waiting_set.
    destruct (_ && _); unfold waiting, setPendingCommand in *; mred.
    + destruct (set_dev_ans (set_s_nch_ans {| nc_rate := validateRate (s_region (m_ctx m)) chIndex minDR maxDR;
            nc_freq := validateFreq (s_region (m_ctx m)) freq |} (m_ctx m)) chIndex freq minDR maxDR) as [E1 E2].
      rewrite E1, E2. mred. rewrite Hw. auto.
    + rewrite Hw. auto.
  - destruct (_ && _); mred; [rewrite waiting_set; unfold waiting in *; mred; rewrite Hw|]; auto.
  - destruct (isDynamic _); mred; [rewrite waiting_set; unfold waiting in *; mred; rewrite Hw|]; auto.
  - destruct (_ =? _); mred; [rewrite waiting_clear; rewrite Hw|]; auto.
Qed.

Lemma rx_snr_kept c e d last m st : m_rx_snr (fst (do_command c e d last m st)) = m_rx_snr m.
Proof.
  destruct d; cbn [do_command]; try reflexivity;
  try (destruct (_ && _); reflexivity); try (destruct (isDynamic _); reflexivity).
  - destruct (do_linkADR _ _ _ _ _ _ _ _). reflexivity.
  - destruct (_ =? _); reflexivity.
Qed.

Lemma dev_status_exec c e l m st : 
  In DDevStatus (map fst l) \/
  (waiting (m_ctx m) CMD_DEV_STATUS = true /\ s_dev_ans (m_ctx m) = mkDevStatus (e_battery e) (snr_margin (m_rx_snr m))) ->
  let m' := fst (exec_cmds c e l m st) in
  waiting (m_ctx m') CMD_DEV_STATUS = true /\
  s_dev_ans (m_ctx m') = mkDevStatus (e_battery e) (snr_margin (m_rx_snr m)).
Proof.
  cbv zeta. unfold exec_cmds. revert m st. induction l as [|x l IH]; intros m st H.
  - destruct H as [[]|H]. exact H.
  - cbn [fold_left fst snd]. pose proof (rx_snr_kept c e (fst x) (closes_block (snd x)) m st) as Es.
    pose proof (dev_status_kept c e (fst x) (closes_block (snd x)) m st (mkDevStatus (e_battery e) (snr_margin (m_rx_snr m)))) as Hk.
    assert (fst x = DDevStatus -> waiting (m_ctx (fst (do_command c e (fst x) (closes_block (snd x)) m st))) CMD_DEV_STATUS = true /\
      s_dev_ans (m_ctx (fst (do_command c e (fst x) (closes_block (snd x)) m st))) = mkDevStatus (e_battery e) (snr_margin (m_rx_snr m))) as Hd.
    { intros ->. cbn [do_command]. mred. rewrite waiting_set. mred. rewrite Z.eqb_refl, orb_true_r. auto. }
    cbv zeta in Hk. destruct (do_command c e (fst x) (closes_block (snd x)) m st) as [m' st'].
    cbn [fst] in *. rewrite <- Es in *. apply IH.
    assert (fst x = DDevStatus \/ fst x <> DDevStatus) as [Hx|Hx].
    { destruct (fst x); (now left) || (now right). }
    + right. auto.
    + destruct H as [[H|H]|[H1 H2]]; [contradiction|now left|right]. auto.
Qed.

Lemma one_in b pre l post : b = true -> pre ++ one b l ++ post = pre ++ l ++ post.
Proof. intros ->. reflexivity. Qed.

Lemma dev_status_answer c e l m o : bytes_ok l -> (length l < 256)%nat ->
  In DDevStatus (map fst (parse_cmds fields_read (c_l2 c) l)) ->
  exists pre post,
    mac_bytes (mac_commands c (m_ctx (processCommands c e l m)) o) =
    pre ++ [6; e_battery e mod 256; Z.max (-32) (Z.min 31 (m_rx_snr m)) mod 64] ++ post.
Proof.
  intros Hb Hl Hin. destruct (mac_commands_spec c (m_ctx (processCommands c e l m)) o) as (_ & _ & -> & _).
  rewrite processCommands_spec by auto.
  pose proof (dev_status_exec c e _ (on_ctx (set_maskOK true) m) NO_ADR (or_introl Hin)) as [H1 H2]. mred_all.
  destruct (exec_cmds c e _ _ NO_ADR) as [m' st]. cbn [fst] in *.
  set (x := match st with ADR_BAD => _ | _ => _ end).
  assert (waiting (m_ctx x) CMD_DEV_STATUS = true /\
     s_dev_ans (m_ctx x) = mkDevStatus (e_battery e) (snr_margin (m_rx_snr m))) as [H3 H4].
  { unfold x. destruct st; auto. }
  unfold uplink_commands. rewrite H3, H4. cbn [one ds_battery ds_margin].
  rewrite snr_margin_clamp. unfold clamp.
  do 5 rewrite app_assoc. eexists. eexists. rewrite <- app_assoc. reflexivity.
Qed.
