(* Blocks of LinkADRReq. *)
From Verif Require Import Words StreamM FrameM CommandsM RegionM MacStateM MacTac MacUtilM OpsM MacCmdM Lib SpecRegion SpecCmd SpecExec SpecAnswer
  SpecAdr RegionP ChanP ExecP ValidP.

(* --- one mask --- *)

Lemma bit_masked mask r ch : 0 <= ch -> mask_ok mask r ch = true -> bit_off mask ch = channelIsMasked mask r ch.
Proof. intros H E. rewrite masked_bit by lia. rewrite E. reflexivity. Qed.

Lemma bit_mask1 mask r ch ch' : 0 <= ch -> 0 <= ch' ->
  bit_off (fst (maskChannel mask r ch)) ch' = bit_off mask ch' || (mask_ok mask r ch && (ch' =? ch)).
Proof.
  intros H H'. unfold bit_off, maskChannel. fold (mask_ok mask r ch). destruct (mask_ok mask r ch) eqn:E; cbn [fst].
  2:{ now rewrite andb_false_l, orb_false_r. }
  rewrite nth_upd. assert ((Z.to_nat (ch / 8) <? length mask)%nat = true) as -> by (unfold mask_ok in E; lia).
  rewrite andb_true_r, andb_true_l. rewrite <- (same_cell ch' ch) by lia.
  destruct (Z.to_nat (ch' / 8) =? Z.to_nat (ch / 8))%nat eqn:Ec.
  - apply Nat.eqb_eq in Ec. rewrite lor_pow2_bit by (apply Z.mod_pos_bound; lia). rewrite Ec, andb_true_l, (Z.eqb_sym (ch mod 8)). reflexivity.
  - rewrite andb_false_l, orb_false_r. reflexivity.
Qed.
Lemma bit_unmask1 mask r ch ch' : 0 <= ch -> 0 <= ch' ->
  bit_off (fst (unmaskChannel mask r ch)) ch' = bit_off mask ch' && negb (mask_ok mask r ch && (ch' =? ch)).
Proof.
  intros H H'. unfold bit_off, unmaskChannel. fold (mask_ok mask r ch). destruct (mask_ok mask r ch) eqn:E; cbn [fst].
  2:{ now rewrite andb_false_l, andb_true_r. }
  rewrite nth_upd. assert ((Z.to_nat (ch / 8) <? length mask)%nat = true) as -> by (unfold mask_ok in E; lia).
  rewrite andb_true_r, andb_true_l. rewrite <- (same_cell ch' ch) by lia.
  destruct (Z.to_nat (ch' / 8) =? Z.to_nat (ch / 8))%nat eqn:Ec.
  - apply Nat.eqb_eq in Ec. rewrite ldiff_pow2_bit by (apply Z.mod_pos_bound; lia). rewrite Ec, andb_true_l, (Z.eqb_sym (ch mod 8)). reflexivity.
  - rewrite andb_false_l, andb_true_r. reflexivity.
Qed.

(* a run of mask and unmask calls on consecutive channels *)
Definition mark (r : region) (tb : nat -> bool) (base : Z) (acc : bytes) (i : nat) : bytes :=
  if tb i then fst (unmaskChannel acc r (base + Z.of_nat i)) else fst (maskChannel acc r (base + Z.of_nat i)).
Lemma mark_length r tb base l is : length (fold_left (mark r tb base) is l) = length l.
Proof.
  revert l. induction is as [|i is IH]; intros l; [reflexivity|]. cbn [fold_left]. rewrite IH. unfold mark.
  destruct (tb i); [apply unmask_length|apply mask_length].
Qed.
Lemma mark_run r tb base k : 0 <= base -> forall a l ch, 0 <= ch ->
  bit_off (fold_left (mark r tb base) (seq a k) l) ch =
  if (base + Z.of_nat a <=? ch) && (ch <? base + Z.of_nat (a + k)) && mask_ok l r ch then negb (tb (Z.to_nat (ch - base))) else bit_off l ch.
Proof.
  intros Hb. induction k as [|k IH]; intros a l ch Hc; cbn [seq fold_left].
  - replace ((base + Z.of_nat a <=? ch) && (ch <? base + Z.of_nat (a + 0))) with false by lia. reflexivity.
  - rewrite IH by lia.
    assert (mask_ok (mark r tb base l a) r ch = mask_ok l r ch) as ->
      by (unfold mask_ok; rewrite <- (mark_length r tb base l [a]); reflexivity).
    assert (bit_off (mark r tb base l a) ch = if (ch =? base + Z.of_nat a) && mask_ok l r ch then negb (tb a) else bit_off l ch) as ->.
    { unfold mark. destruct (tb a).
      - rewrite bit_unmask1 by lia. destruct (ch =? base + Z.of_nat a) eqn:E; cbn [andb negb]; [|rewrite andb_false_r; apply andb_true_r].
        apply Z.eqb_eq in E. rewrite <- E. destruct (mask_ok l r ch); cbn [andb negb]; [apply andb_false_r|apply andb_true_r].
      - rewrite bit_mask1 by lia. destruct (ch =? base + Z.of_nat a) eqn:E; cbn [andb negb]; [|rewrite andb_false_r; apply orb_false_r].
        apply Z.eqb_eq in E. rewrite <- E. destruct (mask_ok l r ch); cbn [andb negb]; [apply orb_true_r|apply orb_false_r]. }
    destruct (mask_ok l r ch); rewrite ?andb_false_r, ?andb_true_r; [|reflexivity].
    destruct (ch =? base + Z.of_nat a) eqn:E.
    + replace ((base + Z.of_nat (S a) <=? ch) && (ch <? base + Z.of_nat (S a + k))) with false by lia.
      replace ((base + Z.of_nat a <=? ch) && (ch <? base + Z.of_nat (a + S k))) with true by lia.
      replace (Z.to_nat (ch - base)) with a by lia. reflexivity.
    + replace ((base + Z.of_nat (S a) <=? ch) && (ch <? base + Z.of_nat (S a + k)))
        with ((base + Z.of_nat a <=? ch) && (ch <? base + Z.of_nat (a + S k))) by lia. reflexivity.
Qed.

Lemma fold_ext {A B} (f g : A -> B -> A) l a : (forall a x, In x l -> f a x = g a x) -> fold_left f l a = fold_left g l a.
Proof.
  revert a. induction l as [|x l IH]; intros a H; [reflexivity|]. cbn [fold_left]. rewrite (H a x) by (now left).
  apply IH. intros. apply H. now right.
Qed.

Lemma mask16_bits r mk base l ch : 0 <= base <= 112 -> 0 <= ch -> length l = 9%nat ->
  bit_off (apply_mask16 r mk base l) ch =
  if (base <=? ch) && (ch <? base + 16) && (ch <? Z.min 72 (numChannels r)) then negb (Z.testbit mk (ch - base)) else bit_off l ch.
Proof.
  intros Hb Hc L. unfold apply_mask16.
  rewrite (fold_ext _ (mark r (fun i => Z.testbit mk (Z.of_nat i)) base)).
  2:{ intros a x X. apply in_seq in X. unfold mark. rewrite land_pow2_testbit by lia. unfold u8. rewrite Z.mod_small by lia. reflexivity. }
  rewrite mark_run by lia. unfold mask_ok. rewrite L. change (8 * Z.of_nat 9) with 72. rewrite Nat.add_0_l, Z.add_0_r.
  change (Z.of_nat 16) with 16.
  replace ((ch <? numChannels r) && (ch <? 72)) with (ch <? Z.min 72 (numChannels r)) by lia.
  destruct ((base <=? ch) && (ch <? base + 16)) eqn:E; [|reflexivity]. rewrite Z2Nat.id by lia. reflexivity.
Qed.
Lemma all125_bits r on l ch : 0 <= ch -> length l = 9%nat ->
  bit_off (apply_all125 r on l) ch = if (ch <? 64) && (ch <? numChannels r) then negb on else bit_off l ch.
Proof.
  intros Hc L. unfold apply_all125. rewrite (fold_ext _ (mark r (fun _ => on) 0)) by (intros; reflexivity).
  rewrite mark_run by lia. unfold mask_ok. rewrite L. change (8 * Z.of_nat 9) with 72. change (Z.of_nat (0 + 64)) with 64.
  replace ((0 + Z.of_nat 0 <=? ch) && (ch <? 0 + 64) && ((ch <? numChannels r) && (ch <? 72))) with ((ch <? 64) && (ch <? numChannels r)) by lia.
  reflexivity.
Qed.
Lemma none_bits l ch : bit_off (unmaskAllChannels l) ch = false.
Proof.
  unfold bit_off, unmaskAllChannels, fill. assert (nth (Z.to_nat (ch / 8)) (repeat 0 (length l)) 0 = 0) as ->.
  { destruct (Nat.lt_ge_cases (Z.to_nat (ch / 8)) (length l)); [apply nth_repeat|]. rewrite nth_overflow; auto. rewrite repeat_length. lia. }
  apply Z.bits_0.
Qed.

Definition mask_step (r : region) (mask : bytes) (q : adr_req) : bytes := fst (adr_mask r (q_mask q) (q_ctl q) mask).
Lemma mask_step_length r mask q : length (mask_step r mask q) = length mask.
Proof. apply adr_mask_length. Qed.
Lemma mask_step_bits r mask q ch : length mask = 9%nat -> 0 <= q_ctl q <= 7 -> 0 <= ch < 72 ->
  bit_off (mask_step r mask q) ch = off_after1 r (bit_off mask) q ch.
Proof.
  intros L Q C. unfold mask_step, adr_mask, off_after1. destruct (isDynamic r) eqn:D.
  - assert (numChannels r = 16) as N by (destruct r; [reflexivity|discriminate|discriminate|reflexivity]).
    destruct (q_ctl q =? 0); cbn [fst].
    + rewrite mask16_bits by lia. rewrite N. replace ((0 <=? ch) && (ch <? 0 + 16) && (ch <? Z.min 72 16)) with (ch <? 16) by lia.
      destruct (ch <? 16); [now rewrite Z.sub_0_r|reflexivity].
    + destruct (q_ctl q =? 6); cbn [fst]; [apply none_bits|reflexivity].
  - assert (numChannels r = 72) as N by (destruct r; [discriminate|reflexivity|reflexivity|discriminate]).
    destruct (q_ctl q =? 6) eqn:E6; cbn [orb fst].
    + rewrite all125_bits by lia. rewrite N. replace ((ch <? 64) && (ch <? 72)) with (ch <? 64) by lia. reflexivity.
    + destruct (q_ctl q =? 7) eqn:E7; cbn [orb fst].
      * rewrite all125_bits by lia. rewrite N. replace ((ch <? 64) && (ch <? 72)) with (ch <? 64) by lia. reflexivity.
      * rewrite mask16_bits by lia. rewrite N. rewrite (Z.mul_comm 16).
        replace ((q_ctl q * 16 <=? ch) && (ch <? q_ctl q * 16 + 16) && (ch <? Z.min 72 72)) with ((q_ctl q * 16 <=? ch) && (ch <? q_ctl q * 16 + 16)) by lia.
        reflexivity.
Qed.

Definition req_wf (q : adr_req) : Prop := 0 <= q_rate q <= 15 /\ 0 <= q_power q <= 15 /\ 0 <= q_ctl q <= 7 /\ 0 <= q_trans q <= 15.
Lemma off_after1_ext r f g q ch : f ch = g ch -> off_after1 r f q ch = off_after1 r g q ch.
Proof. intros H. unfold off_after1. now rewrite H. Qed.
Lemma off_after_ext r qs : forall f g ch, f ch = g ch -> off_after r f qs ch = off_after r g qs ch.
Proof.
  induction qs as [|q qs IH]; intros f g ch H; [exact H|]. unfold off_after. cbn [fold_left]. apply IH. now apply off_after1_ext.
Qed.
Lemma masks_bits r qs : Forall req_wf qs -> forall mask ch, length mask = 9%nat -> 0 <= ch < 72 ->
  bit_off (fold_left (mask_step r) qs mask) ch = off_after r (bit_off mask) qs ch.
Proof.
  induction 1 as [|q qs W _ IH]; intros mask ch L C; [reflexivity|]. cbn [fold_left].
  rewrite IH by (try rewrite mask_step_length; auto). unfold off_after. cbn [fold_left].
  apply (off_after_ext r qs). apply mask_step_bits; auto. apply W.
Qed.
Lemma masks_length r qs mask : length (fold_left (mask_step r) qs mask) = length mask.
Proof. revert mask. induction qs as [|q qs IH]; intros; [reflexivity|]. cbn [fold_left]. rewrite IH. apply mask_step_length. Qed.

(* --- all masked --- *)

Lemma byte_full b : 0 <= b < 256 -> (b =? 0xff) = forallb (fun i => Z.testbit b (Z.of_nat i)) (seq 0 8).
Proof.
  intros H. destruct (b =? 255) eqn:E; [apply Z.eqb_eq in E; now subst|]. symmetry. apply not_true_is_false. intros F.
  rewrite forallb_forall in F. apply Z.eqb_neq in E. apply E. apply Z.bits_inj'. intros n N.
  destruct (Z.lt_ge_cases n 8).
  - specialize (F (Z.to_nat n)). rewrite in_seq, Z2Nat.id in F by lia. rewrite F by lia.
    change 255 with (Z.ones 8). rewrite Z.ones_spec_low by lia. reflexivity.
  - change 255 with (Z.ones 8). rewrite Z.ones_spec_high by lia. rewrite <- (Z.mod_small b (2 ^ 8)) by lia.
    apply Z.mod_pow2_bits_high. lia.
Qed.
Lemma all_masked_bits mask : length mask = 9%nat -> bytes_ok mask -> allChannelsAreMasked mask = forallb (bit_off mask) all_ch.
Proof.
  intros L B. do 9 (destruct mask as [|? mask]; [discriminate|]). destruct mask; [|discriminate]. clear L.
  unfold allChannelsAreMasked. cbn [forallb].
  repeat match goal with B : bytes_ok (_ :: _) |- _ => inversion_clear B end. repeat match goal with B : Forall _ (_ :: _) |- _ => inversion_clear B end.
  unfold byte_ok in *. rewrite !byte_full by lia. 
  cbn -[Z.testbit]. rewrite <- !andb_assoc. rewrite ?andb_true_r. reflexivity.
Qed.

Lemma byte_pow n : 0 <= n < 8 -> 2 ^ n < 256.
Proof. intros. change 256 with (2 ^ 8). apply Z.pow_lt_mono_r; lia. Qed.
Lemma small_bits x : 0 <= x < 256 <-> 0 <= x /\ forall n, 8 <= n -> Z.testbit x n = false.
Proof.
  split.
  - intros H. split; [lia|]. intros n N. rewrite <- (Z.mod_small x (2 ^ 8)) by lia. now apply Z.mod_pow2_bits_high.
  - intros [P H]. split; [lia|]. assert (x = x mod 2 ^ 8) as ->; [|apply Z.mod_pos_bound; lia].
    apply Z.bits_inj'. intros n N. destruct (Z.lt_ge_cases n 8); [now rewrite Z.mod_pow2_bits_low by lia|].
    rewrite Z.mod_pow2_bits_high by lia. auto.
Qed.
Lemma byte_lor x n : 0 <= x < 256 -> 0 <= n < 8 -> 0 <= Z.lor x (2 ^ n) < 256.
Proof.
  intros X N. apply small_bits. split; [apply Z.lor_nonneg; split; [lia|apply Z.pow_nonneg; lia]|].
  intros k K. rewrite lor_pow2_bit by lia. apply small_bits in X. rewrite (proj2 X) by lia. replace (n =? k) with false by lia. reflexivity.
Qed.
Lemma byte_ldiff x n : 0 <= x < 256 -> 0 <= n < 8 -> 0 <= Z.ldiff x (2 ^ n) < 256.
Proof.
  intros X N. apply small_bits. split; [apply Z.ldiff_nonneg; left; lia|].
  intros k K. rewrite ldiff_pow2_bit by lia. apply small_bits in X. rewrite (proj2 X) by lia. reflexivity.
Qed.
Lemma bytes_nth l i : bytes_ok l -> 0 <= nth i l 0 < 256.
Proof.
  intros B. destruct (Nat.lt_ge_cases i (length l)) as [L|L]; [|rewrite nth_overflow by lia; lia].
  apply (proj1 (Forall_forall _ _) B). apply nth_In. exact L.
Qed.
Lemma bytes_upd l i v : bytes_ok l -> 0 <= v < 256 -> bytes_ok (upd l i v).
Proof.
  intros B V. revert i. induction B as [|x l X B IH]; intros [|i]; cbn; try constructor; auto. apply IH.
Qed.
Lemma bytes_mask l r ch : bytes_ok l -> bytes_ok (fst (maskChannel l r ch)).
Proof.
  intros B. unfold maskChannel. destruct (_ && _); [|exact B]. cbn [fst]. apply bytes_upd; auto.
  apply byte_lor; [now apply bytes_nth|apply Z.mod_pos_bound; lia].
Qed.
Lemma bytes_unmask l r ch : bytes_ok l -> bytes_ok (fst (unmaskChannel l r ch)).
Proof.
  intros B. unfold unmaskChannel. destruct (_ && _); [|exact B]. cbn [fst]. apply bytes_upd; auto.
  apply byte_ldiff; [now apply bytes_nth|apply Z.mod_pos_bound; lia].
Qed.
Lemma fold_inv {A B} (Q : A -> Prop) (f : A -> B -> A) l a : Q a -> (forall a x, Q a -> Q (f a x)) -> Q (fold_left f l a).
Proof. intros H S. revert a H. induction l as [|x l IH]; intros a H; [exact H|]. cbn [fold_left]. auto. Qed.
Lemma mask_step_bytes r mask q : bytes_ok mask -> bytes_ok (mask_step r mask q).
Proof.
  intros B. unfold mask_step, adr_mask. destruct (isDynamic r).
  - destruct (q_ctl q =? 0); cbn [fst].
    + unfold apply_mask16; apply fold_inv; auto. intros. destruct (_ >? 0); [apply bytes_unmask|apply bytes_mask]; auto.
    + destruct (q_ctl q =? 6); cbn [fst]; auto. unfold unmaskAllChannels, fill. apply Forall_forall. intros x X.
      apply repeat_spec in X. subst. unfold byte_ok. lia.
  - destruct (_ || _); cbn [fst].
    + unfold apply_all125; apply fold_inv; auto. intros. destruct (q_ctl q =? 6); [apply bytes_unmask|apply bytes_mask]; auto.
    + unfold apply_mask16; apply fold_inv; auto. intros. destruct (_ >? 0); [apply bytes_unmask|apply bytes_mask]; auto.
Qed.
Lemma masks_bytes r qs mask : bytes_ok mask -> bytes_ok (fold_left (mask_step r) qs mask).
Proof. intros B. apply fold_inv; auto. intros. now apply mask_step_bytes. Qed.

(* --- commands --- *)

Definition adr_same (s s' : session) : Prop :=
  s_region s' = s_region s /\ s_chMask s' = s_chMask s /\ s_rate s' = s_rate s /\ s_power s' = s_power s /\ s_nbTrans s' = s_nbTrans s /\
  s_adr_ans s' = s_adr_ans s /\ waiting s' CMD_LINK_ADR = waiting s CMD_LINK_ADR.
Lemma adr_same_refl s : adr_same s s.
Proof. repeat split. Qed.
Lemma adr_same_trans a b d : adr_same a b -> adr_same b d -> adr_same a d.
Proof. unfold adr_same. intuition congruence. Qed.
Definition is_adr (d : down_cmd) : bool := match d with DLinkADR _ _ _ _ _ => true | _ => false end.

Lemma pend_same t s a : t <> CMD_LINK_ADR -> adr_same s a -> adr_same s (setPendingCommand t a).
Proof.
  intros T (A & B & C & D & E & F & G). repeat split; auto. rewrite waiting_set, G.
  replace (cmd_bit t =? cmd_bit CMD_LINK_ADR) with false by (destruct t; auto; congruence). apply orb_false_r.
Qed.
Lemma other_kept c e d last m st : is_adr d = false ->
  adr_same (m_ctx m) (m_ctx (fst (do_command c e d last m st))) /\ snd (do_command c e d last m st) = st.
Proof.
  intros N. unfold do_command, notify, emit, on_ctx. destruct d; try discriminate;
    repeat match goal with |- context [if ?b then _ else _] => destruct b end;
    try (destruct (device_time _ _ _ _ _)); cbn [fst snd]; mred; (split; [|reflexivity]);
    try apply adr_same_refl; try (apply pend_same; [discriminate|]; try apply adr_same_refl; repeat split; reflexivity).
  - apply pend_same; [discriminate|].
    match goal with |- context [setChannel ?x ?a ?b ?cc ?d] => destruct (set_frame x a b cc d) as [E _]; cbv zeta in E; rewrite E end.
    repeat split.
  - repeat split. rewrite waiting_clear. cbn. apply andb_true_r.
Qed.

(* while the answer waits, requests are ignored *)
Lemma adr_ignored dr pw mk ctl nb last s st : waiting s CMD_LINK_ADR = true -> do_linkADR dr pw mk ctl nb last s st = (s, st).
Proof.
  intros W. unfold do_linkADR. assert (commandIsPending s CMD_LINK_ADR = true) as ->; [|reflexivity].
  unfold commandIsPending. rewrite land_pow2_testbit by (cbn; lia). exact W.
Qed.
Lemma exec_cons c e x l m st : exec_cmds c e (x :: l) m st =
  exec_cmds c e l (fst (do_command c e (fst x) (closes_block (snd x)) m st)) (snd (do_command c e (fst x) (closes_block (snd x)) m st)).
Proof. unfold exec_cmds. cbn [fold_left fst snd]. destruct (do_command _ _ _ _ _ _). reflexivity. Qed.
Lemma exec_ignored c e l : forall m st, waiting (m_ctx m) CMD_LINK_ADR = true ->
  adr_same (m_ctx m) (m_ctx (fst (exec_cmds c e l m st))) /\ snd (exec_cmds c e l m st) = st.
Proof.
  induction l as [|[d rest] l IH]; intros m st W; [split; [apply adr_same_refl|reflexivity]|].
  rewrite exec_cons. cbn [fst snd].
  assert (adr_same (m_ctx m) (m_ctx (fst (do_command c e d (closes_block rest) m st))) /\ snd (do_command c e d (closes_block rest) m st) = st) as [S1 S2].
  { destruct (is_adr d) eqn:A; [|now apply other_kept]. destruct d; try discriminate.
    cbn [do_command]. rewrite adr_ignored by exact W. cbn [fst snd]. mred. split; [apply adr_same_refl|reflexivity]. }
  rewrite S2. destruct (IH (fst (do_command c e d (closes_block rest) m st)) st) as [T1 T2].
  - destruct S1 as (_ & _ & _ & _ & _ & _ & S1). now rewrite S1.
  - split; [|exact T2]. eapply adr_same_trans; eauto.
Qed.

(* the settings after a block, before the rollback *)
Definition block_done (s s' : session) (st : adr_state) (qs : list adr_req) : Prop :=
  let r := s_region s in let q := last_req qs in let mask := fold_left (mask_step r) qs (s_chMask s) in
  let a := mkAdrAns (power_fits r q) (rate_fits r q) (forallb (ctl_known r) qs && la_mask (s_adr_ans s) && negb (allChannelsAreMasked mask)) in
  s_region s' = r /\ s_chMask s' = mask /\
  s_rate s' = (if (q_rate q <? 15) && rateSettingIsValid r (q_rate q) then q_rate q else s_rate s) /\
  s_power s' = (if (q_power q <? 15) && validateTXPower r (q_power q) then q_power q else s_power s) /\
  s_nbTrans s' = (if q_trans q >? 0 then Z.min 3 (Z.land (q_trans q) 15) else s_nbTrans s) /\
  s_adr_ans s' = a /\ waiting s' CMD_LINK_ADR = true /\ st = (if granted a then ADR_OK else ADR_BAD).
Definition block_open (s s' : session) (st : adr_state) (qs : list adr_req) : Prop :=
  let r := s_region s in let mask := fold_left (mask_step r) qs (s_chMask s) in
  s_region s' = r /\ s_chMask s' = mask /\ s_rate s' = s_rate s /\ s_power s' = s_power s /\ s_nbTrans s' = s_nbTrans s /\
  waiting s' CMD_LINK_ADR = false /\ st = NO_ADR.

Lemma adr_ok_bit r mk ctl mask dr pw nb : snd (adr_mask r mk ctl mask) = ctl_known r (mkReq dr pw mk ctl nb).
Proof.
  unfold adr_mask, ctl_known. cbn [q_ctl]. destruct (isDynamic r); cbn [negb orb].
  - destruct (ctl =? 0); [reflexivity|]. destruct (ctl =? 6); reflexivity.
  - destruct (_ || _); reflexivity.
Qed.

Lemma do_last dr pw mk ctl nb s st : waiting s CMD_LINK_ADR = false ->
  block_done s (fst (do_linkADR dr pw mk ctl nb true s st)) (snd (do_linkADR dr pw mk ctl nb true s st)) [mkReq dr pw mk ctl nb].
Proof.
  intros W. unfold do_linkADR. assert (commandIsPending s CMD_LINK_ADR = false) as ->
    by (unfold commandIsPending; rewrite land_pow2_testbit by (cbn; lia); exact W).
  cbn [negb]. pose proof (adr_ok_bit (s_region s) mk ctl (s_chMask s) dr pw nb) as K.
  unfold block_done. cbn [fold_left forallb]. rewrite andb_true_r, <- K. clear K. unfold last_req. cbn [List.last].
  unfold mask_step. cbn [q_mask q_ctl q_rate q_power q_trans]. unfold rate_fits, power_fits. cbn [q_rate q_power].
  destruct (adr_mask (s_region s) mk ctl (s_chMask s)) as [mask ok]. cbn [fst snd].
  unfold adr_final, set_maskOK, set_rateOK, set_powerOK, granted. 
  replace (15 <=? dr) with (negb (dr <? 15)) by lia. replace (15 <=? pw) with (negb (pw <? 15)) by lia.
  assert (forall n, (if n >? REDUNDANCY_MAX then REDUNDANCY_MAX else n) = Z.min 3 n) as M
    by (intros n; unfold REDUNDANCY_MAX; destruct (n >? 3) eqn:?; lia). rewrite M. clear M.
  destruct ok; mred; cbn [la_power la_rate la_mask];
  (destruct (nb >? 0); mred; (destruct (dr <? 15); [destruct (rateSettingIsValid (s_region s) dr)|]); mred;
   (destruct (pw <? 15); [destruct (validateTXPower (s_region s) pw)|]); mred; destruct (allChannelsAreMasked mask); mred; cbn [la_power la_rate la_mask negb andb orb];
   rewrite ?waiting_set, ?orb_true_r, ?andb_true_r, ?andb_false_r; destruct (la_mask (s_adr_ans s)); repeat split).
Qed.

Lemma do_more dr pw mk ctl nb s st : waiting s CMD_LINK_ADR = false ->
  let s' := fst (do_linkADR dr pw mk ctl nb false s st) in
  snd (do_linkADR dr pw mk ctl nb false s st) = st /\
  s_region s' = s_region s /\ s_chMask s' = mask_step (s_region s) (s_chMask s) (mkReq dr pw mk ctl nb) /\ s_rate s' = s_rate s /\ s_power s' = s_power s /\
  s_nbTrans s' = s_nbTrans s /\ waiting s' CMD_LINK_ADR = false /\
  la_mask (s_adr_ans s') = la_mask (s_adr_ans s) && ctl_known (s_region s) (mkReq dr pw mk ctl nb).
Proof.
  intros W. cbv zeta. unfold do_linkADR. assert (commandIsPending s CMD_LINK_ADR = false) as ->
    by (unfold commandIsPending; rewrite land_pow2_testbit by (cbn; lia); exact W).
  cbn [negb]. pose proof (adr_ok_bit (s_region s) mk ctl (s_chMask s) dr pw nb) as K. rewrite <- K. clear K. unfold mask_step. cbn [q_mask q_ctl].
  destruct (adr_mask (s_region s) mk ctl (s_chMask s)) as [mask ok]. cbn [fst snd]. unfold set_maskOK.
  destruct ok; mred; cbn [la_mask]; rewrite ?andb_true_r, ?andb_false_r; repeat split; exact W.
Qed.

Lemma block_done_after s s' st qs s'' : block_done s s' st qs -> adr_same s' s'' -> block_done s s'' st qs.
Proof. unfold block_done, adr_same. cbv zeta. intros (A & B & C & D & E & F & G & H) (A' & B' & C' & D' & E' & F' & G'). rewrite A', B', C', D', E', F', G'. auto 10. Qed.

Lemma block_exec c e l : forall m, waiting (m_ctx m) CMD_LINK_ADR = false -> let x := exec_cmds c e l m NO_ADR in
  let (qs, whole) := first_block l in
  if whole then qs <> [] /\ block_done (m_ctx m) (m_ctx (fst x)) (snd x) qs else block_open (m_ctx m) (m_ctx (fst x)) (snd x) qs.
Proof.
  cbv zeta. induction l as [|[d rest] l IH]; intros m W.
  - cbn [first_block]. unfold block_open. cbv zeta. repeat split. exact W.
  - rewrite exec_cons. cbn [fst snd]. destruct (is_adr d) eqn:A.
    + destruct d as [| dr pw mk ctl nb | | | | | | | | | | | | ]; try discriminate. cbn [first_block do_command].
      destruct (closes_block rest).
      * split; [discriminate|]. pose proof (do_last dr pw mk ctl nb (m_ctx m) NO_ADR W) as D.
        destruct (do_linkADR dr pw mk ctl nb true (m_ctx m) NO_ADR) as [s' st']. cbn [fst snd] in *.
        assert (waiting (m_ctx (set_m_ctx s' m)) CMD_LINK_ADR = true) as W' by (mred; apply D).
        destruct (exec_ignored c e l _ st' W') as [K1 K2]. rewrite K2. eapply block_done_after; [exact D|]. 
        revert K1. mred. auto.
      * destruct (do_more dr pw mk ctl nb (m_ctx m) NO_ADR W) as (D0 & D1 & D2 & D3 & D4 & D5 & D6 & D7). cbv zeta in *.
        destruct (do_linkADR dr pw mk ctl nb false (m_ctx m) NO_ADR) as [s' st']. cbn [fst snd] in *. subst st'.
        assert (waiting (m_ctx (set_m_ctx s' m)) CMD_LINK_ADR = false) as W' by (mred; exact D6).
        specialize (IH _ W'). destruct (first_block l) as [qs whole]. destruct whole.
        -- destruct IH as [N IH]. split; [discriminate|]. unfold block_done in *. cbv zeta in *. revert IH. mred. intros IH.
           assert (last_req (mkReq dr pw mk ctl nb :: qs) = last_req qs) as -> by (unfold last_req; destruct qs; [congruence|reflexivity]).
           cbn [fold_left forallb]. rewrite D1, D2, D3, D4, D5, D7 in IH.
           rewrite (andb_comm (ctl_known _ _) (forallb _ qs)), <- (andb_assoc (forallb _ qs)), (andb_comm (ctl_known _ _)). exact IH.
        -- unfold block_open in *. cbv zeta in *. revert IH. mred. intros IH. cbn [fold_left]. rewrite D1, D2, D3, D4, D5 in IH. exact IH.
    + destruct (other_kept c e d (closes_block rest) m NO_ADR A) as [K1 K2]. rewrite K2.
      assert (first_block ((d, rest) :: l) = first_block l) as -> by (destruct d; try discriminate; reflexivity).
      destruct K1 as (A1 & A2 & A3 & A4 & A5 & A6 & A7).
      specialize (IH (fst (do_command c e d (closes_block rest) m NO_ADR)) ltac:(now rewrite A7)).
      destruct (first_block l) as [qs []].
      * destruct IH as [N IH]. split; [exact N|]. unfold block_done in *. cbv zeta in *. rewrite A1, A2, A3, A4, A5, A6 in IH. exact IH.
      * unfold block_open in *. cbv zeta in *. rewrite A1, A2, A3, A4, A5 in IH. exact IH.
Qed.

(* --- a field --- *)

Lemma bits_range hi lo v : lo <= hi -> 0 <= bits hi lo v <= 2 ^ (hi - lo + 1) - 1.
Proof. intros. unfold bits. assert (0 < 2 ^ (hi - lo + 1)) by (apply Z.pow_pos_nonneg; lia). pose proof (Z.mod_pos_bound (v / 2 ^ lo) (2 ^ (hi - lo + 1))). lia. Qed.
Lemma fields_wf cid p dr pw mk ctl nb : fields_read cid p = DLinkADR dr pw mk ctl nb -> req_wf (mkReq dr pw mk ctl nb).
Proof.
  unfold fields_read. destruct (cid =? 14); [discriminate|]. unfold fields. cbv zeta.
  destruct cid as [|[[[[|[]|]|[|[]|]|]|[[|[]|]|[|[]|]|]|]|[[[|[]|]|[|[]|]|]|[[|[]|]|[|[]|]|]|]|]|]; intros E; try discriminate E.
  injection E as <- <- <- <- <-. unfold req_wf. cbn [q_rate q_power q_ctl q_trans].
  repeat split; apply (fun hi lo v (H : lo <= hi) => bits_range hi lo v H); lia.
Qed.
Lemma cmds_wf fuel v : forall l, Forall req_wf (fst (first_block (cmds fields_read fuel v l))).
Proof.
  induction fuel as [|fuel IH]; intros l; [constructor|]. cbn [cmds]. unfold next_cmd.
  destruct l as [|cid l]; [constructor|]. destruct (payload_len v cid) as [k|]; [|constructor].
  destruct (length l <? k)%nat; [constructor|]. cbn [first_block]. 
  pose proof (fields_wf cid (firstn k l)) as W. specialize (IH (skipn k l)).
  destruct (fields_read cid (firstn k l)) as [| dr pw mk ctl nb | | | | | | | | | | | | ]; auto.
  destruct (closes_block _); [constructor; auto; constructor|].
  destruct (first_block _) as [qs whole]. cbn [fst] in *. constructor; auto.
Qed.

Theorem adr_field c e l m : bytes_ok l -> (length l < 256)%nat -> let s := m_ctx m in let r := s_region s in let off := bit_off (s_chMask s) in
  tables_ok s -> bytes_ok (s_chMask s) -> waiting s CMD_LINK_ADR = false ->
  let s' := m_ctx (processCommands c e l m) in
  let (qs, whole) := first_block (parse_cmds fields_read (c_l2 c) l) in
  if whole then
    waiting s' CMD_LINK_ADR = true /\ s_adr_ans s' = verdict r off qs /\
    (if granted (verdict r off qs) then takes_effect s s' qs else no_effect s s')
  else
    waiting s' CMD_LINK_ADR = false /\ s_rate s' = s_rate s /\ s_power s' = s_power s /\ s_nbTrans s' = s_nbTrans s /\
    forall ch, 0 <= ch < 72 -> bit_off (s_chMask s') ch = off_after r off qs ch.
Proof.
  intros HB HL s r off T B W. cbv zeta. rewrite processCommands_spec by auto.
  pose proof (cmds_wf (length l) (c_l2 c) l) as Q. fold (parse_cmds fields_read (c_l2 c) l) in Q.
  set (cs := parse_cmds fields_read (c_l2 c) l) in *.
  set (m0 := on_ctx (set_maskOK true) m).
  assert (waiting (m_ctx m0) CMD_LINK_ADR = false) as W0 by (unfold m0, on_ctx, set_maskOK; mred; exact W).
  pose proof (block_exec c e cs m0 W0) as X. cbv zeta in X.
  destruct (first_block cs) as [qs whole]. cbn [fst] in Q.
  destruct (exec_cmds c e cs m0 NO_ADR) as [m1 st]. cbn [fst snd] in X.
  assert (s_region (m_ctx m0) = r /\ s_chMask (m_ctx m0) = s_chMask s /\ s_rate (m_ctx m0) = s_rate s /\ s_power (m_ctx m0) = s_power s /\
    s_nbTrans (m_ctx m0) = s_nbTrans s /\ la_mask (s_adr_ans (m_ctx m0)) = true) as (E1 & E2 & E3 & E4 & E5 & E6)
    by (unfold m0, on_ctx, set_maskOK; mred; repeat split).
  clearbody m0. pose proof (proj2 T) as L9.
  pose proof (masks_bits r qs Q (s_chMask s)) as MB. pose proof (masks_length r qs (s_chMask s)) as ML. pose proof (masks_bytes r qs (s_chMask s) B) as MY.
  destruct whole.
  - destruct X as [_ X]. unfold block_done in X. cbv zeta in X. rewrite E1, E2, E3, E4, E5, E6 in X.
    rewrite andb_true_r in X.
    assert (allChannelsAreMasked (fold_left (mask_step r) qs (s_chMask s)) = forallb (off_after r off qs) all_ch) as AM.
    { rewrite all_masked_bits by (try exact MY; now rewrite ML).
      assert (Forall (fun ch => 0 <= ch < 72) all_ch) as R
        by (unfold all_ch; apply Forall_forall; intros x I; apply in_map_iff in I; destruct I as (n & <- & I); apply in_seq in I; lia).
      induction R as [|x ch I R IH]; [reflexivity|]. cbn [forallb]. rewrite IH. f_equal. apply MB; auto. }
    rewrite AM in X. change (mkAdrAns _ _ _) with (verdict r off qs) in X.
    destruct X as (X1 & X2 & X3 & X4 & X5 & X6 & X7 & X8).
    assert (req_wf (last_req qs)) as QW.
    { unfold last_req. destruct qs as [|q qs]; [unfold req_wf; cbn; lia|]. apply (proj1 (Forall_forall _ _) Q).
      destruct (exists_last (l := q :: qs) ltac:(discriminate)) as (a & b & ->). rewrite last_last. apply in_or_app. right. now left. }
    destruct (granted (verdict r off qs)) eqn:G; subst st.
    + split; [exact X7|]. split; [exact X6|]. unfold takes_effect. cbv zeta.
      unfold granted in G. apply andb_prop in G. destruct G as [G _]. apply andb_prop in G. destruct G as [GP GR].
      cbn [verdict la_power la_rate] in GP, GR. unfold power_fits, rate_fits in *. destruct QW as (Q1 & Q2 & _ & Q3). unfold asked.
      split; [|split; [|split]].
      * rewrite X3. destruct (q_rate (last_req qs) =? 15) eqn:D; [replace (_ <? 15) with false by lia; reflexivity|].
        replace (15 <=? q_rate (last_req qs)) with false in GR by lia. cbn [orb] in GR. rewrite GR. replace (_ <? 15) with true by lia. reflexivity.
      * rewrite X4. destruct (q_power (last_req qs) =? 15) eqn:D; [replace (_ <? 15) with false by lia; reflexivity|].
        replace (15 <=? q_power (last_req qs)) with false in GP by lia. cbn [orb] in GP. rewrite GP. replace (_ <? 15) with true by lia. reflexivity.
      * rewrite X5. change 15 with (Z.ones 4). rewrite Z.land_ones, Z.mod_small by lia.
        destruct (q_trans (last_req qs) >? 0) eqn:D; [replace (_ =? 0) with false by lia; reflexivity|]. replace (_ =? 0) with true by lia. reflexivity.
      * intros ch C. rewrite X2. now apply MB.
    + unfold on_ctx, adr_rollback. mred. split; [exact X7|]. split; [exact X6|]. repeat split.
  - unfold block_open in X. cbv zeta in X. rewrite E1, E2, E3, E4, E5 in X. destruct X as (X1 & X2 & X3 & X4 & X5 & X6 & ->).
    split; [exact X6|]. split; [exact X3|]. split; [exact X4|]. split; [exact X5|]. intros ch C. rewrite X2. now apply MB.
Qed.

(* --- all channels off --- *)

Lemma in_all_ch ch : In ch all_ch <-> 0 <= ch < 72.
Proof.
  unfold all_ch. rewrite in_map_iff. split.
  - intros (n & <- & I). apply in_seq in I. lia.
  - intros H. exists (Z.to_nat ch). split; [lia|]. apply in_seq. lia.
Qed.
Lemma not_all {A} (f : A -> bool) l : forallb f l = false -> exists x, In x l /\ f x = false.
Proof.
  induction l as [|x l IH]; [discriminate|]. cbn [forallb]. destruct (f x) eqn:E; cbn [andb].
  - intros H. destruct (IH H) as (y & I & Y). exists y. split; [now right|exact Y].
  - intros _. exists x. split; [now left|exact E].
Qed.
Lemma one_left r off qs : granted (verdict r off qs) = true -> exists ch, 0 <= ch < 72 /\ off_after r off qs ch = false.
Proof.
  unfold granted, verdict. cbn [la_power la_rate la_mask]. intros H. apply andb_prop in H. destruct H as [_ H].
  unfold mask_fits in H. apply andb_prop in H. destruct H as [_ H]. apply negb_true_iff in H.
  destruct (not_all _ _ H) as (ch & I & E). exists ch. split; [now apply in_all_ch|exact E].
Qed.

Lemma one_left_on c e l m qs : bytes_ok l -> (length l < 256)%nat -> let s := m_ctx m in
  tables_ok s -> bytes_ok (s_chMask s) -> waiting s CMD_LINK_ADR = false -> isDynamic (s_region s) = false ->
  first_block (parse_cmds fields_read (c_l2 c) l) = (qs, true) ->
  let s' := m_ctx (processCommands c e l m) in granted (s_adr_ans s') = true ->
  exists ch, 0 <= ch < numChannels (s_region s) /\ channelIsMasked (s_chMask s') (s_region s) ch = false.
Proof.
  cbv zeta. intros HB HL T B W D F G.
  pose proof (adr_field c e l m HB HL T B W) as X. cbv zeta in X. rewrite F in X. destruct X as (_ & X2 & X3).
  rewrite X2 in G. rewrite G in X3. destruct X3 as (_ & _ & _ & X3).
  destruct (one_left _ _ _ G) as (ch & C & E). exists ch.
  assert (numChannels (s_region (m_ctx m)) = 72) as N by (destruct (s_region (m_ctx m)); [discriminate|reflexivity|reflexivity|discriminate]).
  split; [lia|]. rewrite masked_bit by lia. specialize (X3 ch C). unfold bit_off at 1 in X3. rewrite X3, E. apply andb_false_r.
Qed.

Lemma high_kept r qs : isDynamic r = true -> forall off ch, 16 <= ch -> off ch = false -> off_after r off qs ch = false.
Proof.
  intros D. induction qs as [|q qs IH]; intros off ch C O; [exact O|]. unfold off_after. cbn [fold_left]. apply IH; [exact C|].
  unfold off_after1. rewrite D. replace (ch <? 16) with false by lia. destruct (q_ctl q =? 0); [exact O|]. destruct (q_ctl q =? 6); auto.
Qed.
Lemma sixteen_off c e l m qs : bytes_ok l -> (length l < 256)%nat -> let s := m_ctx m in
  tables_ok s -> bytes_ok (s_chMask s) -> waiting s CMD_LINK_ADR = false -> isDynamic (s_region s) = true ->
  (exists ch, 16 <= ch < 72 /\ bit_off (s_chMask s) ch = false) ->
  first_block (parse_cmds fields_read (c_l2 c) l) = (qs, true) ->
  q_ctl (last_req qs) = 0 -> q_mask (last_req qs) = 0 -> 
  forallb (ctl_known (s_region s)) qs = true -> power_fits (s_region s) (last_req qs) = true -> rate_fits (s_region s) (last_req qs) = true ->
  let s' := m_ctx (processCommands c e l m) in
  s_adr_ans s' = mkAdrAns true true true /\ forall ch, 0 <= ch < 16 -> bit_off (s_chMask s') ch = true.
Proof.
  cbv zeta. intros HB HL T B W D (hi & H1 & H2) F C0 M0 K P R.
  pose proof (adr_field c e l m HB HL T B W) as X. cbv zeta in X. rewrite F in X.
  pose proof (block_exec c e (parse_cmds fields_read (c_l2 c) l) (on_ctx (set_maskOK true) m)
     ltac:(unfold on_ctx, set_maskOK; mred; exact W)) as N. cbv zeta in N. rewrite F in N. destruct N as [N _].
  set (r := s_region (m_ctx m)) in *. set (off := bit_off (s_chMask (m_ctx m))) in *.
  assert (mask_fits r off qs = true) as MF.
  { unfold mask_fits. rewrite K. cbn [andb]. apply negb_true_iff. apply not_true_is_false. intros A. rewrite forallb_forall in A.
    specialize (A hi). rewrite (high_kept r qs D off hi) in A by (auto; lia). discriminate A. apply in_all_ch. lia. }
  assert (verdict r off qs = mkAdrAns true true true) as V by (unfold verdict; rewrite P, R, MF; reflexivity).
  rewrite V in X. cbn [granted la_power la_rate la_mask andb] in X. destruct X as (_ & X2 & X3). split; [exact X2|].
  intros ch C. destruct X3 as (_ & _ & _ & X3). rewrite X3 by lia. fold r off.
  destruct (exists_last N) as (a & q & E). rewrite E in *. unfold last_req in C0, M0. rewrite last_last in C0, M0.
  unfold off_after. rewrite fold_left_app. cbn [fold_left]. unfold off_after1 at 1. rewrite D, C0. replace (ch <? 16) with true by lia.
  cbn [Z.eqb]. rewrite M0, Z.bits_0. reflexivity.
Qed.

(* --- 72 channels --- *)

Lemma regional_ext qs : forall f g ch, f ch = g ch -> fold_left regional_off qs f ch = fold_left regional_off qs g ch.
Proof. induction qs as [|q qs IH]; intros f g ch H; [exact H|]. cbn [fold_left]. apply IH. unfold regional_off. now rewrite H. Qed.
Lemma regional_same r off qs ch : isDynamic r = false -> Forall req_wf qs -> 0 <= ch < 72 ->
  Forall (fun q => q_ctl q < 5 \/ 5 < q_ctl q /\ ch < 64) qs -> off_after r off qs ch = fold_left regional_off qs off ch.
Proof.
  intros D W C. revert off W. induction qs as [|q qs IH]; intros off W F; [reflexivity|]. inversion_clear W as [|? ? W1 W2]. inversion_clear F as [|? ? F1 F2].
  unfold off_after. cbn [fold_left]. fold (off_after r (off_after1 r off q) qs). rewrite IH by auto. apply regional_ext.
  unfold off_after1, regional_off. rewrite D. destruct W1 as (_ & _ & W1 & _).
  destruct F1 as [F1|[F1 F3]].
  - replace (q_ctl q =? 6) with false by lia. replace (q_ctl q =? 7) with false by lia. replace (q_ctl q <? 5) with true by lia. reflexivity.
  - replace (ch <? 64) with true by lia. replace (q_ctl q <? 5) with false by lia. replace (q_ctl q =? 5) with false by lia.
    destruct (q_ctl q =? 6) eqn:E; [replace (q_ctl q =? 7) with false by lia; reflexivity|]. replace (q_ctl q =? 7) with true by lia. reflexivity.
Qed.
Lemma mask_control c e l m qs ch : bytes_ok l -> (length l < 256)%nat -> let s := m_ctx m in
  tables_ok s -> bytes_ok (s_chMask s) -> waiting s CMD_LINK_ADR = false -> isDynamic (s_region s) = false ->
  first_block (parse_cmds fields_read (c_l2 c) l) = (qs, true) -> 0 <= ch < 72 ->
  Forall (fun q => q_ctl q < 5 \/ 5 < q_ctl q /\ ch < 64) qs ->
  let s' := m_ctx (processCommands c e l m) in granted (s_adr_ans s') = true ->
  bit_off (s_chMask s') ch = fold_left regional_off qs (bit_off (s_chMask s)) ch.
Proof.
  cbv zeta. intros HB HL T B W D F C A G.
  pose proof (adr_field c e l m HB HL T B W) as X. cbv zeta in X. rewrite F in X. destruct X as (_ & X2 & X3).
  rewrite X2 in G. rewrite G in X3. destruct X3 as (_ & _ & _ & X3). rewrite X3 by lia.
  apply regional_same; auto. pose proof (cmds_wf (length l) (c_l2 c) l) as Q. fold (parse_cmds fields_read (c_l2 c) l) in Q. rewrite F in Q. exact Q.
Qed.
