(* Channel selection. *)
From Coq Require Import FinFun.
From Verif Require Import Lib RegionM MacStateM MacUtilM SpecRegion SpecChan RegionP ChanP.

Lemma channels_in r ch : In ch (channels r) <-> 0 <= ch < numChannels r.
Proof.
  unfold channels. rewrite in_map_iff. split.
  - intros (n & <- & H). apply in_seq in H. lia.
  - intros H. exists (Z.to_nat ch). rewrite in_seq. lia.
Qed.
Lemma channels_nodup r : NoDup (channels r).
Proof. unfold channels. apply Injective_map_NoDup; [intros x y; apply Nat2Z.inj|apply seq_NoDup]. Qed.
Lemma channels_length r : Z.of_nat (length (channels r)) = numChannels r.
Proof. unfold channels. rewrite map_length, seq_length. destruct r; reflexivity. Qed.
Lemma channels_few r : 0 <= numChannels r <= 72.
Proof. destruct r; cbn; lia. Qed.

Lemma filter_le {A} (f : A -> bool) l : (length (filter f l) <= length l)%nat.
Proof. induction l as [|x l IH]; [reflexivity|]. cbn [filter]. destruct (f x); cbn [length]; lia. Qed.
Lemma filter_all {A} (f : A -> bool) l : (forall x, In x l -> f x = true) -> filter f l = l.
Proof. induction l as [|x l IH]; intros H; [reflexivity|]. cbn [filter]. rewrite H by now left. rewrite IH; [reflexivity|]. intros; apply H; now right. Qed.

Section Sel.
  Variable m : mac.
  Variable limit : Z.
  Let r := s_region (m_ctx m).
  Let av := fun ch => isAvailable m ch limit.
  Hypothesis room : mask_room (m_ctx m).

  Lemma scan_fold l : forall mask n ex, (forall ch, In ch l -> 0 <= ch < numChannels r) -> length mask = length (s_chMask (m_ctx m)) ->
    let '(mask', n', ex') := fold_left (fun acc ch =>
      match acc with (mask, available, except) =>
        if isAvailable m ch limit
        then (fst (maskChannel mask r ch), available + 1, if ch =? tx_chIndex (m_tx m) then ch else except)
        else acc end) l (mask, n, ex) in
    (forall ch, 0 <= ch -> channelIsMasked mask' r ch = channelIsMasked mask r ch || (existsb (Z.eqb ch) l && av ch)) /\
    n' = n + Z.of_nat (length (filter av l)) /\
    ex' = (if existsb (fun ch => av ch && (ch =? tx_chIndex (m_tx m))) l then tx_chIndex (m_tx m) else ex).
  Proof.
    induction l as [|x l IH]; intros mask n ex IN LM; cbn [fold_left existsb filter].
    - split; [intros; now rewrite orb_false_r|]. split; [cbn [length]; lia|reflexivity].
    - fold (av x). destruct (av x) eqn:AX.
      + specialize (IH (fst (maskChannel mask r x)) (n + 1) (if x =? tx_chIndex (m_tx m) then x else ex)).
        destruct (fold_left _ l _) as [[mask' n'] ex']. destruct IH as (I1 & I2 & I3).
        * intros ch H. apply IN. now right.
        * now rewrite mask_length.
        * assert (0 <= x < numChannels r) as HX by (apply IN; now left).
          split; [|split].
          -- intros ch H. rewrite I1, mask_spec by lia.
             assert (mask_ok mask r x = true) as ->.
             { unfold mask_ok. rewrite LM. unfold mask_room in room. fold r in room. lia. }
             cbn [andb]. destruct (ch =? x) eqn:E; cbn [orb].
             ++ apply Z.eqb_eq in E. subst ch. rewrite AX. cbn [andb]. now rewrite !orb_true_r.
             ++ now rewrite orb_false_r.
          -- rewrite I2. cbn [length]. lia.
          -- rewrite I3. cbn [andb]. destruct (existsb _ l); [now rewrite orb_true_r|]. rewrite orb_false_r. destruct (x =? _) eqn:E; [lia|reflexivity].
      + specialize (IH mask n ex). destruct (fold_left _ l _) as [[mask' n'] ex']. destruct IH as (I1 & I2 & I3); [intros ch H; apply IN; now right|exact LM|].
        split; [|split; [exact I2|exact I3]]. intros ch H. rewrite I1 by lia. destruct (ch =? x) eqn:E; [|reflexivity].
        apply Z.eqb_eq in E. subst ch. now rewrite AX, !andb_false_r.
  Qed.

  Lemma pick_list s mask ex sel desired tx : forall chs j,
    (forall ch, In ch chs -> channelIsMasked mask (s_region s) ch && negb (ex =? ch) = true -> getChannel s ch <> None) ->
    0 <= j -> j + Z.of_nat (length chs) < 256 -> j <= sel ->
    sel_pick s mask ex sel desired chs j tx =
    match nth_error (filter (fun ch => channelIsMasked mask (s_region s) ch && negb (ex =? ch)) chs) (Z.to_nat (sel - j)) with
    | Some ch => match getChannel s ch with
                 | Some (f, lo, hi) => (set_tx_rate (requiredRate desired lo hi) (set_tx_chIndex ch (set_tx_freq f tx)), true)
                 | None => (tx, false)
                 end
    | None => (tx, false)
    end.
  Proof.
    induction chs as [|ch l IH]; intros j G J L SL; cbn [sel_pick filter].
    - destruct (Z.to_nat (sel - j)); reflexivity.
    - cbn [length] in L. destruct (channelIsMasked mask (s_region s) ch && negb (ex =? ch)) eqn:E.
      + destruct (sel =? j) eqn:EJ.
        * apply Z.eqb_eq in EJ. subst sel. rewrite Z.sub_diag. change (Z.to_nat 0) with 0%nat. cbn [nth_error].
          destruct (getChannel s ch) as [[[f lo] hi]|] eqn:GC; [reflexivity|]. exfalso. apply (G ch); [now left|exact E|exact GC].
        * apply Z.eqb_neq in EJ. rewrite IH; [|intros; apply G; [now right|assumption]|unfold u8; lia|unfold u8; lia|unfold u8; lia].
          replace (u8 (j + 1)) with (j + 1) by (unfold u8; lia). replace (Z.to_nat (sel - j)) with (S (Z.to_nat (sel - (j + 1)))) by lia. reflexivity.
      + apply IH; [intros; apply G; [now right|assumption]|lia|lia|lia].
  Qed.

  Lemma available_open ch : 0 <= ch < numChannels r -> av ch = true <-> open_channel m limit ch.
  Proof.
    intros H. unfold av, isAvailable, open_channel. fold r. rewrite masked_bit by lia.
    assert (mask_ok (s_chMask (m_ctx m)) r ch = true) as ->.
    { unfold mask_ok. unfold mask_room in room. fold r in room. lia. }
    cbn [andb]. destruct (Z.testbit _ _) eqn:T; cbn [negb].
    - split; [discriminate|]. intros (_ & X & _). discriminate X.
    - destruct (getChannel (m_ctx m) ch) as [[[f lo] hi]|] eqn:GC.
      + destruct (f >? 0) eqn:F.
        * destruct (getBand r f) as [b|] eqn:B.
          -- unfold band_get. rewrite Z.leb_le. split.
             ++ intros L. split; [exact H|]. split; [reflexivity|]. exists f, lo, hi, b. repeat split; auto. lia.
             ++ intros (_ & _ & f' & lo' & hi' & b' & X & _ & Y & Z). congruence.
          -- split; [discriminate|]. intros (_ & _ & f' & lo' & hi' & b' & X & _ & Y & Z). congruence.
        * split; [discriminate|]. intros (_ & _ & f' & lo' & hi' & b' & X & Y & _). exfalso. assert (f = f') by congruence. lia.
      + split; [discriminate|]. intros (_ & _ & f' & lo' & hi' & b' & X & _). discriminate X.
  Qed.

  Definition left_over : list Z :=
    let l := filter av (channels r) in
    if existsb (Z.eqb (tx_chIndex (m_tx m))) l && (2 <=? Z.of_nat (length l)) then filter (fun ch => negb (ch =? tx_chIndex (m_tx m))) l else l.

  Lemma left_over_in ch : In ch left_over -> open_channel m limit ch /\ 0 <= ch < numChannels r.
  Proof.
    unfold left_over. cbv zeta. intros H.
    assert (In ch (filter av (channels r))) as I by (destruct (_ && _); [apply filter_In in H; tauto|exact H]).
    apply filter_In in I. destruct I as [I A]. apply channels_in in I. split; [now apply available_open|exact I].
  Qed.

  Lemma nodup_filter {A} (f : A -> bool) l : NoDup l -> NoDup (filter f l). Proof. apply NoDup_filter. Qed.

  Lemma remove_one x l : NoDup l -> length (filter (fun ch => negb (ch =? x)) l) = (length l - (if existsb (Z.eqb x) l then 1 else 0))%nat.
  Proof.
    induction l as [|y l IH]; intros N; [reflexivity|]. inversion N as [|? ? NI N' E]; subst. cbn [filter existsb length].
    rewrite (Z.eqb_sym x y). destruct (y =? x) eqn:E; cbn [negb orb].
    - apply Z.eqb_eq in E. subst y. rewrite IH by exact N'. destruct (existsb (Z.eqb x) l) eqn:X; [|lia].
      exfalso. apply NI. apply existsb_exists in X. destruct X as (z & I & Z). apply Z.eqb_eq in Z. now subst z.
    - cbn [length]. rewrite IH by exact N'. destruct (existsb (Z.eqb x) l) eqn:X; [|lia].
      apply existsb_exists in X. destruct X as (z & I & _). destruct l; [destruct I|cbn [length]; lia].
  Qed.

  Theorem select_spec desired rnd tx : 0 <= rnd ->
    let l := left_over in
    selectChannel m desired limit rnd tx =
    match l with
    | [] => (tx, false)
    | _ => let ch := nth (Z.to_nat (rnd mod Z.of_nat (length l))) l 0 in
           match getChannel (m_ctx m) ch with
           | Some (f, lo, hi) => (set_tx_rate (requiredRate desired lo hi) (set_tx_chIndex ch (set_tx_freq f tx)), true)
           | None => (tx, false)
           end
    end.
  Proof.
    intros R. cbv zeta. unfold selectChannel, sel_scan. fold r.
    pose proof (scan_fold (channels r) (fill 0 (length (s_chMask (m_ctx m)))) 0 255) as SF.
    destruct (fold_left _ (channels r) _) as [[mask n] ex]. destruct SF as (MK & N & EX).
    { intros ch. apply channels_in. } { apply fill_length. }
    rewrite Z.add_0_l in N.
    assert (forall ch, In ch (channels r) -> channelIsMasked mask r ch = av ch) as MA.
    { intros ch I. pose proof (proj1 (channels_in _ _) I) as H. rewrite MK by lia.
      assert (channelIsMasked (fill 0 (length (s_chMask (m_ctx m)))) r ch = false) as -> by (apply (unmask_all_spec (s_chMask (m_ctx m))); lia).
      assert (existsb (Z.eqb ch) (channels r) = true) as ->; [|reflexivity]. apply existsb_exists. exists ch. split; [exact I|apply Z.eqb_refl]. }
    pose proof (channels_length r) as CL. pose proof (channels_few r) as CF. set (l := filter av (channels r)) in *.
    assert (length l <= length (channels r))%nat as LL by (apply filter_le).
    assert (existsb (fun ch => av ch && (ch =? tx_chIndex (m_tx m))) (channels r) = existsb (Z.eqb (tx_chIndex (m_tx m))) l) as EE.
    { unfold l. clear. induction (channels r) as [|x xs IH]; [reflexivity|]. cbn [existsb filter]. destruct (av x); cbn [existsb andb orb]; rewrite IH; [now rewrite Z.eqb_sym|reflexivity]. }
    rewrite EE in EX. clear EE.
    assert (NoDup l) as ND by (apply NoDup_filter, channels_nodup).
    assert (existsb (Z.eqb (tx_chIndex (m_tx m))) l = true -> 0 <= tx_chIndex (m_tx m) < 255) as CH.
    { intros X. apply existsb_exists in X. destruct X as (z & I & Z). apply Z.eqb_eq in Z. rewrite Z. apply filter_In in I. destruct I as [I _]. apply channels_in in I. lia. }
    pose proof (remove_one (tx_chIndex (m_tx m)) l ND) as RO.
    assert (forall e, (forall ch, In ch (channels r) -> channelIsMasked mask r ch && negb (e =? ch) = true -> getChannel (m_ctx m) ch <> None)) as GC.
    { intros e ch I H. rewrite (MA ch I) in H. apply andb_true_iff in H. destruct H as [H _]. apply available_open in H; [|now apply channels_in].
      destruct H as (_ & _ & f & lo & hi & b & G & _). congruence. }
    assert (forall e, filter (fun ch => channelIsMasked mask (s_region (m_ctx m)) ch && negb (e =? ch)) (channels r) = filter (fun ch => negb (ch =? e)) l) as FF.
    { intros e. unfold l. fold r. clear - MA. induction (channels r) as [|x xs IH]; [reflexivity|]. cbn [filter]. rewrite (MA x) by now left.
      rewrite (Z.eqb_sym e x). specialize (IH (fun ch H => MA ch (or_intror H))). destruct (av x); cbn [andb filter]; [|exact IH]. destruct (negb (x =? e)); rewrite IH; reflexivity. }
    assert (filter (fun ch => negb (ch =? 255)) l = l) as F255.
    { apply filter_all. intros x I. apply filter_In in I. destruct I as [I _]. apply channels_in in I. lia. }
    assert (forall e n', n' = Z.of_nat (length (filter (fun ch => negb (ch =? e)) l)) -> 0 < n' ->
      sel_pick (m_ctx m) mask e (u8 (rnd mod n')) desired (channels r) 0 tx =
      let l' := filter (fun ch => negb (ch =? e)) l in
      let ch := nth (Z.to_nat (rnd mod Z.of_nat (length l'))) l' 0 in
      match getChannel (m_ctx m) ch with
      | Some (f, lo, hi) => (set_tx_rate (requiredRate desired lo hi) (set_tx_chIndex ch (set_tx_freq f tx)), true)
      | None => (tx, false)
      end) as PK.
    { intros e n' EN NP. cbv zeta. set (l' := filter (fun ch => negb (ch =? e)) l) in *. assert (length l' <= length l)%nat as LL' by (apply filter_le).
      pose proof (Z.mod_pos_bound rnd n' NP) as MB. assert (u8 (rnd mod n') = rnd mod n') as ->. { unfold u8. apply Z.mod_small. assert (n' <= 72) as X by (rewrite EN; rewrite <- CL in CF; clear - LL LL' CF; lia). destruct MB as [MB1 MB2]. split; [exact MB1|]. eapply Z.lt_le_trans; [exact MB2|]. clear - X. lia. }
      rewrite pick_list; [|apply GC|clear; lia|rewrite CL; clear - CF; lia|apply MB]. rewrite FF. fold l'. rewrite Z.sub_0_r, <- EN.
      rewrite (nth_error_nth' l' 0) by (clear - MB EN; destruct MB as [M1 M2]; generalize dependent (rnd mod n'); intros; lia). reflexivity. }
    unfold left_over. cbv zeta. fold l. destruct (n >? 0) eqn:NP.
    - destruct (existsb (Z.eqb (tx_chIndex (m_tx m))) l) eqn:X.
      + rewrite EX. specialize (CH eq_refl). replace (negb (tx_chIndex (m_tx m) =? 255)) with true by lia. destruct (n =? 1) eqn:N1.
        * replace (2 <=? Z.of_nat (length l)) with false by lia. cbn [andb]. rewrite PK by (rewrite ?F255; lia). rewrite F255. cbv zeta. destruct l; [cbn in N; lia|reflexivity].
        * replace (2 <=? Z.of_nat (length l)) with true by lia. cbn [andb]. rewrite PK by lia. cbv zeta. destruct (filter (fun ch => negb (ch =? tx_chIndex (m_tx m))) l); [cbn in RO; lia|reflexivity].
      + rewrite EX. change (negb (255 =? 255)) with false. cbn [andb]. cbv iota. rewrite PK by (rewrite ?F255; lia). rewrite F255. cbv zeta. destruct l; [cbn in N; lia|reflexivity].
    - assert (l = []) as -> by (destruct l; [reflexivity|cbn [length] in N; lia]). cbn [existsb andb]. reflexivity.
  Qed.
End Sel.
