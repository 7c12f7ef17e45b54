(* How received data frames are decrypted. *)
From Verif Require AesP.
From Verif Require Import Lib StreamM FrameM CommandsM RegionM RadioM SmM AesM CmacM CtrM Scenario MacStateM MacTac MacUtilM OpsM MacCmdM MacProcM MacApiM MacRw CoreP CaseP RxP SpecFrame SpecDecode SpecAes SpecSm SpecHist SpecKey SpecUp SpecCmac SpecRx CtrP FrameP FrameDecP FrameRtP ModuleP SmP AnswerP HistP EndP TxP UplinkP ReadyP JoinP DataP RestoreP AcceptP GenuineP CtxP DownP CipherP SpecEffect SpecDown.

Lemma slice_splice_same l off d n : length d = n -> (off + n <= length l)%nat -> slice (splice l off d) off n = d.
Proof.
  intros <- L. unfold slice, splice. assert (length (firstn off l) = off) as LF by (rewrite firstn_length; lia).
  rewrite skipn_app, LF, Nat.sub_diag, (skipn_all2 (firstn off l)) by lia. cbn [List.app skipn].
  rewrite firstn_app, firstn_all, Nat.sub_diag. cbn [firstn]. apply app_nil_r.
Qed.
Lemma slice_splice_low l off d p n : (p + n <= off)%nat -> (off <= length l)%nat -> slice (splice l off d) p n = slice l p n.
Proof.
  intros P L. unfold splice. rewrite slice_app_low by (rewrite firstn_length; lia).
  rewrite <- (firstn_skipn off l) at 2. rewrite slice_app_low by (rewrite firstn_length; lia). reflexivity.
Qed.
Lemma slice_splice_high l off d p n : (off + length d <= p)%nat -> (off + length d <= length l)%nat -> slice (splice l off d) p n = slice l p n.
Proof.
  intros P L. unfold slice, splice. f_equal. rewrite app_assoc, skipn_app. assert (length (firstn off l ++ d) = (off + length d)%nat) as LF by (rewrite app_length, firstn_length; lia).
  rewrite (skipn_all2 (firstn off l ++ d)) by lia. cbn [List.app]. rewrite LF, skipn_skipn. f_equal. lia.
Qed.

(* the frame that is reported *)
Lemma data_frame_is c m e buf f : bytes_ok (e_rx e) -> receiveFrame c m (rx_buffer e) (rx_len e) = (buf, Some f) -> is_rx_data f = true -> m_op m <> OP_REJOINING ->
  let w := heard e in well_sized w ->
  (12 <= length w)%nat /\ dn_port f = port_in w /\ dn_counter f = fcnt_down w /\ dn_devAddr f = le_val (slice w 1 4) /\
  dn_opts f = (if (0 <? opts_len w)%nat then Some 8 else None) /\ dn_optsLen f = Z.of_nat (opts_len w) /\
  dn_data f = (if (0 <? length (payload_in w))%nat then Some (9 + Z.of_nat (opts_len w)) else None) /\ dn_dataLen f = Z.of_nat (length (payload_in w)) /\
  dn_dataPresent f = has_port w /\ (length (payload_in w) = length w - 13 - opts_len w)%nat.
Proof.
  intros HB H D NR w WS. pose proof (receive_decode _ _ _ _ _ H D NR) as E. pose proof (heard_ok e HB) as OK. destruct (heard_len e) as [LN L255].
  rewrite (proj2 (decode_eq (c_l2 c) _ _ OK)) in E.
  assert (exists ty, 12 <= rx_len e /\ f = dframe ty (rx_buffer e) (rx_len e) (8 + rd (rx_buffer e) 5 1 mod 16)) as (ty & N12 & EF).
  { pose proof (rd_byte (rx_buffer e) _ 5 OK) as RB. revert E. unfold decode_closed. destruct (rx_len e <? 1); [discriminate|]. cbv zeta.
    destruct (rd (rx_buffer e) 0 1 =? mhdr JoinAccept) eqn:T1.
    { unfold jdecode. destruct (_ || _); [|discriminate]. intros E. injection E as <-. discriminate D. }
    unfold well_sized, opts_len, w in WS.
    destruct (rd (rx_buffer e) 0 1 =? mhdr UnconfirmedDown) eqn:T2; [|destruct (rd (rx_buffer e) 0 1 =? mhdr ConfirmedDown) eqn:T3; [|discriminate]];
    unfold ddecode; cbv zeta; destruct (rx_len e <? 12) eqn:G0; cbn [orb]; try discriminate;
    (assert (8 + rd (rx_buffer e) 5 1 mod 16 <=? rx_len e = true) as -> by (rewrite rd1_heard by lia; change (Z.to_nat 5) with 5%nat; lia));
    match goal with |- context [if rx_len e <? ?x then None else _] => destruct (rx_len e <? x) eqn:G end; try discriminate; destruct (_ && _ && _); try discriminate;
    intros E; injection E as <-; eexists; (split; [|reflexivity]); lia. }
  assert (rd (rx_buffer e) 5 1 mod 16 = Z.of_nat (opts_len w)) as EO.
  { pose proof (rd_byte (rx_buffer e) _ 5 OK) as RB. unfold opts_len, w. rewrite rd1_heard by lia. change (Z.to_nat 5) with 5%nat. lia. }
  assert (length (payload_in w) = length w - 13 - opts_len w)%nat as LP.
  { unfold payload_in, slice. rewrite firstn_length, skipn_length. unfold well_sized in WS. lia. }
  rewrite EF. unfold dframe. cbv zeta. cbn [dn_port dn_counter dn_devAddr dn_opts dn_optsLen dn_data dn_dataLen dn_dataPresent]. rewrite EO. rewrite LP. unfold well_sized in WS.
  assert (4 <? rx_len e - (8 + Z.of_nat (opts_len w)) = has_port w) as EP by (unfold has_port; destruct (_ <=? _)%nat eqn:X; [apply Nat.leb_le in X|apply Nat.leb_gt in X]; fold w in LN; lia).
  rewrite EP. fold w in LN, L255. split; [lia|]. split.
  { unfold port_in. destruct (has_port w) eqn:HP; [|reflexivity]. unfold has_port in HP. apply Nat.leb_le in HP. rewrite rd1_heard by lia. fold w. f_equal. lia. }
  split; [rewrite rd_heard by lia; reflexivity|]. split; [rewrite rd_heard by lia; reflexivity|].
  split; [destruct (0 <? opts_len w)%nat eqn:X; [apply Nat.ltb_lt in X|apply Nat.ltb_ge in X]; [replace (0 <? Z.of_nat (opts_len w)) with true by lia|replace (0 <? Z.of_nat (opts_len w)) with false by lia]; reflexivity|].
  split; [reflexivity|]. unfold has_port in *. destruct (13 + opts_len w <=? length w)%nat eqn:HP; [apply Nat.leb_le in HP|apply Nat.leb_gt in HP].
  - split; [|split; [lia|auto]]. destruct (0 <? length w - 13 - opts_len w)%nat eqn:X; [apply Nat.ltb_lt in X|apply Nat.ltb_ge in X].
    + destruct (_ =? 0) eqn:Y; [lia|]. f_equal. lia.
    + destruct (_ =? 0) eqn:Y; [reflexivity|lia].
  - replace (length w - 13 - opts_len w)%nat with 0%nat by lia. auto.
Qed.

(* what becomes of the buffer *)
Lemma receive_buffer c m e buf f : receiveFrame c m (rx_buffer e) (rx_len e) = (buf, Some f) -> is_rx_data f = true -> m_op m <> OP_REJOINING ->
  dn_devAddr f = s_devAddr (m_ctx m) /\
  buf = (let buf0 := rx_buffer e in
         let buf1 := if is_1_1 (c_l2 c) && (sess_version c (m_ctx m) =? 1)
                     then ctr_at c m KEY_NWKSENC (if c_errata c then initA (if dn_dataPresent f then 2 else 1) (dn_devAddr f) false (dn_counter f) 0
                                                  else initA 0 (dn_devAddr f) false (dn_counter f) 0) (off_of (dn_opts f)) (dn_optsLen f) buf0 else buf0 in
         ctr_at c m (if dn_port f =? 0 then KEY_NWKSENC else KEY_APPS) (initA 0 (dn_devAddr f) false (dn_counter f) 1) (off_of (dn_data f)) (dn_dataLen f) buf1).
Proof.
  intros H D NR. pose proof (receiveFrame_op _ _ _ _ _ H) as O. rewrite D in O. revert H. unfold receiveFrame.
  destruct (Frame_decode (c_l2 c) (rx_buffer e) (rx_len e)) as [g|]; [|discriminate].
  assert (receiveData c m g (rx_buffer e) (rx_len e) = (buf, Some f) -> dn_devAddr f = s_devAddr (m_ctx m) /\
    buf = (let buf0 := rx_buffer e in
         let buf1 := if is_1_1 (c_l2 c) && (sess_version c (m_ctx m) =? 1)
                     then ctr_at c m KEY_NWKSENC (if c_errata c then initA (if dn_dataPresent f then 2 else 1) (dn_devAddr f) false (dn_counter f) 0
                                                  else initA 0 (dn_devAddr f) false (dn_counter f) 0) (off_of (dn_opts f)) (dn_optsLen f) buf0 else buf0 in
         ctr_at c m (if dn_port f =? 0 then KEY_NWKSENC else KEY_APPS) (initA 0 (dn_devAddr f) false (dn_counter f) 1) (off_of (dn_data f)) (dn_dataLen f) buf1)) as RD.
  { unfold receiveData. destruct (m_op m); try discriminate;
    (cbv zeta; destruct (s_devAddr (m_ctx m) =? dn_devAddr g) eqn:EA; [|discriminate];
     match goal with |- context [if ?x =? dn_mic g then _ else _] => destruct (x =? dn_mic g) end; [|discriminate];
     intros X; apply pair_equal_spec in X as [X1 X2]; injection X2 as <-; split; [lia|symmetry; exact X1]). }
  destruct (dn_type g); try discriminate; try exact RD.
  unfold receiveJoin. cbv zeta. destruct (m_op m); try discriminate; destruct O as [O|O]; first [discriminate O|congruence].
Qed.

Lemma empty_ctr c : in_place c -> forall log k iv, c_ctr c log k iv [] = [].
Proof. intros [IP _] log k iv. apply length_zero_iff_nil. apply IP. Qed.
Lemma splice_nil l off : splice l off [] = l.
Proof. unfold splice. cbn [length List.app]. rewrite Nat.add_0_r. apply firstn_skipn. Qed.

Theorem decrypted c e m buf f : in_place c -> bytes_ok (e_rx e) -> m_op m <> OP_REJOINING ->
  receiveFrame c m (rx_buffer e) (rx_len e) = (buf, Some f) -> is_rx_data f = true -> let w := heard e in well_sized w ->
  dn_port f = port_in w /\
  field buf (dn_data f) (dn_dataLen f) = c_ctr c (m_sm m) (if port_in w =? 0 then KEY_NWKSENC else KEY_APPS) (block_A false (s_devAddr (m_ctx m)) (fcnt_down w) 1) (payload_in w) /\
  (c_errata c = false -> field buf (dn_opts f) (dn_optsLen f) =
     (if is_1_1 (c_l2 c) && (sess_version c (m_ctx m) =? 1) then c_ctr c (m_sm m) KEY_NWKSENC (block_A false (s_devAddr (m_ctx m)) (fcnt_down w) 0) (options_in w) else options_in w)).
Proof.
  intros IP HB NR RF D w WS. destruct (data_frame_is c m e buf f HB RF D NR WS) as (N12 & EP & EC & _ & EO & EOL & ED & EDL & _ & LP). fold w in N12, EP, EC, EO, EOL, ED, EDL, LP.
  destruct (receive_buffer c m e buf f RF D NR) as [EA EB]. cbv zeta in EB. split; [exact EP|]. pose proof (rx_buffer_length e) as LR. unfold well_sized in WS.
  assert (length w <= 255)%nat as L255 by apply (proj2 (heard_len e)).
  set (buf1 := if is_1_1 (c_l2 c) && _ then _ else _) in EB.
  assert (options_in w = slice (rx_buffer e) 8 (opts_len w)) as SO by (unfold options_in; symmetry; apply heard_slice; fold w; lia).
  assert (length (options_in w) = opts_len w) as LO by (unfold options_in, slice; rewrite firstn_length, skipn_length; lia).
  assert (length buf1 = 255%nat /\ slice buf1 (9 + opts_len w) (length (payload_in w)) = payload_in w) as [L1 S1].
  { assert (slice (rx_buffer e) (9 + opts_len w) (length (payload_in w)) = payload_in w) as S0 by (rewrite LP; apply heard_slice; fold w; rewrite LP || idtac; unfold payload_in in LP; destruct (length w - 13 - opts_len w)%nat eqn:X; lia).
    unfold buf1. destruct (_ && _); [|split; [exact LR|exact S0]]. unfold ctr_at. rewrite EO, EOL. rewrite !Nat2Z.id. destruct (0 <? opts_len w)%nat eqn:X; cbn [off_of].
    - change (Z.to_nat 8) with 8%nat. rewrite <- SO. split; [rewrite splice_length; rewrite ?(proj1 IP), ?LO; lia|]. rewrite slice_splice_high; rewrite ?(proj1 IP), ?LO; try lia. exact S0.
    - apply Nat.ltb_ge in X. replace (opts_len w) with 0%nat by lia. change (slice (rx_buffer e) (Z.to_nat 0) 0) with (@nil Z). rewrite (empty_ctr c IP), splice_nil. split; [exact LR|]. replace (opts_len w) with 0%nat in S0 by lia. exact S0. }
  assert (dn_devAddr f = s_devAddr (m_ctx m)) as EA' by exact EA.
  split.
  - rewrite ED. unfold field. destruct (0 <? length (payload_in w))%nat eqn:X; [apply Nat.ltb_lt in X|apply Nat.ltb_ge in X].
    + rewrite EB, ED, EDL. replace (0 <? length (payload_in w))%nat with true by (symmetry; apply Nat.ltb_lt; exact X). cbn [off_of]. rewrite Nat2Z.id. replace (Z.to_nat (9 + Z.of_nat (opts_len w))) with (9 + opts_len w)%nat by lia. unfold ctr_at. rewrite Nat2Z.id.
      replace (Z.to_nat (9 + Z.of_nat (opts_len w))) with (9 + opts_len w)%nat by lia. rewrite S1. rewrite slice_splice_same by (rewrite ?(proj1 IP); lia).
      rewrite EP, EA', EC. rewrite (initA_spec 0) by lia. reflexivity.
    + assert (payload_in w = []) as -> by (apply length_zero_iff_nil; lia). symmetry. apply (empty_ctr c IP).
  - intros ER. rewrite EO. unfold field. destruct (0 <? opts_len w)%nat eqn:X; [apply Nat.ltb_lt in X|apply Nat.ltb_ge in X].
    + rewrite EOL, Nat2Z.id. change (Z.to_nat 8) with 8%nat. assert (slice buf 8 (opts_len w) = slice buf1 8 (opts_len w)) as ->.
      { rewrite EB. unfold ctr_at. rewrite ED, EDL, Nat2Z.id. destruct (0 <? length (payload_in w))%nat eqn:Y; cbn [off_of].
        - rewrite slice_splice_low; [reflexivity|lia|lia].
        - apply Nat.ltb_ge in Y. replace (length (payload_in w)) with 0%nat by lia. change (slice buf1 (Z.to_nat 0) 0) with (@nil Z). rewrite (empty_ctr c IP), splice_nil. reflexivity. }
      assert (slice buf1 8 (opts_len w) = if is_1_1 (c_l2 c) && (sess_version c (m_ctx m) =? 1) then c_ctr c (m_sm m) KEY_NWKSENC (block_A false (s_devAddr (m_ctx m)) (fcnt_down w) 0) (options_in w) else options_in w) as E1; [|exact E1].
      unfold buf1. destruct (_ && _); [|rewrite SO; reflexivity]. rewrite ER. unfold ctr_at. rewrite EO, EOL, Nat2Z.id. replace (0 <? opts_len w)%nat with true by (symmetry; apply Nat.ltb_lt; exact X). cbn [off_of]. change (Z.to_nat 8) with 8%nat. rewrite <- SO.
      rewrite slice_splice_same by (rewrite ?(proj1 IP), ?LO; lia). rewrite EA', EC. rewrite (initA_spec 0) by lia. reflexivity.
    + assert (options_in w = []) as -> by (apply length_zero_iff_nil; lia). destruct (_ && _); [symmetry; apply (empty_ctr c IP)|reflexivity].
Qed.

(* --- with the default security module --- *)

Lemma ctr_down key addr n i d : 0 <= i <= 1 -> (length d < 4080)%nat -> ctr (aes128 key) (block_A false addr n i) d = down_cipher key addr n i d.
Proof.
  intros I L. unfold ctr, down_cipher. apply map_ext_in. intros j Hj. apply in_seq in Hj. unfold ctr_block.
  refine (f_equal (fun b => Z.lxor (nth j d 0) (nth (j mod 16) (aes128 key b) 0)) _).
  unfold block_A. assert (length (le 4 addr) = 4%nat /\ length (le 4 n) = 4%nat) as [L1 L2] by (rewrite !le_length; auto).
  destruct (le 4 addr) as [|b0 [|b1 [|b2 [|b3 [|]]]]]; try discriminate L1. destruct (le 4 n) as [|q0 [|q1 [|q2 [|q3 [|]]]]]; try discriminate L2.
  cbn [repeat List.app firstn nth]. rewrite Z.mod_small; [reflexivity|]. assert (j / 16 < 255)%nat by (apply Nat.div_lt_upper_bound; lia). lia.
Qed.

(* joined histories use the session's keys *)
Lemma session_ctr c r a e0 h app nwk k i d : block app -> block nwk -> default_sm c app nwk -> arg_ok a -> Forall (fun x => not_abp (snd x)) h ->
  let m := run c h (MAC_init c r a e0) in s_joined (m_ctx m) = true -> net_key k -> 0 <= i <= 1 -> (length d < 256)%nat ->
  forall addr n, c_ctr c (m_sm m) k (block_A false addr n i) d = down_cipher (session_key c app nwk (ia_joinEUI a) (m_ctx m) k) addr n i d.
Proof.
  intros Ha Hn D OK NA m JJ NK I LD addr n.
  destruct (keys_always c r a e0 h app nwk Ha Hn OK NA) as ((_ & _ & _ & LG & _ & _ & KS) & EJ & _). fold m in LG, KS, EJ.
  destruct (KS JJ) as [KK _]. rewrite <- EJ, <- (KK k NK). destruct (D (m_sm m) k) as (_ & _ & DC). rewrite DC.
  rewrite SM_ctr_spec; [apply ctr_down; lia| | |exact LD].
  - apply store_key, replay_ok; [now apply init_ok|exact LG].
  - apply block_A_ok. lia.
Qed.

Lemma start_joined c r a e0 h : let m := run c h (MAC_init c r a e0) in so (m_op m) (m_state m) = true /\ m_op m <> OP_REJOINING /\ joined_ok m.
Proof.
  intros m. pose proof (init_so c r a e0 h) as S. cbv zeta in S. fold m in S. split; [exact S|]. split; [exact (so_not_rejoining _ _ S)|].
  destruct (init_facts c r a e0) as (O & ST & _). cbv zeta in *. apply joined_always; [rewrite O, ST; reflexivity|]. unfold joined_ok. rewrite O. split; discriminate.
Qed.

Lemma rx_out_field buf f port d : In (OEvent (EV_RX port d)) (rx_out buf f) -> port = dn_port f /\ port <> 0 /\ d = field buf (dn_data f) (dn_dataLen f).
Proof.
  unfold rx_out, field. destruct (dn_data f) as [off|]; [|contradiction]. destruct (dn_port f =? 0) eqn:E; [contradiction|]. intros [X|[]]. injection X as <- <-. split; [reflexivity|]. split; [lia|reflexivity].
Qed.

Theorem delivered_plain c r a e0 h e k app nwk port d : block app -> block nwk -> default_sm c app nwk -> arg_ok a ->
  Forall (fun x => not_abp (snd x)) h -> bytes_ok (e_rx e) ->
  let m := run c h (MAC_init c r a e0) in let w := heard e in well_sized w ->
  In (OEvent (EV_RX port d)) (new_out m (fst (step c e k m))) ->
  port = port_in w /\ port <> 0 /\
  d = down_cipher (session_key c app nwk (ia_joinEUI a) (m_ctx m) KEY_APPS) (s_devAddr (m_ctx m)) (fcnt_down w) 1 (payload_in w) /\
  exists n, n mod 2 ^ 16 = fcnt_down w /\ genuine_as c m w n /\ (low_down (m_ctx m) -> n = fcnt_down w).
Proof.
  intros Ha Hn D OK NA HB m w WS I. destruct (start_joined c r a e0 h) as (S & NR & J). fold m in S, NR, J.
  pose proof (proj1 (ModuleP.default_octets c app nwk Ha Hn D)) as IP.
  assert (In (OEvent (EV_RX port d)) (filter is_rx (new_out m (fst (step c e k m))))) as I' by (apply filter_In; auto). clear I.
  destruct (step_rx c e k m S) as [Z|(_ & _ & DD & _ & buf & f & RF & DF & F & _)]; [rewrite Z in I'; contradiction|].
  rewrite F in I'. destruct (rx_out_field _ _ _ _ I') as (P1 & P2 & P3). destruct (decrypted c e m buf f IP HB NR RF DF WS) as (E1 & E2 & _). fold w in E1, E2.
  rewrite P1, E1 in P2. split; [congruence|]. split; [congruence|].
  destruct (data_fields c m e buf f HB RF DF NR) as (RC & FC & _). destruct (data_genuine c m e buf f HB RF DF NR) as (_ & G2 & G3). split.
  - rewrite P3, E2. assert (port_in w =? 0 = false) as -> by lia. assert (s_joined (m_ctx m) = true) as JJ by (apply J, DD).
    apply (session_ctr c r a e0 h app nwk); try assumption; [unfold net_key; auto|lia|].
    unfold payload_in, slice. rewrite firstn_length. pose proof (proj2 (heard_len e)). fold w in H. lia.
  - eexists. split; [exact G2|]. split; [exact G3|]. intros L. rewrite (derive_low _ _ _ _ L RC). exact FC.
Qed.

(* the options of a 1.1 network *)
Theorem options_plain c r a e0 h e app nwk buf f : block app -> block nwk -> default_sm c app nwk -> arg_ok a ->
  Forall (fun x => not_abp (snd x)) h -> bytes_ok (e_rx e) -> c_errata c = false ->
  let m := run c h (MAC_init c r a e0) in let w := heard e in well_sized w -> is_data (m_op m) = true ->
  receiveFrame c m (rx_buffer e) (rx_len e) = (buf, Some f) -> is_rx_data f = true ->
  let key := session_key c app nwk (ia_joinEUI a) (m_ctx m) KEY_NWKSENC in let addr := s_devAddr (m_ctx m) in
  field buf (dn_opts f) (dn_optsLen f) = (if is_1_1 (c_l2 c) && (sess_version c (m_ctx m) =? 1) then down_cipher key addr (fcnt_down w) 0 (options_in w) else options_in w) /\
  (port_in w = 0 -> field buf (dn_data f) (dn_dataLen f) = down_cipher key addr (fcnt_down w) 1 (payload_in w)).
Proof.
  intros Ha Hn D OK NA HB ER m w WS DD RF DF key addr. destruct (start_joined c r a e0 h) as (S & NR & J). fold m in S, NR, J.
  pose proof (proj1 (ModuleP.default_octets c app nwk Ha Hn D)) as IP. assert (s_joined (m_ctx m) = true) as JJ by (apply J, DD).
  destruct (decrypted c e m buf f IP HB NR RF DF WS) as (E1 & E2 & E3). fold w in E1, E2, E3. pose proof (proj2 (heard_len e)) as L255. fold w in L255.
  split.
  - rewrite (E3 ER). destruct (_ && _); [|reflexivity]. apply (session_ctr c r a e0 h app nwk); try assumption; [unfold net_key; auto|lia|].
    unfold options_in, slice. rewrite firstn_length. unfold well_sized in WS. lia.
  - intros P0. rewrite E2, P0. apply (session_ctr c r a e0 h app nwk); try assumption; [unfold net_key; auto|lia|].
    unfold payload_in, slice. rewrite firstn_length. lia.
Qed.

(* --- genuine frames are accepted --- *)

Lemma genuine_received c m e : bytes_ok (e_rx e) -> let w := heard e in well_sized w -> no_clash w ->
  genuine_as c m w (deriveDownCounter c (m_ctx m) (port_in w) (fcnt_down w)) ->
  exists buf f, receiveFrame c m (rx_buffer e) (rx_len e) = (buf, Some f) /\ is_rx_data f = true.
Proof.
  intros HB w WS NC (O & N12 & T & A & M). cbv zeta in M. pose proof (heard_ok e HB) as OK. destruct (heard_len e) as [LN L255]. fold w in LN, L255.
  pose proof (rd_byte (rx_buffer e) _ 5 OK) as RB. unfold well_sized in WS.
  assert (rd (rx_buffer e) 5 1 mod 16 = Z.of_nat (opts_len w)) as EO.
  { unfold opts_len, w. rewrite rd1_heard by lia. change (Z.to_nat 5) with 5%nat. rewrite rd1_heard in RB by lia. lia. }
  set (q := 8 + Z.of_nat (opts_len w)). 
  assert (4 <? rx_len e - q = has_port w) as EP by (unfold has_port, q; destruct (_ <=? _)%nat eqn:X; [apply Nat.leb_le in X|apply Nat.leb_gt in X]; lia).
  assert ((if has_port w then rd (rx_buffer e) q 1 else 0) = port_in w) as EQ.
  { unfold port_in. destruct (has_port w) eqn:HP; [|reflexivity]. unfold has_port in HP. apply Nat.leb_le in HP. rewrite rd1_heard by (unfold q; lia). fold w. f_equal. unfold q. lia. }
  assert (exists ty, (ty = FT_UNCONF_DOWN \/ ty = FT_CONF_DOWN) /\ Frame_decode (c_l2 c) (rx_buffer e) (rx_len e) = Some (dframe ty (rx_buffer e) (rx_len e) q)) as (ty & TY & FD).
  { rewrite (proj2 (decode_eq (c_l2 c) _ _ OK)). unfold decode_closed. replace (rx_len e <? 1) with false by lia. cbv zeta.
    rewrite rd1_heard by lia. change (Z.to_nat 0) with 0%nat. fold w.
    assert (forall ty, ddecode ty (rx_buffer e) (rx_len e) = Some (dframe ty (rx_buffer e) (rx_len e) q)) as DD.
    { intros ty. unfold ddecode. cbv zeta. rewrite EO. fold q. replace (q <=? rx_len e) with true by (unfold q; lia). replace (rx_len e <? 12) with false by lia. replace (rx_len e <? q + 4) with false by (unfold q; lia). cbn [orb].
      rewrite EP. destruct (has_port w && (0 <? Z.of_nat (opts_len w)) && (rd (rx_buffer e) q 1 =? 0)) eqn:X; [|reflexivity]. exfalso. apply NC.
      apply andb_prop in X as [X X3]. apply andb_prop in X as [X1 X2]. rewrite X1 in EQ. split; [exact X1|]. split; [lia|lia]. }
    destruct T as [T|T]; rewrite T.
    - exists FT_UNCONF_DOWN. split; [auto|]. change (mhdr UnconfirmedDown =? mhdr JoinAccept) with false. rewrite Z.eqb_refl. apply DD.
    - exists FT_CONF_DOWN. split; [auto|]. change (mhdr ConfirmedDown =? mhdr JoinAccept) with false. change (mhdr ConfirmedDown =? mhdr UnconfirmedDown) with false. rewrite Z.eqb_refl. apply DD. }
  unfold receiveFrame. rewrite FD. set (g := dframe ty (rx_buffer e) (rx_len e) q).
  assert (dn_type g = ty) as ET by reflexivity.
  assert (exists buf, receiveData c m g (rx_buffer e) (rx_len e) = (buf, Some g)) as (buf & RD).
  { unfold receiveData.
    assert (dn_devAddr g = s_devAddr (m_ctx m)) as EA by (rewrite <- A; change (dn_devAddr g) with (rd (rx_buffer e) 1 4); rewrite rd_heard by lia; reflexivity).
    assert (dn_port g = port_in w) as EPT by (rewrite <- EQ, <- EP; reflexivity).
    assert (dn_counter g = fcnt_down w) as EC by (change (dn_counter g) with (rd (rx_buffer e) 6 2); rewrite rd_heard by lia; reflexivity).
    assert (dn_ack g = Z.testbit (nth 5 w 0) 5) as EK by (change (dn_ack g) with (has_bit (rd (rx_buffer e) 5 1) 0x20); rewrite ack_bit by exact RB; rewrite rd1_heard by lia; reflexivity).
    assert (dn_mic g = le_val (slice w (length w - 4) 4)) as EM by (change (dn_mic g) with (rd (rx_buffer e) (rx_len e - 4) 4); rewrite rd_heard by lia; replace (Z.to_nat (rx_len e - 4)) with (length w - 4)%nat by lia; reflexivity).
    cbv zeta. rewrite EA, EPT, EC, EK, EM, M, Z.eqb_refl.
    assert (u8 (rx_len e - 4) = Z.of_nat (length w) - 4) as -> by (unfold u8; lia). rewrite initB_spec by lia. unfold block_B0.
    change (u16 (s_up (m_ctx m) - 1)) with ((s_up (m_ctx m) - 1) mod 2 ^ 16).
    replace (slice (rx_buffer e) 0 (Z.to_nat (Z.of_nat (length w) - 4))) with (firstn (length w - 4) w)
      by (rewrite heard_slice by (fold w; lia); fold w; replace (Z.to_nat (Z.of_nat (length w) - 4)) with (length w - 4)%nat by lia; reflexivity).
    rewrite Z.eqb_refl. destruct O as [-> | ->]; eexists; reflexivity. }
  exists buf, g. rewrite ET. split; [|unfold is_rx_data; rewrite ET; destruct TY as [-> | ->]; reflexivity]. destruct TY as [-> | ->]; exact RD.
Qed.

Lemma down_cipher_length key addr n i d : length (down_cipher key addr n i d) = length d.
Proof. unfold down_cipher. now rewrite map_length, seq_length. Qed.
Lemma down_cipher_twice key addr n i d : down_cipher key addr n i (down_cipher key addr n i d) = d.
Proof.
  apply nth_ext with 0 0; [now rewrite !down_cipher_length|]. intros j J. rewrite !down_cipher_length in J.
  unfold down_cipher at 1. rewrite AesP.nth_map_seq by (rewrite down_cipher_length; lia). unfold down_cipher. rewrite AesP.nth_map_seq by lia.
  rewrite Z.lxor_assoc, Z.lxor_nilpotent, Z.lxor_0_r. reflexivity.
Qed.

Theorem delivered c r a e0 h e app nwk p : block app -> block nwk -> default_sm c app nwk -> arg_ok a ->
  Forall (fun x => not_abp (snd x)) h -> bytes_ok (e_rx e) -> low_start (ia_session a) -> air_ok h ->
  let m := run c h (MAC_init c r a e0) in let w := heard e in
  in_rx (m_state m) = true -> inputPending m = true -> e_st_rx e = true -> well_sized w -> port_in w <> 0 -> p <> [] ->
  genuine_as c m w (fcnt_down w) ->
  payload_in w = down_cipher (session_key c app nwk (ia_joinEUI a) (m_ctx m) KEY_APPS) (s_devAddr (m_ctx m)) (fcnt_down w) 1 p ->
  filter is_rx (new_out m (fst (step c e C_process m))) = [OEvent (EV_RX (port_in w) p)].
Proof.
  intros Ha Hn D OK NA HB LS AO m w R I X WS P0 PN G EP. destruct (start_joined c r a e0 h) as (S & NR & J). fold m in S, NR, J.
  pose proof (proj1 (ModuleP.default_octets c app nwk Ha Hn D)) as IP. destruct (low_always c r a e0 h LS AO) as [L _]. fold m in L.
  assert (0 <= fcnt_down w < 65536) as RC.
  { unfold fcnt_down. pose proof (rd_range (rx_buffer e) _ 6 2 (heard_ok e HB)) as RR. rewrite rd_heard in RR; [exact RR|lia|lia|]. destruct (heard_len e) as [-> _]. fold w. destruct G as (_ & G & _). lia. }
  destruct (genuine_received c m e HB WS) as (buf & f & RF & DF).
  { intros (_ & _ & P). contradiction. }
  { fold w. rewrite derive_low by assumption. exact G. }
  rewrite (window_rx c e m buf f R I X RF DF). destruct (decrypted c e m buf f IP HB NR RF DF WS) as (E1 & E2 & _). fold w in E1, E2.
  destruct (data_frame_is c m e buf f HB RF DF NR WS) as (_ & _ & _ & _ & _ & _ & ED & EDL & _). fold w in ED, EDL.
  assert (length (payload_in w) = length p) as LP by (rewrite EP; apply down_cipher_length).
  assert (0 < length p)%nat as PP by (destruct p; [contradiction|cbn; lia]).
  unfold rx_out. rewrite E1. unfold field in E2. rewrite ED in E2 |- *. rewrite LP in E2, ED, EDL |- *. assert ((0 <? length p)%nat = true) as HT by (apply Nat.ltb_lt; exact PP). rewrite HT in *. assert (port_in w =? 0 = false) as HP by lia. rewrite HP in *. rewrite E2.
  assert (s_joined (m_ctx m) = true) as JJ. { apply J. destruct G as ([-> | ->] & _); reflexivity. }
  rewrite (session_ctr c r a e0 h app nwk KEY_APPS 1 (payload_in w) Ha Hn D OK NA JJ); [|unfold net_key; auto|lia|].
  - fold m. rewrite EP, down_cipher_twice. reflexivity.
  - pose proof (proj2 (heard_len e)) as L255. fold w in L255. unfold payload_in, slice. rewrite firstn_length. lia.
Qed.
