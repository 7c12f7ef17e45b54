(* The bytes of the frames the MAC prepares. *)
From Verif Require Import Lib StreamM FrameM CommandsM RegionM RadioM SmM MacStateM MacTac MacUtilM OpsM MacCmdM MacProcM MacApiM MacRw CoreP CaseP SpecFrame SpecHist FrameP SmP AnswerP.

Definition frame_of (m : mac) : bytes := slice (m_buffer m) 0 (Z.to_nat (m_bufferLen m)).

(* --- join request --- *)

Lemma prepareJoin_layout c x je de dn b : length je = 8%nat -> length de = 8%nat -> length b = 255%nat ->
  exists mic, prepareJoinRequest c x (mkFrameJoin je de dn 0) b LDL_MAX_PACKET
    = (join_request je de dn mic ++ skipn 23 b, 23) /\ length (join_request je de dn mic) = 23%nat.
Proof.
  intros Hj Hd Hb. unfold prepareJoinRequest.
  destruct (putJoin_layout (mkFrameJoin je de dn 0) b LDL_MAX_PACKET) as (L & _ & H);
    [split; assumption|unfold LDL_MAX_PACKET; lia|unfold LDL_MAX_PACKET; lia|]. cbn [fj_joinEUI fj_devEUI fj_devNonce fj_mic] in *.
  change (23 <=? LDL_MAX_PACKET) with true in H. cbv iota in H. destruct H as [HL HB].
  destruct (Frame_putJoinRequest _ b LDL_MAX_PACKET) as [s len]. cbn [fst snd] in *. subst len.
  set (mic := c_mic c (m_sm x) KEY_NWK [] _). exists mic.
  assert (forall q, length (join_request je de dn q) = 23%nat) as LQ.
  { intros q. unfold join_request. rewrite !app_length, !rev_length, Hj, Hd, !le_length. reflexivity. }
  split; [|apply LQ]. f_equal.
  rewrite updateMIC_spec; [|lia|rewrite HB, app_length, LQ; lia]. rewrite HB.
  assert (forall q r, join_request je de dn q ++ r = ([mhdr JoinRequest] ++ rev je ++ rev de ++ le 2 dn) ++ le 4 q ++ r) as E
    by (intros; unfold join_request; rewrite <- !app_assoc; reflexivity).
  rewrite !E. replace (Z.to_nat (23 - 4)) with (length ([mhdr JoinRequest] ++ rev je ++ rev de ++ le 2 dn)).
  2: { rewrite !app_length, !rev_length, Hj, Hd, le_length. reflexivity. }
  apply splice_app. reflexivity.
Qed.

Lemma join_request_read je de dn mic : length je = 8%nat -> length de = 8%nat -> 0 <= dn < 65536 ->
  is_join_frame (join_request je de dn mic) = true /\ nonce_of (join_request je de dn mic) = dn.
Proof.
  intros Hj Hd Hn. do 8 (destruct je as [|? je]; [discriminate|]). destruct je; [|discriminate].
  do 8 (destruct de as [|? de]; [discriminate|]). destruct de; [|discriminate].
  split; [reflexivity|]. change (nonce_of _) with (dn mod 256 + 256 * ((dn / 256) mod 256)). lia.
Qed.

(* --- data frame --- *)

(* fields in clear: MHDR, DevAddr, FCtrl, FCnt *)
Definition data_hdr (f : frame_data) : bytes :=
  [u8 (Z.shiftl (ft_code (fd_type f)) 5)] ++ le 4 (fd_devAddr f) ++ [u8 (fctrl f)] ++ le 2 (fd_counter f).

Definition sent_opts (c : cfg) (x : mac) (f : frame_data) : bytes :=
  if is_1_1 (c_l2 c) && (sess_version c (m_ctx x) =? 1)
  then c_ctr c (m_sm x) KEY_NWKSENC
         (if c_errata c then initA 1 (fd_devAddr f) true (fd_counter f) 1
          else initA 0 (fd_devAddr f) true (fd_counter f) 0) (fd_opts f)
  else fd_opts f.

Definition sent_payload (c : cfg) (x : mac) (f : frame_data) : bytes :=
  match fd_data f with
  | Some d => [u8 (fd_port f)] ++ c_ctr c (m_sm x) (if fd_port f =? 0 then KEY_NWKSENC else KEY_APPS)
                              (initA 0 (fd_devAddr f) true (fd_counter f) 1) d
  | None => []
  end.

Definition data_body (c : cfg) (x : mac) (f : frame_data) : bytes :=
  data_hdr f ++ sent_opts c x f ++ sent_payload c x f.

Definition body_len (f : frame_data) : nat :=
  (8 + length (fd_opts f) + match fd_data f with Some d => 1 + length d | None => 0 end)%nat.

Lemma data_hdr_length f : length (data_hdr f) = 8%nat. Proof. reflexivity. Qed.

Lemma sent_opts_length c x f : in_place c -> length (sent_opts c x f) = length (fd_opts f).
Proof. intros [HC _]. unfold sent_opts. destruct (_ && _); [apply HC|reflexivity]. Qed.

Lemma sent_payload_length c x f : in_place c ->
  length (sent_payload c x f) = match fd_data f with Some d => (1 + length d)%nat | None => 0%nat end.
Proof. intros [HC _]. unfold sent_payload. destruct (fd_data f) as [d|]; [rewrite app_length, HC|]; reflexivity. Qed.

Lemma data_body_length c x f : in_place c -> length (data_body c x f) = body_len f.
Proof.
  intros HP. unfold data_body, body_len. rewrite !app_length, data_hdr_length, sent_opts_length, sent_payload_length by assumption.
  lia.
Qed.

Lemma putData_clear f out max :
  (length (fd_opts f) <= 15)%nat -> 0 <= max < 256 -> max <= Z.of_nat (length out) -> Z.of_nat (body_len f + 4) <= max ->
  let r := Frame_putData f out max in
  pr_len r = Z.of_nat (body_len f + 4) /\ pr_offOpts r = 8 /\
  pr_offData r = match fd_data f with Some _ => 9 + Z.of_nat (length (fd_opts f)) | None => 0 end /\
  st_buf (pr_stream r) = data_hdr f ++ fd_opts f ++ match fd_data f with Some d => [u8 (fd_port f)] ++ d | None => [] end
                         ++ le 4 (fd_mic f) ++ skipn (body_len f + 4) out.
Proof.
  intros Ho H1 H2 H3. cbv zeta. pose proof (opts_sent_all f Ho) as OS.
  assert (Z.of_nat (length (concat (data_pieces f))) = Z.of_nat (body_len f + 4)) as HL.
  { unfold data_pieces, body_len. rewrite OS. destruct (fd_data f) as [d|]; cbn [app concat le16 le32 length]; rewrite ?app_length; cbn [length]; rewrite ?app_length; cbn [length]; lia. }
  destruct (putData_writes f out max) as [E1 E2]. rewrite E1, E2. cbv zeta.
  destruct (writes_init (data_pieces f) out max H1 H2) as [_ HW]. cbv zeta in HW. rewrite HL in HW.
  replace (Z.of_nat (body_len f + 4) <=? max) with true in HW by lia. destruct HW as (W1 & W2 & W3).
  unfold Stream_error, Stream_tell. rewrite W1, W2, W3.
  split; [reflexivity|]. 
  assert (pr_offOpts (Frame_putData f out max) = 8 /\
    pr_offData (Frame_putData f out max) = match fd_data f with Some _ => 9 + Z.of_nat (length (fd_opts f)) | None => 0 end) as [O1 O2].
  { unfold Frame_putData.
    set (a := [[u8 (Z.shiftl (ft_code (fd_type f)) 5)]; le32 (fd_devAddr f); [u8 (fctrl f)]; le16 (fd_counter f)]).
    assert (Ha : Z.of_nat (length (concat a)) = 8) by reflexivity.
    assert (Hs : putU16 (putU8 (putU32 (putU8 (Stream_init out max)
               (Z.shiftl (ft_code (fd_type f)) 5)) (fd_devAddr f)) (fctrl f)) (fd_counter f)
            = writes (Stream_init out max) a) by reflexivity.
    rewrite Hs.
    assert (Hl : 8 + Z.of_nat (length (fd_opts f)) <= max /\
      match fd_data f with Some _ => 9 + Z.of_nat (length (fd_opts f)) <= max | None => True end)
      by (unfold body_len in H3; destruct (fd_data f); lia).
    assert (Hp : st_pos (writes (Stream_init out max) a) = 8).
    { destruct (writes_init a out max H1 H2) as [_ H]. rewrite Ha in H.
      replace (8 <=? max) with true in H by lia. tauto. }
    assert (Hq : fst (Stream_write (writes (Stream_init out max) a) (opts_sent f))
              = writes (Stream_init out max) (a ++ [fd_opts f])).
    { unfold writes. rewrite fold_left_app. cbn [fold_left]. now rewrite OS. }
    rewrite Hq.
    destruct (fd_data f) as [d|]; cbn [pr_offOpts pr_offData]; unfold Stream_tell; rewrite Hp; split; auto.
    assert (Hr : putU8 (writes (Stream_init out max) (a ++ [fd_opts f])) (fd_port f)
       = writes (Stream_init out max) (a ++ [fd_opts f] ++ [[u8 (fd_port f)]])).
    { unfold writes. rewrite !fold_left_app. reflexivity. }
    rewrite Hr.
    destruct (writes_init (a ++ [fd_opts f] ++ [[u8 (fd_port f)]]) out max H1 H2) as [_ H].
    assert (Hc : Z.of_nat (length (concat (a ++ [fd_opts f] ++ [[u8 (fd_port f)]]))) = 9 + Z.of_nat (length (fd_opts f))).
    { rewrite !concat_app, !app_length. cbn [concat]. rewrite !app_length. cbn [length].
      change (length (concat a)) with 8%nat. lia. }
    rewrite Hc in H. replace (9 + Z.of_nat (length (fd_opts f)) <=? max) with true in H by lia. tauto. }
  split; [exact O1|]. split; [exact O2|].
  replace (length (concat (data_pieces f))) with (body_len f + 4)%nat by lia.
  unfold data_pieces, data_hdr. rewrite OS, !le32_le, le16_le.
  rewrite !concat_app. destruct (fd_data f); cbn [concat app]; rewrite <- ?app_assoc, ?app_nil_r; cbn [app]; rewrite <- ?app_assoc; reflexivity.
Qed.

Lemma prepareData_layout c x f b : in_place c -> (length (fd_opts f) <= 15)%nat -> length b = 255%nat -> (body_len f + 4 <= 255)%nat ->
  prepareData c x f b LDL_MAX_PACKET =
    (data_body c x f ++ le 4 (fd_mic f) ++ skipn (body_len f + 4) b, Z.of_nat (body_len f + 4)).
Proof.
  intros HP Ho Hb Hl. unfold prepareData.
  destruct (putData_clear f b LDL_MAX_PACKET Ho) as (E1 & E2 & E3 & E4); try (unfold LDL_MAX_PACKET; lia). cbv zeta in *.
  rewrite E1, E2, E3, E4. clear E1 E2 E3 E4.
  replace (Z.of_nat (body_len f + 4) >? 0) with true by (unfold body_len; lia).
  set (tail := le 4 (fd_mic f) ++ skipn (body_len f + 4) b). 
  f_equal. unfold data_body.
  set (iv1 := if c_errata c then initA 1 (fd_devAddr f) true (fd_counter f) 1 else initA 0 (fd_devAddr f) true (fd_counter f) 0).
  set (pay := match fd_data f with Some d => [u8 (fd_port f)] ++ d | None => [] end).
  assert ((if is_1_1 (c_l2 c) && (sess_version c (m_ctx x) =? 1)
     then ctr_at c x KEY_NWKSENC iv1 8 (Z.of_nat (length (fd_opts f))) (data_hdr f ++ fd_opts f ++ pay ++ tail)
     else data_hdr f ++ fd_opts f ++ pay ++ tail) = data_hdr f ++ sent_opts c x f ++ pay ++ tail) as ->.
  { unfold sent_opts. destruct (_ && _); [|reflexivity]. unfold ctr_at. rewrite Nat2Z.id.
    change (Z.to_nat 8) with (length (data_hdr f)). rewrite slice_app_exact, slice_app_l by reflexivity.
    apply splice_app. symmetry. apply HP. }
  pose proof (sent_opts_length c x f HP) as LO.
  unfold ctr_at, data_len, sent_payload, pay. destruct (fd_data f) as [d|].
  - rewrite Nat2Z.id. replace (Z.to_nat (9 + Z.of_nat (length (fd_opts f)))) with (length (data_hdr f ++ sent_opts c x f ++ [u8 (fd_port f)])).
    2: { rewrite !app_length, data_hdr_length, LO. cbn [length]. lia. }
    replace (data_hdr f ++ sent_opts c x f ++ ([u8 (fd_port f)] ++ d) ++ tail)
      with ((data_hdr f ++ sent_opts c x f ++ [u8 (fd_port f)]) ++ d ++ tail) by (rewrite <- !app_assoc; reflexivity).
    rewrite slice_app_exact, slice_app_l by reflexivity. rewrite splice_app by (symmetry; apply HP).
    rewrite <- !app_assoc. reflexivity.
  - change (Z.to_nat 0) with 0%nat. 
    assert (forall iv k l, splice l 0 (c_ctr c (m_sm x) k iv (slice l 0 0)) = l) as HS.
    { intros iv k l. assert (c_ctr c (m_sm x) k iv (slice l 0 0) = []) as ->; [|reflexivity].
      apply length_zero_iff_nil. rewrite (proj1 HP). reflexivity. }
    rewrite HS. rewrite <- !app_assoc. reflexivity.
Qed.

(* the integrity code the MAC computes for a body *)
Definition mic_word (c : cfg) (m : mac) (body : bytes) : Z :=
  let x := m_ctx m in
  let tx := m_tx m in
  let n := u8 (Z.of_nat (length body)) in
  let micF := c_mic c (m_sm m) KEY_FNWKSINT (initB 0 0 0 true (s_devAddr x) (tx_counter tx) n) body in
  if sess_version c x =? 1 then
    let micS := c_mic c (m_sm m) KEY_SNWKSINT (initB 0 (tx_rate tx) (tx_chIndex tx) true (s_devAddr x) (tx_counter tx) n) body in
    Z.lor (u32 (Z.shiftl micF 16)) (Z.land micS 0xffff)
  else micF.

Lemma micData_layout c m body mic rest : m_buffer m = body ++ le 4 mic ++ rest -> m_bufferLen m = Z.of_nat (length body + 4) ->
  (0 < length body)%nat -> (length body + 4 <= 255)%nat ->
  micDataFrame c m = set_m_buffer (body ++ le 4 (mic_word c m body) ++ rest) m.
Proof.
  intros Hb Hl H1 H2. unfold micDataFrame. cbv zeta. f_equal.
  rewrite Hl. replace (Z.of_nat (length body + 4) - 4) with (Z.of_nat (length body)) by lia.
  rewrite (u8_id (Z.of_nat (length body))) by lia. rewrite Nat2Z.id, Hb.
  rewrite (slice_app_l body) by reflexivity.
  rewrite updateMIC_spec by (rewrite ?app_length, ?le_length; lia).
  replace (Z.to_nat (Z.of_nat (length body + 4) - 4)) with (length body) by lia.
  rewrite splice_app by reflexivity. unfold mic_word. rewrite u8_id by lia. reflexivity.
Qed.

Lemma frame_of_layout m a rest : m_buffer m = a ++ rest -> m_bufferLen m = Z.of_nat (length a) -> frame_of m = a.
Proof. intros E1 E2. unfold frame_of. rewrite E1, E2, Nat2Z.id. apply slice_app_l. reflexivity. Qed.

(* the frame made for an accepted request, and its fields *)
Lemma data_filled_layout c f x : in_place c -> (length (fd_opts f) <= 15)%nat -> length (m_buffer x) = 255%nat ->
  (body_len f + 4 <= 255)%nat ->
  let y := data_filled c f x in
  let body := data_body c x f in
  y = set_m_buffer (body ++ le 4 (mic_word c x body) ++ skipn (body_len f + 4) (m_buffer x))
        (set_m_bufferLen (Z.of_nat (body_len f + 4)) x).
Proof.
  intros HP Ho Hb Hl. cbv zeta. unfold data_filled. rewrite prepareData_layout by assumption. cbn [fst snd].
  set (body := data_body c x f). assert (length body = body_len f) as LB by now apply data_body_length.
  assert (8 <= length body)%nat by (rewrite LB; unfold body_len; lia).
  rewrite (micData_layout c _ body (fd_mic f) (skipn (body_len f + 4) (m_buffer x))); [reflexivity|reflexivity| |lia|lia].
  rewrite LB. reflexivity.
Qed.

Lemma mtu_bound r rate : rate_mtu r rate <= 250.
Proof.
  unfold rate_mtu, convertRate. destruct r; repeat (match goal with |- context [match ?z with _ => _ end] => is_var z; destruct z end);
  cbn [snd]; lia.
Qed.

Lemma compose_size cf port data mtu macs f g op st :
  compose cf port data mtu macs f = (g, op, st) -> fd_opts f = [] -> mtu <= 250 -> (length macs <= 30)%nat ->
  (length (fd_opts g) <= 15)%nat /\ (body_len g + 4 <= 255)%nat /\ fd_devAddr g = fd_devAddr f /\ fd_counter g = fd_counter f /\
  (fd_type g = FT_UNCONF_UP \/ fd_type g = FT_CONF_UP).
Proof.
  intros H Hf Hm Hl. unfold compose in H. unfold Frame_dataOverhead in H.
  destruct (Z.of_nat (length macs) >? 15) eqn:E.
  - injection H as <- <- <-. unfold body_len. cbn. repeat split; auto; lia.
  - destruct (_ >? mtu) eqn:E2; injection H as <- <- <-; unfold body_len; cbn [fd_opts fd_data fd_devAddr fd_counter fd_type].
    + repeat split; auto; lia.
    + repeat split; auto; [lia| |destruct cf; auto]. destruct data as [d|]; lia.
Qed.
