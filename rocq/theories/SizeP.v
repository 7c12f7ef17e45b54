(* The size of the frames handed to the radio. *)
From Verif Require Import Lib StreamM FrameM CommandsM RegionM RadioM SmM MacStateM MacTac MacUtilM OpsM MacCmdM MacProcM MacApiM MacRw SpecRegion SpecChan SpecValid SpecSize CoreP CaseP RxP SpecHist SpecSend HistP EndP TxP UplinkP AnswerP ReadyP DataP AcceptP CtxP DownP ValidP SentP ChoiceP RegionP.

Lemma rate_room r rate : uplink_rate r rate -> max_frame r (rate_bw r rate) (rate_sf r rate) = rate_mtu r rate + 5.
Proof.
  intros H. assert (0 <= rate <= 15) as B by (unfold uplink_rate in H; destruct r; lia).
  assert (forall b sf m, convertRate r rate = (sf, b, m) -> max_frame r b sf = m + 5) as G.
  { intros b sf m E. assert (In rate (map Z.of_nat (seq 0 16))) as I by (apply in_map_iff; exists (Z.to_nat rate); split; [lia|apply in_seq; lia]).
    unfold uplink_rate in H. clear B. destruct r; cbn in I; repeat (destruct I as [I|I]; [subst rate; cbn in E; injection E as <- <- <-; try reflexivity; try lia|]); destruct I. }
  unfold rate_bw, rate_sf, rate_mtu. destruct (convertRate r rate) as [[sf b] m] eqn:E. cbn [fst snd]. apply G. reflexivity.
Qed.

Lemma compose_long cf port data mtu macs f g op st :
  compose cf port data mtu macs f = (g, op, st) -> (length macs <= 30)%nat -> len_of data + Frame_dataOverhead <= mtu ->
  (st = STATUS_OK -> Z.of_nat (body_len g + 4) <= mtu + 5) /\ (body_len g + 4 <= 43)%nat \/ st = STATUS_OK /\ Z.of_nat (body_len g + 4) <= mtu + 5.
Proof.
  intros H Hl Hd. unfold compose in H. unfold Frame_dataOverhead in *.
  destruct (Z.of_nat (length macs) >? 15) eqn:E.
  - left. injection H as <- <- <-. unfold body_len. cbn. split; [discriminate|lia].
  - destruct (_ >? mtu) eqn:E2; injection H as <- <- <-; unfold body_len; cbn [fd_opts fd_data fd_devAddr fd_counter fd_type].
    + left. split; [discriminate|lia].
    + right. split; [reflexivity|]. destruct data as [d|]; unfold len_of in Hd; lia.
Qed.

(* the frame of an accepted request *)
Lemma request_size c e m cf port d o : in_place c -> ready c m ->
  let k := C_data cf port d o in let m' := fst (step c e k m) in
  starts (IReq k (snd (step c e k m))) = Some KData ->
  (snd (step c e k m) = RStatus STATUS_OK -> m_bufferLen m' <= rate_mtu (s_region (m_ctx m)) (s_rate (m_ctx m)) + 5) /\
  (snd (step c e k m) <> RStatus STATUS_OK -> m_bufferLen m' <= 43).
Proof.
  intros IP R k m' ST. destruct (step_cases c e k m) as (m1 & m2 & _ & A & Q2 & E1). assert (m1 = m) as -> by (apply E1; discriminate). fold m' in Q2.
  destruct Q2 as [[C2 _] _]. destruct (act_data_inv _ _ _ _ _ _ _ _ _ A ST) as (tx & f & op & st & ES & _ & _ & _ & _ & _ & DL & CO & C). clear A E1.
  rewrite ES. assert (length (mac_bytes (mac_commands c (m_ctx m) (opts_of o))) <= 30)%nat as MB.
  { destruct (mac_commands_spec c (m_ctx m) (opts_of o)) as (_ & _ & _ & H). destruct (is_1_1 (c_l2 c)); lia. }
  destruct (compose_size _ _ _ _ _ _ _ _ _ CO eq_refl (mtu_bound _ _) MB) as (LO & BL & _).
  pose proof (compose_long _ _ _ _ _ _ _ _ _ CO MB DL) as CL. clear CO.
  assert (m_bufferLen m' = Z.of_nat (body_len f + 4)) as EB.
  { pose proof (core_send _ _ C2) as (_ & _ & B1 & _). pose proof (core_send _ _ C) as (_ & _ & B2 & _). rewrite B1, B2. clear - IP R LO BL.
    set (x := data_base c o tx op m). assert (m_buffer x = m_buffer m) as X1 by reflexivity. clearbody x.
    rewrite data_filled_layout; [reflexivity|assumption|assumption|rewrite X1; apply R|exact BL]. }
  rewrite EB. split; intros HS.
  - injection HS as ->. destruct CL as [[H _]|[_ H]]; [apply H; reflexivity|exact H].
  - destruct CL as [[_ H]|[H _]]; [lia|subst st; congruence].
Qed.

Lemma small_rates r rate : uplink_rate r rate -> (r = US_902_928 /\ rate = 0) \/ 43 <= rate_mtu r rate + 5.
Proof.
  unfold uplink_rate. intros H. assert (0 <= rate <= 15) as B by (destruct r; lia).
  assert (In rate (map Z.of_nat (seq 0 16))) as I by (apply in_map_iff; exists (Z.to_nat rate); split; [lia|apply in_seq; lia]).
  clear B H. destruct r; cbn in I; repeat (destruct I as [I|I]; [subst rate; try (left; split; reflexivity); right; cbn; lia|]); destruct I.
Qed.

Lemma frame_length c m : ready c m -> is_data (m_op m) = true -> Z.of_nat (length (frame_of m)) = m_bufferLen m.
Proof.
  intros (L & _ & _ & _ & HD & _) D. destruct (HD D) as (body & rest & B & BL & _ & B2 & _).
  unfold frame_of, slice. cbn [skipn]. rewrite firstn_length, L, BL. lia.
Qed.

Lemma data_size_rate c r a e0 h f bw sf p fr : in_place c -> arg_ok a -> valid_start r (ia_session a) ->
  Forall (fun x => power_arg (snd x)) h -> Forall rand_ok h ->
  In (OTransmit f bw sf p fr) (m_log (run c h (MAC_init c r a e0))) -> is_data_frame fr = true ->
  exists h1 e cf port d o h2, h = h1 ++ (e, C_data cf port d o) :: h2 /\
    let m := run c h1 (MAC_init c r a e0) in let rate := s_rate (m_ctx m) in
    let ok := snd (step c e (C_data cf port d o) m) = RStatus STATUS_OK in
    starts (IReq (C_data cf port d o) (snd (step c e (C_data cf port d o) m))) = Some KData /\
    (ok -> Z.of_nat (length fr) <= rate_mtu r rate + 5) /\ (~ ok -> Z.of_nat (length fr) <= 43) /\
    exists ch lo hi, open_channel m 0 ch /\ getChannel (m_ctx m) ch = Some (f, lo, hi) /\
      uplink_rate r rate /\ (lo <= hi -> exists x, bw = rate_bw r x /\ sf = rate_sf r x /\ lo <= x <= hi /\
        forall y, lo <= y <= hi -> Z.abs (x - rate) <= Z.abs (y - rate)).
Proof.
  intros IP OK V PA RA I F. destruct (data_sent_prefix _ _ _ _ _ _ _ _ _ _ IP OK V PA I F) as (h1 & e & k & h2 & e' & h3 & E & SD & T).
  destruct SD as ((cf & port & d & o & -> & _) & ST & _ & SS & DA & _). exists h1, e, cf, port, d, o, (h2 ++ (e', C_process) :: h3). split; [exact E|].
  set (m := run c h1 (MAC_init c r a e0)) in *. cbv zeta. split; [exact ST|].
  rewrite E in PA, RA. apply Forall_app in PA. apply Forall_app in RA. destruct RA as [_ RA]. inversion RA as [|x y RK _]; subst x y.
  destruct (start_facts c r a e0 h1 IP OK V (proj1 PA)) as (S0 & R0 & VS). fold m in S0, R0, VS.
  destruct (request_size c e m cf port d o IP R0 ST) as [Z1 Z2].
  destruct (accepted_choice c e m cf port d o (valid_room _ _ VS) RK ST) as (G & [OC _] & (_ & f0 & lo & hi & GC & EF & RT) & RG).
  set (m' := fst (step c e (C_data cf port d o) m)) in *. set (m2 := run c h2 m') in *.
  assert (s_region (m_ctx m) = r) as RM by exact (proj1 VS). rewrite RM in Z1.
  assert (Z.of_nat (length fr) = m_bufferLen m') as LF.
  { destruct (ready_always c [(e, C_data cf port d o)] m IP S0 R0) as [S1 R1]. cbn [run] in S1, R1. fold m' in S1, R1.
    rewrite <- (frame_length c m' R1 DA). destruct SS as (_ & SF & _).
    assert (fr = frame_of m2) as -> by (unfold transmit_of in T; cbv zeta in T; unfold frame_of; congruence). rewrite SF. reflexivity. }
  rewrite LF. split; [exact Z1|]. split; [exact Z2|].
  destruct SS as (_ & _ & _ & S1 & _ & S2 & _ & _ & _ & _ & S3 & _).
  assert (s_region (m_ctx m2) = r) as RR by (rewrite S3, RG; exact (proj1 VS)).
  unfold transmit_of in T. cbv zeta in T. rewrite S1, S2, RR, EF in T.
  exists (tx_chIndex (m_tx m')), lo, hi. split; [exact OC|]. split; [assert (f = f0) as -> by congruence; exact GC|].
  split; [destruct VS as (_ & _ & U & _); exact U|].
  intros LH. exists (tx_rate (m_tx m')). split; [congruence|]. split; [congruence|]. exact (RT LH).
Qed.

Lemma fixed_lohi r ch f lo hi : fixed_channel r ch = Some (f, lo, hi) -> lo <= hi.
Proof.
  intros H. destruct r; cbn [fixed_channel] in H; try discriminate H; (destruct (ch <? 64); [|destruct (ch <? 72); [|discriminate H]]);
  apply some3_inj in H; destruct H as (_ & <- & <-); lia.
Qed.
Lemma fixed_some r ch : isDynamic r = false -> 0 <= ch < 72 -> fixed_channel r ch <> None.
Proof.
  intros D H. destruct r; try discriminate D; cbn [fixed_channel]; (destruct (ch <? 64); [discriminate|]); (destruct (ch <? 72) eqn:E2; [discriminate|lia]).
Qed.

Lemma fixed_room r ch f lo hi rate x : isDynamic r = false -> 0 <= ch -> fixed_channel r ch = Some (f, lo, hi) -> uplink_rate r rate -> lo <= x <= hi ->
  (forall y, lo <= y <= hi -> Z.abs (x - rate) <= Z.abs (y - rate)) -> max_frame r (rate_bw r rate) (rate_sf r rate) <= max_frame r (rate_bw r x) (rate_sf r x).
Proof.
  intros D CH FC U X N. specialize (N (Z.max lo (Z.min hi rate))).
  assert ((lo = 0 /\ hi = match r with US_902_928 => 3 | _ => 5 end) \/ (lo = hi /\ hi = match r with US_902_928 => 4 | _ => 6 end)) as K.
  { destruct r; try discriminate D; cbn [fixed_channel] in FC; (destruct (ch <? 64); [|destruct (ch <? 72); [|discriminate FC]]); apply some3_inj in FC; lia. }
  destruct K as [[-> ->]|[-> ->]]; destruct r; try discriminate D; cbn [uplink_rate] in U.
  - assert (x = Z.min 3 rate) as -> by lia. assert (rate = 0 \/ rate = 1 \/ rate = 2 \/ rate = 3 \/ rate = 4) as [->|[->|[->|[->| ->]]]] by lia; vm_compute; discriminate.
  - assert (x = Z.min 5 rate) as -> by lia. assert (rate = 0 \/ rate = 1 \/ rate = 2 \/ rate = 3 \/ rate = 4 \/ rate = 5 \/ rate = 6) as [->|[->|[->|[->|[->|[->| ->]]]]]] by lia; vm_compute; discriminate.
  - assert (x = 4) as -> by lia. assert (rate = 0 \/ rate = 1 \/ rate = 2 \/ rate = 3 \/ rate = 4) as [->|[->|[->|[->| ->]]]] by lia; vm_compute; discriminate.
  - assert (x = 6) as -> by lia. assert (rate = 0 \/ rate = 1 \/ rate = 2 \/ rate = 3 \/ rate = 4 \/ rate = 5 \/ rate = 6) as [->|[->|[->|[->|[->|[->| ->]]]]]] by lia; vm_compute; discriminate.
Qed.

Theorem data_size c r a e0 h f bw sf p fr : in_place c -> arg_ok a -> valid_start r (ia_session a) ->
  Forall (fun x => power_arg (snd x)) h -> Forall rand_ok h ->
  In (OTransmit f bw sf p fr) (m_log (run c h (MAC_init c r a e0))) -> is_data_frame fr = true ->
  exists h1 e cf port d o h2, h = h1 ++ (e, C_data cf port d o) :: h2 /\
    let m := run c h1 (MAC_init c r a e0) in let rate := s_rate (m_ctx m) in
    let ok := snd (step c e (C_data cf port d o) m) = RStatus STATUS_OK in
    starts (IReq (C_data cf port d o) (snd (step c e (C_data cf port d o) m))) = Some KData /\
    (ok -> Z.of_nat (length fr) <= rate_mtu r rate + 5) /\ (~ ok -> Z.of_nat (length fr) <= 43) /\
    exists ch lo hi, getChannel (m_ctx m) ch = Some (f, lo, hi) /\
      (isDynamic r = false \/ lo <= rate <= hi -> ok \/ r <> US_902_928 \/ rate <> 0 -> Z.of_nat (length fr) <= max_frame r bw sf).
Proof.
  intros IP OK V PA RA I F. destruct (data_size_rate c r a e0 h f bw sf p fr IP OK V PA RA I F) as (h1 & e & cf & port & d & o & h2 & E & ST & Z1 & Z2 & ch & lo & hi & OC & GC & U & RT).
  exists h1, e, cf, port, d, o, h2. split; [exact E|]. cbv zeta. split; [exact ST|]. split; [exact Z1|]. split; [exact Z2|].
  exists ch, lo, hi. split; [exact GC|]. intros LH NB. set (m := run c h1 (MAC_init c r a e0)) in *.
  assert (s_region (m_ctx m) = r) as RM. { rewrite E in PA. apply Forall_app in PA. destruct (start_facts c r a e0 h1 IP OK V (proj1 PA)) as (_ & _ & VS). exact (proj1 VS). }
  assert (Z.of_nat (length fr) <= max_frame r (rate_bw r (s_rate (m_ctx m))) (rate_sf r (s_rate (m_ctx m)))) as FIT.
  { rewrite (rate_room _ _ U).
    assert (snd (step c e (C_data cf port d o) m) = RStatus STATUS_OK \/ snd (step c e (C_data cf port d o) m) <> RStatus STATUS_OK) as [O|O].
    { destruct (snd (step c e (C_data cf port d o) m)) as [|s|]; [right; discriminate|destruct s; [left; reflexivity|right; discriminate..]|right; discriminate]. }
    - apply Z1. exact O.
    - specialize (Z2 O). destruct (small_rates _ _ U) as [[-> EZ]|W]; [|lia]. exfalso. destruct NB as [NB|[NB|NB]]; [exact (O NB)|exact (NB eq_refl)|exact (NB EZ)]. }
  destruct (isDynamic r) eqn:D.
  - destruct LH as [LH|LH]; [discriminate LH|]. destruct (RT ltac:(lia)) as (x & -> & -> & X & N). specialize (N _ LH).
    assert (x = s_rate (m_ctx m)) as -> by lia. exact FIT.
  - unfold getChannel in GC. rewrite RM, D in GC. assert (0 <= ch < 72) as CH. { destruct OC as (CH & _). fold m in CH. rewrite RM in CH. destruct r; try discriminate D; exact CH. }
    rewrite fixed_spec in GC by lia. 
    destruct (RT (fixed_lohi _ _ _ _ _ GC)) as (x & -> & -> & X & N). pose proof (fixed_room _ _ _ _ _ _ _ D (proj1 CH) GC U X N). lia.
Qed.

Theorem join_size c r a e0 h f bw sf p fr : in_place c -> arg_ok a ->
  In (OTransmit f bw sf p fr) (m_log (run c h (MAC_init c r a e0))) -> is_data_frame fr = false -> length fr = 23%nat.
Proof.
  intros IP OK I F. destruct (run_split_log _ _ _ _ I) as [X|(h0 & e' & k' & h3 & E & X)]; [rewrite init_log in X; destruct X|].
  destruct (ready_always c h0 (MAC_init c r a e0) IP (init_so c r a e0 []) (ready_init c r a e0 OK)) as [S R]. set (m := run c h0 (MAC_init c r a e0)) in *.
  destruct (step_tx c e' k' m S) as [N|(l1 & l2 & EL & P1 & P2 & EK & ST & SS & _)]; [now apply no_tx_in in X|].
  rewrite EL in X. apply in_app_or in X. destruct X as [X|X]; [now apply no_tx_in in X|]. apply in_app_or in X. destruct X as [[X|[]]|X]; [|now apply no_tx_in in X].
  assert (fr = frame_of m) as EF by (unfold transmit_of in X; cbv zeta in X; unfold frame_of; congruence). rewrite EF in *.
  rewrite ST in S. destruct R as (L & J & D & _ & HD & HJ). destruct (m_op m) eqn:O; try discriminate S.
  1: destruct (HJ eq_refl) as (n & mic & rest & _ & BL & _); unfold frame_of, slice; cbn [skipn]; rewrite firstn_length, L, BL; reflexivity.
  all: destruct (HD eq_refl) as (body & rest & B); destruct (frame_data_kind _ _ _ _ B) as (_ & K & _); congruence.
Qed.

Theorem join_size_max c r a e0 h f bw sf p fr : in_place c -> arg_ok a ->
  In (OTransmit f bw sf p fr) (m_log (run c h (MAC_init c r a e0))) -> is_data_frame fr = false ->
  Z.of_nat (length fr) = 23 /\ Z.of_nat (length fr) <= max_frame r bw sf.
Proof.
  intros IP OK I F. rewrite (join_size c r a e0 h f bw sf p fr IP OK I F). split; [reflexivity|].
  unfold max_frame, max_mac_payload. destruct r, bw; try lia; repeat destruct (_ <=? _); repeat destruct (_ =? _); lia.
Qed.
