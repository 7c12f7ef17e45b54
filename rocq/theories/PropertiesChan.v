(* C18, C19, C27, C28, C32, C50: channels, repetitions, frame sizes and settings. *)
From Verif Require Import Lib FrameM CommandsM RegionM RadioM SmM MacStateM MacUtilM OpsM MacCmdM MacProcM MacApiM Scenario SpecRegion SpecHist SpecChan SpecValid SpecSize SpecSend.
From Verif Require ChoiceP JoinChanP TriesP SizeP ValidP.

Lemma arg0_ok so : arg_ok (arg0 so).
Proof. unfold arg_ok, eui_ok, bytes_ok. repeat split; try (cbn; lia); repeat constructor; lia. Qed.

Definition cfg4 : cfg := toy_cfg L2_1_0_4.
Definition eu : mac := MAC_init cfg4 EU_863_870 (arg0 None) (at_t 0).
Lemma cfg4_in_place : in_place cfg4. Proof. split; [reflexivity|auto]. Qed.

(* the device has joined and its off-time has passed; a request that may be
   sent twice; its frame is sent *)
Definition ask (n : Z) (d : bytes) : call := C_data false 1 (Some d) (Some (mkOpts n false false)).
Definition h_clear : history := h_toy_join ++ [P 8100; P 3000000].
Definition h_sent : history := h_clear ++ [(at_t 3000000, ask 2 [1;2;3]); P 3000000; P 3000025].
Definition h_done : history := h_sent ++ [(tx_at 3001025, C_radioEvent 3001025); (tx_at 3001025, C_process)].
(* nothing is heard, up to the start of the second transmission *)
Definition h_unheard : history := h_done ++
  [P 3002025; P 3002025; (timeout_at 3002100, C_radioEvent 3002100); (timeout_at 3002100, C_process);
   P 3003025; P 3003025; (timeout_at 3003100, C_radioEvent 3003100); (timeout_at 3003100, C_process); P 3003500; P 3003500].
(* the second transmission, nothing heard, and the off-time passes *)
Definition h_twice : history := h_unheard ++
  [P 3003525; (tx_at 3003600, C_radioEvent 3003600); (tx_at 3003600, C_process);
   P 3004600; P 3004600; (timeout_at 3004700, C_radioEvent 3004700); (timeout_at 3004700, C_process);
   P 3005600; P 3005600; (timeout_at 3005700, C_radioEvent 3005700); (timeout_at 3005700, C_process); P 3006500; P 4000000].
Definition at_h (h : history) : mac := run cfg4 h eu.

Lemma power_args (h : history) : forallb (fun x => match snd x with C_setPower _ => false | _ => true end) h = true -> Forall (fun x => power_arg (snd x)) h.
Proof. intros H. apply Forall_forall. intros [e k] I. rewrite forallb_forall in H. specialize (H _ I). cbn [snd] in *. destruct k; cbn; try exact Logic.I. discriminate H. Qed.

(* --- C18 ------------------------------------------------------------------------- *)

(* every data frame is sent on the channel and at the rate chosen when its
   request was accepted: the global off-time was then clear, and the channel
   was defined, not masked, and its sub-band clear *)
Theorem C18_data_channel_partial : forall c r a e0 h f bw sf p fr, in_place c -> arg_ok a -> valid_start r (ia_session a) ->
  Forall (fun x => power_arg (snd x)) h -> Forall rand_ok h ->
  In (OTransmit f bw sf p fr) (m_log (run c h (MAC_init c r a e0))) -> is_data_frame fr = true ->
  exists h1 e cf port d o h2, h = h1 ++ (e, C_data cf port d o) :: h2 /\
    let m := run c h1 (MAC_init c r a e0) in
    starts (IReq (C_data cf port d o) (snd (step c e (C_data cf port d o) m))) = Some KData /\
    band_global m = 0 /\ exists ch lo hi, open_channel m 0 ch /\ getChannel (m_ctx m) ch = Some (f, lo, hi) /\
      (lo <= hi -> exists rate, lo <= rate <= hi /\ bw = rate_bw r rate /\ sf = rate_sf r rate).
Proof. exact ChoiceP.data_channel. Qed.
Print Assumptions C18_data_channel_partial.

Theorem C18_nochannel_exact : forall c r a e0 h e cf port d o, valid_start r (ia_session a) ->
  Forall (fun x => power_arg (snd x)) h -> 0 <= e_rand e RND_CHANNEL ->
  let m := run c h (MAC_init c r a e0) in
  s_joined (m_ctx m) = true -> m_op m = OP_NONE -> 1 <= port <= 223 ->
  snd (step c e (C_data cf port d o) m) = RStatus STATUS_NOCHANNEL <-> (band_global m <> 0 \/ forall ch, ~ open_channel m 0 ch).
Proof. exact ChoiceP.nochannel_always. Qed.
Print Assumptions C18_nochannel_exact.

(* a join request is given a channel that is open as soon as any *)
Theorem C18_join_channel_partial : forall c r a e0 h e, valid_start r (ia_session a) -> Forall (fun x => power_arg (snd x)) h ->
  0 <= e_rand e RND_CHANNEL -> isDynamic r = true ->
  let m := run c h (MAC_init c r a e0) in let m' := fst (step c e C_otaa m) in let ch := tx_chIndex (m_tx m') in
  (exists x w, open_channel m w x /\ w < UINT32_MAX) -> band_global m < UINT32_MAX -> snd (step c e C_otaa m) = RStatus STATUS_OK ->
  soonest m ch /\ (exists rate, tuned_to (m_ctx m) ch rate (m_tx m')) /\ ((exists x, soonest m x /\ x <> tx_chIndex (m_tx m)) -> ch <> tx_chIndex (m_tx m)).
Proof. exact JoinChanP.join_always. Qed.
Print Assumptions C18_join_channel_partial.

Lemma open_EU m ch f b : s_region (m_ctx m) = EU_863_870 /\ 0 <= ch < 16 /\ Z.testbit (nth (Z.to_nat (ch / 8)) (s_chMask (m_ctx m)) 0) (ch mod 8) = false /\
  getChannel (m_ctx m) ch = Some (f, 0, 5) /\ 0 < f /\ getBand EU_863_870 f = Some b /\ nth (Z.to_nat b) (m_band m) 0 = 0 -> open_channel m 0 ch.
Proof. intros (R & B & M & G & F & N & Z0). unfold open_channel. rewrite R. split; [exact B|]. split; [exact M|]. exists f, 0, 5, b. rewrite Z0. repeat split; try assumption. lia. Qed.


Lemma sent_in f b sf p fr l : existsb (fun o => match o with OTransmit f' b' sf' p' fr' =>
  (f =? f') && (match b, b' with BW_125, BW_125 | BW_250, BW_250 | BW_500, BW_500 => true | _, _ => false end) && (sf =? sf') && (p =? p') && (if list_eq_dec Z.eq_dec fr fr' then true else false) | _ => false end) l = true ->
  In (OTransmit f b sf p fr) l.
Proof.
  intros H. apply existsb_exists in H. destruct H as (o & I & H). destruct o; try discriminate H. destruct (list_eq_dec _ _ _); [|rewrite andb_false_r in H; discriminate H].
  match goal with y : bw |- _ => match y with b => fail 1 | _ => destruct b, y end end; rewrite ?andb_false_r in H; cbn [andb] in H; try discriminate H; rewrite ?andb_true_r in H; rewrite !andb_true_iff, !Z.eqb_eq in H; destruct H as [[H1 H2] H3]; subst; exact I.
Qed.

Definition fr1 : bytes := [64; 218; 27; 1; 38; 128; 0; 0; 1; 1; 2; 3; 1; 2; 3; 4].

Example C18_example :
  (* the three default channels are open; one is used *)
  open_channel (at_h h_clear) 0 0 /\ open_channel (at_h h_clear) 0 1 /\ open_channel (at_h h_clear) 0 2 /\
  snd (step cfg4 (at_t 3000000) (ask 2 [1;2;3]) (at_h h_clear)) = RStatus STATUS_OK /\
  In (OTransmit 868300000 BW_125 7 1600 fr1) (m_log (at_h h_sent)) /\
  (* just after a join none is *)
  snd (step cfg4 (at_t 8100) (ask 2 [1;2;3]) (at_h h_toy_join)) = RStatus STATUS_NOCHANNEL /\
  m_op (at_h h_toy_join) = OP_NONE /\ s_joined (m_ctx (at_h h_toy_join)) = true /\
  (* the channel of a join *)
  snd (step cfg4 (at_t 0) C_otaa eu) = RStatus STATUS_OK /\ band_global eu = 0 /\ open_channel eu 0 0.
Proof.
  split; [apply (open_EU _ 0 868100000 1); vm_compute; repeat split; congruence|]. split; [apply (open_EU _ 1 868300000 1); vm_compute; repeat split; congruence|].
  split; [apply (open_EU _ 2 868500000 1); vm_compute; repeat split; congruence|]. split; [vm_compute; reflexivity|].
  split; [apply sent_in; vm_compute; reflexivity|]. split; [vm_compute; reflexivity|]. split; [vm_compute; reflexivity|]. split; [vm_compute; reflexivity|].
  split; [vm_compute; reflexivity|]. split; [vm_compute; reflexivity|]. apply (open_EU _ 0 868100000 1); vm_compute; repeat split; congruence.
Qed.

(* the second transmission of a request does not wait for the sub-band *)
Theorem C18_repeat_not_clear_refuted :
  exists c r a e0 h e f bw sf p fr b, let m := run c h (MAC_init c r a e0) in let m' := fst (step c e C_process m) in
  in_place c /\ arg_ok a /\ ia_session a = None /\ In (OTransmit f bw sf p fr) (new_out m m') /\ is_data_frame fr = true /\
  getBand r f = Some b /\ 0 < nth (Z.to_nat b) (m_band m') 0.
Proof.
  exists cfg4, EU_863_870, (arg0 None), (at_t 0), h_unheard, (at_t 3003525), 868300000, BW_125, 7, 1600, fr1, 1. cbv zeta.
  split; [exact cfg4_in_place|]. split; [apply arg0_ok|]. split; [reflexivity|]. split; [apply sent_in; vm_compute; reflexivity|]. split; [reflexivity|].
  split; [reflexivity|]. vm_compute. reflexivity.
Qed.
Print Assumptions C18_repeat_not_clear_refuted.

Definition jr (n : Z) : bytes := [0; 8; 7; 6; 5; 4; 3; 2; 1; 2; 3; 4; 5; 6; 7; 8; 9; n; 0; 1; 2; 3; 4].

(* a join request of a region with fixed channels ignores the mask *)
Definition h_us : history := [(at_t 0, C_maskChannel 0)] ++ h_boot ++ [(at_t 30, C_otaa); P 30; P 30].
Theorem C18_masked_join_refuted :
  exists c r a e0 h e f bw sf p fr lo hi, let m := run c h (MAC_init c r a e0) in let m' := fst (step c e C_process m) in
  in_place c /\ arg_ok a /\ ia_session a = None /\ In (OTransmit f bw sf p fr) (new_out m m') /\ is_join_frame fr = true /\
  getChannel (m_ctx m) 0 = Some (f, lo, hi) /\ Z.testbit (nth 0 (s_chMask (m_ctx m)) 0) 0 = true.
Proof.
  exists cfg4, US_902_928, (arg0 None), (at_t 0), h_us, (at_t 55), 902300000, BW_125, 10, 3000, (jr 0), 0, 3. cbv zeta.
  split; [exact cfg4_in_place|]. split; [apply arg0_ok|]. split; [reflexivity|]. split; [apply sent_in; vm_compute; reflexivity|]. split; [reflexivity|].
  vm_compute. auto.
Qed.
Print Assumptions C18_masked_join_refuted.

(* a join request waits for the global off-time only: forget, after an error
   of the radio in the window of a data frame, and join *)
Definition h_back : history := h_done ++ [P 3002025; P 3002025; (at_t 3002100, C_radioEvent 3002100); (at_t 3002100, C_process);
  (at_t 3002100, C_forget); (at_t 3002100, C_otaa); P 3002102; P 3002112; P 3002112; P 3002112].
Theorem C18_join_not_clear_refuted :
  exists c r a e0 h e f bw sf p fr b, let m := run c h (MAC_init c r a e0) in let m' := fst (step c e C_process m) in
  in_place c /\ arg_ok a /\ ia_session a = None /\ In (OTransmit f bw sf p fr) (new_out m m') /\ is_join_frame fr = true /\
  getBand r f = Some b /\ 0 < nth (Z.to_nat b) (m_band m') 0.
Proof.
  exists cfg4, EU_863_870, (arg0 None), (at_t 0), h_back, (at_t 3002140), 868100000, BW_125, 7, 1600, (jr 1), 1. cbv zeta.
  split; [exact cfg4_in_place|]. split; [apply arg0_ok|]. split; [reflexivity|]. split; [apply sent_in; vm_compute; reflexivity|]. split; [reflexivity|].
  split; [reflexivity|]. vm_compute. reflexivity.
Qed.
Print Assumptions C18_join_not_clear_refuted.

(* --- C19 ------------------------------------------------------------------------- *)

(* two requests accepted with none made between them *)
Theorem C19_next_request_partial : forall c r a e0 h1 e1 cf1 p1 d1 o1 h2 e2 cf2 p2 d2 o2, in_place c -> arg_ok a -> valid_start r (ia_session a) ->
  let k1 := C_data cf1 p1 d1 o1 in let k2 := C_data cf2 p2 d2 o2 in
  Forall (fun x => power_arg (snd x)) (h1 ++ (e1, k1) :: h2) -> 0 <= e_rand e2 RND_CHANNEL -> Forall (fun x => no_choice (snd x)) h2 ->
  let m1 := run c h1 (MAC_init c r a e0) in let m1' := fst (step c e1 k1 m1) in
  let m2 := run c h2 m1' in let m2' := fst (step c e2 k2 m2) in
  starts (IReq k1 (snd (step c e1 k1 m1))) = Some KData -> starts (IReq k2 (snd (step c e2 k2 m2))) = Some KData ->
  (exists ch, open_channel m2 0 ch /\ ch <> tx_chIndex (m_tx m1')) -> tx_chIndex (m_tx m2') <> tx_chIndex (m_tx m1').
Proof. exact ChoiceP.next_channel. Qed.
Print Assumptions C19_next_request_partial.

(* any other open channel can be chosen *)
Theorem C19_any_other_partial : forall m rate tx ch, mask_room (m_ctx m) -> open_channel m 0 ch -> ch <> tx_chIndex (m_tx m) ->
  exists rnd, 0 <= rnd < 72 /\ tx_chIndex (fst (selectChannel m rate 0 rnd tx)) = ch /\ snd (selectChannel m rate 0 rnd tx) = true.
Proof. exact ChoiceP.select_other. Qed.
Print Assumptions C19_any_other_partial.

Definition after_first : history := skipn (S (length h_clear)) h_twice.
Example C19_example :
  h_twice = h_clear ++ (at_t 3000000, ask 2 [1;2;3]) :: after_first /\
  Forall (fun x => no_choice (snd x)) after_first /\
  tx_chIndex (m_tx (fst (step cfg4 (at_t 3000000) (ask 2 [1;2;3]) (at_h h_clear)))) = 1 /\
  open_channel (at_h h_twice) 0 0 /\
  starts (IReq (ask 1 [4]) (snd (step cfg4 (at_rnd 4000000 1) (ask 1 [4]) (at_h h_twice)))) = Some KData /\
  tx_chIndex (m_tx (fst (step cfg4 (at_rnd 4000000 1) (ask 1 [4]) (at_h h_twice)))) = 2 /\
  mask_room (m_ctx (at_h h_twice)).
Proof.
  split; [reflexivity|]. split; [unfold after_first; vm_compute; repeat constructor|]. split; [vm_compute; reflexivity|].
  split; [apply (open_EU _ 0 868100000 1); vm_compute; repeat split; congruence|]. split; [vm_compute; reflexivity|]. split; [vm_compute; reflexivity|].
  vm_compute. discriminate.
Qed.

(* a request refused as too long makes the one before it forgotten *)
Definition big : bytes := repeat 0 250.
Theorem C19_after_refusal_refuted :
  exists c r a e0 h k2 e3 k3, let m := run c h (MAC_init c r a e0) in let m' := fst (step c e3 k2 m) in let m'' := fst (step c e3 k3 m') in
  in_place c /\ arg_ok a /\ ia_session a = None /\
  snd (step c e3 k2 m) = RStatus STATUS_SIZE /\ snd (step c e3 k3 m') = RStatus STATUS_OK /\
  (exists ch, open_channel m' 0 ch /\ ch <> tx_chIndex (m_tx m)) /\
  (* the channel of the last frame sent, and of the next *)
  data_count (m_log m) = 2 /\ last (filter sends_data (m_log m)) (OMode MODE_SLEEP) = OTransmit 868300000 BW_125 7 1600 fr1 /\
  tx_freq (m_tx m'') = 868300000.
Proof.
  exists cfg4, EU_863_870, (arg0 None), (at_t 0), h_twice, (ask 1 big), (at_t 4000000), (ask 1 [1]). cbv zeta.
  split; [exact cfg4_in_place|]. split; [apply arg0_ok|]. split; [reflexivity|]. split; [vm_compute; reflexivity|]. split; [vm_compute; reflexivity|].
  split; [exists 2; split; [apply (open_EU _ 2 868500000 1); vm_compute; repeat split; congruence|vm_compute; discriminate]|].
  split; [vm_compute; reflexivity|]. split; vm_compute; reflexivity.
Qed.
Print Assumptions C19_after_refusal_refuted.

(* the repetitions of a frame are all sent on one channel *)
Theorem C19_repeat_same_channel_refuted :
  exists c r a e0 h, let m := run c h (MAC_init c r a e0) in
  in_place c /\ arg_ok a /\ ia_session a = None /\
  (exists ch, open_channel m 0 ch /\ ch <> tx_chIndex (m_tx m)) /\
  filter sends_data (m_log m) = [OTransmit 868300000 BW_125 7 1600 fr1; OTransmit 868300000 BW_125 7 1600 fr1].
Proof.
  exists cfg4, EU_863_870, (arg0 None), (at_t 0), h_twice. cbv zeta. split; [exact cfg4_in_place|]. split; [apply arg0_ok|]. split; [reflexivity|].
  split; [exists 2; split; [apply (open_EU _ 2 868500000 1); vm_compute; repeat split; congruence|vm_compute; discriminate]|]. vm_compute. reflexivity.
Qed.
Print Assumptions C19_repeat_same_channel_refuted.

(* --- C27 ------------------------------------------------------------------------- *)

(* after an accepted request, and until another is accepted *)
Theorem C27_tries : forall c r a e0 h1 e cf port d o h2, in_place c -> arg_ok a -> valid_start r (ia_session a) ->
  let k := C_data cf port d o in
  Forall (fun x => power_arg (snd x)) (h1 ++ (e, k) :: h2) ->
  let m1 := run c h1 (MAC_init c r a e0) in let m1' := fst (step c e k m1) in
  starts (IReq k (snd (step c e k m1))) = Some KData ->
  accepted (items c h2 m1') = 0 ->
  1 <= redundancy o (m_ctx m1) <= 15 /\ data_count (outs (items c h2 m1')) <= redundancy o (m_ctx m1).
Proof. exact TriesP.tries_bound. Qed.
Print Assumptions C27_tries.

Theorem C27_acknowledged : forall c r a e0 h e buf f h2, in_place c -> arg_ok a ->
  let m := run c h (MAC_init c r a e0) in let m' := fst (step c e C_process m) in
  m_op m = OP_DATA_CONFIRMED -> m_state m = ST_RX1 \/ m_state m = ST_RX2 -> inputPending m = true -> e_st_rx e = true ->
  receiveFrame c m (rx_buffer e) (rx_len e) = (buf, Some f) -> dn_type f = FT_CONF_DOWN \/ dn_type f = FT_UNCONF_DOWN -> dn_ack f = true ->
  accepted (items c h2 m') = 0 ->
  In (OEvent EV_DATA_COMPLETE) (new_out m m') /\ data_count (new_out m m') = 0 /\ data_count (outs (items c h2 m')) = 0.
Proof. exact TriesP.acked_stops_at. Qed.
Print Assumptions C27_acknowledged.

(* the bound is met; and an acknowledged request *)
Definition ask_conf : call := C_data true 1 (Some [1]) (Some (mkOpts 3 false false)).
Definition h_conf : history := h_clear ++ [(at_t 3000000, ask_conf); P 3000000; P 3000025;
  (tx_at 3001025, C_radioEvent 3001025); (tx_at 3001025, C_process); P 3002025; P 3002025].
Definition ack : bytes := [0x60; 0xda; 0x1b; 0x01; 0x26; 0x20; 0; 0; 1; 2; 3; 4].
Definition m_conf : mac := fst (step cfg4 (rx_at 3002100 ack) (C_radioEvent 3002100) (at_h h_conf)).
Example C27_example :
  data_count (outs (items cfg4 after_first (fst (step cfg4 (at_t 3000000) (ask 2 [1;2;3]) (at_h h_clear))))) = 2 /\
  redundancy (Some (mkOpts 2 false false)) (m_ctx (at_h h_clear)) = 2 /\
  accepted (items cfg4 after_first (fst (step cfg4 (at_t 3000000) (ask 2 [1;2;3]) (at_h h_clear)))) = 0 /\
  m_op m_conf = OP_DATA_CONFIRMED /\ m_state m_conf = ST_RX1 /\ inputPending m_conf = true /\
  (match snd (receiveFrame cfg4 m_conf (rx_buffer (rx_at 3002100 ack)) (rx_len (rx_at 3002100 ack))) with
   | Some f => dn_type f = FT_UNCONF_DOWN /\ dn_ack f = true | None => False end) /\
  accepted (items cfg4 [P 3003025; P 3003025; P 4000000] (fst (step cfg4 (rx_at 3002100 ack) C_process m_conf))) = 0.
Proof. vm_compute. repeat split. Qed.

(* --- C50 ------------------------------------------------------------------------- *)

Theorem C50_repetitions_alike : forall c r a e0 h1 e cf port d o h2, in_place c -> arg_ok a ->
  let k := C_data cf port d o in
  let m1 := run c h1 (MAC_init c r a e0) in let m1' := fst (step c e k m1) in
  starts (IReq k (snd (step c e k m1))) = Some KData ->
  accepted (items c h2 m1') = 0 ->
  forall x y, In x (outs (items c h2 m1')) -> sends_data x = true -> In y (outs (items c h2 m1')) -> sends_data y = true -> x = y.
Proof. exact TriesP.alike. Qed.
Print Assumptions C50_repetitions_alike.

Example C50_example :
  starts (IReq (ask 2 [1;2;3]) (snd (step cfg4 (at_t 3000000) (ask 2 [1;2;3]) (at_h h_clear)))) = Some KData /\
  accepted (items cfg4 after_first (fst (step cfg4 (at_t 3000000) (ask 2 [1;2;3]) (at_h h_clear)))) = 0 /\
  filter sends_data (outs (items cfg4 after_first (fst (step cfg4 (at_t 3000000) (ask 2 [1;2;3]) (at_h h_clear))))) =
    [OTransmit 868300000 BW_125 7 1600 fr1; OTransmit 868300000 BW_125 7 1600 fr1].
Proof. vm_compute. auto. Qed.

(* --- C28 ------------------------------------------------------------------------- *)

(* data frames are at most as long as the rate of the session when they were
   asked for allows; on a fixed plan, or if the channel chosen has that rate,
   at most as long as the rate they are sent at allows, except at the lowest rate of US 902-928
   when the answers to commands take precedence *)
Theorem C28_data_size_partial : forall c r a e0 h f bw sf p fr, in_place c -> arg_ok a -> valid_start r (ia_session a) ->
  Forall (fun x => power_arg (snd x)) h -> Forall rand_ok h ->
  In (OTransmit f bw sf p fr) (m_log (run c h (MAC_init c r a e0))) -> is_data_frame fr = true ->
  exists h1 e cf port d o h2, h = h1 ++ (e, C_data cf port d o) :: h2 /\
    let m := run c h1 (MAC_init c r a e0) in let rate := s_rate (m_ctx m) in
    let ok := snd (step c e (C_data cf port d o) m) = RStatus STATUS_OK in
    starts (IReq (C_data cf port d o) (snd (step c e (C_data cf port d o) m))) = Some KData /\
    (ok -> Z.of_nat (length fr) <= rate_mtu r rate + 5) /\ (~ ok -> Z.of_nat (length fr) <= 43) /\
    exists ch lo hi, getChannel (m_ctx m) ch = Some (f, lo, hi) /\
      (isDynamic r = false \/ lo <= rate <= hi -> ok \/ r <> US_902_928 \/ rate <> 0 -> Z.of_nat (length fr) <= max_frame r bw sf).
Proof. exact SizeP.data_size. Qed.
Print Assumptions C28_data_size_partial.

Theorem C28_join_size : forall c r a e0 h f bw sf p fr, in_place c -> arg_ok a ->
  In (OTransmit f bw sf p fr) (m_log (run c h (MAC_init c r a e0))) -> is_data_frame fr = false ->
  Z.of_nat (length fr) = 23 /\ Z.of_nat (length fr) <= max_frame r bw sf.
Proof. exact SizeP.join_size_max. Qed.
Print Assumptions C28_join_size.

Example C28_example :
  In (OTransmit 868300000 BW_125 7 1600 fr1) (m_log (at_h h_sent)) /\ s_rate (m_ctx (at_h h_clear)) = 5 /\
  getChannel (m_ctx (at_h h_clear)) 1 = Some (868300000, 0, 5) /\ max_frame EU_863_870 BW_125 7 = 255 /\
  In (OTransmit 868100000 BW_125 7 1600 (jr 0)) (m_log (at_h h_sent)) /\
  (* the longest request at the lowest rate, and one octet more *)
  snd (step cfg4 (at_t 3000000) (ask 1 (repeat 0 51)) (fst (step cfg4 (at_t 3000000) (C_setRate 0) (at_h h_clear)))) = RStatus STATUS_OK /\
  snd (step cfg4 (at_t 3000000) (ask 1 (repeat 0 52)) (fst (step cfg4 (at_t 3000000) (C_setRate 0) (at_h h_clear)))) = RStatus STATUS_SIZE.
Proof. split; [apply sent_in; vm_compute; reflexivity|]. split; [vm_compute; reflexivity|]. split; [vm_compute; reflexivity|]. split; [reflexivity|]. split; [apply sent_in; vm_compute; reflexivity|]. split; vm_compute; reflexivity. Qed.

(* a channel limited to the lowest rate, for a session at the highest *)
Definition h_slow : history := h_toy_join ++ [(at_t 8100, C_addChannel 3 867100000 0 0); (at_t 8100, C_maskChannel 0); (at_t 8100, C_maskChannel 1);
  (at_t 8100, C_maskChannel 2); (at_t 8100, ask 1 (repeat 7 200)); P 8200; P 8225].
Definition fr_slow : bytes := [64; 218; 27; 1; 38; 128; 0; 0; 1] ++ repeat 7 200 ++ [1; 2; 3; 4].
Theorem C28_too_long_refuted :
  exists c r a e0 h f bw sf p fr, in_place c /\ arg_ok a /\ ia_session a = None /\ Forall (fun x => power_arg (snd x)) h /\
  In (OTransmit f bw sf p fr) (m_log (run c h (MAC_init c r a e0))) /\
  Z.of_nat (length fr) = 213 /\ max_frame r bw sf = 64.
Proof.
  exists cfg4, EU_863_870, (arg0 None), (at_t 0), h_slow, 867100000, BW_125, 12, 1600, fr_slow.
  split; [exact cfg4_in_place|]. split; [apply arg0_ok|]. split; [reflexivity|]. split; [apply power_args; vm_compute; reflexivity|].
  split; [apply sent_in; vm_compute; reflexivity|]. split; reflexivity.
Qed.
Print Assumptions C28_too_long_refuted.

(* answers to commands at the lowest rate of US 902-928 *)
Definition us_answers : session := set_s_pending 65535 (set_s_rate 0 (set_s_joined true (m_ctx (MAC_init cfg4 US_902_928 (arg0 None) (at_t 0))))).
Definition h_answers : history := [(at_t 0, C_data false 1 (Some [1;2]) (Some (mkOpts 0 true true)))] ++ h_boot ++ [P 30; P 55].
Definition fr_answers : bytes := [64; 0; 0; 0; 0; 128; 0; 0; 0; 5; 0; 10; 0; 8; 3; 0; 6; 0; 0; 7; 0; 9; 4; 2; 13; 1; 2; 3; 4].
Theorem C28_answers_too_long_refuted :
  exists c r a e0 h f bw sf p fr, in_place c /\ arg_ok a /\
  (exists s, ia_session a = Some s /\ s_rate s = 0 /\ s_region s = r) /\
  In (OTransmit f bw sf p fr) (m_log (run c h (MAC_init c r a e0))) /\
  Z.of_nat (length fr) = 29 /\ max_frame r bw sf = 24.
Proof.
  exists cfg4, US_902_928, (arg0 (Some us_answers)), (at_t 0), h_answers, 902300000, BW_125, 10, 3000, fr_answers.
  split; [exact cfg4_in_place|]. split; [apply arg0_ok|]. split; [exists us_answers; vm_compute; repeat split|].
  split; [apply sent_in; vm_compute; reflexivity|]. split; reflexivity.
Qed.
Print Assumptions C28_answers_too_long_refuted.

(* --- C32 ------------------------------------------------------------------------- *)

(* in the session and in every session given to the application to keep *)
Theorem C32_settings_valid : forall c r a e0 h, valid_start r (ia_session a) -> Forall (fun x => power_arg (snd x)) h ->
  let m := run c h (MAC_init c r a e0) in
  valid_settings r (m_ctx m) /\ forall s, In (OEvent (EV_SESSION_UPDATED s)) (m_log m) -> valid_settings r s.
Proof. exact ValidP.valid_always. Qed.
Print Assumptions C32_settings_valid.

(* rate and power set by the application: beyond the region they are refused *)
Definition h_set : history := h_toy_join ++ [(at_t 8100, C_setRate 2); (at_t 8100, C_setPower 3); (at_t 8100, C_setRate 9); (at_t 8100, C_setPower 8)].
Example C32_example :
  valid_start EU_863_870 None /\ Forall (fun x => power_arg (snd x)) h_set /\
  s_rate (m_ctx (at_h h_toy_join)) = 5 /\ s_power (m_ctx (at_h h_toy_join)) = 0 /\
  s_rate (m_ctx (at_h h_set)) = 2 /\ s_power (m_ctx (at_h h_set)) = 3.
Proof.
  split; [exact I|]. split; [unfold h_set; apply Forall_app; split; [apply power_args; vm_compute; reflexivity|repeat constructor; cbn; lia]|].
  vm_compute. repeat split.
Qed.
