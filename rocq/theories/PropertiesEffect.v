(* Final statements: what the commands of the network do (C68, C69, C70), and
   which downlink counter a frame moves on (C48). *)
From Verif Require Import Words StreamM Lib FrameM CommandsM RegionM RadioM SmM MacStateM MacUtilM OpsM MacCmdM MacProcM MacApiM Scenario
  SpecHist SpecCmd SpecAnswer SpecRegion SpecEffect.
From Verif Require EffectP SmP.

Definition e_cfg : cfg := toy_cfg L2_1_0_4.
Definition e_start (r : region) : mac := MAC_init e_cfg r (arg0 None) (at_t 0).
(* a frame with these commands in FOpts; the integrity code is that of the toy
   security module *)
Definition down (cmds : bytes) : bytes :=
  [0x60; 0xda;0x1b;0x01;0x26; Z.of_nat (length cmds); 0;0] ++ cmds ++ [1;2;3;4].
Definition h_up (t : Z) : history :=
  [P t; (at_t t, C_data false 1 (Some [1;2;3]) (Some (mkOpts 2 false false))); P t; P (t + 25); P (t + 50); P (t + 75)].
(* a window in which a frame has arrived at 11110, after an uplink that ended
   at 10100 *)
Definition m_win : mac := run e_cfg (h_toy_join ++ h_up 10000 ++ h_rx1 10100 1 ++ [(rx_at 11110 [], C_radioEvent 11110)]) (e_start EU_863_870).
Definition hears (cmds : bytes) : env := rx_at 11110 (down cmds).
Definition m_after (cmds : bytes) : mac := fst (step e_cfg (hears cmds) C_process m_win).
Definition got (cmds : bytes) : bytes * option frame_down := receiveFrame e_cfg m_win (rx_buffer (hears cmds)) (rx_len (hears cmds)).
Definition cmds_heard (cmds : bytes) : list down_cmd := match got cmds with (b, Some f) => frame_cmds L2_1_0_4 b f | _ => [] end.

(* --- C68 ------------------------------------------------------------------------- *)

(* A data frame is accepted in a window.  Of the commands in FOpts, and in a
   payload for port 0, the last one of each kind decides on the duty cycle,
   the receive parameters, the delay, the ADR limits and, in AU 915-928, the
   dwell time and power; ... *)
Theorem C68_settings : forall c e m buf f, window_open m = true -> inputPending m = true -> e_st_rx e = true ->
  receiveFrame c m (rx_buffer e) (rx_len e) = (buf, Some f) -> data_frame f = true -> bytes_ok buf -> (length buf <= 255)%nat ->
  net_settings (m_ctx (fst (step c e C_process m))) = settings_by (c_txps c) (frame_cmds (c_l2 c) buf f) (m_ctx m).
Proof. intros c e m buf f R I X RF D B L. exact (proj1 (EffectP.downlink_effect c e m buf f R I X RF D B L)). Qed.
Print Assumptions C68_settings.

(* ... on the channels, ... *)
Theorem C68_channels : forall c e m buf f ch, window_open m = true -> inputPending m = true -> e_st_rx e = true ->
  receiveFrame c m (rx_buffer e) (rx_len e) = (buf, Some f) -> data_frame f = true -> bytes_ok buf -> (length buf <= 255)%nat ->
  let s := m_ctx m in tables_ok s -> isDynamic (s_region s) = true -> 0 <= ch < 16 ->
  getChannel (m_ctx (fst (step c e C_process m))) ch = latest (channel_of (s_region s) ch) (frame_cmds (c_l2 c) buf f) (getChannel s ch).
Proof.
  intros c e m buf f ch R I X RF D B L s T DY C. destruct (EffectP.downlink_effect c e m buf f R I X RF D B L) as (_ & _ & H & _). exact (H T DY ch C).
Qed.
Print Assumptions C68_channels.

(* ... and on the content of the answers.  Every command that needs an answer
   gets one, and the repeated answers of earlier commands end. *)
Theorem C68_answers : forall c e m buf f, window_open m = true -> inputPending m = true -> e_st_rx e = true ->
  receiveFrame c m (rx_buffer e) (rx_len e) = (buf, Some f) -> data_frame f = true -> bytes_ok buf -> (length buf <= 255)%nat ->
  let s := m_ctx m in let s' := m_ctx (fst (step c e C_process m)) in let k := frame_cmds (c_l2 c) buf f in
  contents s' = contents_by (s_region s) k s /\
  forall t, t <> CMD_LINK_ADR -> t <> CMD_REKEY ->
    waiting s' t = waiting s t && negb (repeated t) || existsb (asks_for (c_txps c) (s_region s) t) k.
Proof.
  intros c e m buf f R I X RF D B L. destruct (EffectP.downlink_effect c e m buf f R I X RF D B L) as (_ & K & _ & W & _). exact (conj K W).
Qed.
Print Assumptions C68_answers.

(* DutyCycleReq 3, RXParamSetupReq (offset 1, rate 3, 868.5 MHz) and
   NewChannelReq (channel 4, 867.5 MHz, rates 0 to 5) in one frame *)
Definition three : bytes := [4; 3; 5; 0x13; 0xc8;0x85;0x84; 7; 4; 0xb8;0x5e;0x84; 0x50].
Example C68_ex : window_open m_win = true /\ inputPending m_win = true /\ e_st_rx (hears three) = true /\
  (exists f, snd (got three) = Some f /\ data_frame f = true) /\ length (fst (got three)) = 255%nat /\
  tables_ok (m_ctx m_win) /\ isDynamic (s_region (m_ctx m_win)) = true /\
  net_settings (m_ctx m_win) = (0, (0, 0, 869525000), 1, 255, (64, 32)) /\
  cmds_heard three = [DDutyCycle 3; DRXParamSetup 1 3 868500000; DNewChannel 4 867500000 5 0] /\
  net_settings (m_ctx (m_after three)) = (3, (1, 3, 868500000), 1, 255, (64, 32)) /\
  getChannel (m_ctx m_win) 4 <> getChannel (m_ctx (m_after three)) 4 /\ getChannel (m_ctx (m_after three)) 4 = Some (867500000, 0, 5) /\
  map (waiting (m_ctx (m_after three))) [CMD_DUTY_CYCLE; CMD_RX_PARAM_SETUP; CMD_NEW_CHANNEL; CMD_DEV_STATUS] = [true; true; true; false].
Proof. vm_compute. repeat split; try discriminate. eexists. split; reflexivity. Qed.
Example C68_bytes_ex : bytes_ok (fst (got three)).
Proof. apply SmP.bytes_ok_b. vm_compute. reflexivity. Qed.

(* Nothing else changes these settings: only such a frame, a join accept, the
   application's own duty cycle, and forgetting the network. *)
Theorem C68_nothing_else : forall c e k m, let s := m_ctx m in let s' := m_ctx (fst (step c e k m)) in
  net_settings s' = net_settings s \/
  (k = C_process /\ window_open m = true /\ exists buf f, receiveFrame c m (rx_buffer e) (rx_len e) = (buf, Some f) /\
     (data_frame f = true -> bytes_ok buf -> (length buf <= 255)%nat -> net_settings s' = settings_by (c_txps c) (frame_cmds (c_l2 c) buf f) s) /\
     (data_frame f = false -> net_settings s' = settings_joined f s)) \/
  (k = C_forget /\ net_settings s' = settings_none (c_txps c) (s_region s) (m_maxDutyCycle m)) \/
  (exists v, k = C_setMaxDCycle v /\ s' = set_s_maxDutyCycle (Z.land v 15) s).
Proof. exact EffectP.settings_only. Qed.
Print Assumptions C68_nothing_else.
Example C68_nothing_else_ex :
  net_settings (m_ctx (fst (step e_cfg (at_t 12000) (C_setMaxDCycle 5) m_win))) = (5, (0, 0, 869525000), 1, 255, (64, 32)) /\
  net_settings (m_ctx (fst (step e_cfg (at_t 12000) C_forget (m_after three)))) = (0, (0, 0, 869525000), 1, 255, (64, 32)) /\
  net_settings (m_ctx (fst (step e_cfg (at_t 12000) C_cancel (m_after three)))) = (3, (1, 3, 868500000), 1, 255, (64, 32)).
Proof. vm_compute. auto. Qed.

(* DlChannelReq is acknowledged, but the first window stays where it was: the
   three channels of EU 863-870 are moved to 869.1 MHz *)
Definition h_dl (cmds : bytes) : history :=
  h_toy_join ++ h_up 10000 ++ h_rx1 10100 1 ++ h_rx 11110 (down cmds) ++ h_up 4000000 ++ h_rx1 4000100 1.
Definition moved : bytes := [10; 0; 0x38;0x9d;0x84; 10; 1; 0x38;0x9d;0x84; 10; 2; 0x38;0x9d;0x84].
Definition on_air (l : list out) : list out :=
  filter (fun o => match o with OTransmit _ _ _ _ _ | OReceive _ _ _ _ _ => true | _ => false end) l.
Definition log_of (h : history) : list out := m_log (run e_cfg h (e_start EU_863_870)).
Theorem C68_dl_channel_refuted : exists c h up f fr, let l := on_air (m_log (run c h (MAC_init c EU_863_870 (arg0 None) (at_t 0)))) in
  cmds_heard moved = [DDLChannel 0 f; DDLChannel 1 f; DDLChannel 2 f] /\ h = h_dl moved /\
  getChannel (m_ctx m_win) 0 = Some (up, 0, 5) /\ f <> up /\
  skipn 4 l = [OTransmit up BW_125 7 1600 fr; OReceive up BW_125 7 8 255] /\ firstn 2 (skipn 8 fr) = [10; 3].
Proof.
  exists e_cfg, (h_dl moved), 868100000, 869100000, [64; 218; 27; 1; 38; 130; 1; 0; 10; 3; 1; 1; 2; 3; 1; 2; 3; 4].
  vm_compute. repeat split; discriminate.
Qed.
Print Assumptions C68_dl_channel_refuted.

(* --- C69 ------------------------------------------------------------------------- *)

(* A channel the region does not allow is refused and not used: the answer to
   NewChannelReq and DlChannelReq says which part was wrong (C68_answers), and
   after such a frame every channel is as before or was asked for with a
   frequency of the band and rates up to 5. *)
Theorem C69_channels_partial : forall c e m buf f ch fq lo hi, window_open m = true -> inputPending m = true -> e_st_rx e = true ->
  receiveFrame c m (rx_buffer e) (rx_len e) = (buf, Some f) -> data_frame f = true -> bytes_ok buf -> (length buf <= 255)%nat ->
  let s := m_ctx m in tables_ok s -> isDynamic (s_region s) = true -> 0 <= ch < 16 ->
  let x := getChannel (m_ctx (fst (step c e C_process m))) ch in
  x = getChannel s ch \/ (x = Some (fq, lo, hi) -> freq_allowed (s_region s) fq = true /\ 0 <= lo /\ hi <= 5).
Proof. exact EffectP.channels_in_band. Qed.
Print Assumptions C69_channels_partial.
(* channel 5 at 862 MHz, and at 867.5 MHz with rate 7 *)
Definition bad_channels : bytes := [7; 5; 0xe0;0x87;0x83; 0x50; 7; 5; 0xb8;0x5e;0x84; 0x70].
Example C69_channels_ex : cmds_heard bad_channels = [DNewChannel 5 862000000 5 0; DNewChannel 5 867500000 7 0] /\
  getChannel (m_ctx (m_after bad_channels)) 5 = getChannel (m_ctx m_win) 5 /\
  s_nch_ans (m_ctx (m_after bad_channels)) = mkNewChAns false true /\
  s_nch_ans (m_ctx (m_after (firstn 6 bad_channels))) = mkNewChAns true false.
Proof. vm_compute. auto. Qed.

(* RXParamSetupReq is carried out and acknowledged with any parameters: offset
   7, rate 15 and 0 Hz here, and the second window is opened at 0 Hz *)
Definition no_rx2 : bytes := [5; 0x7f; 0; 0; 0].
Definition h_no_rx2 : history := h_dl no_rx2 ++ [(timeout_at 4001200, C_radioEvent 4001200); (timeout_at 4001200, C_process); P 4002100; P 4002100].
Theorem C69_rx_param_refuted : exists c h fr, let l := on_air (m_log (run c h (MAC_init c EU_863_870 (arg0 None) (at_t 0)))) in
  h = h_no_rx2 /\ cmds_heard no_rx2 = [DRXParamSetup 7 15 0] /\
  skipn 4 l = [OTransmit 868100000 BW_125 7 1600 fr; OReceive 868100000 BW_125 7 8 255; OReceive 0 BW_125 7 8 255] /\
  firstn 2 (skipn 8 fr) = [5; 7].
Proof. exists e_cfg, h_no_rx2, [64; 218; 27; 1; 38; 130; 1; 0; 5; 7; 1; 1; 2; 3; 1; 2; 3; 4]. vm_compute. auto. Qed.
Print Assumptions C69_rx_param_refuted.

(* NewChannelReq is accepted with a lowest rate above the highest, and for a
   channel the region fixes; and frequency 0, which removes a channel, is
   refused *)
Definition swapped : bytes := [7; 5; 0xb8;0x5e;0x84; 0x05].
Definition first_moved : bytes := [7; 0; 0xb8;0x5e;0x84; 0x50].
Definition added : bytes := skipn 7 three.
Definition removed : bytes := [7; 4; 0; 0; 0; 0x50].
Theorem C69_new_channel_refuted :
  (cmds_heard swapped = [DNewChannel 5 867500000 0 5] /\ s_nch_ans (m_ctx (m_after swapped)) = mkNewChAns true true /\
   getChannel (m_ctx (m_after swapped)) 5 = Some (867500000, 5, 0)) /\
  (cmds_heard first_moved = [DNewChannel 0 867500000 5 0] /\ s_nch_ans (m_ctx (m_after first_moved)) = mkNewChAns true true /\
   getChannel (m_ctx (m_after first_moved)) 0 = Some (867500000, 0, 5)) /\
  (cmds_heard (added ++ removed) = [DNewChannel 4 867500000 5 0; DNewChannel 4 0 5 0] /\ s_nch_ans (m_ctx (m_after (added ++ removed))) = mkNewChAns true false /\
   getChannel (m_ctx (m_after (added ++ removed))) 4 = Some (867500000, 0, 5)).
Proof. vm_compute. auto 10. Qed.
Print Assumptions C69_new_channel_refuted.

(* --- C70 ------------------------------------------------------------------------- *)

(* LinkCheckAns and DeviceTimeAns are handed to the application, in order, and
   nothing else is: the time is the network's plus what has passed since the
   end of the uplink, as long as the tick counter has not wrapped since *)
Theorem C70_reports_partial : forall c e m buf f, window_open m = true -> inputPending m = true -> e_st_rx e = true ->
  receiveFrame c m (rx_buffer e) (rx_len e) = (buf, Some f) -> data_frame f = true -> bytes_ok buf -> (length buf <= 255)%nat ->
  0 < m_tps m -> 0 <= m_ticks_at_tx m <= e_now e -> e_now e < 2 ^ 32 ->
  filter is_report (new_out m (fst (step c e C_process m))) =
  flat_map (told_by (m_tps m) (m_ticks_at_tx m) (e_now e)) (frame_cmds (c_l2 c) buf f).
Proof.
  intros c e m buf f R I X RF D B L. destruct (EffectP.downlink_effect c e m buf f R I X RF D B L) as (_ & _ & _ & _ & H). exact H.
Qed.
Print Assumptions C70_reports_partial.
(* 1010 ticks of a millisecond after the uplink *)
Definition clock_ans : bytes := [2; 9; 1; 13; 0x10;0x27;0;0; 0x80].
Example C70_ex : cmds_heard clock_ans = [DLinkCheck 9 1; DDeviceTime 10000 128] /\ m_tps m_win = 1000 /\ m_ticks_at_tx m_win = 10100 /\ e_now (hears clock_ans) = 11110 /\
  network_time 1000 10100 11110 10000 128 = (10001, 130) /\
  filter is_report (new_out m_win (m_after clock_ans)) = [OEvent (EV_LINK_STATUS 9 1); OEvent (EV_DEVICE_TIME 10001 130)].
Proof. vm_compute. auto 10. Qed.

(* After a wrap the time is one tick short. *)
Theorem C70_wrapped : forall tps a b sec fr, 0 < tps -> 0 <= b < a -> a < 2 ^ 32 -> 0 <= sec -> 0 <= fr < 256 ->
  device_time tps a b sec fr = network_time tps (a + 1) b sec fr.
Proof. exact EffectP.time_wrapped. Qed.
Print Assumptions C70_wrapped.
Theorem C70_wrapped_refuted : exists tps a b sec fr, 0 < tps /\ 0 <= b < a /\ a < 2 ^ 32 /\ 0 <= sec /\ 0 <= fr < 256 /\
  device_time tps a b sec fr <> network_time tps a b sec fr.
Proof. exists 100, 4294967195, 0, 10000, 0. vm_compute. repeat split; discriminate. Qed.
Print Assumptions C70_wrapped_refuted.

(* --- C48 ------------------------------------------------------------------------- *)

(* A data frame that is accepted moves on one of the two stored high halves
   only: with a 1.1 network and FPort 0 that of the network, otherwise that of
   the application.  Zero stays zero. *)
Theorem C48_two_counters : forall c e m buf f, window_open m = true -> inputPending m = true -> e_st_rx e = true -> m_op m <> OP_REJOINING -> bytes_ok (e_rx e) ->
  receiveFrame c m (rx_buffer e) (rx_len e) = (buf, Some f) -> data_frame f = true ->
  let s := m_ctx m in let s' := m_ctx (fst (step c e C_process m)) in
  if network_frame c s f
  then s_appDown s' = s_appDown s /\ (0 <= s_nwkDown s < 65535 -> s_nwkDown s' = moves_on (s_nwkDown s))
  else s_nwkDown s' = s_nwkDown s /\ (0 <= s_appDown s < 65535 -> s_appDown s' = moves_on (s_appDown s)).
Proof. exact EffectP.two_counters. Qed.
Print Assumptions C48_two_counters.
Definition high_down (s : session) : session := set_s_nwkDown 3 (set_s_appDown 5 s).
Definition m_high (v : Z) : mac := set_m_ctx (set_s_version v (high_down (m_ctx m_win))) m_win.
Definition cfg11 : cfg := toy_cfg L2_1_1.
(* a LinkCheckAns with FPort 0, in a 1.1 session and in a 1.0 one *)
Definition port0 : env := rx_at 11110 [0x60; 0xda;0x1b;0x01;0x26; 0; 0;0; 0; 2;9;1; 1;2;3;4].
Example C48_two_ex :
  map (fun v => let m := m_high v in let s := m_ctx (fst (step cfg11 port0 C_process m)) in
    (match receiveFrame cfg11 m (rx_buffer port0) (rx_len port0) with (_, Some f) => (data_frame f, network_frame cfg11 (m_ctx m) f) | _ => (false, false) end,
     (s_nwkDown s, s_appDown s))) [1; 0] = [((true, true), (4, 5)); ((true, false), (3, 6))].
Proof. vm_compute. reflexivity. Qed.
