(* C34, C36, C37, C38, C44: radio arithmetic, regional parameters and channels. *)
From Verif Require Import Lib FrameM CommandsM RegionM RadioM MacStateM MacUtilM MacCmdM MacApiM Scenario
  SpecRadio SpecRegion SpecCmd.
From Verif Require AirP RegionP ChanP ExecP.

(* --- C34 ------------------------------------------------------------------------- *)

(* the formula that is computed is the one for a packet without a header (IH = 1) *)
Theorem C34_air_time_partial : forall b sf size crc,
  7 <= sf <= 12 -> 0 <= size <= 255 -> 4 * sf <= 8 * size + 8 + 16 * Z.b2z crc ->
  getAirTime b sf size crc = packet_us (bwToNumber b) sf 1 size (Z.b2z crc) / 1000 + 1.
Proof. exact AirP.air_formula. Qed.
Print Assumptions C34_air_time_partial.

(* the error against the air time of the packet with its header *)
Theorem C34_air_time_bounds : forall b sf size crc,
  7 <= sf <= 12 -> 0 <= size <= 255 -> 4 * sf <= 8 * size + 8 + 16 * Z.b2z crc ->
  let hz := bwToNumber b in
  let true_us := packet_us hz sf 0 size (Z.b2z crc) in
  true_us - 5 * symbol_us hz sf < 1000 * getAirTime b sf size crc <= true_us + 1000.
Proof. exact AirP.air_bounds. Qed.
Print Assumptions C34_air_time_bounds.

Theorem C34_air_time_monotone_partial : forall b sf s1 s2 crc,
  7 <= sf <= 12 -> 0 <= s1 -> s1 <= s2 <= 255 -> 4 * sf <= 8 * s1 + 8 + 16 * Z.b2z crc ->
  getAirTime b sf s1 crc <= getAirTime b sf s2 crc.
Proof. exact AirP.air_mono. Qed.
Print Assumptions C34_air_time_monotone_partial.

(* every LoRaWAN uplink (12 bytes or more) is above the limit on the size *)
Example C34_example : 4 * 12 <= 8 * 12 + 8 + 16 * Z.b2z true /\
  getAirTime BW_125 7 23 true = 57 /\ packet_us 125000 7 0 23 1 = 61696.
Proof. vm_compute. repeat split; congruence. Qed.

(* the packet on the air is longer than computed *)
Theorem C34_header_left_out_refuted :
  exists b sf size, 7 <= sf <= 12 /\ 12 <= size <= 255 /\
    1000 * getAirTime b sf size true + 150000 < packet_us (bwToNumber b) sf 0 size 1.
Proof. exists BW_125, 12, 13. vm_compute. repeat split; congruence. Qed.
Print Assumptions C34_header_left_out_refuted.

(* below the limit the subtraction wraps: a shorter packet takes longer *)
Theorem C34_short_packet_wraps_refuted :
  exists b sf s1 s2, 7 <= sf <= 12 /\ 0 <= s1 < s2 /\ s2 <= 255 /\
    getAirTime b sf s2 true < getAirTime b sf s1 true.
Proof. exists BW_125, 12, 2, 3. vm_compute. repeat split; congruence. Qed.
Print Assumptions C34_short_packet_wraps_refuted.

(* --- C36 ------------------------------------------------------------------------- *)

Theorem C36_rx1_rate : forall r up off,
  rx1_defined r up off -> getRX1DataRate r up off = rx1_rate r up off.
Proof. exact RegionP.rx1_spec. Qed.
Print Assumptions C36_rx1_rate.

(* any other byte: an entry of the table, or the uplink rate *)
Theorem C36_rx1_in_table : forall r up off,
  In (getRX1DataRate r up off) (rx1_table r) \/ getRX1DataRate r up off = up.
Proof. exact RegionP.rx1_in_table. Qed.
Print Assumptions C36_rx1_in_table.

(* an offset past the end of the row is answered from the next row *)
Theorem C36_rx1_next_row : forall r up k,
  rx1_defined r (up + 1) k -> 0 <= up ->
  getRX1DataRate r up (rx1_stride r + k) = rx1_rate r (up + 1) k.
Proof. exact RegionP.rx1_next_row_rate. Qed.
Print Assumptions C36_rx1_next_row.

Example C36_example : rx1_defined US_902_928 4 3 /\ getRX1DataRate US_902_928 4 3 = 11 /\
  getRX1DataRate EU_863_870 5 2 = 3 /\ getRX1DataRate AU_915_928 6 0 = 13.
Proof. split; [cbn; lia|]. vm_compute. auto. Qed.

(* --- C37 ------------------------------------------------------------------------- *)

(* chan_valid: inside the region's limits, in a duty cycle band, rates allowed,
   index of an existing channel *)
Theorem C37_default_channels : forall r ch f lo hi,
  In (AddChannel ch f lo hi) (getDefaultChannels r) -> chan_valid r ch f lo hi.
Proof. exact RegionP.default_valid. Qed.
Print Assumptions C37_default_channels.

Theorem C37_fixed_plan : forall r ch, 0 <= ch < 256 -> Region_getChannel r ch = fixed_channel r ch.
Proof. exact RegionP.fixed_spec. Qed.
Print Assumptions C37_fixed_plan.

Theorem C37_fixed_channels : forall r ch f lo hi,
  0 <= ch -> fixed_channel r ch = Some (f, lo, hi) -> chan_valid r ch f lo hi.
Proof. exact RegionP.fixed_valid. Qed.
Print Assumptions C37_fixed_channels.

(* join requests of the fixed plans alternate between a 125 kHz channel of the
   next group of eight and the 500 kHz channel of the group *)
Theorem C37_join_channel : forall r trial rnd, isDynamic r = false -> 0 <= trial -> 0 <= rnd ->
  getJoinIndex r trial rnd =
  if Z.odd trial then 64 + trial / 2 mod 8 else trial / 2 mod 8 * 8 + rnd mod 8.
Proof. exact RegionP.join_index_kind. Qed.
Print Assumptions C37_join_channel.

Theorem C37_join_channel_exists : forall r trial rnd, isDynamic r = false -> 0 <= trial -> 0 <= rnd ->
  0 <= getJoinIndex r trial rnd < 72.
Proof. exact RegionP.join_index_range. Qed.
Print Assumptions C37_join_channel_exists.

Theorem C37_join_rate : forall noSF12 r trial, 0 <= trial -> uplink_rate r (getJoinRate noSF12 r trial).
Proof. exact RegionP.join_rate_valid. Qed.
Print Assumptions C37_join_rate.

Theorem C37_rx2_default : forall r, in_region r (getRX2Freq r) /\ validateFreq r (getRX2Freq r) = true.
Proof. exact RegionP.rx2_valid. Qed.
Print Assumptions C37_rx2_default.

Theorem C37_rx1_frequency : forall r f ch, 0 <= ch < 256 -> in_region r f -> in_region r (getRX1Freq r f ch).
Proof. exact RegionP.rx1_freq_valid. Qed.
Print Assumptions C37_rx1_frequency.

(* the off-time factor of a frequency is that of its European sub-band *)
Theorem C37_eu_duty_cycle : forall f,
  match getBand EU_863_870 f with
  | Some b => eu_subband f = Some (getOffTimeFactor EU_863_870 b)
  | None => eu_subband f = None
  end.
Proof. exact RegionP.offtime_eu. Qed.
Print Assumptions C37_eu_duty_cycle.

(* CFList of type 0: channels 3 to 7 get the listed frequency when it is
   accepted, and no other channel changes *)
Theorem C37_cflist_channels_partial : forall s cf i,
  tables_ok s -> isDynamic (s_region s) = true -> bytes_ok cf -> length cf = 16%nat ->
  nth 15 cf 0 = 0 -> (i < 5)%nat ->
  getChannel (chan_steps s (processCFList (s_region s) cf)) (3 + Z.of_nat i) =
  stored (s_region s) (100 * (nth (3 * i) cf 0 + 256 * nth (3 * i + 1) cf 0 + 65536 * nth (3 * i + 2) cf 0))
         (getChannel s (3 + Z.of_nat i)).
Proof. exact ChanP.cflist_freq. Qed.
Print Assumptions C37_cflist_channels_partial.

Theorem C37_cflist_other_channels : forall s cf ch,
  isDynamic (s_region s) = true -> 0 <= ch -> ch < 3 \/ 8 <= ch ->
  getChannel (chan_steps s (processCFList (s_region s) cf)) ch = getChannel s ch.
Proof. exact ChanP.cflist_other. Qed.
Print Assumptions C37_cflist_other_channels.

(* CFList of type 1: the 72 channels are enabled as its masks say *)
Theorem C37_cflist_masks : forall s cf ch,
  tables_ok s -> isDynamic (s_region s) = false -> length cf = 16%nat -> nth 15 cf 0 = 1 -> 0 <= ch < 72 ->
  channelIsMasked (s_chMask (chan_steps s (processCFList (s_region s) cf))) (s_region s) ch =
  negb (cf_bit cf (Z.to_nat ch)).
Proof. exact ChanP.cflist_mask. Qed.
Print Assumptions C37_cflist_masks.

Definition C37_session : session :=
  m_ctx (MAC_init (toy_cfg L2_1_0_4) EU_863_870 (arg0 None) (at_t 0)).
(* 867.1, 867.3 and 868.65 MHz *)
Definition C37_cflist : bytes := [0x18;0x4f;0x84; 0xe8;0x56;0x84; 0xa4;0x8b;0x84; 0;0;0; 0;0;0; 0].
Definition C37_joined : mac :=
  let m := MAC_init (toy_cfg L2_1_0_4) EU_863_870 (arg0 None) (at_t 0) in
  on_ctx (fun s => chan_steps s (processCFList EU_863_870 C37_cflist)) m.

Example C37_example : tables_ok C37_session /\ s_region C37_session = EU_863_870 /\
  getChannel (m_ctx C37_joined) 3 = Some (867100000, 0, 5) /\
  getChannel (m_ctx C37_joined) 4 = Some (867300000, 0, 5) /\
  length (getDefaultChannels EU_863_870) = 3%nat.
Proof. vm_compute. auto. Qed.

(* a frequency between two sub-bands is accepted, and that channel is then
   never available whatever the off-time limit *)
Theorem C37_cflist_band_gap_refuted :
  exists m ch f lo hi, C37_joined = m /\ getChannel (m_ctx m) ch = Some (f, lo, hi) /\
    getBand (s_region (m_ctx m)) f = None /\
    forall limit, isAvailable m ch limit = false /\ timeUntilAvailable m ch = UINT32_MAX.
Proof.
  exists C37_joined, 5, 868650000, 0, 5.
  assert (getChannel (m_ctx C37_joined) 5 = Some (868650000, 0, 5)) as H by (vm_compute; reflexivity).
  assert (getBand (s_region (m_ctx C37_joined)) 868650000 = None) as H0 by (vm_compute; reflexivity).
  split; [reflexivity|]. split; [exact H|]. split; [exact H0|].
  intros limit. exact (ChanP.gap_unavailable _ 5 limit _ _ _ H H0).
Qed.
Print Assumptions C37_cflist_band_gap_refuted.

(* --- C38 ------------------------------------------------------------------------- *)

Theorem C38_add_channel_result : forall s ch freq lo hi, tables_ok s ->
  snd (setChannel s ch freq lo hi) =
    ((ch <? numChannels (s_region s)) && (ch <? 16) && ((freq =? 0) || validateFreq (s_region s) freq)) /\
  (snd (setChannel s ch freq lo hi) = false -> fst (setChannel s ch freq lo hi) = s).
Proof.
  intros. destruct (ChanP.set_result s ch freq lo hi H) as [E1 E2].
  split; [exact E1|]. rewrite E1. exact E2.
Qed.
Print Assumptions C38_add_channel_result.

(* frequencies are kept in units of 100 Hz and rates in four bits *)
Theorem C38_add_channel_reads_back_partial : forall s ch freq lo hi,
  tables_ok s -> isDynamic (s_region s) = true -> 0 <= ch -> 0 <= lo < 16 -> 0 <= hi ->
  snd (setChannel s ch freq lo hi) = true -> 0 <= freq ->
  getChannel (fst (setChannel s ch freq lo hi)) ch =
  Some (if freq =? 0 then (0, 0, 0) else (freq / 100 * 100, lo, hi mod 16)).
Proof. exact ChanP.set_get. Qed.
Print Assumptions C38_add_channel_reads_back_partial.

Theorem C38_add_channel_changes_no_other : forall s ch ch' freq lo hi, 0 <= ch -> 0 <= ch' -> ch' <> ch ->
  getChannel (fst (setChannel s ch freq lo hi)) ch' = getChannel s ch'.
Proof. exact ChanP.set_other. Qed.
Print Assumptions C38_add_channel_changes_no_other.

(* and nothing else of the session *)
Theorem C38_add_channel_frame : forall s ch freq lo hi,
  let s' := fst (setChannel s ch freq lo hi) in
  s' = set_s_chConfig (s_chConfig s') s /\ length (s_chConfig s') = length (s_chConfig s).
Proof. exact ChanP.set_frame. Qed.
Print Assumptions C38_add_channel_frame.

Theorem C38_mask_channel : forall mask r ch ch', 0 <= ch -> 0 <= ch' ->
  channelIsMasked (fst (maskChannel mask r ch)) r ch' =
  channelIsMasked mask r ch' || (mask_ok mask r ch && (ch' =? ch)).
Proof. exact ChanP.mask_spec. Qed.
Print Assumptions C38_mask_channel.

Theorem C38_unmask_channel : forall mask r ch ch', 0 <= ch -> 0 <= ch' ->
  channelIsMasked (fst (unmaskChannel mask r ch)) r ch' =
  channelIsMasked mask r ch' && negb (ch' =? ch).
Proof. exact ChanP.unmask_spec. Qed.
Print Assumptions C38_unmask_channel.

Theorem C38_mask_out_of_range : forall mask r ch,
  ch >= numChannels r \/ ch >= 8 * Z.of_nat (length mask) ->
  maskChannel mask r ch = (mask, false) /\ unmaskChannel mask r ch = (mask, false).
Proof.
  intros mask r ch H.
  assert (mask_ok mask r ch = false) as E by (unfold mask_ok; lia).
  destruct (ChanP.mask_result mask r ch) as [A B]. destruct (ChanP.unmask_result mask r ch) as [C D].
  specialize (B E). specialize (D E). rewrite E in A, C.
  destruct (maskChannel mask r ch), (unmaskChannel mask r ch). cbn [fst snd] in *. subst. auto.
Qed.
Print Assumptions C38_mask_out_of_range.

Theorem C38_unmask_all : forall mask r ch, 0 <= ch -> channelIsMasked (unmaskAllChannels mask) r ch = false.
Proof. exact ChanP.unmask_all_spec. Qed.
Print Assumptions C38_unmask_all.

Example C38_example :
  getChannel (fst (setChannel C37_session 9 867500000 0 5)) 9 = Some (867500000, 0, 5) /\
  snd (setChannel C37_session 16 867500000 0 5) = false /\
  snd (setChannel C37_session 9 915000000 0 5) = false /\
  channelIsMasked (fst (maskChannel (s_chMask C37_session) EU_863_870 9)) EU_863_870 9 = true.
Proof. vm_compute. auto. Qed.

(* LDL_MAC_addChannel takes any byte as lowest rate; above 15 it changes the frequency *)
Theorem C38_rate_above_15_refuted :
  exists s ch freq lo hi, tables_ok s /\ snd (setChannel s ch freq lo hi) = true /\
    0 <= lo < 256 /\ freq mod 100 = 0 /\
    getChannel (fst (setChannel s ch freq lo hi)) ch = Some (freq + 100, 0, hi).
Proof. exists C37_session, 9, 867000000, 16, 5. vm_compute. repeat split; congruence. Qed.
Print Assumptions C38_rate_above_15_refuted.

Theorem C38_frequency_rounded_refuted :
  exists s ch freq lo hi, tables_ok s /\ snd (setChannel s ch freq lo hi) = true /\
    getChannel (fst (setChannel s ch freq lo hi)) ch = Some (freq - 99, lo, hi).
Proof. exists C37_session, 9, 867000099, 0, 5. vm_compute. repeat split; congruence. Qed.
Print Assumptions C38_frequency_rounded_refuted.

(* --- C44 ------------------------------------------------------------------------- *)

(* l: the commands of an accepted downlink; the answer is part of what the next
   uplink carries *)
Theorem C44_device_status : forall c e l m o, bytes_ok l -> (length l < 256)%nat ->
  In DDevStatus (map fst (parse_cmds fields_read (c_l2 c) l)) ->
  exists pre post,
    mac_bytes (mac_commands c (m_ctx (processCommands c e l m)) o) =
    pre ++ [6; e_battery e mod 256; Z.max (-32) (Z.min 31 (m_rx_snr m)) mod 64] ++ post.
Proof. exact ExecP.dev_status_answer. Qed.
Print Assumptions C44_device_status.

Example C44_example :
  let m := set_m_rx_snr (-40) (MAC_init (toy_cfg L2_1_0_4) EU_863_870 (arg0 None) (at_t 0)) in
  mac_bytes (mac_commands (toy_cfg L2_1_0_4) (m_ctx (processCommands (toy_cfg L2_1_0_4) (at_t 5) [6] m)) (mkOpts 0 false false))
  = [6; 255; 32].
Proof. vm_compute. reflexivity. Qed.
