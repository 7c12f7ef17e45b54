(* C64, C65, C66, C67: transmit power, air time, join requests and default settings. *)
From Verif Require Import Lib FrameM CommandsM RegionM RadioM SmM MacStateM MacUtilM OpsM MacCmdM MacProcM MacApiM Scenario SpecRegion SpecRadio SpecHist SpecValid SpecSend SpecEirp.
From Verif Require EirpP.
From Verif Require Import PropertiesChan.

Definition lg (r : region) (so : option session) (h : history) : list out := m_log (run cfg4 h (MAC_init cfg4 r (arg0 so) (at_t 0))).
Definition sent_only (l : list out) : list out := filter (fun o => match o with OTransmit _ _ _ _ _ => true | _ => false end) l.
Definition heard_only (l : list out) : list out := filter (fun o => match o with OReceive _ _ _ _ _ => true | _ => false end) l.
(* a device in AU 915-928 with the given power, rate and TxParamSetupReq settings *)
Definition au_s (power rate param : Z) : session :=
  set_s_tx_param param (set_s_power power (set_s_rate rate (set_s_joined true (m_ctx (MAC_init cfg4 AU_915_928 (arg0 None) (at_t 0)))))).
Definition h_first : history := [(at_t 0, C_data false 1 (Some [1;2]) None)] ++ h_boot ++ [P 30; P 55].
Definition fr_first : bytes := [64; 0; 0; 0; 0; 128; 0; 0; 1; 1; 2; 1; 2; 3; 4].
Definition h_join_unheard : history := h_boot ++ h_join_tx 30 ++ h_rx1 3000 5 ++
  [(timeout_at 8100, C_radioEvent 8100); (timeout_at 8100, C_process); P 9000; P 9000; P 9050].

(* --- C64 ------------------------------------------------------------------------- *)

Theorem C64_power_table : forall r p, 0 <= p <= top_power r -> getTXPower r p = power_level r p.
Proof. exact EirpP.level_spec. Qed.
Print Assumptions C64_power_table.

(* data frames are sent with the power of the session when they were asked
   for, in AU 915-928 limited as the network has said *)
Theorem C64_data_power : forall c r a e0 h f bw sf p fr, in_place c -> arg_ok a -> valid_start r (ia_session a) ->
  Forall (fun x => power_arg (snd x)) h ->
  In (OTransmit f bw sf p fr) (m_log (run c h (MAC_init c r a e0))) -> is_data_frame fr = true ->
  exists h1 e cf port d o h2, h = h1 ++ (e, C_data cf port d o) :: h2 /\
    let m := run c h1 (MAC_init c r a e0) in
    starts (IReq (C_data cf port d o) (snd (step c e (C_data cf port d o) m))) = Some KData /\
    p = eirp_of c r (s_tx_param (m_ctx m)) (s_power (m_ctx m)) /\ 0 <= s_power (m_ctx m) <= top_power r.
Proof. exact EirpP.data_power. Qed.
Print Assumptions C64_data_power.

(* join requests are sent with the highest power of the region *)
Theorem C64_join_power : forall c r a e0 h f bw sf p fr, in_place c -> arg_ok a -> valid_start r (ia_session a) ->
  Forall (fun x => power_arg (snd x)) h ->
  In (OTransmit f bw sf p fr) (m_log (run c h (MAC_init c r a e0))) -> is_data_frame fr = false ->
  exists h1 e h2, h = h1 ++ (e, C_process) :: h2 /\ p = eirp_of c r (s_tx_param (m_ctx (run c h1 (MAC_init c r a e0)))) 0.
Proof. exact EirpP.join_power. Qed.
Print Assumptions C64_join_power.

Example C64_example :
  (* 30 dBm less two steps, and 8 dBm as the network has said *)
  sent_only (lg AU_915_928 (Some (au_s 2 0 255)) h_first) = [OTransmit 915200000 BW_125 12 2600 fr_first] /\
  sent_only (lg AU_915_928 (Some (au_s 2 0 0)) h_first) = [OTransmit 915200000 BW_125 12 800 fr_first] /\
  eirp_of cfg4 AU_915_928 255 2 = 2600 /\ eirp_of cfg4 AU_915_928 0 2 = 800 /\
  map (fun r => map (power_level r) [0; 1; 5]) [EU_863_870; EU_433; US_902_928; AU_915_928] =
    [[1600; 1400; 600]; [1215; 1015; 215]; [3000; 2800; 2000]; [3000; 2800; 2000]].
Proof. vm_compute. auto. Qed.

(* --- C65 ------------------------------------------------------------------------- *)

(* join requests in US 902-928 and AU 915-928 are on the air for at most 400 ms *)
Theorem C65_join_dwell : forall c r a e0 h f bw sf p fr, in_place c -> arg_ok a -> valid_start r (ia_session a) ->
  Forall (fun x => power_arg (snd x)) h -> isDynamic r = false ->
  In (OTransmit f bw sf p fr) (m_log (run c h (MAC_init c r a e0))) -> is_data_frame fr = false ->
  packet_us (bwToNumber bw) sf 0 (Z.of_nat (length fr)) 1 <= dwell_us.
Proof. exact EirpP.join_dwell. Qed.
Print Assumptions C65_join_dwell.

(* data frames in US 902-928 too, except for answers to commands at the lowest rate *)
Theorem C65_us_data_dwell_partial : forall c a e0 h f bw sf p fr, in_place c -> arg_ok a -> valid_start US_902_928 (ia_session a) ->
  Forall (fun x => power_arg (snd x)) h -> Forall rand_ok h ->
  In (OTransmit f bw sf p fr) (m_log (run c h (MAC_init c US_902_928 a e0))) -> is_data_frame fr = true ->
  exists h1 e cf port d o h2, h = h1 ++ (e, C_data cf port d o) :: h2 /\
    let m := run c h1 (MAC_init c US_902_928 a e0) in let ret := snd (step c e (C_data cf port d o) m) in
    starts (IReq (C_data cf port d o) ret) = Some KData /\
    (ret = RStatus STATUS_OK \/ s_rate (m_ctx m) <> 0 -> packet_us (bwToNumber bw) sf 0 (Z.of_nat (length fr)) 1 <= dwell_us).
Proof. exact EirpP.us_data. Qed.
Print Assumptions C65_us_data_dwell_partial.

(* the rate LDL_Region_applyUplinkDwell gives *)
Theorem C65_dwell_rate : forall dwell rate, applyUplinkDwell AU_915_928 dwell rate = (if dwell then Z.max 2 rate else rate).
Proof. exact EirpP.dwell_spec. Qed.
Print Assumptions C65_dwell_rate.

Definition h_au : history := h_toy_join ++ [P 8100; P 3000000; (at_t 3000000, C_data false 1 (Some [1;2]) None); P 3000000; P 3000025].
Example C65_example :
  map (fun o => match o with OTransmit _ b sf _ fr => (bwToNumber b, sf, packet_us (bwToNumber b) sf 0 (Z.of_nat (length fr)) 1) | _ => (0, 0, 0) end)
    (sent_only (lg AU_915_928 None h_join_unheard) ++ sent_only (lg US_902_928 None h_au)) =
    [(125000, 10, 370688); (125000, 10, 370688); (125000, 10, 329728)].
Proof. vm_compute. reflexivity. Qed.

(* in AU 915-928 the limit is in force from the start, yet data frames keep
   the rate of the session *)
Definition h_au_slow : history := h_toy_join ++ [P 8100; P 3000000; (at_t 3000000, C_setRate 0); (at_t 3000000, C_data false 1 (Some [1;2]) None); P 3000000; P 3000025].
Theorem C65_au_data_refuted : exists c h f bw sf p fr, in_place c /\ c_txps c = true /\ Forall (fun x => power_arg (snd x)) h /\
  let m := run c h (MAC_init c AU_915_928 (arg0 None) (at_t 0)) in
  dwell_limited (s_tx_param (m_ctx m)) = true /\ In (OTransmit f bw sf p fr) (m_log m) /\ is_data_frame fr = true /\
  packet_us (bwToNumber bw) sf 0 (Z.of_nat (length fr)) 1 > 2 * dwell_us.
Proof.
  exists cfg4, h_au_slow, 915400000, BW_125, 12, 3000, [64; 218; 27; 1; 38; 128; 0; 0; 1; 1; 2; 1; 2; 3; 4].
  split; [exact cfg4_in_place|]. split; [reflexivity|]. split; [apply power_args; vm_compute; reflexivity|]. cbv zeta.
  split; [vm_compute; reflexivity|]. split; [apply sent_in; vm_compute; reflexivity|]. split; [reflexivity|]. vm_compute. reflexivity.
Qed.
Print Assumptions C65_au_data_refuted.

Theorem C65_us_answers_refuted : exists c a h f bw sf p fr, in_place c /\ arg_ok a /\
  In (OTransmit f bw sf p fr) (m_log (run c h (MAC_init c US_902_928 a (at_t 0)))) /\
  packet_us (bwToNumber bw) sf 0 (Z.of_nat (length fr)) 1 > dwell_us.
Proof.
  exists cfg4, (arg0 (Some us_answers)), h_answers, 902300000, BW_125, 10, 3000, fr_answers.
  split; [exact cfg4_in_place|]. split; [apply arg0_ok|]. split; [apply sent_in; vm_compute; reflexivity|]. vm_compute. reflexivity.
Qed.
Print Assumptions C65_us_answers_refuted.

(* --- C66 ------------------------------------------------------------------------- *)

(* in the regions with a fixed plan every join request is on a channel of the
   plan, at a rate of the channel; in AU 915-928 at DR2 or DR6 *)
Theorem C66_join_channel_partial : forall c r a e0 h f bw sf p fr, in_place c -> arg_ok a -> valid_start r (ia_session a) ->
  Forall (fun x => power_arg (snd x)) h -> isDynamic r = false ->
  In (OTransmit f bw sf p fr) (m_log (run c h (MAC_init c r a e0))) -> is_data_frame fr = false ->
  exists ch lo hi rate, 0 <= ch < 72 /\ fixed_channel r ch = Some (f, lo, hi) /\ lo <= rate <= hi /\
     bw = rate_bw r rate /\ sf = rate_sf r rate /\ (r = AU_915_928 -> rate = 2 \/ rate = 6).
Proof. exact EirpP.join_plan. Qed.
Print Assumptions C66_join_channel_partial.

Example C66_example : sent_only (lg US_902_928 None h_join_unheard) = [OTransmit 902300000 BW_125 10 3000 (jr 0)] /\
  fixed_channel US_902_928 0 = Some (902300000, 0, 3) /\ is_data_frame (jr 0) = false.
Proof. vm_compute. auto. Qed.

(* a new device for EU 433 sends its join request in the 868 MHz band *)
Theorem C66_eu433_refuted : exists c h f bw sf p fr, in_place c /\ Forall (fun x => power_arg (snd x)) h /\
  In (OTransmit f bw sf p fr) (m_log (run c h (MAC_init c EU_433 (arg0 None) (at_t 0)))) /\
  is_data_frame fr = false /\ ~ in_region EU_433 f.
Proof.
  exists cfg4, (h_boot ++ h_join_tx 30), 868100000, BW_125, 7, 1215, (jr 0).
  split; [exact cfg4_in_place|]. split; [apply power_args; vm_compute; reflexivity|].
  split; [apply sent_in; vm_compute; reflexivity|]. split; [reflexivity|]. unfold in_region. lia.
Qed.
Print Assumptions C66_eu433_refuted.

(* --- C67 ------------------------------------------------------------------------- *)

Theorem C67_forget_defaults : forall c e m, s_joined (m_ctx m) = true ->
  has_defaults (s_region (m_ctx m)) (m_ctx (fst (step c e C_forget m))).
Proof. exact EirpP.forget_defaults. Qed.
Print Assumptions C67_forget_defaults.

Theorem C67_init_defaults_partial : forall c a e,
  match ia_session a with None => True | Some s => s_magic s <> sessionMagicNumber \/ s_region s <> EU_863_870 end ->
  has_defaults EU_863_870 (m_ctx (MAC_init c EU_863_870 a e)).
Proof. exact EirpP.init_defaults. Qed.
Print Assumptions C67_init_defaults_partial.

Example C67_example :
  getChannel (m_ctx (MAC_init cfg4 EU_863_870 (arg0 None) (at_t 0))) 1 = Some (868300000, 0, 5) /\
  s_rx2Freq (m_ctx (fst (step cfg4 (at_t 0) C_forget (MAC_init cfg4 AU_915_928 (arg0 (Some (au_s 0 0 0))) (at_t 0))))) = 923300000.
Proof. vm_compute. auto. Qed.

(* the other regions start with the settings of EU 863-870: the second window
   for the answer to a join request is opened in the European band *)
Theorem C67_init_defaults_refuted :
  (forall r, r <> EU_863_870 -> ~ has_defaults r (m_ctx (MAC_init cfg4 r (arg0 None) (at_t 0)))) /\
  heard_only (lg US_902_928 None h_join_unheard) = [OReceive 923300000 BW_500 10 8 255; OReceive 869525000 BW_125 10 8 24] /\
  heard_only (lg AU_915_928 None h_join_unheard) = [OReceive 923300000 BW_500 10 8 255; OReceive 869525000 BW_125 12 8 64] /\
  (* and stays there after the join *)
  s_joined (m_ctx (run cfg4 h_toy_join (MAC_init cfg4 US_902_928 (arg0 None) (at_t 0)))) = true /\
  s_rx2Freq (m_ctx (run cfg4 h_toy_join (MAC_init cfg4 US_902_928 (arg0 None) (at_t 0)))) = 869525000.
Proof.
  split; [|vm_compute; auto]. intros r N (_ & _ & _ & _ & R & _). revert R. destruct r; [congruence|..]; vm_compute; discriminate.
Qed.
Print Assumptions C67_init_defaults_refuted.
