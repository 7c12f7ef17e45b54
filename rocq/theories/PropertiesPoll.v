(* C83, C84: what the application is told when it asks whether, and how much,
   it can send. *)
From Verif Require Import Lib FrameM CommandsM RegionM RadioM SmM MacStateM MacUtilM OpsM MacCmdM MacProcM MacApiM Scenario SpecRegion SpecHist SpecChan SpecValid SpecSend SpecAnswer SpecPoll.
From Verif Require Import PropertiesChan PropertiesEffect.
From Verif Require PollP SelectP.

(* --- C83 ------------------------------------------------------------------------- *)

(* ready is answered exactly when nothing is in progress, no off-time is left
   over all channels, and some channel is defined, not masked and clear *)
Theorem C83_ready_exact c r a e0 h : valid_start r (ia_session a) -> Forall (fun x => power_arg (snd x)) h ->
  let m := run c h (MAC_init c r a e0) in
  MAC_ready m = true <-> m_state m = ST_IDLE /\ band_global m = 0 /\ exists ch, open_channel m 0 ch.
Proof. exact (PollP.ready_always c r a e0 h). Qed.
Print Assumptions C83_ready_exact.

(* of a joined device with nothing in progress, a request is answered with
   "no channel" exactly when it is not ready, and else by its size alone *)
Theorem C83_taken_partial c r a e0 h e cf port d o : valid_start r (ia_session a) -> Forall (fun x => power_arg (snd x)) h -> 0 <= e_rand e RND_CHANNEL ->
  let m := run c h (MAC_init c r a e0) in
  s_joined (m_ctx m) = true -> 1 <= port <= 223 -> m_state m = ST_IDLE ->
  snd (step c e (C_data cf port d o) m) = RStatus (if MAC_ready m then verdict (c_l2 c) (c_txps c) (m_ctx m) d o else STATUS_NOCHANNEL).
Proof. exact (PollP.ready_taken c r a e0 h e cf port d o). Qed.
Print Assumptions C83_taken_partial.

Example C83_example : Forall (fun x => power_arg (snd x)) h_clear /\ s_joined (m_ctx (at_h h_toy_join)) = true /\ m_state (at_h h_toy_join) = ST_IDLE /\
  MAC_ready (at_h h_toy_join) = false /\ snd (step cfg4 (at_t 8100) (ask 1 [1;2;3]) (at_h h_toy_join)) = RStatus STATUS_NOCHANNEL /\
  MAC_ready (at_h h_clear) = true /\ snd (step cfg4 (at_t 3000000) (ask 1 [1;2;3]) (at_h h_clear)) = RStatus STATUS_OK.
Proof. split; [apply power_args; vm_compute; reflexivity|]. vm_compute. repeat split. Qed.

(* after a cancel the radio is reset: not ready, but a request is taken *)
Theorem C83_taken_refuted : exists c r a e0 h e cf port d o, let m := run c h (MAC_init c r a e0) in
  MAC_ready m = false /\ snd (step c e (C_data cf port d o) m) = RStatus STATUS_OK.
Proof.
  exists cfg4, EU_863_870, (arg0 None), (at_t 0), (h_clear ++ [(at_t 3000000, C_cancel)]), (at_t 3000000), false, 1, (Some [1;2;3]), None.
  vm_compute. auto.
Qed.
Print Assumptions C83_taken_refuted.

(* --- C84 ------------------------------------------------------------------------- *)

(* where every channel takes the rate of the session, no option is used and no
   answer to TXParamSetupReq waits: no message longer than the size told is
   taken whole, and a message of that size is, if the size is not zero and at
   most 15 octets of answers wait *)
Theorem C84_mtu_partial c r a e0 h e cf port d o : valid_start r (ia_session a) -> Forall (fun x => power_arg (snd x)) h -> 0 <= e_rand e RND_CHANNEL ->
  let m := run c h (MAC_init c r a e0) in
  s_joined (m_ctx m) = true -> 1 <= port <= 223 -> MAC_ready m = true -> rate_everywhere (m_ctx m) -> plain (c_txps c) (m_ctx m) o ->
  let st := snd (step c e (C_data cf port d o) m) in
  (st = RStatus STATUS_OK -> octets_of d <= MAC_mtu c m) /\
  (1 <= MAC_mtu c m -> octets_of d <= MAC_mtu c m -> Z.of_nat (length (uplink_commands (c_l2 c) (c_txps c) (m_ctx m) (wanted o))) <= 15 -> st = RStatus STATUS_OK).
Proof. exact (PollP.mtu_always c r a e0 h e cf port d o). Qed.
Print Assumptions C84_mtu_partial.

(* an uplink, answered with these commands; the off-time passes *)
Definition h_told (cmds : bytes) : history := h_toy_join ++ h_up 10000 ++ h_rx1 10100 1 ++ h_rx 11110 (down cmds) ++ [P 3000000; P 3000000].
Definition m_asked : mac := run e_cfg (h_told [6; 5; 0;0;0;0; 4; 0]) (e_start EU_863_870).
Definition sends_n (m : mac) (n : nat) : ret := snd (step e_cfg (at_t 3000000) (ask 1 (repeat 0 n)) m).

Lemma eu_everywhere s : s_region s = EU_863_870 ->
  forallb (fun ch => match getChannel s ch with Some (f, lo, hi) => (f <=? 0) || (lo <=? s_rate s) && (s_rate s <=? hi) | None => true end) (channels EU_863_870) = true -> rate_everywhere s.
Proof.
  intros R F ch f lo hi B _ G F0. rewrite forallb_forall in F. rewrite R in B. specialize (F ch (proj2 (SelectP.channels_in _ _) B)). rewrite G in F. lia.
Qed.

Example C84_example : Forall (fun x => power_arg (snd x)) (h_told [6; 5; 0;0;0;0; 4; 0]) /\ s_joined (m_ctx m_asked) = true /\ MAC_ready m_asked = true /\
  plain true (m_ctx m_asked) (Some (mkOpts 1 false false)) /\ length (uplink_commands L2_1_0_4 true (m_ctx m_asked) (mkOpts 1 false false)) = 6%nat /\
  MAC_mtu e_cfg m_asked = 236 /\ map (sends_n m_asked) [236; 237; 242; 243]%nat = [RStatus STATUS_OK; RStatus STATUS_MACPRIORITY; RStatus STATUS_MACPRIORITY; RStatus STATUS_SIZE].
Proof. split; [apply power_args; vm_compute; reflexivity|]. vm_compute. repeat split. Qed.
Example C84_everywhere_ex : rate_everywhere (m_ctx m_asked).
Proof. apply eu_everywhere; vm_compute; reflexivity. Qed.

(* where channels differ in their rates, the size told is that of another
   rate: in US902-928, after a join at the lowest rate, 242 is told and 12
   are refused *)
Theorem C84_rate_refuted : exists c r a e0 h e d, let m := run c h (MAC_init c r a e0) in
  s_joined (m_ctx m) = true /\ MAC_ready m = true /\ MAC_mtu c m = 242 /\ octets_of d = 12 /\
  snd (step c e (C_data false 1 d None) m) = RStatus STATUS_SIZE.
Proof. exists cfg4, US_902_928, (arg0 None), (at_t 0), h_clear, (at_t 3000000), (Some (repeat 0 12)). vm_compute. auto. Qed.
Print Assumptions C84_rate_refuted.

(* the answer to TXParamSetupReq is not counted: a message of the size told
   is put off.  The 500 kHz channels are masked first *)
Definition h_narrow : history := h_told [9; 0] ++ map (fun ch => (at_t 3000000, C_maskChannel (Z.of_nat ch))) (seq 64 8).
Theorem C84_answer_refuted : exists c r a e0 h e d, let m := run c h (MAC_init c r a e0) in
  s_joined (m_ctx m) = true /\ MAC_ready m = true /\ waiting (m_ctx m) CMD_TX_PARAM_SETUP = true /\ octets_of d = MAC_mtu c m /\ 0 < octets_of d /\
  snd (step c e (C_data false 1 d None) m) = RStatus STATUS_MACPRIORITY.
Proof. exists e_cfg, AU_915_928, (arg0 None), (at_t 0), h_narrow, (at_t 3000000), (Some (repeat 0 51)). vm_compute. repeat split. Qed.
Print Assumptions C84_answer_refuted.

(* nor are the options of the request *)
Theorem C84_options_refuted : exists c r a e0 h e d, let m := run c h (MAC_init c r a e0) in
  s_joined (m_ctx m) = true /\ MAC_ready m = true /\ octets_of d = MAC_mtu c m /\ 0 < octets_of d /\
  snd (step c e (C_data false 1 d (Some (mkOpts 1 true false))) m) = RStatus STATUS_MACPRIORITY.
Proof. exists cfg4, EU_863_870, (arg0 None), (at_t 0), h_clear, (at_t 3000000), (Some (repeat 0 242)). vm_compute. repeat split. Qed.
Print Assumptions C84_options_refuted.
