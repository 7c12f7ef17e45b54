(* The session a join accept gives.  LoRaWAN 1.0.4 6.2.5, LoRaWAN 1.1 6.2.3. *)
From Verif Require Import Words FrameM CommandsM RegionM MacStateM MacUtilM MacApiM SpecFrame SpecHist SpecRx.

(* the channels of the session with the list of the accept, if it has one: what
   the list does is C37 *)
Definition listed (s : session) (l : option (list Z)) : session :=
  match l with Some l => chan_steps s (processCFList (s_region s) l) | None => s end.

(* Every field of the session after the accept.  The fields named after those
   of the accept are the ones it carries, a delay of zero standing for one.
   The rate is the one of the request when the device adapts its rate.  In
   version 1.1 the accept says which version the network has, and a 1.1 network
   is told with RekeyInd that the new keys are in use. *)
Definition joined_session (c : cfg) (m : mac) (j : join_accept) : session :=
  let s := m_ctx m in
  let ch := listed s (j_cfList j) in
  {| s_magic := s_magic s; s_joined := true; s_adr := s_adr s;
     s_version := if is_1_1 (c_l2 c) then b2z (j_optNeg j) else s_version s;
     s_region := s_region s; s_up := s_up s; s_appDown := s_appDown s; s_nwkDown := s_nwkDown s;
     s_devAddr := j_devAddr j; s_netID := j_netID j;
     s_chConfig := s_chConfig ch; s_chMask := s_chMask ch;
     s_rate := if s_adr s then getJoinRate (c_noSF12 c) (s_region s) (m_trials m) else s_rate s;
     s_power := s_power s; s_maxDutyCycle := s_maxDutyCycle s; s_nbTrans := s_nbTrans s;
     s_rx1DROffset := j_rx1DROffset j; s_rx1Delay := if j_rxDelay j =? 0 then 1 else j_rxDelay j;
     s_rx2DataRate := j_rx2DataRate j; s_rx2Freq := s_rx2Freq s;
     s_adr_ack_limit := s_adr_ack_limit s; s_adr_ack_delay := s_adr_ack_delay s;
     s_rxp_ans := s_rxp_ans s; s_dlc_ans := s_dlc_ans s; s_adr_ans := s_adr_ans s; s_dev_ans := s_dev_ans s;
     s_nch_ans := s_nch_ans s; s_rjp_ans := s_rjp_ans s;
     s_joinNonce := j_joinNonce j; s_devNonce := s_devNonce s;
     s_pending := if is_1_1 (c_l2 c) && j_optNeg j then Z.lor (s_pending s) (2 ^ cmd_bit CMD_REKEY) else s_pending s;
     s_tx_param := s_tx_param s |}.

(* what a session that is not joined has not: frames sent or received, and
   answers to give *)
Definition unused (s : session) : Prop :=
  s_joined s = false -> s_up s = 0 /\ s_appDown s = 0 /\ s_nwkDown s = 0 /\ s_pending s = 0.
Definition unused_start (a : option session) : Prop := match a with Some s => unused s | None => True end.

Definition is_join (o : out) : bool := match o with OEvent (EV_JOIN_COMPLETE _ _ _) => true | _ => false end.
