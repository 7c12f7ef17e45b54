(* C87: a join accept is taken as it was sent. *)
From Verif Require Import Lib FrameM CommandsM RegionM RadioM SmM MacStateM MacUtilM OpsM MacProcM MacApiM Scenario SpecFrame SpecDecode SpecRx SpecRegion SpecHist SpecJoined PropertiesMac PropertiesRx PropertiesChan.
From Verif Require JoinedP.

(* --- C87 ------------------------------------------------------------------------- *)

(* A join accept that is genuine (C04, C06) and arrives in a window is taken.
   The application is told once that the device joined, with the network and
   address of the accept, and the session is the one the accept describes. *)
Theorem C87_taken : forall c r a e0 h e j, octets c -> arg_ok a -> bytes_ok (e_rx e) ->
  let m := run c h (MAC_init c r a e0) in let m' := fst (step c e C_process m) in
  CoreP.in_rx (m_state m) = true -> inputPending m = true -> e_st_rx e = true -> genuine_accept c m (heard e) j ->
  filter is_join (new_out m m') = [OEvent (EV_JOIN_COMPLETE (j_joinNonce j + 1) (j_netID j) (j_devAddr j))] /\
  m_ctx m' = joined_session c m j /\ m_joinNonce m' = j_joinNonce j + 1 /\ m_op m' = OP_NONE /\ m_state m' = ST_IDLE.
Proof. exact JoinedP.accept_taken. Qed.
Print Assumptions C87_taken.

(* the network's choices, a list of five channels, and 1.1 with OptNeg *)
Definition five : list Z := [0x18;0x4f;0x84; 0xe8;0x56;0x84; 0xb8;0x5e;0x84; 0x88;0x66;0x84; 0x58;0x6e;0x84; 0].
Definition j_five (neg : bool) (delay : Z) : join_accept := JoinAcceptMsg 1 0x13 0x26011bda neg 2 3 delay (Some five) 0x04030201.
Definition m_five (v : l2ver) (neg : bool) (delay : Z) : mac :=
  fst (step (toy_cfg v) (rx_at 8100 (accept_bytes (j_five neg delay))) C_process (m_first v)).
Lemma five_genuine v neg d : 0 <= d < 256 -> v <> L2_1_0_3 -> genuine_accept (toy_cfg v) (m_first v) (heard (rx_at 8100 (accept_bytes (j_five neg d)))) (j_five neg d).
Proof.
  intros D V. unfold genuine_accept. split; [destruct v; vm_compute; reflexivity|]. split.
  { unfold accept_wf, j_five. cbn [j_joinNonce j_netID j_devAddr j_rx1DROffset j_rx2DataRate j_rxDelay j_cfList j_mic]. repeat split; try lia. unfold five. repeat constructor; lia. }
  split; [right; reflexivity|]. split; [destruct v, neg; reflexivity|].
  split; [destruct v, neg; reflexivity|]. intros _. destruct v; vm_compute; discriminate.
Qed.
Example C87_taken_ex :
  CoreP.in_rx (m_state (m_first L2_1_0_4)) = true /\ inputPending (m_first L2_1_0_4) = true /\ e_st_rx (rx_at 8100 []) = true /\
  (let s := m_ctx (m_five L2_1_0_4 false 5) in
   (s_joined s, s_devAddr s, s_netID s, s_joinNonce s) = (true, 0x26011bda, 0x13, 1) /\
   (s_rx1DROffset s, s_rx2DataRate s, s_rx1Delay s) = (2, 3, 5) /\
   map (getChannel s) [2; 3; 7; 8] = [Some (868500000, 0, 5); Some (867100000, 0, 5); Some (867900000, 0, 5); Some (0, 0, 0)]) /\
  (let s := m_ctx (m_five L2_1_1 true 0) in (s_version s, s_rx1Delay s, s_pending s) = (1, 1, 2 ^ cmd_bit CMD_REKEY)).
Proof. vm_compute. repeat split. Qed.

(* Only such an accept makes the device report that it joined. *)
Theorem C87_only : forall c r a e0 h e k, octets c -> arg_ok a -> bytes_ok (e_rx e) ->
  let m := run c h (MAC_init c r a e0) in let m' := fst (step c e k m) in
  filter is_join (new_out m m') = [] \/
  (k = C_process /\ CoreP.in_rx (m_state m) = true /\ exists j, genuine_accept c m (heard e) j /\
   filter is_join (new_out m m') = [OEvent (EV_JOIN_COMPLETE (j_joinNonce j + 1) (j_netID j) (j_devAddr j))] /\ m_ctx m' = joined_session c m j).
Proof. exact JoinedP.only_accept. Qed.
Print Assumptions C87_only.

(* The session starts with all counters at zero and with no answer to give but
   RekeyInd to a 1.1 network, if the sessions handed back to the library are
   ones it has handed out. *)
Theorem C87_anew : forall c r a e0 h j, unused_start (ia_session a) -> let m := run c h (MAC_init c r a e0) in
  m_op m = OP_JOINING -> let s := joined_session c m j in
  s_up s = 0 /\ s_appDown s = 0 /\ s_nwkDown s = 0 /\ s_pending s = (if is_1_1 (c_l2 c) && j_optNeg j then 2 ^ cmd_bit CMD_REKEY else 0).
Proof. exact JoinedP.join_starts_anew. Qed.
Print Assumptions C87_anew.
Theorem C87_sessions_out : forall c r a e0 h, unused_start (ia_session a) ->
  forall s, In (OEvent (EV_SESSION_UPDATED s)) (m_log (run c h (MAC_init c r a e0))) -> unused s.
Proof. intros c r a e0 h U. exact (proj2 (proj2 (JoinedP.unused_always c r a e0 h U))). Qed.
Print Assumptions C87_sessions_out.
(* a session that was used, left and joined again *)
Example C87_anew_ex : m_op (m_first L2_1_1) = OP_JOINING /\ unused_start (ia_session (arg0 None)) /\
  s_up (m_ctx (fst (step cfg4 (at_t 9000) C_forget toy_joined))) = 0 /\ unused (m_ctx toy_joined).
Proof. vm_compute. repeat split; discriminate. Qed.

(* The channels.  A list of frequencies gives channels 3 to 7, and the others
   are as before; a list of masks says which of the 72 channels are used. *)
Theorem C87_channels : forall c m j cf i, j_cfList j = Some cf -> tables_ok (m_ctx m) -> isDynamic (s_region (m_ctx m)) = true -> accept_wf j ->
  nth 15 cf 0 = 0 -> (i < 5)%nat ->
  getChannel (joined_session c m j) (3 + Z.of_nat i) =
  stored (s_region (m_ctx m)) (100 * (nth (3 * i) cf 0 + 256 * nth (3 * i + 1) cf 0 + 65536 * nth (3 * i + 2) cf 0)) (getChannel (m_ctx m) (3 + Z.of_nat i)).
Proof. exact JoinedP.joined_added. Qed.
Print Assumptions C87_channels.
Theorem C87_other_channels : forall c m j ch, isDynamic (s_region (m_ctx m)) = true -> 0 <= ch -> ch < 3 \/ 8 <= ch ->
  getChannel (joined_session c m j) ch = getChannel (m_ctx m) ch.
Proof. exact JoinedP.joined_others. Qed.
Print Assumptions C87_other_channels.
Theorem C87_masks : forall c m j cf ch, j_cfList j = Some cf -> tables_ok (m_ctx m) -> isDynamic (s_region (m_ctx m)) = false -> accept_wf j ->
  nth 15 cf 0 = 1 -> 0 <= ch < 72 ->
  channelIsMasked (s_chMask (joined_session c m j)) (s_region (m_ctx m)) ch = negb (cf_bit cf (Z.to_nat ch)).
Proof. exact JoinedP.joined_masks. Qed.
Print Assumptions C87_masks.
Definition j_masks : join_accept := JoinAcceptMsg 1 0x13 0x26011bda false 0 8 1 (Some [0;0xff;0;0;0;0;0;0;2;0;0;0;0;0;0;1]) 0x04030201.
Definition us_first : mac := run (toy_cfg L2_1_0_4) h_accept (MAC_init (toy_cfg L2_1_0_4) US_902_928 (arg0 None) (at_t 0)).
Example C87_masks_ex : let s := joined_session (toy_cfg L2_1_0_4) us_first j_masks in
  m_op us_first = OP_JOINING /\ filter (fun ch => negb (channelIsMasked (s_chMask s) US_902_928 ch)) (map Z.of_nat (seq 0 72)) = [8;9;10;11;12;13;14;15;65].
Proof. vm_compute. split; reflexivity. Qed.

(* The upper half of the delay is reserved and has to be ignored, but is used:
   with one bit of it set the device listens 17 seconds after its uplinks and
   not after one, and hears nothing. *)
Theorem C87_reserved_bits_refuted : exists c m e e' j j', genuine_accept c m (heard e) j /\ genuine_accept c m (heard e') j' /\
  j' = j_five false 0x11 /\ j = j_five false 0x01 /\ j_rxDelay j' mod 16 = j_rxDelay j mod 16 /\
  s_rx1Delay (m_ctx (fst (step c e C_process m))) = 1 /\ s_rx1Delay (m_ctx (fst (step c e' C_process m))) = 17.
Proof.
  exists (toy_cfg L2_1_0_4), (m_first L2_1_0_4), (rx_at 8100 (accept_bytes (j_five false 1))), (rx_at 8100 (accept_bytes (j_five false 17))), (j_five false 1), (j_five false 17).
  split; [apply five_genuine; [lia|discriminate]|]. split; [apply five_genuine; [lia|discriminate]|]. vm_compute. repeat split.
Qed.
Print Assumptions C87_reserved_bits_refuted.
