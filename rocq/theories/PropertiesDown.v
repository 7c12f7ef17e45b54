(* C72, C73: how a received data frame is decrypted, and that a genuine one is
   delivered. *)
From Verif Require Import Lib FrameM CommandsM RegionM RadioM SmM MacStateM MacUtilM OpsM MacCmdM MacProcM MacApiM Scenario SpecFrame SpecAes SpecSm SpecHist SpecKey SpecRx SpecEffect SpecDown.
From Verif Require Import RestoreP.
From Verif Require FrameRtP SmP CaseP CoreP DecryptP.

Lemma arg0_ok so : arg_ok (arg0 so).
Proof. unfold arg_ok, eui_ok, bytes_ok. repeat split; try (cbn; lia); repeat constructor; lia. Qed.
Lemma key16_block : block key16.
Proof. split; [reflexivity|]. repeat constructor; lia. Qed.

Definition real : cfg := aes_cfg L2_1_0_4 key16 key16.
Definition h_send (t : Z) : history :=
  [P t; (at_t t, C_data false 1 (Some [1;2;3]) (Some (mkOpts 2 false false))); P t; P (t + 25); P (t + 50); P (t + 75)].
(* an uplink, and a frame in the first window after it *)
Definition h_win : history := h_boot ++ h_send 10000 ++ h_rx1 10100 1 ++ [(rx_at 11110 [], C_radioEvent 11110)].
Definition m_real : mac := run real h_win (MAC_init real EU_863_870 (arg0 (Some (m_ctx toy_joined))) (at_t 0)).

(* --- C72 ------------------------------------------------------------------------- *)

(* With the security module shipped and a session that was joined or restored:
   whatever reaches the application is the payload of a genuine frame,
   decrypted with the AppSKey of the session and the FCnt of the frame.  The
   integrity code holds for a counter that ends in this FCnt, which is the
   FCnt itself when the counter of the session has no high half. *)
Theorem C72_payload_partial : forall c r a e0 h e k app nwk port d,
  block app -> block nwk -> default_sm c app nwk -> arg_ok a -> Forall (fun x => not_abp (snd x)) h -> bytes_ok (e_rx e) ->
  let m := run c h (MAC_init c r a e0) in let w := heard e in
  well_sized w -> In (OEvent (EV_RX port d)) (new_out m (fst (step c e k m))) ->
  port = port_in w /\ port <> 0 /\
  d = down_cipher (session_key c app nwk (ia_joinEUI a) (m_ctx m) KEY_APPS) (s_devAddr (m_ctx m)) (fcnt_down w) 1 (payload_in w) /\
  exists n, n mod 2 ^ 16 = fcnt_down w /\ genuine_as c m w n /\ (low_down (m_ctx m) -> n = fcnt_down w).
Proof. exact DecryptP.delivered_plain. Qed.
Print Assumptions C72_payload_partial.

(* the commands in FOpts, which 1.1 networks encrypt, and for port 0 *)
Theorem C72_commands : forall c r a e0 h e app nwk buf f,
  block app -> block nwk -> default_sm c app nwk -> arg_ok a -> Forall (fun x => not_abp (snd x)) h -> bytes_ok (e_rx e) -> c_errata c = false ->
  let m := run c h (MAC_init c r a e0) in let w := heard e in
  well_sized w -> CaseP.is_data (m_op m) = true ->
  receiveFrame c m (rx_buffer e) (rx_len e) = (buf, Some f) -> data_frame f = true ->
  let key := session_key c app nwk (ia_joinEUI a) (m_ctx m) KEY_NWKSENC in let addr := s_devAddr (m_ctx m) in
  field buf (dn_opts f) (dn_optsLen f) =
    (if is_1_1 (c_l2 c) && (sess_version c (m_ctx m) =? 1) then down_cipher key addr (fcnt_down w) 0 (options_in w) else options_in w) /\
  (port_in w = 0 -> field buf (dn_data f) (dn_dataLen f) = down_cipher key addr (fcnt_down w) 1 (payload_in w)).
Proof. exact DecryptP.options_plain. Qed.
Print Assumptions C72_commands.

(* the network's side: a frame with FCnt n for this port *)
Definition sealed (c : cfg) (m : mac) (n port : Z) (opts p : bytes) : bytes :=
  let w := [0x60; 0xda;0x1b;0x01;0x26; Z.of_nat (length opts)] ++ le 2 n ++ opts ++ [port] ++
           c_ctr c (m_sm m) (if port =? 0 then KEY_NWKSENC else KEY_APPS) (block_A false (s_devAddr (m_ctx m)) n 1) p in
  w ++ le 4 (c_mic c (m_sm m) KEY_SNWKSINT (block_B0 0 false (s_devAddr (m_ctx m)) n (Z.of_nat (length w))) w).
Definition reply : env := rx_at 11110 (sealed real m_real 3 1 [6] [9;9;9]).
Example C72_example :
  default_sm real key16 key16 /\ m_op m_real = OP_DATA_UNCONFIRMED /\ m_state m_real = ST_RX1 /\ low_down (m_ctx m_real) /\
  (length (heard reply), port_in (heard reply), options_in (heard reply)) = (17%nat, 1, [6]) /\
  payload_in (heard reply) <> [9;9;9] /\
  filter is_rx (new_out m_real (fst (step real reply C_process m_real))) = [OEvent (EV_RX 1 [9;9;9])].
Proof.
  split; [exact (SmP.aes_cfg_default L2_1_0_4 key16 key16)|]. split; [vm_compute; reflexivity|]. split; [vm_compute; reflexivity|].
  split; [vm_compute; auto|]. split; [vm_compute; reflexivity|]. split; [vm_compute; discriminate|]. vm_compute. reflexivity.
Qed.
(* DevStatusReq for port 0, and encrypted in FOpts of a 1.1 session *)
Definition read (c : cfg) (m : mac) (w : bytes) : bytes * bytes :=
  match receiveFrame c m (rx_buffer (rx_at 11110 w)) (rx_len (rx_at 11110 w)) with
  | (b, Some f) => (field b (dn_opts f) (dn_optsLen f), field b (dn_data f) (dn_dataLen f))
  | _ => ([], [])
  end.
Definition real11 : cfg := aes_cfg L2_1_1 key16 key16.
Definition m_real11 : mac := run real11 h_win (MAC_init real11 EU_863_870 (arg0 (Some (set_s_version 1 (m_ctx toy_joined)))) (at_t 0)).
Definition hidden : bytes := c_ctr real11 (m_sm m_real11) KEY_NWKSENC (block_A false (s_devAddr (m_ctx m_real11)) 3 0) [6].
Example C72_commands_example :
  read real m_real (sealed real m_real 3 0 [] [6]) = ([], [6]) /\ c_errata real = false /\
  sess_version real11 (m_ctx m_real11) = 1 /\ hidden <> [6] /\
  read real11 m_real11 (sealed real11 m_real11 3 1 hidden [9;9]) = ([6], [9;9]).
Proof.
  split; [vm_compute; reflexivity|]. split; [vm_compute; reflexivity|]. split; [vm_compute; reflexivity|]. split; [vm_compute; discriminate|]. vm_compute. reflexivity.
Qed.

(* With a high half, the integrity code is checked with the whole counter and
   the payload decrypted with its low half: a genuine frame that the network
   encrypted with its counter arrives as something else. *)
Definition marked : cfg := {|
  c_l2 := L2_1_0_4; c_noSF12 := false; c_txps := true; c_errata := false; c_startup := 0; c_xtal := 25;
  c_mic := fun _ _ iv _ => le_val (slice iv 10 4);
  c_ecb := fun _ _ b => b;
  c_ctr := fun _ _ iv d => map (Z.lxor (nth 12 iv 0)) d |}.
Definition high : session := set_s_appDown 1 (m_ctx toy_joined).
Definition m_marked : mac := run marked h_win (MAC_init marked EU_863_870 (arg0 (Some high)) (at_t 0)).
Definition e_marked : env := rx_at 11110 (sealed marked m_marked 131077 1 [] [9;9;9]).
Lemma marked_mic l k iv d : c_mic marked l k iv d = le_val (slice iv 10 4). Proof. reflexivity. Qed.
Lemma marked_case m : m = m_marked -> let w := heard e_marked in
  genuine_as marked m w 131077 /\ (forall n, 0 <= n < 2 ^ 32 -> genuine_as marked m w n -> n = 131077) /\
  payload_in w = c_ctr marked (m_sm m) KEY_APPS (block_A false (s_devAddr (m_ctx m)) 131077 1) [9;9;9] /\
  In (OEvent (EV_RX (port_in w) [11;11;11])) (new_out m (fst (step marked e_marked C_process m))).
Proof.
  intros -> w. split; [|split; [|split]].
  - unfold genuine_as. split; [left; vm_compute; reflexivity|]. split; [vm_compute; repeat constructor|]. split; [left; vm_compute; reflexivity|]. split; [vm_compute; reflexivity|]. vm_compute. reflexivity.
  - intros n R (_ & _ & _ & _ & M). cbv zeta in M.
    assert (le_val (slice w (length w - 4) 4) = 131077) as T by (vm_compute; reflexivity). rewrite T in M. clear T.
    rewrite marked_mic in M.
    symmetry. rewrite M. clear M.
    match goal with |- context [block_B0 ?k false ?a n ?l] => generalize k a l end. intros k a l.
    change (le_val (le 4 n) = n). apply FrameRtP.le_val_le. exact R.
  - vm_compute. reflexivity.
  - vm_compute. auto.
Qed.
Theorem C72_payload_refuted :
  exists c r a e0 h e n p d, let m := run c h (MAC_init c r a e0) in let w := heard e in
  in_place c /\ arg_ok a /\ bytes_ok (e_rx e) /\ well_sized w /\ 0 <= n < 2 ^ 32 /\ d <> p /\
  genuine_as c m w n /\ (forall n', 0 <= n' < 2 ^ 32 -> genuine_as c m w n' -> n' = n) /\
  payload_in w = c_ctr c (m_sm m) KEY_APPS (block_A false (s_devAddr (m_ctx m)) n 1) p /\
  In (OEvent (EV_RX (port_in w) d)) (new_out m (fst (step c e C_process m))).
Proof.
  exists marked, EU_863_870, (arg0 (Some high)), (at_t 0), h_win, e_marked, 131077, [9;9;9], [11;11;11].
  intros m w. split; [split; [intros; apply map_length|auto]|]. split; [apply arg0_ok|].
  split; [vm_compute; repeat constructor; discriminate|]. split; [vm_compute; repeat constructor|]. split; [lia|]. split; [discriminate|].
  apply marked_case. unfold m, m_marked. reflexivity.
Qed.
Print Assumptions C72_payload_refuted.

(* --- C73 ------------------------------------------------------------------------- *)

(* What the network encrypts and signs as LoRaWAN says for a session without a
   high half, and sends to a window, is handed to the application once, as it
   was. *)
Theorem C73_delivered : forall c r a e0 h e app nwk p,
  block app -> block nwk -> default_sm c app nwk -> arg_ok a -> Forall (fun x => not_abp (snd x)) h -> bytes_ok (e_rx e) ->
  low_start (ia_session a) -> air_ok h ->
  let m := run c h (MAC_init c r a e0) in let w := heard e in
  CoreP.in_rx (m_state m) = true -> inputPending m = true -> e_st_rx e = true -> well_sized w -> port_in w <> 0 -> p <> [] ->
  genuine_as c m w (fcnt_down w) ->
  payload_in w = down_cipher (session_key c app nwk (ia_joinEUI a) (m_ctx m) KEY_APPS) (s_devAddr (m_ctx m)) (fcnt_down w) 1 p ->
  filter is_rx (new_out m (fst (step c e C_process m))) = [OEvent (EV_RX (port_in w) p)].
Proof. exact DecryptP.delivered. Qed.
Print Assumptions C73_delivered.

(* any genuine frame is taken, whatever is in it *)
Theorem C73_accepted : forall c m e, bytes_ok (e_rx e) ->
  let w := heard e in well_sized w -> no_clash w ->
  genuine_as c m w (deriveDownCounter c (m_ctx m) (port_in w) (fcnt_down w)) ->
  exists buf f, receiveFrame c m (rx_buffer e) (rx_len e) = (buf, Some f) /\ data_frame f = true.
Proof. exact DecryptP.genuine_received. Qed.
Print Assumptions C73_accepted.
Lemma reply_genuine : genuine_as real m_real (heard reply) 3.
Proof.
  unfold genuine_as. split; [left; vm_compute; reflexivity|]. split; [vm_compute; repeat constructor|]. split; [left; vm_compute; reflexivity|]. split; [vm_compute; reflexivity|]. vm_compute. reflexivity.
Qed.
Example C73_example :
  genuine_as real m_real (heard reply) 3 /\ fcnt_down (heard reply) = 3 /\ well_sized (heard reply) /\
  deriveDownCounter real (m_ctx m_real) 1 3 = 3 /\
  CoreP.in_rx (m_state m_real) = true /\ inputPending m_real = true /\ low_start (Some (m_ctx toy_joined)).
Proof.
  split; [exact reply_genuine|]. split; [vm_compute; reflexivity|]. split; [vm_compute; repeat constructor|]. split; [vm_compute; reflexivity|].
  split; [vm_compute; reflexivity|]. split; [vm_compute; reflexivity|]. vm_compute. auto.
Qed.
