(* C07, C46, C49: how an uplink is encrypted and authenticated. *)
From Verif Require Import Lib FrameM CommandsM RegionM RadioM SmM MacStateM MacUtilM MacProcM MacApiM Scenario SpecFrame SpecAes SpecSm SpecHist SpecKey SpecUp.
From Verif Require Import RestoreP.
From Verif Require SmP CipherP MicP.

Lemma arg0_ok so : arg_ok (arg0 so).
Proof. unfold arg_ok, eui_ok, bytes_ok. repeat split; try (cbn; lia); repeat constructor; lia. Qed.
Lemma key16_block : block key16.
Proof. split; [reflexivity|]. repeat constructor; lia. Qed.

(* --- C07 ------------------------------------------------------------------------- *)

Definition real : cfg := aes_cfg L2_1_0_4 key16 key16.
Definition old : session := set_s_up 5 (m_ctx toy_joined).
Definition late : session := set_s_up (s_up old + 65536) old.
Definition ask (d : bytes) : call := C_data false 1 (Some d) None.
Definition from (s : session) : mac := MAC_init real EU_863_870 (arg0 (Some s)) (at_t 0).

(* counters 5 and 65541 of one session: the encrypted payloads differ just
   where the plain ones do *)
Theorem C07_keystream_reused_refuted :
  exists c app nwk r s1 s2 d1 d2 e, let m1 := MAC_init c r (arg0 (Some s1)) e in let m2 := MAC_init c r (arg0 (Some s2)) e in
  block app /\ block nwk /\ default_sm c app nwk /\ s2 = set_s_up (s_up s1 + 65536) s1 /\ s_up (m_ctx m1) = 5 /\ s_up (m_ctx m2) = 65541 /\
  snd (step c e (ask d1) m1) = RStatus STATUS_OK /\ snd (step c e (ask d2) m2) = RStatus STATUS_OK /\ d1 <> d2 /\
  map (fun j => Z.lxor (nth j (before_mic 4 (prepared (fst (step c e (ask d1) m1)))) 0) (nth j (before_mic 4 (prepared (fst (step c e (ask d2) m2)))) 0)) (seq 0 4) =
  map (fun j => Z.lxor (nth j d1 0) (nth j d2 0)) (seq 0 4).
Proof.
  exists real, key16, key16, EU_863_870, old, late, [1;2;3;4], [40;30;20;10], (at_t 0). cbv zeta.
  split; [apply key16_block|]. split; [apply key16_block|]. split; [exact (SmP.aes_cfg_default L2_1_0_4 key16 key16)|].
  split; [reflexivity|]. split; [vm_compute; reflexivity|]. split; [vm_compute; reflexivity|]. split; [vm_compute; reflexivity|]. split; [vm_compute; reflexivity|].
  split; [discriminate|]. vm_compute. reflexivity.
Qed.
Print Assumptions C07_keystream_reused_refuted.

(* any two accepted requests of a session with fewer than 65535 accepted ones
   between them: no block of one is a block of the other *)
Theorem C07_keystreams_disjoint_partial : forall c r a e0 h1 e1 cf1 p1 d1 o1 h2 e2 cf2 p2 d2 o2,
  in_place c -> arg_ok a -> session_ok (ia_session a) -> Forall (fun x => not_forget (snd x)) h2 ->
  let m1 := run c h1 (MAC_init c r a e0) in
  let k1 := C_data cf1 p1 (Some d1) o1 in let m1' := fst (step c e1 k1 m1) in
  let m2 := run c h2 m1' in
  let k2 := C_data cf2 p2 (Some d2) o2 in let m2' := fst (step c e2 k2 m2) in
  snd (step c e1 k1 m1) = RStatus STATUS_OK -> snd (step c e2 k2 m2) = RStatus STATUS_OK ->
  accepted (items c h2 m1') < 65535 ->
  exists log addr f1 f2,
    before_mic (length d1) (prepared m1') = c_ctr c log KEY_APPS (block_A true addr f1 1) d1 /\
    before_mic (length d2) (prepared m2') = c_ctr c log KEY_APPS (block_A true addr f2 1) d2 /\
    forall i j, block_A true addr f1 i <> block_A true addr f2 j.
Proof. exact CipherP.payloads_disjoint. Qed.
Print Assumptions C07_keystreams_disjoint_partial.

(* when the number accepted from one to the other, the second included, is a
   multiple of 65536 they are encrypted alike *)
Theorem C07_keystream_repeats_partial : forall c r a e0 h1 e1 cf1 p1 d1 o1 h2 e2 cf2 p2 d2 o2,
  in_place c -> arg_ok a -> session_ok (ia_session a) -> Forall (fun x => not_forget (snd x)) h2 ->
  let m1 := run c h1 (MAC_init c r a e0) in
  let k1 := C_data cf1 p1 (Some d1) o1 in let m1' := fst (step c e1 k1 m1) in
  let m2 := run c h2 m1' in
  let k2 := C_data cf2 p2 (Some d2) o2 in let m2' := fst (step c e2 k2 m2) in
  snd (step c e1 k1 m1) = RStatus STATUS_OK -> snd (step c e2 k2 m2) = RStatus STATUS_OK ->
  (accepted (items c h2 m1') + 1) mod 65536 = 0 ->
  exists log iv,
    before_mic (length d1) (prepared m1') = c_ctr c log KEY_APPS iv d1 /\
    before_mic (length d2) (prepared m2') = c_ctr c log KEY_APPS iv d2.
Proof. exact CipherP.payloads_reuse. Qed.
Print Assumptions C07_keystream_repeats_partial.
Definition cfg4 : cfg := toy_cfg L2_1_0_4.
Definition h_first : history := h_toy_join ++ [P 10000].
Definition m_first : mac := run cfg4 h_first (MAC_init cfg4 EU_863_870 (arg0 None) (at_t 0)).
Definition h_next : history :=
  [P 10000; P 10025; P 10050; P 10075] ++ h_rx1 10100 1 ++ [(timeout_at 11110, C_radioEvent 11110); P 11110; P 12100; P 12110; (timeout_at 12120, C_radioEvent 12120); (timeout_at 12120, C_process); P 4000000].
Definition m_next : mac := run cfg4 h_next (fst (step cfg4 (at_t 10000) (ask [1;2;3]) m_first)).
Example C07_two_requests_example :
  snd (step cfg4 (at_t 10000) (ask [1;2;3]) m_first) = RStatus STATUS_OK /\
  snd (step cfg4 (at_t 4000000) (ask [4;5]) m_next) = RStatus STATUS_OK /\
  accepted (items cfg4 h_next (fst (step cfg4 (at_t 10000) (ask [1;2;3]) m_first))) = 0.
Proof. vm_compute. auto. Qed.

(* --- C49 ------------------------------------------------------------------------- *)

(* with the security module shipped and a session that was joined or restored,
   the payload is encrypted as LoRaWAN specifies with the AppSKey of the
   session, but for the counter: only its low half is used *)
Theorem C49_low_half_partial : forall c r a e0 h e cf port d o app nwk,
  block app -> block nwk -> default_sm c app nwk -> arg_ok a -> session_ok (ia_session a) -> Forall (fun x => not_abp (snd x)) h ->
  let m := run c h (MAC_init c r a e0) in
  let k := C_data cf port (Some d) o in
  snd (step c e k m) = RStatus STATUS_OK ->
  before_mic (length d) (prepared (fst (step c e k m))) =
    payload_cipher (session_key c app nwk (ia_joinEUI a) (m_ctx m) KEY_APPS) (s_devAddr (m_ctx m)) (s_up (m_ctx m) mod 65536) d.
Proof. exact CipherP.payload_spec. Qed.
Print Assumptions C49_low_half_partial.
Corollary C49_payload_partial : forall c r a e0 h e cf port d o app nwk,
  block app -> block nwk -> default_sm c app nwk -> arg_ok a -> session_ok (ia_session a) -> Forall (fun x => not_abp (snd x)) h ->
  let m := run c h (MAC_init c r a e0) in
  let k := C_data cf port (Some d) o in
  snd (step c e k m) = RStatus STATUS_OK -> 0 <= s_up (m_ctx m) < 65536 ->
  before_mic (length d) (prepared (fst (step c e k m))) =
    payload_cipher (session_key c app nwk (ia_joinEUI a) (m_ctx m) KEY_APPS) (s_devAddr (m_ctx m)) (s_up (m_ctx m)) d.
Proof. intros c r a e0 h e cf port d o app nwk Ha Hn D OK SO NA m k E U. rewrite <- (Z.mod_small (s_up (m_ctx m)) 65536) by exact U. exact (CipherP.payload_spec c r a e0 h e cf port d o app nwk Ha Hn D OK SO NA E). Qed.
Print Assumptions C49_payload_partial.

(* the 65537th payload of a session is encrypted like the first *)
Theorem C49_payload_refuted :
  exists c r a e d app nwk, let m := MAC_init c r a e in
  block app /\ block nwk /\ default_sm c app nwk /\ arg_ok a /\ s_up (m_ctx m) = 65536 /\
  snd (step c e (ask d) m) = RStatus STATUS_OK /\
  before_mic (length d) (prepared (fst (step c e (ask d) m))) <>
    payload_cipher (session_key c app nwk (ia_joinEUI a) (m_ctx m) KEY_APPS) (s_devAddr (m_ctx m)) (s_up (m_ctx m)) d.
Proof.
  exists real, EU_863_870, (arg0 (Some (set_s_up 65536 (m_ctx toy_joined)))), (at_t 0), [1], key16, key16.
  cbv zeta. split; [apply key16_block|]. split; [apply key16_block|]. split; [exact (SmP.aes_cfg_default L2_1_0_4 key16 key16)|].
  split; [apply arg0_ok|]. split; [vm_compute; reflexivity|]. split; [vm_compute; reflexivity|].
  apply (CipherP.late_payload real EU_863_870 _ (at_t 0) 1 key16 key16 [2;1;0;0;19;0;0;0;0;0;0;0;0;0;0;0] 0x26011bda key16_block key16_block (SmP.aes_cfg_default L2_1_0_4 key16 key16)); [apply arg0_ok|split; [reflexivity|repeat constructor; lia]|reflexivity| |].
  - vm_compute. repeat split; discriminate.
  - vm_compute. reflexivity.
Qed.
Print Assumptions C49_payload_refuted.
Example C49_example : snd (step real (at_t 0) (ask [1;2]) (from old)) = RStatus STATUS_OK /\ s_up (m_ctx (from old)) = 5.
Proof. vm_compute. auto. Qed.

(* --- C46 ------------------------------------------------------------------------- *)

(* Every data frame sent in any history, repetitions included, ends in its
   integrity code, made with the keys of the session; with ConfFCnt = 0.  The
   frame, the rate and the channel index are of type uint8_t in C. *)
Theorem C46_sent_partial : forall c r a e0 h e k f b sf p fr app nwk,
  block app -> block nwk -> default_sm c app nwk -> arg_ok a -> session_ok (ia_session a) -> Forall (fun x => not_abp (snd x)) h ->
  let m := run c h (MAC_init c r a e0) in
  m_op m = OP_DATA_UNCONFIRMED \/ m_op m = OP_DATA_CONFIRMED -> In (OTransmit f b sf p fr) (new_out m (fst (step c e k m))) ->
  bytes_ok fr -> 0 <= tx_rate (m_tx m) < 256 -> 0 <= tx_chIndex (m_tx m) < 256 -> length fr <> 244%nat ->
  let key := session_key c app nwk (ia_joinEUI a) (m_ctx m) in
  exists body, (8 <= length body <= 251)%nat /\
    fr = body ++ le 4 (uplink_mic (sess_version c (m_ctx m)) (key KEY_FNWKSINT) (key KEY_SNWKSINT) 0
      (tx_rate (m_tx m)) (tx_chIndex (m_tx m)) (s_devAddr (m_ctx m)) (tx_counter (m_tx m)) body).
Proof. exact MicP.sent_mic_op. Qed.
Print Assumptions C46_sent_partial.
Definition h_send : history := h_boot ++ [(at_t 30, ask [1;2]); P 30; P 30].
Example C46_sent_ex : let m := run real h_send (from old) in
  m_op m = OP_DATA_UNCONFIRMED /\ tx_rate (m_tx m) = 5 /\ tx_chIndex (m_tx m) = 0 /\ tx_counter (m_tx m) = 5 /\
  match filter (fun o => match o with OTransmit _ _ _ _ _ => true | _ => false end) (new_out m (fst (step real (at_t 55) C_process m))) with
  | [OTransmit _ _ _ _ fr] => (length fr, firstn 8 fr) = (15%nat, [0x40; 0xda; 0x1b; 0x01; 0x26; 0x80; 5; 0])
  | _ => False
  end.
Proof. vm_compute. repeat split. Qed.
