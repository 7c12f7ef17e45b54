(* C08-C11, C41, C45, C46: cryptography. *)
From Verif Require Import Lib FrameM AesM CmacM CtrM SmM MacStateM OpsM Scenario.
From Verif Require Import SpecFrame SpecAes SpecCmac SpecSm.
From Verif Require AesP CmacP CtrP SmP.

(* --- C10: AES -------------------------------------------------------------------- *)

Theorem C10_aes_is_fips_197 : forall key s, block key -> block s ->
  AES_encrypt (AES_init key) s = aes128 key s.
Proof. exact AesP.aes_spec. Qed.
Print Assumptions C10_aes_is_fips_197.

(* FIPS-197 appendix C.1 *)
Example C10_example :
  aes128 [0;1;2;3;4;5;6;7;8;9;10;11;12;13;14;15]
    [0x00;0x11;0x22;0x33;0x44;0x55;0x66;0x77;0x88;0x99;0xaa;0xbb;0xcc;0xdd;0xee;0xff] =
    [0x69;0xc4;0xe0;0xd8;0x6a;0x7b;0x04;0x30;0xd8;0xcd;0xb7;0x80;0x70;0xb4;0xc5;0x5a].
Proof. exact SmP.fips_vector. Qed.

(* --- C09: CMAC over pieces --------------------------------------------------------- *)

(* whatever the block cipher and the pieces, up to 255 bytes in all *)
Theorem C09_cmac_of_pieces : forall enc, (forall b, block b -> block (enc b)) ->
  forall pieces n, Forall bytes_ok pieces -> (length (concat pieces) < 256)%nat ->
  CMAC_finish enc (fold_left (CMAC_update enc) pieces CMAC_init) n =
  firstn (Z.to_nat (Z.min 16 n)) (cmac enc (concat pieces)).
Proof. exact CmacP.cmac_run_spec. Qed.
Print Assumptions C09_cmac_of_pieces.

(* RFC 4493 section 4, examples 1 to 3 *)
Example C09_example :
  cmac (aes128 SmP.rfc_key) [] =
    [0xbb;0x1d;0x69;0x29;0xe9;0x59;0x37;0x28;0x7f;0xa3;0x7d;0x12;0x9b;0x75;0x67;0x46] /\
  cmac (aes128 SmP.rfc_key) (firstn 16 SmP.rfc_msg) =
    [0x07;0x0a;0x16;0xb4;0x6b;0x4d;0x41;0x44;0xf7;0x9b;0xdd;0x9d;0xd0;0x4a;0x28;0x7c] /\
  cmac (aes128 SmP.rfc_key) SmP.rfc_msg =
    [0xdf;0xa6;0x67;0x47;0xde;0x9a;0xe6;0x30;0x30;0xca;0x32;0x61;0x14;0x97;0xc8;0x27].
Proof. exact SmP.rfc_vectors. Qed.

(* --- C08: the integrity code --------------------------------------------------------- *)

(* right for every header and body except those of exactly 256 bytes together *)
Theorem C08_mic_is_cmac_partial : forall v s k hdr data,
  block (getKey v s k) -> bytes_ok hdr -> bytes_ok data ->
  (length hdr < 256)%nat -> (length data < 256)%nat -> (length hdr + length data <> 256)%nat ->
  SM_mic v s k hdr data = mic_of (getKey v s k) hdr data.
Proof. exact SmP.SM_mic_spec. Qed.
Print Assumptions C08_mic_is_cmac_partial.

(* 16 byte header, 240 byte body: a frame of 244 bytes *)
Theorem C08_mic_is_cmac_refuted : exists v s k hdr data,
  block (getKey v s k) /\ block hdr /\ bytes_ok data /\ length data = 240%nat /\
  SM_mic v s k hdr data <> mic_of (getKey v s k) hdr data.
Proof. exact SmP.mic_wrong. Qed.
Print Assumptions C08_mic_is_cmac_refuted.

(* ... and then the last 16 bytes are not authenticated at all *)
Theorem C08_last_block_not_covered : forall v s k hdr data t t',
  block (getKey v s k) -> block hdr -> bytes_ok data -> length data = 224%nat -> block t -> block t' ->
  SM_mic v s k hdr (data ++ t) = SM_mic v s k hdr (data ++ t').
Proof. exact SmP.SM_mic_256. Qed.
Print Assumptions C08_last_block_not_covered.

Example C08_example : block (getKey L2_1_0_4 (SM_init L2_1_0_4 SmP.rfc_key SmP.rfc_key) KEY_APP).
Proof. split; [reflexivity|]. repeat constructor; discriminate. Qed.

(* --- C11: counter mode ------------------------------------------------------------------ *)

Theorem C11_ctr_keystream : forall v s k iv data,
  block (getKey v s k) -> block iv -> (length data < 256)%nat ->
  SM_ctr v s k iv data = ctr (aes128 (getKey v s k)) iv data.
Proof. exact SmP.SM_ctr_spec. Qed.
Print Assumptions C11_ctr_keystream.

Theorem C11_ctr_involution : forall v s k iv data,
  block (getKey v s k) -> block iv -> (length data < 256)%nat ->
  SM_ctr v s k iv (SM_ctr v s k iv data) = data /\ length (SM_ctr v s k iv data) = length data.
Proof. exact SmP.SM_ctr_twice. Qed.
Print Assumptions C11_ctr_involution.

Example C11_example :
  let s := SM_init L2_1_0_4 SmP.rfc_key SmP.rfc_key in
  SM_ctr L2_1_0_4 s KEY_APP (firstn 16 SmP.rfc_msg) [1;2;3;4;5] <> [1;2;3;4;5].
Proof. vm_compute. discriminate. Qed.

(* --- C41: keys ------------------------------------------------------------------------------ *)

(* a session without OptNeg, in any build *)
Theorem C41_session_keys_1_0 : forall c m app nwk, let v := c_l2 c in
  block app -> block nwk -> log_ok (m_sm m) -> length (m_joinEUI m) = 8%nat -> bytes_ok (m_joinEUI m) ->
  sess_version c (m_ctx m) = 0 ->
  let s := m_ctx m in
  let root := if is_1_1 v then nwk else app in
  let kdf t := aes128 root (kdf_block_1_0 t (s_joinNonce s) (s_netID s) (s_devNonce s)) in
  let key := key_of v app nwk (m_sm (deriveKeys c m)) in
  key KEY_FNWKSINT = kdf 1 /\ key KEY_SNWKSINT = kdf 1 /\ key KEY_NWKSENC = kdf 1 /\ key KEY_APPS = kdf 2.
Proof. exact SmP.derived_1_0. Qed.
Print Assumptions C41_session_keys_1_0.

(* a 1.1 session *)
Theorem C41_session_keys_1_1 : forall c m app nwk,
  block app -> block nwk -> log_ok (m_sm m) -> length (m_joinEUI m) = 8%nat -> bytes_ok (m_joinEUI m) ->
  c_l2 c = L2_1_1 -> sess_version c (m_ctx m) <> 0 ->
  let s := m_ctx m in
  let kdf root t := aes128 root (kdf_block_1_1 t (s_joinNonce s) (m_joinEUI m) (s_devNonce s)) in
  let key := key_of L2_1_1 app nwk (m_sm (deriveKeys c m)) in
  key KEY_FNWKSINT = kdf nwk 1 /\ key KEY_SNWKSINT = kdf nwk 3 /\ key KEY_NWKSENC = kdf nwk 4 /\ key KEY_APPS = kdf app 2.
Proof. exact SmP.derived_1_1. Qed.
Print Assumptions C41_session_keys_1_1.

Theorem C41_join_keys : forall m app nwk,
  block app -> block nwk -> log_ok (m_sm m) -> length (m_devEUI m) = 8%nat -> bytes_ok (m_devEUI m) ->
  let key := key_of L2_1_1 app nwk (m_sm (deriveJoinKeys m)) in
  key KEY_JSINT = aes128 nwk (kdf_block_js 6 (m_devEUI m)) /\
  key KEY_JSENC = aes128 nwk (kdf_block_js 5 (m_devEUI m)).
Proof. exact SmP.derived_join. Qed.
Print Assumptions C41_join_keys.

(* root keys survive every sequence of updates *)
Theorem C41_root_keys_constant : forall v app nwk log, block app -> block nwk -> log_ok log ->
  key_of v app nwk log KEY_APP = app /\ key_of v app nwk log KEY_NWK = if is_1_1 v then nwk else app.
Proof. exact SmP.key_of_root. Qed.
Print Assumptions C41_root_keys_constant.

(* one update changes the named key only (and those sharing its slot in 1.0.x) *)
Theorem C41_update_changes_one_key : forall v app nwk log key root iv k,
  block app -> block nwk -> log_ok log -> block iv ->
  key_of v app nwk (log ++ [(key, root, iv)]) k =
  if isSessionKey key && (keyIndex v k =? keyIndex v key)%nat
  then aes128 (key_of v app nwk log root) iv else key_of v app nwk log k.
Proof. exact SmP.key_of_update. Qed.
Print Assumptions C41_update_changes_one_key.

Theorem C41_slots_distinct_1_1 : forall k k', keyIndex L2_1_1 k = keyIndex L2_1_1 k' -> k = k'.
Proof. exact SmP.slots_1_1. Qed.
Print Assumptions C41_slots_distinct_1_1.

Example C41_example : let m := toy_joined in
  log_ok (m_sm m) /\ length (m_joinEUI m) = 8%nat /\ bytes_ok (m_joinEUI m).
Proof. vm_compute. repeat split; repeat constructor; discriminate. Qed.

(* --- C45: blocks ------------------------------------------------------------------------------ *)

Theorem C45_keystream_block : forall devAddr up counter i, 0 <= i < 256 ->
  initA 0 devAddr up counter i = block_A up devAddr counter i.
Proof. exact (SmP.initA_spec 0). Qed.
Print Assumptions C45_keystream_block.

Theorem C45_integrity_block_0 : forall confirm up devAddr counter len, 0 <= len < 256 ->
  initB confirm 0 0 up devAddr counter len = block_B0 confirm up devAddr counter len.
Proof. exact SmP.initB_0. Qed.
Print Assumptions C45_integrity_block_0.

Theorem C45_integrity_block_1 : forall confirm rate ch devAddr counter len,
  0 <= len < 256 -> 0 <= rate < 256 -> 0 <= ch < 256 ->
  initB confirm rate ch true devAddr counter len = block_B1 confirm rate ch devAddr counter len.
Proof. exact SmP.initB_1. Qed.
Print Assumptions C45_integrity_block_1.

Example C45_example : block_A true 0x04030201 0x0807 1 = [1; 0;0;0;0; 0; 1;2;3;4; 7;8;0;0; 0;1].
Proof. reflexivity. Qed.

(* --- C46: integrity code of an uplink ------------------------------------------------------------ *)

(* the four last bytes of the frame are the integrity code, computed with
   ConfFCnt = 0; everything else is left alone *)
Theorem C46_uplink_mic_partial : forall c app nwk m,
  default_sm c app nwk -> block app -> block nwk -> log_ok (m_sm m) ->
  bytes_ok (m_buffer m) -> 4 < m_bufferLen m < 256 -> m_bufferLen m <> 244 ->
  m_bufferLen m <= Z.of_nat (length (m_buffer m)) ->
  0 <= tx_rate (m_tx m) < 256 -> 0 <= tx_chIndex (m_tx m) < 256 ->
  let n := Z.to_nat (m_bufferLen m - 4) in
  let key := key_of (c_l2 c) app nwk (m_sm m) in
  m_buffer (micDataFrame c m) = splice (m_buffer m) n
    (le 4 (uplink_mic (sess_version c (m_ctx m)) (key KEY_FNWKSINT) (key KEY_SNWKSINT) 0
             (tx_rate (m_tx m)) (tx_chIndex (m_tx m)) (s_devAddr (m_ctx m)) (tx_counter (m_tx m))
             (firstn n (m_buffer m)))).
Proof. exact SmP.micDataFrame_spec. Qed.
Print Assumptions C46_uplink_mic_partial.

(* so an uplink that acknowledges a downlink of a 1.1 network server is wrong *)
Theorem C46_acknowledging_uplink_refuted : exists c app nwk m conf,
  default_sm c app nwk /\ block app /\ block nwk /\ log_ok (m_sm m) /\
  sess_version c (m_ctx m) = 1 /\ Z.testbit (nth 5 (m_buffer m) 0) 5 = true /\ 0 < conf < 65536 /\
  let n := Z.to_nat (m_bufferLen m - 4) in
  let key := key_of (c_l2 c) app nwk (m_sm m) in
  m_buffer (micDataFrame c m) <> splice (m_buffer m) n
    (le 4 (uplink_mic 1 (key KEY_FNWKSINT) (key KEY_SNWKSINT) conf
             (tx_rate (m_tx m)) (tx_chIndex (m_tx m)) (s_devAddr (m_ctx m)) (tx_counter (m_tx m))
             (firstn n (m_buffer m)))).
Proof. exact SmP.ack_mic_wrong. Qed.
Print Assumptions C46_acknowledging_uplink_refuted.

Example C46_example :
  default_sm (aes_cfg L2_1_1 SmP.rfc_key SmP.rfc_key) SmP.rfc_key SmP.rfc_key.
Proof. exact (SmP.aes_cfg_default L2_1_1 SmP.rfc_key SmP.rfc_key). Qed.
