(* Model of /repo/src/ldl_ops.c *)
From Verif Require Import Words StreamM FrameM CommandsM RegionM SmM MacStateM.

(* a 16 byte block set to zero, then written through a stream: the buffer of
   the resulting stream is the block *)
Definition blk : stream := Stream_init (fill 0 16) 16.

(* ldl_ops.c:395-408 initA *)
Definition initA (c devAddr : Z) (up : bool) (counter i : Z) : bytes :=
  let s := putU8 blk 1 in
  let s := putU32 s c in
  let s := putU8 s (if up then 0 else 1) in
  let s := putU32 s devAddr in
  let s := putU32 s counter in
  let s := putU8 s 0 in
  let s := putU8 s i in
  st_buf s.

(* ldl_ops.c:410-425 initB *)
Definition initB (confirm rate chIndex : Z) (up : bool) (devAddr counter len : Z) : bytes :=
  let s := putU8 blk 0x49 in
  let s := putU16 s confirm in
  let s := putU8 s rate in
  let s := putU8 s chIndex in
  let s := putU8 s (if up then 0 else 1) in
  let s := putU32 s devAddr in
  let s := putU32 s counter in
  let s := putU8 s 0 in
  let s := putU8 s len in
  st_buf s.

(* ldl_ops.c:427-443 deriveDownCounter *)
Definition deriveDownCounter (c : cfg) (s : session) (port counter : Z) : Z :=
  let hi := if (sess_version c s >? 0) && (port =? 0) then s_nwkDown s else s_appDown s in
  let mine := u32 (Z.shiftl hi 16) in
  if counter <? mine then u32 (mine + 0x10000 + counter) else u32 (mine + counter).

(* ldl_ops.c:46-62 LDL_OPS_syncDownCounter *)
Definition syncDownCounter (c : cfg) (port counter : Z) (s : session) : session :=
  let derived := deriveDownCounter c s port counter in
  if (sess_version c s >? 0) && (port =? 0)
  then set_s_nwkDown (u16 (Z.shiftr derived 16)) s
  else set_s_appDown (u16 (Z.shiftr derived 16)) s.

(* a call of update_session_key *)
Definition sm_update (key root : sm_key) (iv : bytes) (m : mac) : mac :=
  set_m_sm (m_sm m ++ [(key, root, iv)]) m.

(* the block written by ldl_ops.c:75-78 / 91-94, with first byte b after
   the rewind and putU8 of lines 84-85 etc. *)
Definition key_iv (c : cfg) (m : mac) (b : Z) : bytes :=
  let x := m_ctx m in
  let s := putU8 blk 1 in
  let s := putU24 s (s_joinNonce x) in
  let s :=
    if sess_version c x =? 0
    then putU16 (putU24 s (s_netID x)) (s_devNonce x)
    else putU16 (putEUI s (m_joinEUI m)) (s_devNonce x) in
  st_buf (putU8 (Stream_rewind s) b).

(* ldl_ops.c:64-110 LDL_OPS_deriveKeys *)
Definition deriveKeys (c : cfg) (m : mac) : mac :=
  if sess_version c (m_ctx m) =? 0 then
    sm_update KEY_APPS KEY_NWK (key_iv c m 2)
      (sm_update KEY_NWKSENC KEY_NWK (key_iv c m 1)
      (sm_update KEY_SNWKSINT KEY_NWK (key_iv c m 1)
      (sm_update KEY_FNWKSINT KEY_NWK (key_iv c m 1) m)))
  else
    sm_update KEY_NWKSENC KEY_NWK (key_iv c m 4)
      (sm_update KEY_SNWKSINT KEY_NWK (key_iv c m 3)
      (sm_update KEY_APPS KEY_APP (key_iv c m 2)
      (sm_update KEY_FNWKSINT KEY_NWK (key_iv c m 1) m))).

(* ldl_ops.c:113-129 LDL_OPS_deriveJoinKeys (1.1 builds) *)
Definition deriveJoinKeys (m : mac) : mac :=
  let s := putEUI (putU8 blk 5) (m_devEUI m) in
  sm_update KEY_JSINT KEY_NWK (st_buf (putU8 (Stream_rewind s) 6))
    (sm_update KEY_JSENC KEY_NWK (st_buf s) m).

(* in-place ctr of n bytes at offset off *)
Definition ctr_at (c : cfg) (m : mac) (k : sm_key) (a : bytes) (off n : Z) (buf : bytes) : bytes :=
  splice buf (Z.to_nat off) (c_ctr c (m_sm m) k a (slice buf (Z.to_nat off) (Z.to_nat n))).

Definition data_len (f : frame_data) : Z :=
  match fd_data f with Some d => Z.of_nat (length d) | None => 0 end.

(* ldl_ops.c:132-168 LDL_OPS_prepareData: new buffer and length *)
Definition prepareData (c : cfg) (m : mac) (f : frame_data) (buf : bytes) (max : Z) : bytes * Z :=
  let p := Frame_putData f buf max in
  let b := st_buf (pr_stream p) in
  if pr_len p >? 0 then
    let b :=
      if is_1_1 (c_l2 c) && (sess_version c (m_ctx m) =? 1) then
        let a := if c_errata c then initA 1 (fd_devAddr f) true (fd_counter f) 1
                 else initA 0 (fd_devAddr f) true (fd_counter f) 0 in
        ctr_at c m KEY_NWKSENC a (pr_offOpts p) (Z.of_nat (length (fd_opts f))) b
      else b in
    let a := initA 0 (fd_devAddr f) true (fd_counter f) 1 in
    (ctr_at c m (if fd_port f =? 0 then KEY_NWKSENC else KEY_APPS) a
            (pr_offData p) (data_len f) b, pr_len p)
  else (b, pr_len p).

(* ldl_ops.c:170-192 LDL_OPS_micDataFrame on self->buffer/bufferLen *)
Definition micDataFrame (c : cfg) (m : mac) : mac :=
  let x := m_ctx m in
  let tx := m_tx m in
  let size := m_bufferLen m in
  let n := u8 (size - 4) in
  let b0 := initB 0 0 0 true (s_devAddr x) (tx_counter tx) n in
  let b1 := initB 0 (tx_rate tx) (tx_chIndex tx) true (s_devAddr x) (tx_counter tx) n in
  let body := slice (m_buffer m) 0 (Z.to_nat n) in
  let micF := c_mic c (m_sm m) KEY_FNWKSINT b0 body in
  let mic :=
    if sess_version c x =? 1 then
      let micS := c_mic c (m_sm m) KEY_SNWKSINT b1 body in
      Z.lor (u32 (Z.shiftl micF 16)) (Z.land micS 0xffff)
    else micF in
  set_m_buffer (Frame_updateMIC (m_buffer m) size mic) m.

(* ldl_ops.c:194-206 LDL_OPS_prepareJoinRequest: buffer and length *)
Definition prepareJoinRequest (c : cfg) (m : mac) (f : frame_join) (buf : bytes) (max : Z)
  : bytes * Z :=
  let '(s, len) := Frame_putJoinRequest f buf max in
  let b := st_buf s in
  let mic := c_mic c (m_sm m) KEY_NWK [] (slice b 0 (Z.to_nat (u8 (len - 4)))) in
  (Frame_updateMIC b len mic, len).

(* in-place ecb of the 16 bytes at offset off *)
Definition ecb_at (c : cfg) (m : mac) (k : sm_key) (off : nat) (buf : bytes) : bytes :=
  splice buf off (c_ecb c (m_sm m) k (slice buf off 16)).

(* ldl_ops.c:222-309: the join accept case; [buf] is the received buffer *)
Definition receiveJoin (c : cfg) (m : mac) (buf : bytes) (len : Z)
  : bytes * option frame_down :=
  match m_op m with
  | OP_JOINING | OP_REJOINING =>
      let joining := match m_op m with OP_JOINING => true | _ => false end in
      let key := if joining then KEY_NWK else KEY_JSENC in
      let buf := ecb_at c m key 1 buf in
      let buf := if len =? Frame_sizeofJoinAccept true
                 then ecb_at c m key (Z.to_nat (Frame_sizeofJoinAccept false)) buf
                 else buf in
      match Frame_decode (c_l2 c) buf len with
      | Some f =>
          let old := match c_l2 c with
                     | L2_1_0_3 => false
                     | _ => dn_joinNonce f <? m_joinNonce m
                     end in
          if old then (buf, None)
          else
            let body := slice buf 0 (Z.to_nat (u8 (len - 4))) in
            let mic :=
              if is_1_1 (c_l2 c) && dn_optNeg f then
                let s := putU8 blk (if joining then 0xff else 2) in
                let s := putEUI s (m_joinEUI m) in
                let s := putU16 s (s_devNonce (m_ctx m)) in
                c_mic c (m_sm m) KEY_JSINT
                      (slice (st_buf s) 0 (Z.to_nat (Stream_tell s))) body
              else c_mic c (m_sm m) KEY_NWK [] body in
            if dn_mic f =? mic then (buf, Some f) else (buf, None)
      | None => (buf, None)
      end
  | _ => (buf, None)
  end.

(* a NULL pointer is only ever passed with length 0 *)
Definition off_of (o : option Z) : Z := match o with Some z => z | None => 0 end.

(* ldl_ops.c:311-381: the data case *)
Definition receiveData (c : cfg) (m : mac) (f : frame_down) (buf : bytes) (len : Z)
  : bytes * option frame_down :=
  match m_op m with
  | OP_REJOINING | OP_DATA_UNCONFIRMED | OP_DATA_CONFIRMED =>
      let x := m_ctx m in
      if s_devAddr x =? dn_devAddr f then
        let counter := deriveDownCounter c x (dn_port f) (dn_counter f) in
        let v1 := sess_version c x =? 1 in
        let confirm := if v1 && dn_ack f then u16 (s_up x - 1) else 0 in
        let b := initB confirm 0 0 false (dn_devAddr f) counter (u8 (len - 4)) in
        let mic := c_mic c (m_sm m) KEY_SNWKSINT b (slice buf 0 (Z.to_nat (u8 (len - 4)))) in
        if mic =? dn_mic f then
          let buf :=
            if is_1_1 (c_l2 c) && v1 then
              let a := if c_errata c
                       then initA (if dn_dataPresent f then 2 else 1) (dn_devAddr f) false
                                  (dn_counter f) 0
                       else initA 0 (dn_devAddr f) false (dn_counter f) 0 in
              ctr_at c m KEY_NWKSENC a (off_of (dn_opts f)) (dn_optsLen f) buf
            else buf in
          let a := initA 0 (dn_devAddr f) false (dn_counter f) 1 in
          (ctr_at c m (if dn_port f =? 0 then KEY_NWKSENC else KEY_APPS) a
                  (off_of (dn_data f)) (dn_dataLen f) buf, Some f)
        else (buf, None)
      else (buf, None)
  | _ => (buf, None)
  end.

(* ldl_ops.c:208-391 LDL_OPS_receiveFrame: the buffer after in-place
   decryption, and the frame when it returns true *)
Definition receiveFrame (c : cfg) (m : mac) (buf : bytes) (len : Z)
  : bytes * option frame_down :=
  match Frame_decode (c_l2 c) buf len with
  | Some f =>
      match dn_type f with
      | FT_JOIN_ACCEPT => receiveJoin c m buf len
      | FT_UNCONF_DOWN | FT_CONF_DOWN => receiveData c m f buf len
      | _ => (buf, None)
      end
  | None => (buf, None)
  end.
