(* Model of /repo/src/ldl_frame.c and /repo/include/ldl_frame.h *)
From Verif Require Import Words StreamM.

(* ldl_frame.h:34-42 *)
Inductive frame_type :=
| FT_JOIN_REQ | FT_JOIN_ACCEPT | FT_UNCONF_UP | FT_UNCONF_DOWN
| FT_CONF_UP | FT_CONF_DOWN | FT_REJOIN_REQ.

(* ldl_frame.h:34-42: enumerator values *)
Definition ft_code (t : frame_type) : Z :=
  match t with
  | FT_JOIN_REQ => 0 | FT_JOIN_ACCEPT => 1 | FT_UNCONF_UP => 2
  | FT_UNCONF_DOWN => 3 | FT_CONF_UP => 4 | FT_CONF_DOWN => 5
  | FT_REJOIN_REQ => 6
  end.

(* ldl_platform.h: LDL_ENABLE_L2_1_0_3 / _1_0_4 / _1_1 build options *)
Inductive l2ver := L2_1_0_3 | L2_1_0_4 | L2_1_1.

Definition is_1_1 (v : l2ver) : bool :=
  match v with L2_1_1 => true | _ => false end.

(* struct ldl_frame_data, ldl_frame.h:44-64.  opts/optsLen and data/dataLen
   become byte lists; a NULL data pointer is None.  Lists longer than 255 bytes
   do not correspond to any C value. *)
Record frame_data := mkFrameData {
  fd_type : frame_type;
  fd_devAddr : Z;
  fd_counter : Z;           (* uint16_t *)
  fd_ack : bool;
  fd_adr : bool;
  fd_adrAckReq : bool;
  fd_pending : bool;
  fd_opts : bytes;
  fd_port : Z;
  fd_data : option bytes;
  fd_mic : Z
}.

(* struct ldl_frame_join_request, ldl_frame.h:88-94 *)
Record frame_join := mkFrameJoin {
  fj_joinEUI : bytes;
  fj_devEUI : bytes;
  fj_devNonce : Z;
  fj_mic : Z
}.

(* struct ldl_frame_rejoin_request, ldl_frame.h:79-86 *)
Record frame_rejoin := mkFrameRejoin {
  fr_type : Z;
  fr_netID : Z;
  fr_devEUI : bytes;
  fr_rjCount : Z;
  fr_mic : Z
}.

(* struct ldl_frame_down, ldl_frame.h:96-130.  Pointers into the input buffer
   become offsets (None = NULL). *)
Record frame_down := mkFrameDown {
  dn_type : frame_type;
  dn_joinNonce : Z;
  dn_netID : Z;
  dn_devAddr : Z;
  dn_rx1DROffset : Z;
  dn_rx2DataRate : Z;
  dn_rxDelay : Z;
  dn_optNeg : bool;
  dn_cfList : option Z;
  dn_cfListLen : Z;
  dn_counter : Z;
  dn_ack : bool;
  dn_adr : bool;
  dn_adrAckReq : bool;
  dn_pending : bool;
  dn_opts : option Z;
  dn_optsLen : Z;
  dn_dataPresent : bool;
  dn_port : Z;
  dn_data : option Z;
  dn_dataLen : Z;
  dn_mic : Z
}.

(* ldl_frame.c:35-49 LDL_Frame_updateMIC: patches the last four bytes of the
   first [len] bytes of msg *)
Definition Frame_updateMIC (msg : bytes) (len mic : Z) : bytes :=
  if 4 <? len then
    st_buf (putU32 (fst (Stream_seekSet (Stream_init msg len) (u8 (len - 4)))) mic)
  else msg.

(* FCtrl byte as built at ldl_frame.c:63 *)
Definition fctrl (f : frame_data) : Z :=
  Z.lor (Z.lor (Z.lor (Z.lor
    (if fd_adr f then 0x80 else 0) (if fd_adrAckReq f then 0x40 else 0))
    (if fd_ack f then 0x20 else 0)) (if fd_pending f then 0x10 else 0))
    (Z.land (u8 (Z.of_nat (length (fd_opts f)))) 0xf).

(* bytes of opts copied at ldl_frame.c:67: optsLen & 0xf *)
Definition opts_sent (f : frame_data) : bytes :=
  firstn (Z.to_nat (Z.land (u8 (Z.of_nat (length (fd_opts f)))) 0xf)) (fd_opts f).

(* result of LDL_Frame_putData *)
Record put_result := mkPut {
  pr_stream : stream;      (* memory after the call *)
  pr_len : Z;              (* returned length, 0 on failure *)
  pr_offOpts : Z;          (* off->opts *)
  pr_offData : Z           (* off->data *)
}.

(* ldl_frame.c:51-79 LDL_Frame_putData *)
Definition Frame_putData (f : frame_data) (out : bytes) (max : Z) : put_result :=
  let s := Stream_init out max in
  let s := putU8 s (Z.shiftl (ft_code (fd_type f)) 5) in
  let s := putU32 s (fd_devAddr f) in
  let s := putU8 s (fctrl f) in
  let s := putU16 s (fd_counter f) in
  let offOpts := Stream_tell s in
  let s := fst (Stream_write s (opts_sent f)) in
  match fd_data f with
  | Some d =>
      let s := putU8 s (fd_port f) in
      let offData := Stream_tell s in
      let s := fst (Stream_write s d) in
      let s := putU32 s (fd_mic f) in
      mkPut s (if Stream_error s then 0 else Stream_tell s) offOpts offData
  | None =>
      let s := putU32 s (fd_mic f) in
      mkPut s (if Stream_error s then 0 else Stream_tell s) offOpts 0
  end.

(* ldl_frame.c:81-98 LDL_Frame_putJoinRequest *)
Definition Frame_putJoinRequest (f : frame_join) (out : bytes) (max : Z) : stream * Z :=
  let s := Stream_init out max in
  let s := putU8 s (Z.shiftl (ft_code FT_JOIN_REQ) 5) in
  let s := putEUI s (fj_joinEUI f) in
  let s := putEUI s (fj_devEUI f) in
  let s := putU16 s (fj_devNonce f) in
  let s := putU32 s (fj_mic f) in
  (s, if Stream_error s then 0 else Stream_tell s).

(* ldl_frame.c:100-117 LDL_Frame_putRejoinRequest *)
Definition Frame_putRejoinRequest (f : frame_rejoin) (out : bytes) (max : Z) : stream * Z :=
  let s := Stream_init out max in
  let s := putU8 s (Z.shiftl (ft_code FT_REJOIN_REQ) 5) in
  let s := putU8 s (fr_type f) in
  let s := putU24 s (fr_netID f) in
  let s := putEUI s (fr_devEUI f) in
  let s := putU16 s (fr_rjCount f) in
  let s := putU32 s (fr_mic f) in
  (s, if Stream_error s then 0 else Stream_tell s).

(* ldl_frame.c:119-122 *)
Definition Frame_sizeofJoinAccept (withCFList : bool) : Z :=
  17 + (if withCFList then 16 else 0).

(* ldl_frame.c:247-286 getFrameType; REJOIN_REQ only in 1.1 builds *)
Definition getFrameType (v : l2ver) (tag : Z) : option frame_type :=
  if Z.land tag 0x1f =? 0 then
    match Z.shiftr tag 5 with
    | 0 => Some FT_JOIN_REQ
    | 1 => Some FT_JOIN_ACCEPT
    | 2 => Some FT_UNCONF_UP
    | 3 => Some FT_UNCONF_DOWN
    | 4 => Some FT_CONF_UP
    | 5 => Some FT_CONF_DOWN
    | 6 => if is_1_1 v then Some FT_REJOIN_REQ else None
    | _ => None
    end
  else None.

(* ldl_frame.c:153-185, the join accept case; the stream is positioned after
   the MHDR byte.  Returns the final stream (for its ghost flag) and the frame
   when the C function returns true. *)
Definition decode_join (s : stream) : stream * option frame_down :=
  let (s, joinNonce) := getU24 s 0 in
  let (s, netID) := getU24 s 0 in
  let (s, devAddr) := getU32 s 0 in
  let (s, dl) := getU8 s 0 in
  let (s, rxDelay) := getU8 s 0 in
  let withCF := 4 <? Stream_remaining s in
  let cf := if withCF then Some (Stream_tell s) else None in
  let cfLen := if withCF then 16 else 0 in
  let s := if withCF then fst (Stream_seekCur s 16) else s in
  let (s, mic) := getU32 s 0 in
  let f := mkFrameDown FT_JOIN_ACCEPT joinNonce netID devAddr
             (Z.land (Z.shiftr dl 4) 7) (Z.land dl 0xf)
             (if rxDelay =? 0 then 1 else rxDelay)
             (negb (Z.land dl 0x80 =? 0)) cf cfLen
             0 false false false false None 0 false 0 None 0 mic in
  (s, if negb (Stream_error s) && (Stream_remaining s =? 0) then Some f else None).

(* ldl_frame.c:187-224, the data down case *)
Definition decode_data (ty : frame_type) (s : stream) : stream * option frame_down :=
  let (s, devAddr) := getU32 s 0 in
  let (s, fhdr) := getU8 s 0 in
  let optsLen := Z.land fhdr 0xf in
  let (s, counter) := getU16 s 0 in
  let opts := if 0 <? optsLen then Some (Stream_tell s) else None in
  let s := fst (Stream_seekCur s optsLen) in
  let present := 4 <? Stream_remaining s in
  let '(s, port, dataLen, data) :=
    if present then
      let (s, port) := getU8 s 0 in
      let dataLen := u8 (Stream_remaining s - 4) in
      let data := if dataLen =? 0 then None else Some (Stream_tell s) in
      (fst (Stream_seekCur s dataLen), port, dataLen, data)
    else (s, 0, 0, None) in
  let (s, mic) := getU32 s 0 in
  let f := mkFrameDown ty 0 0 devAddr 0 0 0 false None 0
             counter
             (0 <? Z.land fhdr 0x20) (0 <? Z.land fhdr 0x80)
             (0 <? Z.land fhdr 0x40) (0 <? Z.land fhdr 0x10)
             opts optsLen present port data dataLen mic in
  (s, if negb (Stream_error s)
         && negb (present && (0 <? optsLen) && (port =? 0)) then Some f else None).

(* ldl_frame.c:124-230 LDL_Frame_decode of the first [len] bytes of [inb].
   None = false (the C function then leaves partially filled fields in *f,
   which no caller uses). *)
Definition Frame_decode_s (v : l2ver) (inb : bytes) (len : Z) : stream * option frame_down :=
  let s := Stream_initReadOnly inb len in
  match Stream_read s 1 with
  | (s, None) => (s, None)
  | (s, Some b) =>
      match getFrameType v (byte_at b 0) with
      | Some FT_JOIN_ACCEPT => decode_join s
      | Some FT_UNCONF_DOWN => decode_data FT_UNCONF_DOWN s
      | Some FT_CONF_DOWN => decode_data FT_CONF_DOWN s
      | _ => (s, None)
      end
  end.

Definition Frame_decode (v : l2ver) (inb : bytes) (len : Z) : option frame_down :=
  snd (Frame_decode_s v inb len).

(* ldl_frame.c:232-236 *)
Definition Frame_dataOverhead : Z := (4 + 1 + 2) + 1.
(* ldl_frame.c:238-242 *)
Definition Frame_phyOverhead : Z := 1 + 4.
