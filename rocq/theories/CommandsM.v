(* Model of /repo/src/ldl_mac_commands.c and /repo/include/ldl_mac_commands.h.
   Class B commands (LDL_ENABLE_CLASS_B, off by default and unused by the MAC)
   are not modelled. *)
From Verif Require Import Words StreamM FrameM.

(* ldl_mac_commands.h:34-56 without the class B members *)
Inductive cmd_type :=
| CMD_LINK_CHECK | CMD_LINK_ADR | CMD_DUTY_CYCLE | CMD_RX_PARAM_SETUP
| CMD_DEV_STATUS | CMD_NEW_CHANNEL | CMD_RX_TIMING_SETUP | CMD_TX_PARAM_SETUP
| CMD_DL_CHANNEL | CMD_REKEY | CMD_ADR_PARAM_SETUP | CMD_DEVICE_TIME
| CMD_FORCE_REJOIN | CMD_REJOIN_PARAM_SETUP.

Definition cmd_eqb (a b : cmd_type) : bool :=
  match a, b with
  | CMD_LINK_CHECK, CMD_LINK_CHECK | CMD_LINK_ADR, CMD_LINK_ADR
  | CMD_DUTY_CYCLE, CMD_DUTY_CYCLE | CMD_RX_PARAM_SETUP, CMD_RX_PARAM_SETUP
  | CMD_DEV_STATUS, CMD_DEV_STATUS | CMD_NEW_CHANNEL, CMD_NEW_CHANNEL
  | CMD_RX_TIMING_SETUP, CMD_RX_TIMING_SETUP
  | CMD_TX_PARAM_SETUP, CMD_TX_PARAM_SETUP
  | CMD_DL_CHANNEL, CMD_DL_CHANNEL | CMD_REKEY, CMD_REKEY
  | CMD_ADR_PARAM_SETUP, CMD_ADR_PARAM_SETUP
  | CMD_DEVICE_TIME, CMD_DEVICE_TIME | CMD_FORCE_REJOIN, CMD_FORCE_REJOIN
  | CMD_REJOIN_PARAM_SETUP, CMD_REJOIN_PARAM_SETUP => true
  | _, _ => false
  end.

(* ldl_mac_commands.c:36-60 tags[] *)
Definition tags (v : l2ver) : list (Z * cmd_type) :=
  [(2, CMD_LINK_CHECK); (3, CMD_LINK_ADR); (4, CMD_DUTY_CYCLE);
   (5, CMD_RX_PARAM_SETUP); (6, CMD_DEV_STATUS); (7, CMD_NEW_CHANNEL);
   (8, CMD_RX_TIMING_SETUP); (9, CMD_TX_PARAM_SETUP); (10, CMD_DL_CHANNEL);
   (13, CMD_DEVICE_TIME)] ++
  (if is_1_1 v then
     [(11, CMD_REKEY); (12, CMD_ADR_PARAM_SETUP); (14, CMD_FORCE_REJOIN);
      (15, CMD_REJOIN_PARAM_SETUP)]
   else []).

(* ldl_mac_commands.c:429-444 *)
Definition typeToTag (v : l2ver) (t : cmd_type) : Z :=
  match find (fun p => cmd_eqb (snd p) t) (tags v) with
  | Some (tag, _) => tag
  | None => 0
  end.

(* ldl_mac_commands.c:446-462 *)
Definition tagToType (v : l2ver) (tag : Z) : option cmd_type :=
  match find (fun p => fst p =? tag) (tags v) with
  | Some (_, t) => Some t
  | None => None
  end.

(* ldl_mac_commands.c:64-75 LDL_MAC_peekNextCommand *)
Definition peekNextCommand (v : l2ver) (s : stream) : option cmd_type :=
  match snd (Stream_peek s) with
  | Some tag => tagToType v tag
  | None => None
  end.

(* ldl_mac_commands.c:77-118 LDL_MAC_sizeofCommandUp *)
Definition sizeofCommandUp (t : cmd_type) : Z :=
  match t with
  | CMD_LINK_CHECK | CMD_DUTY_CYCLE | CMD_RX_TIMING_SETUP | CMD_TX_PARAM_SETUP
  | CMD_ADR_PARAM_SETUP | CMD_DEVICE_TIME => 1
  | CMD_LINK_ADR | CMD_RX_PARAM_SETUP | CMD_NEW_CHANNEL | CMD_DL_CHANNEL
  | CMD_REKEY | CMD_REJOIN_PARAM_SETUP => 2
  | CMD_DEV_STATUS | CMD_FORCE_REJOIN => 3
  end.

(* ldl_mac_commands.h:73-129: answers *)
Record link_adr_ans := mkAdrAns { la_power : bool; la_rate : bool; la_mask : bool }.
Record rx_param_ans := mkRxParamAns { rp_offset : bool; rp_rate : bool; rp_channel : bool }.
Record dev_status_ans := mkDevStatus { ds_battery : Z; ds_margin : Z (* int8_t *) }.
Record new_channel_ans := mkNewChAns { nc_rate : bool; nc_freq : bool }.
Record dl_channel_ans := mkDlChAns { dc_uplink : bool; dc_freq : bool }.

Definition bit (b : bool) (v : Z) : Z := if b then v else 0.

(* ldl_mac_commands.c:120-212 *)
Definition putLinkCheckReq v s := putU8 s (typeToTag v CMD_LINK_CHECK).
Definition putLinkADRAns v s (a : link_adr_ans) :=
  putU8 (putU8 s (typeToTag v CMD_LINK_ADR))
    (Z.lor (Z.lor (bit (la_power a) 4) (bit (la_rate a) 2)) (bit (la_mask a) 1)).
Definition putDutyCycleAns v s := putU8 s (typeToTag v CMD_DUTY_CYCLE).
Definition putRXParamSetupAns v s (a : rx_param_ans) :=
  putU8 (putU8 s (typeToTag v CMD_RX_PARAM_SETUP))
    (Z.lor (Z.lor (bit (rp_offset a) 4) (bit (rp_rate a) 2)) (bit (rp_channel a) 1)).
Definition putDevStatusAns v s (a : dev_status_ans) :=
  putU8 (putU8 (putU8 s (typeToTag v CMD_DEV_STATUS)) (ds_battery a))
    (Z.land (u8 (ds_margin a)) 0x3f).
Definition putNewChannelAns v s (a : new_channel_ans) :=
  putU8 (putU8 s (typeToTag v CMD_NEW_CHANNEL))
    (Z.lor (bit (nc_rate a) 2) (bit (nc_freq a) 1)).
Definition putDLChannelAns v s (a : dl_channel_ans) :=
  putU8 (putU8 s (typeToTag v CMD_DL_CHANNEL))
    (Z.lor (bit (dc_uplink a) 2) (bit (dc_freq a) 1)).
Definition putRXTimingSetupAns v s := putU8 s (typeToTag v CMD_RX_TIMING_SETUP).
Definition putTXParamSetupAns v s := putU8 s (typeToTag v CMD_TX_PARAM_SETUP).
Definition putRekeyInd v s (version : Z) :=
  putU8 (putU8 s (typeToTag v CMD_REKEY)) version.
Definition putADRParamSetupAns v s := putU8 s (typeToTag v CMD_ADR_PARAM_SETUP).
Definition putDeviceTimeReq v s := putU8 s (typeToTag v CMD_DEVICE_TIME).
Definition putRejoinParamSetupAns v s (timeOK : bool) :=
  putU8 (putU8 s (typeToTag v CMD_REJOIN_PARAM_SETUP)) (bit timeOK 1).

(* struct ldl_downstream_cmd, ldl_mac_commands.h:215-242: the union becomes an
   inductive type *)
Inductive down_cmd :=
| DLinkCheck (margin gwCount : Z)
| DLinkADR (dataRate txPower channelMask channelMaskControl nbTrans : Z)
| DDutyCycle (maxDutyCycle : Z)
| DRXParamSetup (rx1DROffset rx2DataRate freq : Z)
| DDevStatus
| DNewChannel (chIndex freq maxDR minDR : Z)
| DRXTimingSetup (delay : Z)
| DTXParamSetup (value : Z)
| DDLChannel (chIndex freq : Z)
| DDeviceTime (seconds fractions : Z)
| DRekey (version : Z)
| DADRParamSetup (limit_exp delay_exp : Z)
| DForceRejoin (period max_retries rejoin_type dr : Z)
| DRejoinParamSetup (maxTimeN maxCountN : Z).

(* ldl_mac_commands.c:252-420: payload of a command of the given type.  A
   local left uninitialised by a failing read is 0 here; the result is then
   discarded because the stream error makes the caller return false. *)
Definition getPayload (t : cmd_type) (s : stream) : stream * down_cmd :=
  match t with
  | CMD_LINK_CHECK =>
      let (s, m) := getU8 s 0 in let (s, g) := getU8 s 0 in (s, DLinkCheck m g)
  | CMD_LINK_ADR =>
      let (s, b) := getU8 s 0 in
      let (s, mask) := getU16 s 0 in
      let (s, c) := getU8 s b in
      (s, DLinkADR (Z.shiftr b 4) (Z.land b 0xf) mask
                   (Z.land (Z.shiftr c 4) 7) (Z.land c 0xf))
  | CMD_DUTY_CYCLE => let (s, d) := getU8 s 0 in (s, DDutyCycle (Z.land d 0xf))
  | CMD_RX_PARAM_SETUP =>
      let (s, d) := getU8 s 0 in
      let (s, f) := getU24 s 0 in
      (s, DRXParamSetup (Z.land (Z.shiftr d 4) 7) (Z.land d 0xf) (u32 (f * 100)))
  | CMD_DEV_STATUS => (s, DDevStatus)
  | CMD_NEW_CHANNEL =>
      let (s, i) := getU8 s 0 in
      let (s, f) := getU24 s 0 in
      let (s, b) := getU8 s 0 in
      (s, DNewChannel i (u32 (f * 100)) (Z.shiftr b 4) (Z.land b 0xf))
  | CMD_DL_CHANNEL =>
      let (s, i) := getU8 s 0 in
      let (s, f) := getU24 s 0 in
      (s, DDLChannel i (u32 (f * 100)))
  | CMD_RX_TIMING_SETUP => let (s, d) := getU8 s 0 in (s, DRXTimingSetup (Z.land d 0xf))
  | CMD_TX_PARAM_SETUP => let (s, b) := getU8 s 0 in (s, DTXParamSetup (Z.land b 0x3f))
  | CMD_DEVICE_TIME =>
      let (s, sec) := getU32 s 0 in let (s, fr) := getU8 s 0 in (s, DDeviceTime sec fr)
  | CMD_REKEY => let (s, b) := getU8 s 0 in (s, DRekey (Z.land b 0xf))
  | CMD_ADR_PARAM_SETUP =>
      let (s, b) := getU8 s 0 in (s, DADRParamSetup (Z.shiftr b 4) (Z.land b 0xf))
  | CMD_FORCE_REJOIN =>
      let (s, b) := getU16 s 0 in
      (s, DForceRejoin (Z.land (u8 (Z.shiftr b 10)) 7) (Z.land (u8 (Z.shiftr b 7)) 7)
                       (Z.land (u8 (Z.shiftr b 4)) 7) (Z.land (u8 b) 0xf))
  | CMD_REJOIN_PARAM_SETUP =>
      let (s, b) := getU8 s 0 in (s, DRejoinParamSetup (Z.shiftr b 4) (Z.land b 0xf))
  end.

(* ldl_mac_commands.c:241-425 LDL_MAC_getDownCommand; None = false *)
Definition getDownCommand (v : l2ver) (s : stream) : stream * option down_cmd :=
  match Stream_read s 1 with
  | (s, None) => (s, None)
  | (s, Some b) =>
      match tagToType v (byte_at b 0) with
      | None => (s, None)
      | Some t =>
          let (s, c) := getPayload t s in
          (s, if Stream_error s then None else Some c)
      end
  end.
