(* The public functions of /repo/include/ldl_mac.h. *)
From Verif Require Import Words StreamM FrameM CommandsM RegionM RadioM SmM MacStateM MacUtilM OpsM MacCmdM MacProcM.

(* ldl_mac.h:515-601 struct ldl_mac_init_arg, the fields that are data;
   ia_now is what ticks() returns during initialisation.  devEUI and joinEUI
   are eight bytes (a NULL pointer gives zeros). *)
Record init_arg := mkInitArg {
  ia_tps : Z;
  ia_a : Z;
  ia_b : Z;
  ia_advance : Z;
  ia_otaaDither : Z;
  ia_devNonce : Z;
  ia_joinNonce : Z;
  ia_joinEUI : bytes;
  ia_devEUI : bytes;
  ia_session : option session
}.

(* ldl_mac.c:160-190: all zero except the fields copied from the argument *)
Definition mac_zero (a : init_arg) : mac := {|
  m_state := ST_INIT; m_op := OP_NONE; m_pendingACK := false;
  m_joinEUI := ia_joinEUI a; m_devEUI := ia_devEUI a;
  m_buffer := fill 0 255; m_bufferLen := 0;
  m_band := fill 0 6; m_day := 0;
  m_devNonce := ia_devNonce a; m_joinNonce := ia_joinNonce a;
  m_rx_snr := 0; m_tx := mkTx 0 0 0 255 0 0;
  m_rx1_symbols := 0; m_rx2_symbols := 0;
  m_ctx := session_zero; m_sm := [];
  m_inputs := mkInput false false 0;
  m_timers := [mkTimer 0 false; mkTimer 0 false; mkTimer 0 false];
  m_adrAckCounter := 0; m_adrAckReq := false;
  m_time := mkTime 0 0 false; m_ticks_at_tx := 0; m_trials := 0;
  m_opts := mkOpts 0 false false; m_fPending := false;
  m_tps := ia_tps a; m_a := ia_a a; m_b := ia_b a; m_advance := ia_advance a;
  m_maxDutyCycle := 0; m_otaaDither := ia_otaaDither a; m_log := []
|}.

(* ldl_mac.c:206-234 *)
Definition restoreSession (c : cfg) (r : region) (so : option session) (m : mac) : mac :=
  match so with
  | Some s =>
      if (s_magic s =? sessionMagicNumber) && region_eqb (s_region s) r
      then deriveKeys c (set_m_ctx s m) else m
  | None => m
  end.

(* ldl_mac.c:150-246 LDL_MAC_init *)
Definition MAC_init (c : cfg) (r : region) (a : init_arg) (e : env) : mac :=
  let m := initSession c r (mac_zero a) in
  let m := restoreSession c r (ia_session a) m in
  let m := band_set BAND_GLOBAL (msToTime (c_startup c)) m in
  let m := set_m_time (mkTime (e_now e) 0 false) m in
  timerSet e WAITA 0 m.

(* ldl_mac.c:248-272 LDL_MAC_entropy *)
Definition MAC_entropy (e : env) (m : mac) : mac * status :=
  match m_op m with
  | OP_NONE =>
      let m := set_m_op OP_ENTROPY m in
      (match m_state m with
       | ST_IDLE => timerSet e WAITA 0 (set_m_state ST_RADIO_BOOT m)
       | _ => m
       end, STATUS_OK)
  | _ => (m, STATUS_BUSY)
  end.

(* ldl_mac.c:299-355 LDL_MAC_otaa *)
Definition MAC_otaa (c : cfg) (e : env) (m : mac) : mac * status :=
  if s_joined (m_ctx m) then (m, STATUS_JOINED)
  else match m_op m with
  | OP_NONE =>
      if m_devNonce m <=? 65535 then
        let m := set_m_day (60 * 60 * 24 * timeTPS) (set_m_trials 0 m) in
        let m := if is_1_1 (c_l2 c) then deriveJoinKeys m else m in
        let m := fillJoinBuffer c e (u16 (m_devNonce m)) m in
        let m := set_m_devNonce (u32 (m_devNonce m + 1)) m in
        let m := notify (EV_DEV_NONCE_UPDATED (m_devNonce m)) m in
        let m := set_m_op OP_JOINING (on_tx (set_tx_power 0) m) in
        (match m_state m with
         | ST_IDLE => timerSet e WAITA 0 (set_m_state ST_WAIT_OTAA m)
         | _ => m
         end, STATUS_OK)
      else (m, STATUS_DEVNONCE)
  | _ => (m, STATUS_BUSY)
  end.

(* ldl_mac.c:358-384 LDL_MAC_abp (built with LDL_ENABLE_ABP) *)
Definition MAC_abp (devAddr : Z) (m : mac) : mac * status :=
  if s_joined (m_ctx m) then (m, STATUS_JOINED)
  else match m_op m with
  | OP_NONE =>
      let m := on_ctx (fun s => set_s_devAddr devAddr (set_s_joined true s)) m in
      (set_m_day 0 (band_set BAND_GLOBAL 0 m), STATUS_OK)
  | _ => (m, STATUS_BUSY)
  end.

(* ldl_mac.c:1764-1775, 1777-... : serialise the command if it is pending *)
Definition put_if (b : bool) (f : stream -> stream) (s : stream) : stream :=
  if b then f s else s.

(* ldl_mac.c:1756-1907: the pending answers and requested commands, in the
   order in which they are written to the 30 byte buffer *)
Definition mac_commands (c : cfg) (x : session) (o : data_opts) : stream :=
  let v := c_l2 c in
  let p := commandIsPending x in
  let s := Stream_init (fill 0 30) 30 in
  let s := put_if (is_1_1 v && p CMD_REKEY) (fun s => putRekeyInd v s (s_version x)) s in
  let s := put_if (p CMD_RX_PARAM_SETUP) (fun s => putRXParamSetupAns v s (s_rxp_ans x)) s in
  let s := put_if (p CMD_DL_CHANNEL) (fun s => putDLChannelAns v s (s_dlc_ans x)) s in
  let s := put_if (p CMD_RX_TIMING_SETUP) (fun s => putRXTimingSetupAns v s) s in
  let s := put_if (p CMD_LINK_ADR) (fun s => putLinkADRAns v s (s_adr_ans x)) s in
  let s := put_if (p CMD_DEV_STATUS) (fun s => putDevStatusAns v s (s_dev_ans x)) s in
  let s := put_if (p CMD_NEW_CHANNEL) (fun s => putNewChannelAns v s (s_nch_ans x)) s in
  let s := put_if (is_1_1 v && p CMD_REJOIN_PARAM_SETUP)
             (fun s => putRejoinParamSetupAns v s (s_rjp_ans x)) s in
  let s := put_if (is_1_1 v && p CMD_ADR_PARAM_SETUP) (fun s => putADRParamSetupAns v s) s in
  let s := put_if (c_txps c && p CMD_TX_PARAM_SETUP) (fun s => putTXParamSetupAns v s) s in
  let s := put_if (p CMD_DUTY_CYCLE) (fun s => putDutyCycleAns v s) s in
  let s := put_if (do_check o) (fun s => putLinkCheckReq v s) s in
  put_if (do_getTime o) (fun s => putDeviceTimeReq v s) s.

(* ldl_mac.c:1802-1892: the single shot commands are cleared.  Clearing a bit
   that is not set changes nothing, so the condition is dropped. *)
Definition clear_single_shot (c : cfg) (x : session) : session :=
  let x := clearPendingCommand CMD_NEW_CHANNEL (clearPendingCommand CMD_DEV_STATUS
             (clearPendingCommand CMD_LINK_ADR x)) in
  let x := if is_1_1 (c_l2 c) then clearPendingCommand CMD_ADR_PARAM_SETUP
             (clearPendingCommand CMD_REJOIN_PARAM_SETUP x) else x in
  let x := if c_txps c then clearPendingCommand CMD_TX_PARAM_SETUP x else x in
  clearPendingCommand CMD_DUTY_CYCLE x.

(* what was serialised *)
Definition mac_bytes (s : stream) : bytes := slice (st_buf s) 0 (Z.to_nat (Stream_tell s)).

(* ldl_mac.c:1909-1951: frame, operation and status for these MAC commands;
   the application data is dropped in the first two cases *)
Definition compose (confirmed : bool) (port : Z) (data : option bytes) (maxPayload : Z)
    (macs : bytes) (f : frame_data) : frame_data * mac_op * status :=
  let n := Z.of_nat (length macs) in
  let len := match data with Some d => Z.of_nat (length d) | None => 0 end in
  let mk ty opts port data :=
    mkFrameData ty (fd_devAddr f) (fd_counter f) (fd_ack f) (fd_adr f) (fd_adrAckReq f)
      (fd_pending f) opts port data (fd_mic f) in
  if n >? 15 then
    (mk FT_UNCONF_UP [] 0 (Some macs), OP_DATA_UNCONFIRMED, STATUS_MACPRIORITY)
  else if len + Frame_dataOverhead + n >? maxPayload then
    (mk FT_UNCONF_UP macs port None, OP_DATA_UNCONFIRMED, STATUS_MACPRIORITY)
  else
    (mk (if confirmed then FT_CONF_UP else FT_UNCONF_UP) macs port data,
     if confirmed then OP_DATA_CONFIRMED else OP_DATA_UNCONFIRMED, STATUS_OK).

(* ldl_mac.c:1702-1985 externalDataCommand.  A NULL data pointer is None (with
   length 0). *)
Definition MAC_data (c : cfg) (e : env) (confirmed : bool) (port : Z) (data : option bytes)
    (opts : option data_opts) (m : mac) : mac * status :=
  let len := match data with Some d => Z.of_nat (length d) | None => 0 end in
  let desired := len + Frame_dataOverhead in
  if negb (s_joined (m_ctx m)) then (m, STATUS_NOTJOINED)
  else match m_op m with
  | OP_NONE =>
      if (port >? 0) && (port <=? 223) then
        if band_global m =? 0 then
          let s := m_ctx m in
          let m := on_tx (fun t => set_tx_rate (dwellRate c s (s_rate s))
                            (set_tx_power (s_power s) t)) m in
          let '(tx, found) := selectChannel m (s_rate s) 0 (e_rand e RND_CHANNEL) (m_tx m) in
          if found then
            let m := set_m_tx tx m in
            let maxPayload := rate_mtu (s_region s) (s_rate s) in
            if desired <=? maxPayload then
              let o := match opts with Some o => o | None => mkOpts 0 false false end in
              let m := set_m_opts (mkOpts (Z.land (do_nbTrans o) 15) (do_check o) (do_getTime o)) m in
              let m := set_m_trials 0 m in
              let f := mkFrameData (if confirmed then FT_CONF_UP else FT_UNCONF_UP)
                         (s_devAddr s) (u16 (s_up s)) (m_pendingACK m) (s_adr s)
                         (m_adrAckReq m) false [] port None 0 in
              let m := on_tx (set_tx_counter (s_up s)) m in
              let macs := mac_bytes (mac_commands c s (m_opts m)) in
              let m := set_m_ctx (clear_single_shot c (set_s_up (u32 (s_up s + 1)) s)) m in
              let '(f, op, st) := compose confirmed port data maxPayload macs f in
              let m := set_m_op op m in
              let '(buf, n) := prepareData c m f (m_buffer m) LDL_MAX_PACKET in
              let m := set_m_bufferLen n (set_m_buffer buf m) in
              let m := micDataFrame c m in
              let m := pushSessionUpdate m in
              (match m_state m with
               | ST_IDLE => timerSet e WAITA 0 (set_m_state ST_WAIT_TX m)
               | _ => m
               end, st)
            else (m, STATUS_SIZE)
          else (m, STATUS_NOCHANNEL)
        else (m, STATUS_NOCHANNEL)
      else (m, STATUS_PORT)
  | _ => (m, STATUS_BUSY)
  end.

(* ldl_mac.c:408-459 LDL_MAC_cancel.  The test of line 435 comes after the
   state has been set to RADIO_RESET. *)
Definition MAC_cancel (m : mac) : mac :=
  let op := m_op m in
  let m := set_m_op OP_NONE m in
  let m := match m_state m with
           | ST_INIT | ST_RADIO_RESET | ST_RADIO_BOOT => m
           | _ => emit (OMode MODE_RESET) (set_m_state ST_RADIO_RESET
                    (inputDisarm (timerClear WAITB (timerClear WAITA m))))
           end in
  let m := match m_state m with ST_TX => registerTime m | _ => m end in
  match op with OP_NONE => m | _ => notify EV_OP_CANCELLED m end.

(* ldl_mac.c:392-406 LDL_MAC_forget *)
Definition MAC_forget (c : cfg) (m : mac) : mac :=
  let m := MAC_cancel m in
  if s_joined (m_ctx m)
  then pushSessionUpdate (forgetNetwork c (band_set BAND_GLOBAL 0 m)) else m.

(* ldl_mac.c:574-586 *)
Definition MAC_ticksUntilNextEvent (e : env) (m : mac) : Z :=
  if inputPending m then 0 else timerTicksUntilNext e m.

(* ldl_mac.c:588-608 *)
Definition MAC_setRate (rate : Z) (m : mac) : mac * status :=
  if rateSettingIsValid (s_region (m_ctx m)) rate
  then (pushSessionUpdate (on_ctx (set_s_rate rate) m), STATUS_OK)
  else (m, STATUS_RATE).

(* ldl_mac.c:617-637 *)
Definition MAC_setPower (power : Z) (m : mac) : mac * status :=
  if validateTXPower (s_region (m_ctx m)) power
  then (pushSessionUpdate (on_ctx (set_s_power power) m), STATUS_OK)
  else (m, STATUS_POWER).

(* ldl_mac.c:646-653 *)
Definition MAC_setADR (v : bool) (m : mac) : mac :=
  pushSessionUpdate (on_ctx (set_s_adr v) m).

(* ldl_mac.c:744-752 *)
Definition MAC_setMaxDCycle (v : Z) (m : mac) : mac :=
  let v := Z.land v 15 in
  pushSessionUpdate (on_ctx (set_s_maxDutyCycle v) (set_m_maxDutyCycle v m)).

(* ldl_mac.c:662-674 *)
Definition MAC_ready (m : mac) : bool :=
  match m_state m with ST_IDLE => timeUntilNextChannel m =? 0 | _ => false end.

(* ldl_mac.c:699-713: the rate carried through the unmasked channels *)
Definition mtu_rate (s : session) : Z :=
  fold_left (fun rate ch =>
    if channelIsMasked (s_chMask s) (s_region s) ch then rate
    else match getChannel s ch with
         | Some (freq, lo, hi) => if freq >? 0 then requiredRate rate lo hi else rate
         | None => rate
         end) (channels (s_region s)) (s_rate s).

(* ldl_mac.c:688-742 LDL_MAC_mtu; overhead is a uint8_t *)
Definition MAC_mtu (c : cfg) (m : mac) : Z :=
  let s := m_ctx m in
  let mx := rate_mtu (s_region s) (mtu_rate s) in
  let add t o := u8 (o + (if commandIsPending s t then sizeofCommandUp t else 0)) in
  let o := Frame_dataOverhead in
  let o := if s_joined s then
      let o := add CMD_DL_CHANNEL (add CMD_RX_TIMING_SETUP (add CMD_NEW_CHANNEL
                 (add CMD_DEV_STATUS (add CMD_RX_PARAM_SETUP (add CMD_DUTY_CYCLE
                 (add CMD_LINK_ADR o)))))) in
      if is_1_1 (c_l2 c)
      then add CMD_REJOIN_PARAM_SETUP (add CMD_ADR_PARAM_SETUP (add CMD_REKEY o)) else o
    else o in
  if o >? mx then 0 else u8 (mx - o).

(* ldl_mac.c:761-786 *)
Definition MAC_addChannel (ch freq lo hi : Z) (m : mac) : mac * bool :=
  let '(s, ok) := setChannel (m_ctx m) ch freq lo hi in (set_m_ctx s m, ok).
Definition MAC_maskChannel (ch : Z) (m : mac) : mac * bool :=
  let '(k, ok) := maskChannel (s_chMask (m_ctx m)) (s_region (m_ctx m)) ch in
  (on_ctx (set_s_chMask k) m, ok).
Definition MAC_unmaskChannel (ch : Z) (m : mac) : mac * bool :=
  let '(k, ok) := unmaskChannel (s_chMask (m_ctx m)) (s_region (m_ctx m)) ch in
  (on_ctx (set_s_chMask k) m, ok).

(* ldl_mac.c:903-926 LDL_MAC_priority *)
Definition MAC_priority (m : mac) : bool :=
  match m_state m with
  | ST_TX | ST_WAIT_RX1 | ST_RX1 | ST_WAIT_RX2 | ST_RX2 => true
  | _ => false
  end.

(* --- histories ----------------------------------------------------------------- *)

(* Calls of the public interface, with their arguments.  C_radioEvent carries
   the tick value passed to (or read by) LDL_MAC_radioEvent[WithTicks]. *)
Inductive call :=
| C_process
| C_entropy
| C_otaa
| C_abp (devAddr : Z)
| C_data (confirmed : bool) (port : Z) (data : option bytes) (opts : option data_opts)
| C_cancel
| C_forget
| C_setRate (rate : Z)
| C_setPower (power : Z)
| C_setADR (v : bool)
| C_setMaxDCycle (v : Z)
| C_addChannel (ch freq lo hi : Z)
| C_maskChannel (ch : Z)
| C_unmaskChannel (ch : Z)
| C_radioEvent (ticks : Z).

Inductive ret := RVoid | RStatus (s : status) | RBool (b : bool).

Definition st_ret (p : mac * status) : mac * ret := (fst p, RStatus (snd p)).
Definition bool_ret (p : mac * bool) : mac * ret := (fst p, RBool (snd p)).

(* one call made in environment e *)
Definition step (c : cfg) (e : env) (k : call) (m : mac) : mac * ret :=
  match k with
  | C_process => (MAC_process c e m, RVoid)
  | C_entropy => st_ret (MAC_entropy e m)
  | C_otaa => st_ret (MAC_otaa c e m)
  | C_abp a => st_ret (MAC_abp a m)
  | C_data cf p d o => st_ret (MAC_data c e cf p d o m)
  | C_cancel => (MAC_cancel m, RVoid)
  | C_forget => (MAC_forget c m, RVoid)
  | C_setRate r => st_ret (MAC_setRate r m)
  | C_setPower p => st_ret (MAC_setPower p m)
  | C_setADR v => (MAC_setADR v m, RVoid)
  | C_setMaxDCycle v => (MAC_setMaxDCycle v m, RVoid)
  | C_addChannel ch f lo hi => bool_ret (MAC_addChannel ch f lo hi m)
  | C_maskChannel ch => bool_ret (MAC_maskChannel ch m)
  | C_unmaskChannel ch => bool_ret (MAC_unmaskChannel ch m)
  | C_radioEvent t => (inputSignal t m, RVoid)
  end.

(* a history: calls in order, each with its environment *)
Definition history := list (env * call).

Fixpoint run (c : cfg) (h : history) (m : mac) : mac :=
  match h with
  | [] => m
  | (e, k) :: h => run c h (fst (step c e k m))
  end.
