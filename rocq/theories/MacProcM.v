(* The state machine of /repo/src/ldl_mac.c: LDL_MAC_process and the functions
   it calls.  Trace and LDL_PEDANTIC macros are not modelled. *)
From Verif Require Import Words StreamM FrameM CommandsM RegionM RadioM SmM MacStateM MacUtilM OpsM MacCmdM.

(* call sites of the random number generator *)
Definition RND_DEVNONCE : nat := 0.   (* fillJoinBuffer, 1.0.3 only *)
Definition RND_CHANNEL : nat := 1.    (* selectChannel *)
Definition RND_JOININDEX : nat := 2.  (* selectJoinChannelAndRate *)
Definition RND_OTAA : nat := 3.       (* processWaitOTAA *)

Definition LDL_MAX_PACKET : Z := 255. (* ldl_platform.h *)

(* ldl_mac.c:1726 and 2577: applyUplinkDwell when TX_PARAM_SETUP is built in *)
Definition dwellRate (c : cfg) (s : session) (rate : Z) : Z :=
  if c_txps c then applyUplinkDwell (s_region s) (uplinkDwell (s_tx_param s)) rate else rate.

(* ldl_mac.c:2568-2601 selectJoinChannelAndRate(self, &self->tx); LDL_ASSERT is
   not modelled: when no channel is found tx keeps its old contents *)
Definition selectJoinChannelAndRate (c : cfg) (e : env) (m : mac) : mac :=
  let r := s_region (m_ctx m) in
  let desired := dwellRate c (m_ctx m) (getJoinRate (c_noSF12 c) r (m_trials m)) in
  if isDynamic r then
    set_m_tx (fst (selectChannel m desired (timeUntilNextChannel m) (e_rand e RND_CHANNEL) (m_tx m))) m
  else
    let ch := getJoinIndex r (m_trials m) (e_rand e RND_JOININDEX) in
    match Region_getChannel r ch with
    | Some (freq, lo, hi) =>
        on_tx (fun t => set_tx_rate (requiredRate desired lo hi)
                 (set_tx_freq freq (set_tx_chIndex ch t))) m
    | None =>
        on_tx (fun t => set_tx_rate (requiredRate desired 0 0) (set_tx_chIndex ch t)) m
    end.

(* ldl_mac.c:3361-3379 fillJoinBuffer *)
Definition fillJoinBuffer (c : cfg) (e : env) (devNonce : Z) (m : mac) : mac :=
  let dn := match c_l2 c with L2_1_0_3 => u16 (e_rand e RND_DEVNONCE) | _ => devNonce end in
  let m := on_ctx (set_s_devNonce dn) m in
  let f := mkFrameJoin (m_joinEUI m) (m_devEUI m) dn 0 in
  let '(buf, len) := prepareJoinRequest c m f (m_buffer m) LDL_MAX_PACKET in
  selectJoinChannelAndRate c e (set_m_bufferLen len (set_m_buffer buf m)).

(* ldl_mac.c:1987-2039 adaptRate: new MAC and session_changed; the counter is
   a uint8_t *)
Definition adaptRate (c : cfg) (m : mac) : mac * bool :=
  let m := set_m_adrAckReq false m in
  let s := m_ctx m in
  let n := m_adrAckCounter m in
  if s_adr s then
    if n <? 255 then
      let lim := s_adr_ack_limit s in
      let del := s_adr_ack_delay s in
      let '(m, changed) :=
        if n >=? lim then
          let m := set_m_adrAckReq true m in
          if (n >=? lim + del) && ((n - (lim + del)) mod del =? 0) then
            if s_power s =? 0 then
              if s_rate s >? MIN_RATE (c_noSF12 c)
              then (on_ctx (set_s_rate (s_rate s - 1)) m, true)
              else (set_m_adrAckCounter 255
                      (on_ctx (set_s_chMask (unmaskAllChannels (s_chMask s))) m), true)
            else (on_ctx (set_s_power 0) m, true)
          else (m, false)
        else (m, false) in
      (set_m_adrAckCounter (u8 (m_adrAckCounter m + 1)) m, changed)
    else (m, false)
  else (m, false).

(* events that complete an operation *)
Definition complete (ev : event) (m : mac) : mac :=
  set_m_op OP_NONE (set_m_state ST_IDLE (notify ev m)).

(* ldl_mac.c:3081-3168 downlinkMissingHandler.  The channel chosen at line
   3109 goes to a local variable and is discarded. *)
Definition downlinkMissing (c : cfg) (e : env) (m : mac) : mac :=
  let nbTrans :=
    if do_nbTrans (m_opts m) >? 0 then do_nbTrans (m_opts m)
    else if s_nbTrans (m_ctx m) >? 0 then s_nbTrans (m_ctx m) else 1 in
  let m := set_m_trials (u32 (m_trials m + 1)) m in
  match m_op m with
  | OP_DATA_UNCONFIRMED | OP_DATA_CONFIRMED =>
      let confirmed := match m_op m with OP_DATA_CONFIRMED => true | _ => false end in
      let limit := getMaxDCycleOffLimit (s_region (m_ctx m)) in
      let global_ok := band_global m <? limit in
      let channel_ok := snd (selectChannel m (tx_rate (m_tx m)) limit
                               (e_rand e RND_CHANNEL) (m_tx m)) in
      if (m_trials m <? nbTrans) && global_ok && channel_ok then
        let m := micDataFrame c m in
        let m := timerSet e WAITA
                   (if confirmed then u32 (Z.shiftl (m_tps m) (m_trials m)) else 0) m in
        set_m_state ST_WAIT_TX m
      else
        let '(m, changed) := adaptRate c m in
        let m := if changed then pushSessionUpdate m else m in
        complete (if confirmed then EV_DATA_TIMEOUT else EV_DATA_COMPLETE) m
  | OP_JOINING =>
      if m_devNonce m <=? 65535 then
        let m := fillJoinBuffer c e (u16 (m_devNonce m)) m in
        let m := set_m_devNonce (u32 (m_devNonce m + 1)) m in
        let m := notify (EV_DEV_NONCE_UPDATED (m_devNonce m)) m in
        timerSet e WAITA 0 (set_m_state ST_WAIT_OTAA m)
      else complete EV_JOIN_EXHAUSTED m
  | _ => m
  end.

(* ldl_mac.c:1663-1699 handleRadioError *)
Definition handleRadioError (c : cfg) (e : env) (m : mac) : mac :=
  let m := timerClear WAITB (timerClear WAITA (inputDisarm m)) in
  let m := match m_op m with
           | OP_JOINING => downlinkMissing c e m
           | _ => notify EV_OP_ERROR (set_m_op OP_NONE m)
           end in
  timerSet e WAITA (m_tps m / 1024) (emit (OMode MODE_RESET) (set_m_state ST_RADIO_RESET m)).

(* ldl_mac.c:960-972 processInit *)
Definition processInit (e : env) (m : mac) : mac :=
  timerSet e WAITA (m_tps m / 1024) (emit (OMode MODE_RESET) (set_m_state ST_RADIO_RESET m)).

(* ldl_mac.c:974-988 processRadioReset *)
Definition processRadioReset (e : env) (ev : sme) (m : mac) : mac :=
  match ev with
  | SME_TIMER_A =>
      timerSet e WAITA (m_tps m / 128) (emit (OMode MODE_BOOT) (set_m_state ST_RADIO_BOOT m))
  | _ => m
  end.

(* ldl_mac.c:990-1023 processRadioBoot *)
Definition processRadioBoot (e : env) (ev : sme) (m : mac) : mac :=
  match ev with
  | SME_TIMER_A =>
      let m := emit (OMode MODE_SLEEP) m in
      match m_op m with
      | OP_ENTROPY => timerSet e WAITA 0 (set_m_state ST_WAIT_ENTROPY m)
      | OP_JOINING => timerSet e WAITA 0 (set_m_state ST_WAIT_OTAA m)
      | OP_DATA_CONFIRMED | OP_DATA_UNCONFIRMED => timerSet e WAITA 0 (set_m_state ST_WAIT_TX m)
      | _ => set_m_state ST_IDLE m
      end
  | _ => m
  end.

(* ldl_mac.c:1025-1038 processStartRadioForEntropy *)
Definition processStartRadioForEntropy (e : env) (ev : sme) (m : mac) : mac :=
  match ev with
  | SME_TIMER_A =>
      timerSet e WAITA (m_tps m / 1024) (set_m_state ST_ENTROPY (emit OReceiveEntropy m))
  | _ => m
  end.

(* ldl_mac.c:1040-1060 processEntropy *)
Definition processEntropy (e : env) (ev : sme) (m : mac) : mac :=
  match ev with
  | SME_TIMER_A =>
      notify (EV_ENTROPY (e_entropy e))
        (set_m_op OP_NONE (set_m_state ST_IDLE (emit (OMode MODE_SLEEP) m)))
  | _ => m
  end.

(* ldl_mac.c:1062-1090 processWaitOTAA.  Without LDL_ENABLE_OTAA_DITHER the
   constant 30 is used: that build is the case m_otaaDither = 30. *)
Definition processWaitOTAA (e : env) (m : mac) : mac :=
  if band_global m =? 0 then
    let delay := if m_otaaDither m >? 0
                 then e_rand e RND_OTAA mod u32 (m_tps m * m_otaaDither m) else 0 in
    set_m_state ST_WAIT_TX (timerSet e WAITA delay m)
  else m.

(* ldl_mac.c:1092-1142 processWait *)
Definition processWait (c : cfg) (ev : sme) (lag : Z) (m : mac) : mac :=
  match ev with
  | SME_TIMER_A | SME_TIMER_B =>
      let delay := msToTicks m (c_xtal c) in
      let '(st, mode, t) :=
        match m_state m with
        | ST_WAIT_RX1 => (ST_START_RADIO_FOR_RX1, MODE_RX, WAITA)
        | ST_WAIT_RX2 => (ST_START_RADIO_FOR_RX2, MODE_RX, WAITB)
        | ST_WAIT_ENTROPY => (ST_START_RADIO_FOR_ENTROPY, MODE_RX, WAITA)
        | _ => (ST_START_RADIO_FOR_TX, MODE_TX, WAITA)
        end in
      timerAppend t (if lag >? delay then 0 else delay - lag)
        (emit (OMode mode) (set_m_state st m))
  | _ => m
  end.

(* ldl_mac.c:1159-1176 maxEIRP[] *)
Definition maxEIRP : list Z := [8; 10; 12; 13; 14; 16; 18; 20; 21; 24; 26; 27; 29; 30; 33; 36].

(* ldl_mac.c:1154-1187: the power requested from the radio, in 0.01 dBm *)
Definition tx_eirp (c : cfg) (s : session) (power : Z) : Z :=
  let eirp := getTXPower (s_region s) power in
  if c_txps c && txParamSetupImplemented (s_region s) then
    let mx := nth (Z.to_nat (Z.land (s_tx_param s) 15)) maxEIRP 0 * 100 in
    if eirp >? mx then mx else eirp
  else eirp.

(* ldl_mac.c:1144-1213 processStartRadioForTX; the transmitted frame is the
   first bufferLen bytes of the buffer *)
Definition processStartRadioForTX (c : cfg) (e : env) (ev : sme) (m : mac) : mac :=
  match ev with
  | SME_TIMER_A =>
      let r := s_region (m_ctx m) in
      let sf := rate_sf r (tx_rate (m_tx m)) in
      let b := rate_bw r (tx_rate (m_tx m)) in
      let ms := getAirTime b sf (m_bufferLen m) true in
      let m := inputArm (on_tx (set_tx_airTime (msToTime ms)) m) in
      let m := emit (OTransmit (tx_freq (m_tx m)) b sf (tx_eirp c (m_ctx m) (tx_power (m_tx m)))
                       (slice (m_buffer m) 0 (Z.to_nat (m_bufferLen m)))) m in
      timerSet e WAITA (u32 (Z.shiftl (msToTicks m ms) 1)) (set_m_state ST_TX m)
  | _ => m
  end.

(* ldl_mac.c:2041-2044 symbolPeriod *)
Definition symbolPeriod (tps sf : Z) (b : bw) : Z := u32 (2 ^ sf * tps) / bwToNumber b.

(* ldl_mac.c:2046-2049 extraSymbols.  A period of 0 is undefined behaviour in C
   (division by zero); here the result is at most 1 and is then raised to 3, as
   on processors that do not trap.
   C53 says when it happens. *)
Definition extraSymbols (xtal_error period : Z) : Z :=
  u32 (xtal_error / period + (if xtal_error mod period >? 0 then 1 else 0)).

(* ldl_mac.c:1280-1292 and 1298-1310: symbols to listen for, and ticks by
   which to open the window early *)
Definition window (tps xtal_error sf : Z) (b : bw) : Z * Z :=
  let sp := symbolPeriod tps sf b in
  let x := extraSymbols xtal_error sp in
  let x := if x <? 3 then 3 else x in
  (u16 (5 + u16 x), u32 (x * sp) / 2).

(* ldl_mac.c:1262-1335: transmission complete *)
Definition tx_done (c : cfg) (e : env) (lag : Z) (m : mac) : mac :=
  let s := m_ctx m in
  let r := s_region s in
  let tps := m_tps m in
  let m := set_m_pendingACK false m in
  let waitSeconds := match m_op m with OP_JOINING => getJA1Delay r | _ => s_rx1Delay s end in
  let waitTicks := u32 (waitSeconds * tps) in
  let m := set_m_ticks_at_tx (u32 (e_now e - lag)) m in
  let advance := u32 (u32 (m_advance m + lag) + msToTicks m (c_xtal c)) in
  let rate := getRX1DataRate r (tx_rate (m_tx m)) (s_rx1DROffset s) in
  let err1 := u32 (u32 (u32 (waitSeconds * m_a m) * 2) + m_b m) in
  let '(sym1, marg1) := window tps err1 (rate_sf r rate) (rate_bw r rate) in
  let m := set_m_rx1_symbols sym1 m in
  let advanceA := u32 (advance + marg1) in
  let err2 := u32 (err1 + u32 (m_a m * 2)) in
  let '(sym2, marg2) := window tps err2 (rate_sf r (s_rx2DataRate s)) (rate_bw r (s_rx2DataRate s)) in
  let m := set_m_rx2_symbols sym2 m in
  let advanceB := u32 (advance + marg2) in
  let m :=
    if advanceB <=? u32 (waitTicks + tps) then
      let m := timerSet e WAITB (u32 (u32 (waitTicks + tps) - advanceB)) m in
      if advanceA <=? waitTicks
      then set_m_state ST_WAIT_RX1 (timerSet e WAITA (u32 (waitTicks - advanceA)) m)
      else set_m_state ST_WAIT_RX2 (timerClear WAITA m)
    else set_m_state ST_WAIT_RX2 (timerSet e WAITB 0 (timerClear WAITA m)) in
  emit (OMode MODE_HOLD) m.

(* ldl_mac.c:1215-1344 processTX *)
Definition processTX (c : cfg) (e : env) (ev : sme) (lag : Z) (m : mac) : mac :=
  match ev with
  | SME_TIMER_A => handleRadioError c e (registerTime m)
  | SME_INTERRUPT =>
      if e_st_tx e then tx_done c e lag (registerTime m)
      else handleRadioError c e (registerTime m)
  | _ => m
  end.

(* ldl_mac.c:1346-1385 processStartRadioForRX1 *)
Definition processStartRadioForRX1 (e : env) (ev : sme) (m : mac) : mac :=
  match ev with
  | SME_TIMER_A =>
      let r := s_region (m_ctx m) in
      let rate := getRX1DataRate r (tx_rate (m_tx m)) (s_rx1DROffset (m_ctx m)) in
      let freq := getRX1Freq r (tx_freq (m_tx m)) (tx_chIndex (m_tx m)) in
      let m := inputArm (set_m_state ST_RX1 m) in
      let m := emit (OReceive freq (rate_bw r rate) (rate_sf r rate) (m_rx1_symbols m)
                       (u8 (rate_mtu r rate + Frame_phyOverhead))) m in
      timerSet e WAITA (u32 (Z.shiftl (u32 (m_tps m + m_a m)) 2)) m
  | _ => m
  end.

(* ldl_mac.c:1387-1419 processStartRadioForRX2 *)
Definition processStartRadioForRX2 (e : env) (ev : sme) (m : mac) : mac :=
  match ev with
  | SME_TIMER_B =>
      let r := s_region (m_ctx m) in
      let rate := s_rx2DataRate (m_ctx m) in
      let m := inputArm (set_m_state ST_RX2 m) in
      let m := emit (OReceive (s_rx2Freq (m_ctx m)) (rate_bw r rate) (rate_sf r rate)
                       (m_rx2_symbols m) (u8 (rate_mtu r rate + Frame_phyOverhead))) m in
      timerSet e WAITA (u32 (u32 (m_tps m + m_a m) * 4)) m
  | _ => m
  end.

(* ldl_mac.c:1484-1539: join accept received and verified *)
Definition join_accepted (c : cfg) (buf : bytes) (f : frame_down) (m : mac) : mac :=
  let s := m_ctx m in
  let s := set_s_joined true s in
  let s := set_s_rate (if s_adr s then getJoinRate (c_noSF12 c) (s_region s) (m_trials m)
                       else s_rate s) s in
  let s := set_s_rx1Delay (dn_rxDelay f) (set_s_rx2DataRate (dn_rx2DataRate f)
             (set_s_rx1DROffset (dn_rx1DROffset f) s)) in
  let s := match dn_cfList f with
           | Some off => chan_steps s (processCFList (s_region s)
                           (slice buf (Z.to_nat off) (Z.to_nat (dn_cfListLen f))))
           | None => s
           end in
  let s := set_s_devAddr (dn_devAddr f) s in
  let s := if is_1_1 (c_l2 c) then
             let s := set_s_version (if dn_optNeg f then 1 else 0) s in
             if s_version s >? 0 then setPendingCommand CMD_REKEY s else s
           else s in
  let s := set_s_joinNonce (dn_joinNonce f) (set_s_netID (dn_netID f) s) in
  let m := set_m_ctx s m in
  let m := deriveKeys c m in
  let m := set_m_joinNonce (u32 (dn_joinNonce f + 1)) m in
  let m := set_m_day 0 (band_set BAND_GLOBAL 0 m) in
  let m := set_m_op OP_NONE (set_m_state ST_IDLE m) in
  notify (EV_JOIN_COMPLETE (m_joinNonce m) (s_netID s) (s_devAddr s)) m.

(* ldl_mac.c:1541-1614: data frame received and verified *)
Definition data_received (c : cfg) (e : env) (buf : bytes) (f : frame_down) (m : mac) : mac :=
  let m := set_m_fPending (dn_pending f) m in
  let m := set_m_pendingACK (match dn_type f with FT_CONF_DOWN => true | _ => false end) m in
  let m := on_ctx (fun s =>
             clearPendingCommand CMD_RX_TIMING_SETUP (clearPendingCommand CMD_DL_CHANNEL
               (clearPendingCommand CMD_RX_PARAM_SETUP
                 (syncDownCounter c (dn_port f) (dn_counter f) s)))) m in
  let m := set_m_adrAckReq false (set_m_adrAckCounter 0 m) in
  let m := match dn_opts f with
           | Some off => processCommands c e
                           (slice buf (Z.to_nat off) (Z.to_nat (dn_optsLen f))) m
           | None => m
           end in
  let m := match dn_data f with
           | Some off =>
               let d := slice buf (Z.to_nat off) (Z.to_nat (dn_dataLen f)) in
               if dn_port f =? 0 then processCommands c e d m
               else notify (EV_RX (dn_port f) d) m
           | None => m
           end in
  let m := match m_op m with
           | OP_DATA_CONFIRMED =>
               notify (if dn_ack f then EV_DATA_COMPLETE else EV_DATA_TIMEOUT) m
           | OP_REJOINING => m
           | _ => notify EV_DATA_COMPLETE m
           end in
  set_m_op OP_NONE (set_m_state ST_IDLE m).

(* the local buffer of processRX: received bytes first; what the stack held
   beyond them is indeterminate in C and zero here *)
Definition rx_buffer (e : env) : bytes :=
  firstn 255 (e_rx e ++ fill 0 255).
Definition rx_len (e : env) : Z := Z.of_nat (length (firstn 255 (e_rx e))).

(* ldl_mac.c:1462-1623: a packet was received *)
Definition rx_packet (c : cfg) (e : env) (m : mac) : mac :=
  let m := timerClear WAITB (timerClear WAITA m) in
  let m := set_m_rx_snr (e_snr e) (emit (OMode MODE_SLEEP) m) in
  match receiveFrame c m (rx_buffer e) (rx_len e) with
  | (buf, Some f) =>
      pushSessionUpdate
        (match dn_type f with
         | FT_CONF_DOWN | FT_UNCONF_DOWN => data_received c e buf f m
         | _ => join_accepted c buf f m
         end)
  | (_, None) => downlinkMissing c e m
  end.

(* ldl_mac.c:1624-1648: the window closed without a packet *)
Definition rx_timeout (e : env) (m : mac) : mac :=
  match m_state m with
  | ST_RX2 =>
      let m := timerClear WAITB (emit (OMode MODE_SLEEP) m) in
      let r := s_region (m_ctx m) in
      let rate := tx_rate (m_tx m) in
      let ms := getAirTime (rate_bw r rate) (rate_sf r rate) (rate_mtu r rate) false in
      set_m_state ST_RX2_LOCKOUT (timerSet e WAITA (msToTicks m ms) m)
  | _ =>
      set_m_state ST_WAIT_RX2 (timerClear WAITA (emit (OMode MODE_HOLD) m))
  end.

(* ldl_mac.c:1421-1653 processRX *)
Definition processRX (c : cfg) (e : env) (ev : sme) (m : mac) : mac :=
  match ev with
  | SME_TIMER_A => handleRadioError c e m
  | SME_INTERRUPT =>
      if e_st_rx e then rx_packet c e m
      else if e_st_timeout e then rx_timeout e m
      else handleRadioError c e m
  | _ => m
  end.

(* ldl_mac.c:1655-1661 processRX2Lockout *)
Definition processRX2Lockout (c : cfg) (e : env) (ev : sme) (m : mac) : mac :=
  match ev with
  | SME_TIMER_A => downlinkMissing c e m
  | _ => m
  end.

(* ldl_mac.c:469-490: next event and its lag *)
Definition next_event (e : env) (m : mac) (channel_ready : bool) : mac * sme * Z :=
  match inputCheck e m with
  | (m, Some lag) => (m, SME_INTERRUPT, lag)
  | (m, None) =>
      match timerCheck e WAITA m with
      | (m, Some lag) => (m, SME_TIMER_A, lag)
      | (m, None) =>
          match timerCheck e WAITB m with
          | (m, Some lag) => (m, SME_TIMER_B, lag)
          | (m, None) => (m, if channel_ready then SME_BAND else SME_NONE, 0)
          end
      end
  end.

(* ldl_mac.c:494-568 dispatch on the state *)
Definition dispatch (c : cfg) (e : env) (ev : sme) (lag : Z) (m : mac) : mac :=
  match m_state m with
  | ST_IDLE => m
  | ST_INIT => processInit e m
  | ST_RADIO_RESET => processRadioReset e ev m
  | ST_RADIO_BOOT => processRadioBoot e ev m
  | ST_WAIT_ENTROPY | ST_WAIT_TX | ST_WAIT_RX1 | ST_WAIT_RX2 => processWait c ev lag m
  | ST_START_RADIO_FOR_ENTROPY => processStartRadioForEntropy e ev m
  | ST_ENTROPY => processEntropy e ev m
  | ST_WAIT_OTAA => processWaitOTAA e m
  | ST_START_RADIO_FOR_TX => processStartRadioForTX c e ev m
  | ST_TX => processTX c e ev lag m
  | ST_START_RADIO_FOR_RX1 => processStartRadioForRX1 e ev m
  | ST_START_RADIO_FOR_RX2 => processStartRadioForRX2 e ev m
  | ST_RX1 | ST_RX2 => processRX c e ev m
  | ST_RX2_LOCKOUT => processRX2Lockout c e ev m
  end.

(* ldl_mac.c:461-572 LDL_MAC_process *)
Definition MAC_process (c : cfg) (e : env) (m : mac) : mac :=
  let '(m, ready) := processBands e m in
  let '(m, ev, lag) := next_event e m ready in
  let m := match ev with SME_NONE => m | _ => dispatch c e ev lag m end in
  setNextBandEvent e m.
