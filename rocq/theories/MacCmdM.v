(* MAC commands received from the network: /repo/src/ldl_mac.c:2051-2496
   processCommands.

   The loop state is the MAC, the input stream and adr_state; the rollback
   cache is taken from the MAC on entry.  LDL_DISABLE_LINK_CHECK and
   LDL_DISABLE_DEVICE_TIME are taken as not defined. *)
From Verif Require Import Words StreamM FrameM CommandsM RegionM SmM MacStateM MacUtilM OpsM.

(* ldl_mac.c:2064-2069 *)
Inductive adr_state := NO_ADR | ADR_OK | ADR_BAD.

(* ldl_platform.h:306-325 LDL_REDUNDANCY_MAX, default value *)
Definition REDUNDANCY_MAX : Z := 3.

(* set bits unmask, clear bits mask: ldl_mac.c:2129-2139 and 2176-2186; [base]
   is 0 or channelMaskControl * 16 *)
Definition apply_mask16 (r : region) (mask16 base : Z) (chMask : bytes) : bytes :=
  fold_left (fun acc i =>
    let i := Z.of_nat i in
    if Z.land mask16 (2 ^ i) >? 0
    then fst (unmaskChannel acc r (u8 (base + i)))
    else fst (maskChannel acc r (u8 (base + i)))) (seq 0 16) chMask.

(* ldl_mac.c:2161-2171: all 125 kHz channels on or off *)
Definition apply_all125 (r : region) (on : bool) (chMask : bytes) : bytes :=
  fold_left (fun acc i =>
    if on then fst (unmaskChannel acc r (Z.of_nat i))
    else fst (maskChannel acc r (Z.of_nat i))) (seq 0 64) chMask.

(* ldl_mac.c:2123-2189: effect of channelMask/channelMaskControl on the mask,
   and whether channelMaskOK is left alone *)
Definition adr_mask (r : region) (mask16 cntl : Z) (chMask : bytes) : bytes * bool :=
  if isDynamic r then
    if cntl =? 0 then (apply_mask16 r mask16 0 chMask, true)
    else if cntl =? 6 then (unmaskAllChannels chMask, true)
    else (chMask, false)
  else
    if (cntl =? 6) || (cntl =? 7) then (apply_all125 r (cntl =? 6) chMask, true)
    else (apply_mask16 r mask16 (cntl * 16) chMask, true).

Definition set_maskOK (v : bool) (s : session) : session :=
  set_s_adr_ans (mkAdrAns (la_power (s_adr_ans s)) (la_rate (s_adr_ans s)) v) s.
Definition set_rateOK (v : bool) (s : session) : session :=
  set_s_adr_ans (mkAdrAns (la_power (s_adr_ans s)) v (la_mask (s_adr_ans s))) s.
Definition set_powerOK (v : bool) (s : session) : session :=
  set_s_adr_ans (mkAdrAns v (la_rate (s_adr_ans s)) (la_mask (s_adr_ans s))) s.

(* ldl_mac.c:2193-2250: the last request of a contiguous block *)
Definition adr_final (dataRate txPower nbTrans : Z) (s : session) : session * adr_state :=
  let r := s_region s in
  let s := set_powerOK true (set_rateOK true s) in
  let s := if nbTrans >? 0 then
             let n := Z.land nbTrans 15 in
             set_s_nbTrans (if n >? REDUNDANCY_MAX then REDUNDANCY_MAX else n) s
           else s in
  let s := if dataRate <? 15 then
             if rateSettingIsValid r dataRate then set_s_rate dataRate s
             else set_rateOK false s
           else s in
  let s := if txPower <? 15 then
             if validateTXPower r txPower then set_s_power txPower s
             else set_powerOK false s
           else s in
  let s := if allChannelsAreMasked (s_chMask s) then set_maskOK false s else s in
  let ok := la_rate (s_adr_ans s) && la_power (s_adr_ans s) && la_mask (s_adr_ans s) in
  (setPendingCommand CMD_LINK_ADR s, if ok then ADR_OK else ADR_BAD).

(* ldl_mac.c:2110-2259 case LDL_CMD_LINK_ADR; [last] is the condition at line
   2191 *)
Definition do_linkADR (dataRate txPower mask16 cntl nbTrans : Z) (last : bool)
    (s : session) (st : adr_state) : session * adr_state :=
  if negb (commandIsPending s CMD_LINK_ADR) then
    let '(mask, ok) := adr_mask (s_region s) mask16 cntl (s_chMask s) in
    let s := set_s_chMask mask s in
    let s := if ok then s else set_maskOK false s in
    if last then adr_final dataRate txPower nbTrans s else (s, st)
  else (s, st).

(* ldl_mac.c:2302-2313 *)
Definition snr_margin (snr : Z) : Z :=
  if snr >? 31 then 31 else if snr <? -32 then -32 else snr.

(* ldl_mac.c:2408-2417: seconds and fractions reported; uint64_t does not wrap *)
Definition device_time (tps ticks_at_tx now seconds fractions : Z) : Z * Z :=
  let t := Z.lor (Z.shiftl seconds 8) fractions
           + timerDelta ticks_at_tx now * timeTPS / tps in
  (u32 (Z.shiftr t 8), u8 t).

(* ldl_mac.c:2087-2482: one command *)
Definition do_command (c : cfg) (e : env) (d : down_cmd) (last : bool)
    (m : mac) (st : adr_state) : mac * adr_state :=
  let r := s_region (m_ctx m) in
  match d with
  | DLinkCheck margin gw => (notify (EV_LINK_STATUS margin gw) m, st)
  | DLinkADR dr pw mk ctl nb =>
      let '(s, st) := do_linkADR dr pw mk ctl nb last (m_ctx m) st in
      (set_m_ctx s m, st)
  | DDutyCycle d =>
      (on_ctx (fun s => setPendingCommand CMD_DUTY_CYCLE (set_s_maxDutyCycle d s)) m, st)
  | DRXParamSetup o2 dr f =>
      (on_ctx (fun s => setPendingCommand CMD_RX_PARAM_SETUP
         (set_s_rxp_ans (mkRxParamAns true true true)
         (set_s_rx2Freq f (set_s_rx2DataRate dr (set_s_rx1DROffset o2 s))))) m, st)
  | DDevStatus =>
      (on_ctx (fun s => setPendingCommand CMD_DEV_STATUS
         (set_s_dev_ans (mkDevStatus (e_battery e) (snr_margin (m_rx_snr m))) s)) m, st)
  | DNewChannel ch f hi lo =>
      if isDynamic r then
        let rateOK := validateRate r ch lo hi in
        let freqOK := validateFreq r f in
        (on_ctx (fun s =>
           let s := set_s_nch_ans (mkNewChAns rateOK freqOK) s in
           let s := if rateOK && freqOK then fst (setChannel s ch f lo hi) else s in
           setPendingCommand CMD_NEW_CHANNEL s) m, st)
      else (m, st)
  | DDLChannel ch f =>
      if isDynamic r then
        (on_ctx (fun s => setPendingCommand CMD_DL_CHANNEL
           (set_s_dlc_ans (mkDlChAns true (validateFreq r f)) s)) m, st)
      else (m, st)
  | DRXTimingSetup d =>
      (on_ctx (fun s => setPendingCommand CMD_RX_TIMING_SETUP (set_s_rx1Delay d s)) m, st)
  | DTXParamSetup v =>
      if c_txps c && txParamSetupImplemented r then
        (on_ctx (fun s => setPendingCommand CMD_TX_PARAM_SETUP (set_s_tx_param v s)) m, st)
      else (m, st)
  | DDeviceTime sec fr =>
      let '(s', f') := device_time (m_tps m) (m_ticks_at_tx m) (e_now e) sec fr in
      (notify (EV_DEVICE_TIME s' f') m, st)
  | DADRParamSetup l d =>
      (on_ctx (fun s => setPendingCommand CMD_ADR_PARAM_SETUP
         (set_s_adr_ack_delay (2 ^ d) (set_s_adr_ack_limit (2 ^ l) s))) m, st)
  | DRekey v =>
      if v =? s_version (m_ctx m)
      then (on_ctx (clearPendingCommand CMD_REKEY) m, st) else (m, st)
  | DForceRejoin _ _ _ _ => (m, st)
  | DRejoinParamSetup _ _ =>
      (on_ctx (fun s => setPendingCommand CMD_REJOIN_PARAM_SETUP (set_s_rjp_ans false s)) m, st)
  end.

(* the condition at ldl_mac.c:2191 *)
Definition block_ends (c : cfg) (s : stream) : bool :=
  match peekNextCommand (c_l2 c) s with
  | Some CMD_LINK_ADR => false
  | _ => true
  end.

(* ldl_mac.c:2085 while loop.  Every iteration consumes at least one byte, so
   len+1 units of fuel never run out. *)
Fixpoint cmd_loop (fuel : nat) (c : cfg) (e : env) (s : stream) (m : mac) (st : adr_state)
  : mac * adr_state :=
  match fuel with
  | O => (m, st)
  | S fuel =>
      match getDownCommand (c_l2 c) s with
      | (s, Some d) =>
          let '(m, st) := do_command c e d (block_ends c s) m st in
          cmd_loop fuel c e s m st
      | (_, None) => (m, st)
      end
  end.

(* ldl_mac.c:2485-2495 *)
Definition adr_rollback (old : session) (s : session) : session :=
  set_s_nbTrans (s_nbTrans old) (set_s_power (s_power old)
    (set_s_rate (s_rate old) (set_s_chMask (s_chMask old) s))).

(* ldl_mac.c:2051-2496 processCommands; [inb] holds exactly len bytes *)
Definition processCommands (c : cfg) (e : env) (inb : bytes) (m : mac) : mac :=
  let old := m_ctx m in
  let '(m, st) := cmd_loop (S (length inb)) c e
                    (Stream_initReadOnly inb (Z.of_nat (length inb)))
                    (on_ctx (set_maskOK true) m) NO_ADR in
  match st with
  | ADR_BAD => on_ctx (adr_rollback old) m
  | _ => m
  end.
