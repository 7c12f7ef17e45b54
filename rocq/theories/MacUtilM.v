(* Helpers of /repo/src/ldl_mac.c: timers, inputs, channel table, off-time
   bands, session initialisation. *)
From Verif Require Import Words FrameM CommandsM RegionM SmM MacStateM.

(* ldl_mac.c:145-146; ldl_internal.h ADRAckLimit/ADRAckDelay (ldl_mac_internal.h) *)
Definition timeTPS : Z := 256.
Definition sessionMagicNumber : Z := 0xdb.
Definition ADRAckLimit : Z := 64.
Definition ADRAckDelay : Z := 32.

(* --- time ---------------------------------------------------------------- *)

(* ldl_mac.c:2955-2958 timerDelta *)
Definition timerDelta (timeout time : Z) : Z :=
  if timeout <=? time then time - timeout else u32 (UINT32_MAX - timeout + time).

(* ldl_mac.c:3170-3176 msToTime *)
Definition msToTime (ms : Z) : Z :=
  let t := u32 (ms * timeTPS) in
  u32 (t / 1000 + (if t mod 1000 >? 0 then 1 else 0)).

(* ldl_mac.c:3178-3184 msToTicks *)
Definition msToTicks (m : mac) (ms : Z) : Z :=
  let t := u32 (ms * m_tps m) in
  u32 (t / 1000 + (if t mod 1000 >? 0 then 1 else 0)).

(* --- timers --------------------------------------------------------------- *)

Definition timer_off : timer := mkTimer 0 false.
Definition get_timer (m : mac) (i : nat) : timer := nth i (m_timers m) timer_off.
Definition set_timer (i : nat) (t : timer) (m : mac) : mac :=
  set_m_timers (upd (m_timers m) i t) m.

(* timeout & INT32_MAX *)
Definition mask31 (t : Z) : Z := t mod 2147483648.

(* ldl_mac.c:788-796 LDL_MAC_timerSet *)
Definition timerSet (e : env) (i : nat) (timeout : Z) (m : mac) : mac :=
  set_timer i (mkTimer (u32 (e_now e + mask31 timeout)) true) m.

(* ldl_mac.c:798-806 LDL_MAC_timerAppend *)
Definition timerAppend (i : nat) (timeout : Z) (m : mac) : mac :=
  set_timer i (mkTimer (u32 (tm_time (get_timer m i) + mask31 timeout)) true) m.

(* ldl_mac.c:832-835 LDL_MAC_timerClear *)
Definition timerClear (i : nat) (m : mac) : mac :=
  set_timer i (mkTimer (tm_time (get_timer m i)) false) m.

(* ldl_mac.c:808-830 LDL_MAC_timerCheck; None is "return false", Some lag is
   "return true" with *lag set *)
Definition timerCheck (e : env) (i : nat) (m : mac) : mac * option Z :=
  let t := get_timer m i in
  if tm_armed t then
    let d := timerDelta (tm_time t) (e_now e) in
    if d <? INT32_MAX
    then (set_timer i (mkTimer (tm_time t) false) m, Some d)
    else (m, None)
  else (m, None).

(* ldl_mac.c:837-873 LDL_MAC_timerTicksUntilNext, loop over the timers *)
Fixpoint ticksUntilNext_from (now : Z) (ts : list timer) (acc : Z) : Z :=
  match ts with
  | [] => acc
  | t :: r =>
      let acc' :=
        if tm_armed t then
          if timerDelta (tm_time t) now <=? INT32_MAX then 0
          else if timerDelta now (tm_time t) <? acc then timerDelta now (tm_time t)
          else acc
        else acc in
      if acc' =? 0 then 0 else ticksUntilNext_from now r acc'
  end.
Definition timerTicksUntilNext (e : env) (m : mac) : Z :=
  ticksUntilNext_from (e_now e) (m_timers m) UINT32_MAX.

(* ldl_mac.c:875-901 LDL_MAC_timerTicksUntil, the returned value; the lag
   written back is timerDelta of the deadline and now *)
Definition timerTicksUntil (e : env) (i : nat) (m : mac) : Z :=
  let t := get_timer m i in
  if tm_armed t then
    if timerDelta (tm_time t) (e_now e) <=? INT32_MAX then 0
    else timerDelta (e_now e) (tm_time t)
  else UINT32_MAX.

(* --- inputs ---------------------------------------------------------------- *)

(* ldl_mac.c:3304-3315 inputSignal *)
Definition inputSignal (ticks : Z) (m : mac) : mac :=
  if negb (in_state (m_inputs m)) && in_armed (m_inputs m)
  then set_m_inputs (mkInput (in_armed (m_inputs m)) true ticks) m
  else m.

(* ldl_mac.c:3317-3325 inputArm *)
Definition inputArm (m : mac) : mac :=
  set_m_inputs (mkInput true false (in_time (m_inputs m))) m.

(* ldl_mac.c:3327-3334 inputDisarm *)
Definition inputDisarm (m : mac) : mac :=
  set_m_inputs (mkInput false (in_state (m_inputs m)) (in_time (m_inputs m))) m.

(* ldl_mac.c:3336-3354 inputCheck *)
Definition inputCheck (e : env) (m : mac) : mac * option Z :=
  if in_state (m_inputs m)
  then (set_m_inputs (mkInput false false (in_time (m_inputs m))) m,
        Some (timerDelta (in_time (m_inputs m)) (e_now e)))
  else (m, None).

(* ldl_mac.c:3356-3359 inputPending *)
Definition inputPending (m : mac) : bool := in_state (m_inputs m).

(* --- channel mask ----------------------------------------------------------- *)

(* ldl_mac.c:2844-2858 maskChannel *)
Definition maskChannel (mask : bytes) (r : region) (ch : Z) : bytes * bool :=
  if (ch <? numChannels r) && (ch <? 8 * Z.of_nat (length mask)) then
    let i := Z.to_nat (ch / 8) in
    (upd mask i (Z.lor (nth i mask 0) (2 ^ (ch mod 8))), true)
  else (mask, false).

(* ldl_mac.c:2860-2874 unmaskChannel; & ~(1 << n) as ldiff *)
Definition unmaskChannel (mask : bytes) (r : region) (ch : Z) : bytes * bool :=
  if (ch <? numChannels r) && (ch <? 8 * Z.of_nat (length mask)) then
    let i := Z.to_nat (ch / 8) in
    (upd mask i (Z.ldiff (nth i mask 0) (2 ^ (ch mod 8))), true)
  else (mask, false).

(* ldl_mac.c:2876-2879 unmaskAllChannels *)
Definition unmaskAllChannels (mask : bytes) : bytes := fill 0 (length mask).

(* ldl_mac.c:2881-2894 channelIsMasked *)
Definition channelIsMasked (mask : bytes) (r : region) (ch : Z) : bool :=
  if (ch <? numChannels r) && (ch <? 8 * Z.of_nat (length mask))
  then Z.land (nth (Z.to_nat (ch / 8)) mask 0) (2 ^ (ch mod 8)) >? 0
  else false.

(* ldl_mac.c:2896-2911 allChannelsAreMasked *)
Definition allChannelsAreMasked (mask : bytes) : bool :=
  forallb (fun b => b =? 0xff) mask.

(* --- channel table ----------------------------------------------------------- *)

(* indices 0 .. numChannels-1 *)
Definition channels (r : region) : list Z :=
  map Z.of_nat (seq 0 (Z.to_nat (numChannels r))).

(* ldl_mac.c:2782-2811 getChannel: (freq, minRate, maxRate) *)
Definition getChannel (s : session) (ch : Z) : option (Z * Z * Z) :=
  if isDynamic (s_region s) then
    if (ch <? numChannels (s_region s)) && (ch <? Z.of_nat (length (s_chConfig s))) then
      let fr := fst (nth (Z.to_nat ch) (s_chConfig s) (0, 0)) in
      Some (u32 (Z.shiftr fr 8 * 100), Z.land (Z.shiftr fr 4) 15, Z.land fr 15)
    else None
  else Region_getChannel (s_region s) ch.

(* ldl_mac.c:2813-2842 setChannel; dlFreq is left alone *)
Definition setChannel (s : session) (ch freq minRate maxRate : Z) : session * bool :=
  if (ch <? numChannels (s_region s)) && (ch <? Z.of_nat (length (s_chConfig s))) then
    let i := Z.to_nat ch in
    let dl := snd (nth i (s_chConfig s) (0, 0)) in
    if freq =? 0 then (set_s_chConfig (upd (s_chConfig s) i (0, dl)) s, true)
    else if validateFreq (s_region s) freq then
      (set_s_chConfig
         (upd (s_chConfig s) i
              (u32 (Z.lor (Z.lor (Z.shiftl (freq / 100) 8) (Z.shiftl minRate 4))
                          (Z.land maxRate 15)), dl)) s, true)
    else (s, false)
  else (s, false).

(* LDL_MAC_addChannel, maskChannel, unmaskChannel, ldl_mac.c:761-786, on the
   session *)
Definition chan_step (s : session) (c : chan_call) : session :=
  match c with
  | AddChannel ch f lo hi => fst (setChannel s ch f lo hi)
  | MaskChannel ch => set_s_chMask (fst (maskChannel (s_chMask s) (s_region s) ch)) s
  | UnmaskChannel ch => set_s_chMask (fst (unmaskChannel (s_chMask s) (s_region s) ch)) s
  end.
Definition chan_steps (s : session) (l : list chan_call) : session := fold_left chan_step l s.

(* ldl_mac.c:2913-2928 rateSettingIsValid *)
Definition rateSettingIsValid (r : region) (rate : Z) : bool :=
  existsb (fun ch => validateRate r ch rate rate) (channels r).

(* ldl_mac.c:2541-2559 requiredRate *)
Definition requiredRate (desired lo hi : Z) : Z :=
  if desired <? lo then lo else if desired >? hi then hi else desired.

(* ldl_mac.c:2562-2565 uplinkDwell *)
Definition uplinkDwell (tx_param : Z) : bool := Z.land tx_param 0x10 >? 0.

(* --- off-time bands ------------------------------------------------------------ *)

Definition band_get (m : mac) (b : Z) : Z := nth (Z.to_nat b) (m_band m) 0.
Definition band_global (m : mac) : Z := nth BAND_GLOBAL (m_band m) 0.
Definition band_set (i : nat) (v : Z) (m : mac) : mac := set_m_band (upd (m_band m) i v) m.

(* ldl_mac.c:2677-2705 isAvailable *)
Definition isAvailable (m : mac) (ch limit : Z) : bool :=
  let s := m_ctx m in
  if negb (channelIsMasked (s_chMask s) (s_region s) ch) then
    match getChannel s ch with
    | Some (freq, _, _) =>
        if freq >? 0 then
          match getBand (s_region s) freq with
          | Some b => band_get m b <=? limit
          | None => false
          end
        else false
    | None => false
    end
  else false.

(* ldl_mac.c:2707-2732 timeUntilAvailable *)
Definition timeUntilAvailable (m : mac) (ch : Z) : Z :=
  let s := m_ctx m in
  if negb (channelIsMasked (s_chMask s) (s_region s) ch) then
    match getChannel s ch with
    | Some (freq, _, _) =>
        if freq >? 0 then
          match getBand (s_region s) freq with
          | Some b => if band_get m b >? band_global m then band_get m b else band_global m
          | None => UINT32_MAX
          end
        else UINT32_MAX
    | None => UINT32_MAX
    end
  else UINT32_MAX.

(* ldl_mac.c:3186-3200 timeUntilNextChannel *)
Definition timeUntilNextChannel (m : mac) : Z :=
  fold_left (fun acc ch => if acc >? timeUntilAvailable m ch
                           then timeUntilAvailable m ch else acc)
            (channels (s_region (m_ctx m))) UINT32_MAX.

(* ldl_mac.c:2619-2631 first loop of selectChannel: the local mask, the number
   of available channels, and [except] (255 when none) *)
Definition sel_scan (m : mac) (limit : Z) : bytes * Z * Z :=
  fold_left (fun acc ch =>
    match acc with
    | (mask, available, except) =>
        if isAvailable m ch limit
        then (fst (maskChannel mask (s_region (m_ctx m)) ch), available + 1,
              if ch =? tx_chIndex (m_tx m) then ch else except)
        else acc
    end) (channels (s_region (m_ctx m)))
    (fill 0 (length (s_chMask (m_ctx m))), 0, 255).

(* ldl_mac.c:2649-2671 second loop of selectChannel *)
Fixpoint sel_pick (s : session) (mask : bytes) (except selection desired : Z)
    (chs : list Z) (j : Z) (tx : mac_tx) : mac_tx * bool :=
  match chs with
  | [] => (tx, false)
  | ch :: r =>
      if channelIsMasked mask (s_region s) ch && negb (except =? ch) then
        if selection =? j then
          match getChannel s ch with
          | Some (freq, lo, hi) =>
              (set_tx_rate (requiredRate desired lo hi)
                 (set_tx_chIndex ch (set_tx_freq freq tx)), true)
          | None => sel_pick s mask except selection desired r (u8 (j + 1)) tx
          end
        else sel_pick s mask except selection desired r (u8 (j + 1)) tx
      else sel_pick s mask except selection desired r j tx
  end.

(* ldl_mac.c:2603-2675 selectChannel; [rnd] is the random number drawn *)
Definition selectChannel (m : mac) (desired limit rnd : Z) (tx : mac_tx) : mac_tx * bool :=
  match sel_scan m limit with
  | (mask, available, except) =>
      if available >? 0 then
        let '(available', except') :=
          if negb (except =? 255) then
            if available =? 1 then (available, 255) else (available - 1, except)
          else (available, except) in
        sel_pick (m_ctx m) mask except' (u8 (rnd mod available')) desired
                 (channels (s_region (m_ctx m))) 0 tx
      else (tx, false)
  end.

(* ldl_mac.c:2930-2953 getOTAAOffTime *)
Definition getOTAAOffTime (m : mac) : Z :=
  if m_day m >? timeTPS * 23 * 60 * 60 then 100
  else if m_day m >? timeTPS * 13 * 60 * 60 then 1000
  else 10000.

(* ldl_mac.c:2509-2516 and 2530-2537: saturating addition *)
Definition sat_add (x y : Z) : Z := if u32 (x + y) <? x then UINT32_MAX else u32 (x + y).

(* ldl_mac.c:2498-2539 registerTime(self, &self->tx) *)
Definition registerTime (m : mac) : mac :=
  let tx := m_tx m in
  let m1 :=
    match getBand (s_region (m_ctx m)) (tx_freq tx) with
    | Some b =>
        let off := u32 (tx_airTime tx * getOffTimeFactor (s_region (m_ctx m)) b) in
        band_set (Z.to_nat b) (sat_add (band_get m b) off) m
    | None => m
    end in
  match m_op m with
  | OP_JOINING =>
      band_set BAND_GLOBAL
        (sat_add (band_global m1) (u32 (tx_airTime tx * getOTAAOffTime m1))) m1
  | _ =>
      if s_maxDutyCycle (m_ctx m) >? 0 then
        band_set BAND_GLOBAL
          (sat_add (band_global m1)
             (u32 (tx_airTime tx * 2 ^ Z.land (s_maxDutyCycle (m_ctx m)) 15))) m1
      else m1
  end.

(* ldl_mac.c:2960-2978 updateDownCounter: (new value, expired) *)
Definition updateDownCounter (counter time : Z) : Z * bool :=
  if counter >? 0 then
    if counter <=? time then (0, true) else (counter - time, false)
  else (counter, false).

(* ldl_mac.c:2989-3001: time units elapsed and new remainder *)
Definition elapsed (m : mac) (now : Z) : Z * Z :=
  let since := timerDelta (mt_ticks (m_time m)) now in
  let fraction := u32 (u32 ((since mod m_tps m) * timeTPS) + mt_remainder (m_time m)) in
  (u32 (u32 ((since / m_tps m) * timeTPS) + fraction / m_tps m), fraction mod m_tps m).

(* ldl_mac.c:2980-3026 processBands *)
Definition processBands (e : env) (m : mac) : mac * bool :=
  if mt_parked (m_time m) then (m, false)
  else
    let '(time, rem) := elapsed m (e_now e) in
    let m1 := set_m_time (mkTime (e_now e) rem (mt_parked (m_time m))) m in
    let m2 := set_m_day (fst (updateDownCounter (m_day m) time)) m1 in
    let ready := existsb (fun b => snd (updateDownCounter b time)) (m_band m) in
    let m3 := set_m_band (map (fun b => fst (updateDownCounter b time)) (m_band m)) m2 in
    if ready && (band_global m3 =? 0)
    then (notify EV_CHANNEL_READY m3, true)
    else (m3, false).

(* ldl_mac.c:3034-3055: the next interesting time *)
Definition nextBandTime (m : mac) : Z :=
  let t := fold_left (fun acc b => if (b >? 0) && (b <? acc) then b else acc)
                     (m_band m) UINT32_MAX in
  let t := if t <=? band_global m then band_global m else t in
  if (t =? UINT32_MAX) && (m_day m >? 0) then m_day m else t.

(* ldl_mac.c:3062-3069: conversion to ticks *)
Definition bandTicks (tps time : Z) : Z :=
  if time <? u32 (INT32_MAX / tps * timeTPS) then
    u32 ((time / timeTPS + (if time mod timeTPS >? 0 then 1 else 0)) * tps)
  else u32 (INT32_MAX / tps * INT32_MAX).

(* ldl_mac.c:3028-3079 setNextBandEvent *)
Definition setNextBandEvent (e : env) (m : mac) : mac :=
  let t := nextBandTime m in
  if t <? UINT32_MAX then
    timerSet e TBAND (bandTicks (m_tps m) t)
      (set_m_time (mkTime (mt_ticks (m_time m)) (mt_remainder (m_time m)) false) m)
  else
    timerClear TBAND
      (set_m_time (mkTime (mt_ticks (m_time m)) (mt_remainder (m_time m)) true) m).

(* --- session ------------------------------------------------------------------ *)

(* ldl_mac.c:3202-3211 pushSessionUpdate *)
Definition pushSessionUpdate (m : mac) : mac := notify (EV_SESSION_UPDATED (m_ctx m)) m.

Definition NUM_CHCONFIG : nat := 16.   (* ldl_mac.h:372 chConfig[16] *)
Definition SIZE_CHMASK : nat := 9.     (* ldl_mac.h:373 chMask[72/8] *)

(* memset(&ctx, 0): the region with enum value 0 is EU_863_870 *)
Definition session_zero : session :=
  mkSession 0 false false 0 EU_863_870 0 0 0 0 0
    (repeat (0, 0) NUM_CHCONFIG) (fill 0 SIZE_CHMASK)
    0 0 0 0 0 0 0 0 0 0
    (mkRxParamAns false false false) (mkDlChAns false false)
    (mkAdrAns false false false) (mkDevStatus 0 0) (mkNewChAns false false) false
    0 0 0 0.

(* ldl_mac.c:2744-2780 forgetNetwork *)
Definition forgotten (old : session) (maxDC : Z) (txps : bool) : session :=
  let r := s_region old in
  let s := session_zero in
  let s := set_s_adr (s_adr old) (set_s_power (s_power old)
             (set_s_rate (s_rate old) (set_s_region r s))) in
  let s := set_s_rx2Freq (getRX2Freq r) (set_s_rx2DataRate (getRX2Rate r)
             (set_s_rx1Delay (getRX1Delay r) (set_s_rx1DROffset (getRX1Offset r)
             (set_s_magic sessionMagicNumber s)))) in
  let s := set_s_adr_ack_delay ADRAckDelay (set_s_adr_ack_limit ADRAckLimit s) in
  let s := set_s_tx_param (if txps then 255 else 0) s in
  let s := set_s_maxDutyCycle maxDC s in
  chan_steps s (getDefaultChannels r).
Definition forgetNetwork (c : cfg) (m : mac) : mac :=
  set_m_ctx (forgotten (m_ctx m) (m_maxDutyCycle m) (c_txps c))
    (set_m_pendingACK false (set_m_fPending false m)).

(* ldl_mac.c:2734-2742 initSession: forgetNetwork runs before the region is
   stored *)
Definition initSession (c : cfg) (r : region) (m : mac) : mac :=
  let m := forgetNetwork c m in
  on_ctx (fun s => set_s_adr true (set_s_power 0 (set_s_rate (MIN_RATE (c_noSF12 c))
                     (set_s_region r s)))) m.

(* --- pending answers ------------------------------------------------------------ *)

(* ldl_mac_commands.h:34-50: enum value of a command, its bit number in
   pending_cmds *)
Definition cmd_bit (t : cmd_type) : Z :=
  match t with
  | CMD_LINK_CHECK => 0 | CMD_LINK_ADR => 1 | CMD_DUTY_CYCLE => 2
  | CMD_RX_PARAM_SETUP => 3 | CMD_DEV_STATUS => 4 | CMD_NEW_CHANNEL => 5
  | CMD_RX_TIMING_SETUP => 6 | CMD_TX_PARAM_SETUP => 7 | CMD_DL_CHANNEL => 8
  | CMD_REKEY => 9 | CMD_ADR_PARAM_SETUP => 10 | CMD_DEVICE_TIME => 11
  | CMD_FORCE_REJOIN => 12 | CMD_REJOIN_PARAM_SETUP => 13
  end.

(* ldl_mac.c:3274-3277 commandIsPending *)
Definition commandIsPending (s : session) (t : cmd_type) : bool :=
  Z.land (s_pending s) (2 ^ cmd_bit t) >? 0.

(* ldl_mac.c:3279-3282 clearPendingCommand *)
Definition clearPendingCommand (t : cmd_type) (s : session) : session :=
  set_s_pending (Z.ldiff (s_pending s) (2 ^ cmd_bit t)) s.

(* ldl_mac.c:3284-3287 setPendingCommand *)
Definition setPendingCommand (t : cmd_type) (s : session) : session :=
  set_s_pending (Z.lor (s_pending s) (2 ^ cmd_bit t)) s.
