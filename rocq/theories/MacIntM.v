(* /repo/src/ldl_mac.c: LDL_MAC_process with interrupts.  LDL_MAC_radioEvent may
   be called by an interrupt while LDL_MAC_process runs; it changes only
   self->inputs (ldl_mac.c:3304-3315), which LDL_MAC_process reads and writes
   only in inputCheck, inputArm and inputDisarm, each a critical section.  The
   places at which an interrupt can arrive are numbered; two places with none
   of the three between them have the same number, or are shown to give the
   same result. *)
From Verif Require Import Words StreamM FrameM CommandsM RegionM RadioM SmM MacStateM MacUtilM OpsM MacCmdM MacProcM MacApiM.

(* interrupts at each place; the argument is the time given to radioEvent *)
Definition interrupts := nat -> option Z.

Definition sig (w : interrupts) (n : nat) (m : mac) : mac :=
  match w n with Some t => inputSignal t m | None => m end.

(* ldl_mac.c:469-490, as next_event *)
Definition next_event_i (e : env) (w : interrupts) (m : mac) (channel_ready : bool) : mac * sme * Z :=
  match inputCheck e m with
  | (m, Some lag) => (sig w 2 m, SME_INTERRUPT, lag)
  | (m, None) =>
      match timerCheck e WAITA (sig w 2 m) with
      | (m, Some lag) => (m, SME_TIMER_A, lag)
      | (m, None) =>
          match timerCheck e WAITB (sig w 3 m) with
          | (m, Some lag) => (m, SME_TIMER_B, lag)
          | (m, None) => (m, if channel_ready then SME_BAND else SME_NONE, 0)
          end
      end
  end.

(* ldl_mac.c:1144-1213, as processStartRadioForTX on timer A *)
Definition start_tx_i (c : cfg) (e : env) (w : interrupts) (m : mac) : mac :=
  let r := s_region (m_ctx m) in
  let sf := rate_sf r (tx_rate (m_tx m)) in
  let b := rate_bw r (tx_rate (m_tx m)) in
  let ms := getAirTime b sf (m_bufferLen m) true in
  let m := sig w 6 (inputArm (sig w 5 (on_tx (set_tx_airTime (msToTime ms)) m))) in
  let m := emit (OTransmit (tx_freq (m_tx m)) b sf (tx_eirp c (m_ctx m) (tx_power (m_tx m)))
                   (slice (m_buffer m) 0 (Z.to_nat (m_bufferLen m)))) m in
  timerSet e WAITA (u32 (Z.shiftl (msToTicks m ms) 1)) (set_m_state ST_TX m).

(* ldl_mac.c:1346-1385, as processStartRadioForRX1 on timer A *)
Definition start_rx1_i (e : env) (w : interrupts) (m : mac) : mac :=
  let r := s_region (m_ctx m) in
  let rate := getRX1DataRate r (tx_rate (m_tx m)) (s_rx1DROffset (m_ctx m)) in
  let freq := getRX1Freq r (tx_freq (m_tx m)) (tx_chIndex (m_tx m)) in
  let m := sig w 6 (inputArm (sig w 5 (set_m_state ST_RX1 m))) in
  let m := emit (OReceive freq (rate_bw r rate) (rate_sf r rate) (m_rx1_symbols m)
                   (u8 (rate_mtu r rate + Frame_phyOverhead))) m in
  timerSet e WAITA (u32 (Z.shiftl (u32 (m_tps m + m_a m)) 2)) m.

(* ldl_mac.c:1387-1419, as processStartRadioForRX2 on timer B *)
Definition start_rx2_i (e : env) (w : interrupts) (m : mac) : mac :=
  let r := s_region (m_ctx m) in
  let rate := s_rx2DataRate (m_ctx m) in
  let m := sig w 6 (inputArm (sig w 5 (set_m_state ST_RX2 m))) in
  let m := emit (OReceive (s_rx2Freq (m_ctx m)) (rate_bw r rate) (rate_sf r rate)
                   (m_rx2_symbols m) (u8 (rate_mtu r rate + Frame_phyOverhead))) m in
  timerSet e WAITA (u32 (u32 (m_tps m + m_a m) * 4)) m.

(* ldl_mac.c:1663-1699, as handleRadioError *)
Definition error_i (c : cfg) (e : env) (w : interrupts) (m : mac) : mac :=
  let m := sig w 6 (timerClear WAITB (timerClear WAITA (inputDisarm (sig w 5 m)))) in
  let m := match m_op m with
           | OP_JOINING => downlinkMissing c e m
           | _ => notify EV_OP_ERROR (set_m_op OP_NONE m)
           end in
  timerSet e WAITA (m_tps m / 1024) (emit (OMode MODE_RESET) (set_m_state ST_RADIO_RESET m)).

(* ldl_mac.c:494-568, as dispatch *)
Definition dispatch_i (c : cfg) (e : env) (ev : sme) (lag : Z) (w : interrupts) (m : mac) : mac :=
  let m := sig w 4 m in
  match m_state m, ev with
  | ST_START_RADIO_FOR_TX, SME_TIMER_A => start_tx_i c e w m
  | ST_START_RADIO_FOR_RX1, SME_TIMER_A => start_rx1_i e w m
  | ST_START_RADIO_FOR_RX2, SME_TIMER_B => start_rx2_i e w m
  | ST_TX, SME_TIMER_A => error_i c e w (registerTime m)
  | ST_TX, SME_INTERRUPT =>
      if e_st_tx e then tx_done c e lag (registerTime m) else error_i c e w (registerTime m)
  | ST_RX1, SME_TIMER_A | ST_RX2, SME_TIMER_A => error_i c e w m
  | ST_RX1, SME_INTERRUPT | ST_RX2, SME_INTERRUPT =>
      if e_st_rx e then rx_packet c e m
      else if e_st_timeout e then rx_timeout e m
      else error_i c e w m
  | _, _ => dispatch c e ev lag m
  end.

(* ldl_mac.c:461-572, as MAC_process *)
Definition process_i (c : cfg) (e : env) (w : interrupts) (m : mac) : mac :=
  let '(m, ready) := processBands e (sig w 0 m) in
  let '(m, ev, lag) := next_event_i e w (sig w 1 m) ready in
  let m := match ev with SME_NONE => m | _ => dispatch_i c e ev lag w m end in
  sig w 8 (setNextBandEvent e (sig w 7 m)).

(* Of the other functions only LDL_MAC_cancel touches self->inputs, once
   (ldl_mac.c:421): an interrupt comes before it or after it. *)
Definition step_i (c : cfg) (e : env) (k : call) (w : interrupts) (m : mac) : mac :=
  match k with
  | C_process => process_i c e w m
  | _ => sig w 1 (fst (step c e k (sig w 0 m)))
  end.

(* calls with the interrupts that arrive while they run *)
Fixpoint run_i (c : cfg) (h : list (env * call * interrupts)) (m : mac) : mac :=
  match h with
  | [] => m
  | (e, k, w) :: h => run_i c h (step_i c e k w m)
  end.
