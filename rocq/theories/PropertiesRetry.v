(* C88: how long the device waits before it transmits a frame again. *)
From Verif Require Import Words Lib FrameM CommandsM RegionM RadioM SmM MacStateM MacUtilM MacProcM MacApiM Scenario SpecHist SpecValid SpecSend SpecEnds CaseP TxP StuckP SpecRetry PropertiesMac PropertiesEnds.
From Verif Require RetryP.

(* --- C88 ------------------------------------------------------------------------- *)

(* When a request that was transmitted `sent` times is to be transmitted again,
   the one timer that can cause it is set `back_off` ahead: nothing for an
   unconfirmed message, tps * 2^sent ticks (mod 2^31) for a confirmed one. *)
Theorem C88_wait : forall c r a e0 h1 e cf port d o h2 e' n, in_place c -> arg_ok a -> valid_start r (ia_session a) -> 0 < ia_tps a ->
  let k := C_data cf port d o in
  Forall (fun x => power_arg (snd x)) (h1 ++ (e, k) :: h2) ->
  let m1 := run c h1 (MAC_init c r a e0) in let m1' := fst (step c e k m1) in
  starts (IReq k (snd (step c e k m1))) = Some KData -> accepted (items c h2 m1') = 0 ->
  let m := run c h2 m1' in let m' := fst (step c e' C_process m) in
  let sent := data_count (outs (items c h2 m1')) in
  listened (m_state m) = true -> m_state m' = ST_WAIT_TX -> e_now e' = u32 n ->
  1 <= sent < redundancy o (m_ctx m1) /\ redundancy o (m_ctx m1) <= 15 /\ is_data (m_op m) = true /\ m_op m' = m_op m /\
  waits (n + back_off (m_op m) (ia_tps a) sent) m'.
Proof. exact RetryP.retry_waits. Qed.
Print Assumptions C88_wait.
(* a confirmed message, three transmissions asked for *)
Definition h_conf : history := h_toy_join ++ [P 10000; (at_t 10000, C_data true 1 (Some [1;2;3]) (Some (mkOpts 3 false false)))].
Example C88_wait_ex : let m1 := run cfg4 (removelast h_conf) start4 in
  let k := C_data true 1 (Some [1;2;3]) (Some (mkOpts 3 false false)) in let m1' := fst (step cfg4 (at_t 10000) k m1) in
  let h2 := removelast (h_try 10000) in let m := run cfg4 h2 m1' in
  starts (IReq k (snd (step cfg4 (at_t 10000) k m1))) = Some KData /\ accepted (items cfg4 h2 m1') = 0 /\
  listened (m_state m) = true /\ m_op m = OP_DATA_CONFIRMED /\ data_count (outs (items cfg4 h2 m1')) = 1 /\
  m_state (fst (step cfg4 (at_t 16000) C_process m)) = ST_WAIT_TX /\
  get_timer (fst (step cfg4 (at_t 16000) C_process m)) WAITA = mkTimer 18000 true.
Proof. vm_compute. repeat split. Qed.
Example C88_twice_ex : let m := run cfg4 (h_conf ++ h_try 10000 ++ h_try 18000) start4 in
  m_state m = ST_WAIT_TX /\ get_timer m WAITA = mkTimer 28000 true /\
  m_op (run cfg4 (h_conf ++ h_try 10000 ++ h_try 18000 ++ h_try 28000) start4) = OP_NONE.
Proof. vm_compute. auto. Qed.

(* Before that time nothing is transmitted, whatever is called (other than to
   stop the operation) and however often; the first call of LDL_MAC_process
   after it starts the transmission. *)
Theorem C88_not_before : forall c t0 w h m, waits (t0 + w) m -> 0 <= w < 2 ^ 31 -> during t0 (t0 + w) h ->
  m_state (run c h m) = ST_WAIT_TX /\ forallb no_tx (new_out m (run c h m)) = true /\
  forall e n, e_now e = u32 n -> 0 <= n - (t0 + w) < 2 ^ 31 - 1 ->
    m_state (MAC_process c e (run c h m)) = ST_START_RADIO_FOR_TX /\ In (OMode MODE_TX) (new_out (run c h m) (MAC_process c e (run c h m))).
Proof. exact RetryP.retry_not_before. Qed.
Print Assumptions C88_not_before.
Theorem C88_range : forall op tps n, 0 <= back_off op tps n < 2 ^ 31.
Proof. exact RetryP.back_off_range. Qed.
Print Assumptions C88_range.
Example C88_not_before_ex : let m := run cfg4 (h_conf ++ h_try 10000) start4 in
  waits (16000 + 2000) m /\ during 16000 (16000 + 2000) [P 16500; P 17999] /\
  m_state (run cfg4 [P 16500; P 17999] m) = ST_WAIT_TX /\ m_state (run cfg4 [P 16500; P 17999; P 18000] m) = ST_START_RADIO_FOR_TX.
Proof.
  split; [constructor; vm_compute; auto|]. split; [|vm_compute; auto].
  repeat constructor; try discriminate; [exists 16500|exists 17999]; (split; [lia|reflexivity]).
Qed.

(* The wait is 2^sent seconds wherever that fits 31 bits of ticks; up to 131071
   ticks per second it always does. *)
Theorem C88_seconds : forall tps n, 0 < tps -> 0 <= n -> tps * 2 ^ n < 2 ^ 31 -> back_off OP_DATA_CONFIRMED tps n = tps * 2 ^ n.
Proof. exact RetryP.back_off_seconds. Qed.
Print Assumptions C88_seconds.
Theorem C88_doubles : forall tps n, 0 < tps <= 131071 -> 1 <= n <= 14 -> back_off OP_DATA_CONFIRMED tps n = tps * 2 ^ n.
Proof. exact RetryP.back_off_always. Qed.
Print Assumptions C88_doubles.

(* At the 1 MHz of porting.md it does not: the wait after the twelfth
   transmission is 1949 seconds instead of 4096, less than the one before it. *)
Definition arg_mhz : init_arg := mkInitArg 1000000 0 0 0 30 0 0 eui_a eui_b None.
(* the same as h_try, a millisecond taking 1000 ticks *)
Definition ticks (t : Z) : Z := u32 (1000 * t).
Definition mhz (e : env) (k : call) : env * call :=
  (mkEnv (ticks (e_now e)) (e_rand e) (e_battery e) (e_st_tx e) (e_st_rx e) (e_st_timeout e) (e_rx e) (e_rssi e) (e_snr e) (e_entropy e),
   match k with C_radioEvent t => C_radioEvent (ticks t) | _ => k end).
Definition at_mhz (h : history) : history := map (fun x => mhz (fst x) (snd x)) h.
Fixpoint h_tries (j : nat) (n t : Z) : history :=
  match j with O => [] | S j => h_try t ++ h_tries j (n + 1) (t + 6000 + 1000 * 2 ^ n) end.
Theorem C88_wraps_refuted : exists c a h t, let m := run c h (MAC_init c US_902_928 a (at_t 0)) in
  ia_tps a = 1000000 /\ m_op m = OP_DATA_CONFIRMED /\ m_state m = ST_WAIT_TX /\ data_count (m_log m) = 12 /\
  e_now (fst (last h (P 0))) = u32 t /\
  m_state (run c [(at_t (u32 (t + 1949 * ia_tps a)), C_process)] m) = ST_START_RADIO_FOR_TX.
Proof.
  exists cfg4, arg_mhz, (at_mhz (h_boot ++ [(at_t 40, C_abp 5); (at_t 1000, C_data true 1 (Some [1;2;3]) (Some (mkOpts 15 false false)))] ++ h_tries 12 1 1000)), (1000 * (1000 + 12 * 6000 + 1000 * 4094)).
  vm_compute. repeat split.
Qed.
Print Assumptions C88_wraps_refuted.
