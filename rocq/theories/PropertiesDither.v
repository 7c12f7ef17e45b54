(* C89: the random wait before a join request. *)
From Verif Require Import Words Lib FrameM CommandsM RegionM RadioM SmM MacStateM MacUtilM MacProcM MacApiM Scenario SpecHist SpecValid SpecSend SpecEnds CaseP TxP StuckP SpecRetry SpecDither PropertiesMac.
From Verif Require RetryP DitherP.

(* --- C89 ------------------------------------------------------------------------- *)

(* While a join waits for its off-time, LDL_MAC_process draws a random number
   once the off-time is over, and sets the one timer that can cause the join
   request to be sent `dither` ahead: the number modulo tps * otaaDither (mod
   2^32), cut to 31 bits.  Otherwise the join goes on waiting. *)
Theorem C89_wait : forall c r a e0 h e n, 0 < ia_tps a ->
  let m := run c h (MAC_init c r a e0) in let m' := MAC_process c e m in
  m_state m = ST_WAIT_OTAA -> e_now e = u32 n ->
  (m_state m' = ST_WAIT_TX <-> draws e m) /\ (~ draws e m -> m_state m' = ST_WAIT_OTAA) /\
  (draws e m -> m_op m' = OP_JOINING /\ waits (n + dither (ia_tps a) (ia_otaaDither a) (e_rand e RND_OTAA)) m').
Proof. exact DitherP.join_waits. Qed.
Print Assumptions C89_wait.
(* 1000 ticks per second, up to 30 seconds; the number drawn is 70123 *)
Definition drawn (t : Z) : env := at_rnd t 70123.
Example C89_wait_ex : let m := run cfg4 (h_boot ++ [(at_t 100, C_otaa)]) start4 in let m' := MAC_process cfg4 (drawn 100) m in
  m_state m = ST_WAIT_OTAA /\ draws (drawn 100) m /\ m_state m' = ST_WAIT_TX /\ dither 1000 30 70123 = 10123 /\
  get_timer m' WAITA = mkTimer 10223 true.
Proof. vm_compute. repeat split; discriminate. Qed.

(* No join request gets to be sent without that draw: whenever a join becomes
   due for transmission, also when it is tried again or the radio failed, it is
   because a number was drawn in that very call. *)
Theorem C89_always : forall c r a e0 h e k, 0 < ia_tps a ->
  let m := run c h (MAC_init c r a e0) in let m' := fst (step c e k m) in
  m_op m' = OP_JOINING -> m_state m' = ST_WAIT_TX -> m_state m = ST_WAIT_TX \/ (k = C_process /\ draws e m).
Proof. exact DitherP.only_after_wait. Qed.
Print Assumptions C89_always.
Example C89_always_ex : let m := run cfg4 (h_boot ++ [(at_t 100, C_otaa)]) start4 in let m' := fst (step cfg4 (drawn 100) C_process m) in
  m_op m' = OP_JOINING /\ m_state m' = ST_WAIT_TX /\ m_state m <> ST_WAIT_TX.
Proof. vm_compute. repeat split; discriminate. Qed.

(* Before the time drawn nothing is transmitted, whatever is called (other than
   to stop the join); the first call of LDL_MAC_process after it starts the
   transmission. *)
Theorem C89_not_before : forall c r a e0 h e n h', 0 < ia_tps a ->
  let m := run c h (MAC_init c r a e0) in let m' := MAC_process c e m in
  let w := dither (ia_tps a) (ia_otaaDither a) (e_rand e RND_OTAA) in
  e_now e = u32 n -> draws e m -> during n (n + w) h' ->
  0 <= w < 2 ^ 31 /\ m_state (run c h' m') = ST_WAIT_TX /\ forallb no_tx (new_out m' (run c h' m')) = true /\
  forall e2 n2, e_now e2 = u32 n2 -> 0 <= n2 - (n + w) < 2 ^ 31 - 1 ->
    m_state (MAC_process c e2 (run c h' m')) = ST_START_RADIO_FOR_TX.
Proof. exact DitherP.join_not_before. Qed.
Print Assumptions C89_not_before.
Example C89_not_before_ex : let m := run cfg4 (h_boot ++ [(at_t 100, C_otaa)]) start4 in let m' := MAC_process cfg4 (drawn 100) m in
  m_state (run cfg4 [P 200; P 10222] m') = ST_WAIT_TX /\ m_state (run cfg4 [P 200; P 10222; P 10223] m') = ST_START_RADIO_FOR_TX.
Proof. vm_compute. auto. Qed.

(* The wait is less than otaaDither seconds, and every number of ticks below
   that is drawn, as long as that time fits 31 bits; with otaaDither 0 there is
   no wait. *)
Theorem C89_range_partial : forall tps d, 0 < tps -> 0 <= d -> tps * d <= 2 ^ 31 ->
  (forall x, 0 <= dither tps d x /\ (dither tps d x < tps * d \/ (d = 0 /\ dither tps d x = 0))) /\
  (forall w, 0 <= w < tps * d -> dither tps d w = w).
Proof. exact DitherP.dither_spread. Qed.
Print Assumptions C89_range_partial.
Example C89_range_ex : 32768 * 30 <= 2 ^ 31 /\ dither 32768 30 4294967295 = 4294967295 mod 983040 /\ dither 32768 0 4294967295 = 0.
Proof. vm_compute. repeat split; discriminate. Qed.

(* ldl_mac.h:626 gives otaaDither in ticks.  The code takes seconds: with
   otaaDither 30 a join request is held back 10123 ticks. *)
Theorem C89_ticks_refuted : exists c r a e0 h e, 0 < ia_tps a /\
  let m := run c h (MAC_init c r a e0) in draws e m /\ ia_otaaDither a = 30 /\
  get_timer (MAC_process c e m) WAITA = mkTimer (u32 (e_now e + 10123)) true.
Proof. exists cfg4, EU_863_870, (arg0 None), (at_t 0), (h_boot ++ [(at_t 100, C_otaa)]), (drawn 100). vm_compute. repeat split; discriminate. Qed.
Print Assumptions C89_ticks_refuted.

(* Four seconds at 32768 ticks per second, given in ticks as documented, make
   the divisor zero: the modulo at ldl_mac.c:1073 is undefined. *)
Definition arg_ticks : init_arg := mkInitArg 32768 0 0 0 131072 0 0 eui_a eui_b None.
Theorem C89_division_refuted : exists c r a e0 h e, 0 < ia_tps a /\ ia_otaaDither a = 4 * ia_tps a /\
  let m := run c h (MAC_init c r a e0) in draws e m /\ 0 < m_otaaDither m /\ dither_divisor (m_tps m) (m_otaaDither m) = 0.
Proof. exists cfg4, EU_863_870, arg_ticks, (at_t 0), (h_boot ++ [P 40000; P 80000; (at_t 90000, C_otaa)]), (at_t 90000). vm_compute. repeat split; discriminate. Qed.
Print Assumptions C89_division_refuted.

(* It is never zero where tps * otaaDither fits 32 bits. *)
Theorem C89_division : forall tps d, 0 < tps -> 0 < d -> tps * d < 2 ^ 32 -> dither_divisor tps d = tps * d /\ dither_divisor tps d <> 0.
Proof. exact DitherP.divisor_ok. Qed.
Print Assumptions C89_division.
Example C89_division_ex : 32768 * 30 < 2 ^ 32 /\ dither_divisor 32768 30 = 983040.
Proof. vm_compute. auto. Qed.
