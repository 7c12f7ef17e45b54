(* Final statements: when the device asks to be called for its sub-bands (C71). *)
From Verif Require Import Words StreamM Lib FrameM RegionM SmM MacStateM MacUtilM MacProcM MacApiM Scenario SpecHist SpecWake.
From Verif Require WakeP.

(* After every call of LDL_MAC_process the timer of the sub-bands runs out less
   than a second after a channel may become available, and not before, unless
   that is further away than the timer can be set to. *)
Theorem C71_wakes : forall c r a e0 h e t, 128 <= ia_tps a < 2 ^ 31 ->
  let m := fst (step c e C_process (run c h (MAC_init c r a e0))) in
  Forall (fun b => b < UINT32_MAX) (m_band m) -> next_free m t ->
  exists n, get_timer m TBAND = mkTimer (u32 (e_now e + n)) true /\ 0 <= n < 2 ^ 31 /\ 256 * n < (t + 256) * ia_tps a /\
    (t < 256 * reach (ia_tps a) -> t * ia_tps a <= 256 * n).
Proof. exact WakeP.wake_always. Qed.
Print Assumptions C71_wakes.

(* With nothing to wait for the timer is off. *)
Theorem C71_sleeps : forall c r a e0 h e, 0 < ia_tps a ->
  let m := fst (step c e C_process (run c h (MAC_init c r a e0))) in
  (forall b, In b (m_band m) -> b = 0) -> m_day m = 0 -> tm_armed (get_timer m TBAND) = false.
Proof. exact WakeP.no_wake. Qed.
Print Assumptions C71_sleeps.

(* a data frame whose transmission ends at 400100: its sub-band rests for
   1300/256 s, and the timer runs out after 6 s *)
Definition w_cfg : cfg := toy_cfg L2_1_0_4.
Definition w_start : mac := MAC_init w_cfg EU_863_870 (arg0 None) (at_t 0).
Definition h_sent : history :=
  h_toy_join ++ [P 400000; (at_t 400000, C_data false 1 (Some [1;2;3]) (Some (mkOpts 2 false false))); P 400000; P 400025; P 400050; P 400075; (tx_at 400100, C_radioEvent 400100)].
Definition m_sent : mac := fst (step w_cfg (tx_at 400100) C_process (run w_cfg h_sent w_start)).
Example C71_ex : ia_tps (arg0 None) = 1000 /\ m_band m_sent = [0; 1300; 0; 0; 0; 0] /\ get_timer m_sent TBAND = mkTimer 406100 true.
Proof. vm_compute. auto. Qed.
Example C71_ex_free : next_free m_sent 1300.
Proof.
  assert (m_band m_sent = [0; 1300; 0; 0; 0; 0]) as E by (vm_compute; reflexivity). unfold next_free, band_global. rewrite E. right. left.
  split; [reflexivity|]. split; [cbn; auto|]. split; [lia|]. intros b I. cbn in I. intuition lia.
Qed.
(* before anything was sent *)
Definition m_idle : mac := fst (step w_cfg (at_t 60000) C_process (run w_cfg h_boot w_start)).
Example C71_ex_idle : m_band m_idle = repeat 0 6 /\ m_day m_idle = 0 /\ tm_armed (get_timer m_idle TBAND) = false.
Proof. vm_compute. auto. Qed.
