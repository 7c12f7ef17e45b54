(* C01, C02, C03, C33: counters and nonces over histories and power cycles. *)
From Verif Require Import Lib FrameM CommandsM RegionM RadioM MacStateM MacUtilM MacProcM MacApiM Scenario SpecHist.
From Verif Require HistP ReadyP JoinP DataP.
From Coq Require Import Sorting.Sorted.

Definition cfg4 : cfg := toy_cfg L2_1_0_4.
Definition start4 : mac := MAC_init cfg4 EU_863_870 (arg0 None) (at_t 0).
Lemma cfg4_in_place : in_place cfg4. Proof. split; [reflexivity|auto]. Qed.
Lemma arg0_ok so : arg_ok (arg0 so).
Proof. unfold arg_ok, eui_ok, bytes_ok. repeat split; try (cbn; lia); repeat constructor; lia. Qed.

Lemma calls_kept h : forallb (fun x => match snd x with C_forget => false | _ => true end) h = true -> Forall (fun x : env * call => not_forget (snd x)) h.
Proof.
  intros H. apply Forall_forall. intros [e k] I E. apply (proj1 (forallb_forall _ _) H) in I. cbn [snd] in *. subst k. discriminate I.
Qed.

(* after the join: a message sent twice, then another *)
Definition h_send (t : Z) : history :=
  [P t; (at_t t, C_data false 1 (Some [1;2;3]) (Some (mkOpts 2 false false))); P t; P (t + 25); P (t + 50); P (t + 75)].
Definition h_no_answer (t : Z) : history :=
  h_rx1 t 1 ++ [(timeout_at (t + 1100), C_radioEvent (t + 1100)); (timeout_at (t + 1100), C_process);
                P (t + 2000); P (t + 2000); P (t + 2010);
                (timeout_at (t + 2100), C_radioEvent (t + 2100)); (timeout_at (t + 2100), C_process)].
Definition h_msgs : history :=
  h_toy_join ++ h_send 10000 ++ h_no_answer 10100 ++ [P 20000; P 80000; P 81000; P 81020; P 81100] ++ h_send 4000000.

(* --- C01 ------------------------------------------------------------------------- *)

(* a session: from a point m0 at which no message is in progress, until the
   application forgets the network.  [sends] numbers each data frame handed to
   the radio; a later one has a larger number or is the same frame, and FCnt
   is the low half of the number.  The counter must not pass its last value *)
Theorem C01_counters_increase_partial : forall c r a e h0 h,
  let m0 := run c h0 (MAC_init c r a e) in
  let u0 := s_up (m_ctx m0) in
  let l := outs (items c h m0) in
  in_place c -> arg_ok a -> session_ok (ia_session a) -> CaseP.is_data (m_op m0) = false ->
  Forall (fun x => not_forget (snd x)) h -> not_last u0 l ->
  StronglySorted newer (sends u0 l) /\
  Forall (fun x => u0 < fst x /\ fcnt_of (snd x) = (fst x - 1) mod 65536) (sends u0 l).
Proof. exact DataP.session_counters. Qed.
Print Assumptions C01_counters_increase_partial.

(* one number is taken by each accepted request, and by nothing else *)
Theorem C01_one_counter_per_request : forall c r a e h0 h,
  let m0 := run c h0 (MAC_init c r a e) in
  in_place c -> arg_ok a -> session_ok (ia_session a) -> CaseP.is_data (m_op m0) = false ->
  Forall (fun x => not_forget (snd x)) h ->
  s_up (m_ctx (run c h m0)) = (s_up (m_ctx m0) + accepted (items c h m0)) mod 4294967296.
Proof. exact DataP.session_accepted. Qed.
Print Assumptions C01_one_counter_per_request.

Example C01_example :
  sends 0 (outs (items cfg4 h_msgs start4)) =
    [(1, [64; 218; 27; 1; 38; 128; 0; 0; 1; 1; 2; 3; 1; 2; 3; 4]);
     (1, [64; 218; 27; 1; 38; 128; 0; 0; 1; 1; 2; 3; 1; 2; 3; 4]);
     (2, [64; 218; 27; 1; 38; 128; 1; 0; 1; 1; 2; 3; 1; 2; 3; 4])] /\
  accepted (items cfg4 h_msgs start4) = 2.
Proof. vm_compute. repeat split. Qed.

(* the restriction is needed: the last counter is followed by 0 in the same
   session *)
Definition worn : session := set_s_up 4294967295 (m_ctx toy_joined).
Definition start_worn : mac := MAC_init cfg4 EU_863_870 (arg0 (Some worn)) (at_t 0).
Definition h_worn : history :=
  h_boot ++ h_send 10000 ++ h_no_answer 10100 ++ [P 20000; P 80000; P 81000; P 81020; P 81100] ++ h_send 4000000.
Theorem C01_counter_wraps_refuted :
  exists c r a e h, let m0 := MAC_init c r a e in
  s_up (m_ctx m0) = 4294967295 /\ s_joined (m_ctx m0) = true /\ Forall (fun x => not_forget (snd x)) h /\
  accepted (items c h m0) = 2 /\ s_up (m_ctx (run c h m0)) = 1 /\
  map (fun x => fcnt_of (snd x)) (sends 0 (outs (items c h m0))) = [65535; 65535; 0].
Proof.
  exists cfg4, EU_863_870, (arg0 (Some worn)), (at_t 0), h_worn. cbv zeta. fold start_worn.
  split; [vm_compute; reflexivity|]. split; [vm_compute; reflexivity|].
  split; [apply calls_kept; reflexivity|]. vm_compute. repeat split.
Qed.
Print Assumptions C01_counter_wraps_refuted.

(* --- C02 ------------------------------------------------------------------------- *)

(* power cycles, each cut off after any output and followed by a start from
   the last session handed over: over all of them together frames are numbered
   as in C01, by the counter a restart at that moment would use; so that
   counter is always beyond the one in the frame *)
Theorem C02_crash_safe : forall c r so l,
  in_place c -> session_ok so -> session_lives c r so l -> not_last (restart_up r so) l ->
  StronglySorted newer (sends (restart_up r so) l) /\
  Forall (fun x => restart_up r so < fst x /\ fcnt_of (snd x) = (fst x - 1) mod 65536) (sends (restart_up r so) l).
Proof. exact DataP.crash_safe. Qed.
Print Assumptions C02_crash_safe.

(* the session handed over is one LDL_MAC_init resumes *)
Theorem C02_saved_session_resumes : forall c r a e h s,
  in_place c -> arg_ok a -> session_ok (ia_session a) -> Forall (fun x => not_forget (snd x)) h ->
  last_session None (m_log (run c h (MAC_init c r a e))) = Some s ->
  forall a' e', ia_session a' = Some s -> m_ctx (MAC_init c r a' e') = s.
Proof. exact DataP.saved_resumes. Qed.
Print Assumptions C02_saved_session_resumes.

(* cut off as soon as the frame is with the radio; the next start goes on with
   the next counter *)
Definition life1 : list out := m_log (run cfg4 (h_toy_join ++ h_send 10000) start4).
Definition start2 : mac := MAC_init cfg4 EU_863_870 (arg0 (last_session None life1)) (at_t 0).
Definition life2 : list out := m_log (run cfg4 (h_boot ++ h_send 4000000) start2).
Example C02_example_lives : session_lives cfg4 EU_863_870 None (life1 ++ life2).
Proof.
  apply (DataP.session_two cfg4 EU_863_870 (arg0 None) (at_t 0) (h_toy_join ++ h_send 10000) (arg0 (last_session None life1)) (at_t 0) (h_boot ++ h_send 4000000));
    [apply arg0_ok|apply arg0_ok|reflexivity|apply calls_kept; reflexivity|apply calls_kept; reflexivity].
Qed.
Example C02_example :
  map (fun x => (fst x, fcnt_of (snd x))) (sends 0 (life1 ++ life2)) = [(1, 0); (2, 1)].
Proof. vm_compute. reflexivity. Qed.

(* --- C03 ------------------------------------------------------------------------- *)

(* power cycles as above, devNonce kept from the last value announced *)
Theorem C03_nonces_increase : forall c d l, in_place c -> c_l2 c <> L2_1_0_3 -> lives c d l ->
  StronglySorted Z.lt (join_nonces l) /\ Forall (fun n => d <= n) (join_nonces l).
Proof. exact JoinP.lives_increase. Qed.
Print Assumptions C03_nonces_increase.

(* a value above the nonce has been announced before the request is sent *)
Theorem C03_announced_first : forall c r a e h pre f bw sf p fr post,
  in_place c -> c_l2 c <> L2_1_0_3 -> arg_ok a ->
  m_log (run c h (MAC_init c r a e)) = pre ++ OTransmit f bw sf p fr :: post -> is_join_frame fr = true ->
  ia_devNonce a <= nonce_of fr < announced (ia_devNonce a) pre.
Proof. exact JoinP.join_foretold. Qed.
Print Assumptions C03_announced_first.

Theorem C03_exhausted : forall c r a e h e',
  in_place c -> c_l2 c <> L2_1_0_3 -> arg_ok a ->
  let m := run c h (MAC_init c r a e) in
  65535 < announced (ia_devNonce a) (m_log m) ->
  refuses (snd (step c e' C_otaa m)) = true /\ fst (step c e' C_otaa m) = m.
Proof. exact JoinP.join_refused. Qed.
Print Assumptions C03_exhausted.

(* nobody answers the first request; a second follows, then a restart *)
Definition h_rejoin : history :=
  h_boot ++ h_join_tx 30 ++ h_rx1 3000 5 ++
  [(timeout_at 8100, C_radioEvent 8100); (timeout_at 8100, C_process); P 9000; P 9000; P 9010;
   (timeout_at 9100, C_radioEvent 9100); (timeout_at 9100, C_process); P 100000; P 400000; P 400010; P 4000000; P 4000010].
Definition arg_d (d : Z) : init_arg := mkInitArg 1000 0 0 0 30 d 0 eui_a eui_b None.
Definition jlife1 : list out := m_log (run cfg4 h_rejoin start4).
Definition jlife2 : list out := m_log (run cfg4 (h_boot ++ h_join_tx 30) (MAC_init cfg4 EU_863_870 (arg_d (announced 0 jlife1)) (at_t 0))).
Lemma arg_d_ok d : 0 <= d < 4294967296 -> arg_ok (arg_d d).
Proof. intros. unfold arg_ok, eui_ok, bytes_ok. repeat split; try (cbn; lia); repeat constructor; lia. Qed.
Example C03_example_lives : lives cfg4 0 (jlife1 ++ jlife2).
Proof.
  apply (DataP.join_two cfg4 EU_863_870 (arg0 None) (at_t 0) h_rejoin (arg_d (announced 0 jlife1)) (at_t 0) (h_boot ++ h_join_tx 30));
    [apply arg0_ok|apply arg_d_ok; vm_compute; split; congruence|reflexivity].
Qed.
Example C03_example : join_nonces (jlife1 ++ jlife2) = [0; 1; 2] /\ announced 0 jlife1 = 2.
Proof. vm_compute. auto. Qed.
Example C03_exhausted_example :
  snd (step cfg4 (at_t 30) C_otaa (run cfg4 h_boot (MAC_init cfg4 EU_863_870 (arg_d 65536) (at_t 0)))) = RStatus STATUS_DEVNONCE.
Proof. vm_compute. reflexivity. Qed.

(* --- C33 ------------------------------------------------------------------------- *)

Theorem C33_restore : forall c r a e,
  m_ctx (MAC_init c r a e) =
    match ia_session a with
    | Some s => if (s_magic s =? 0xdb) && region_eqb (s_region s) r then s else DataP.fresh c r
    | None => DataP.fresh c r
    end.
Proof. exact DataP.init_ctx. Qed.
Print Assumptions C33_restore.

(* what a fresh session is; its channels and receive window are the subject
   of C34 *)
Theorem C33_fresh : forall c r, let s := DataP.fresh c r in
  s_up s = 0 /\ s_appDown s = 0 /\ s_nwkDown s = 0 /\ s_joined s = false /\ s_devAddr s = 0 /\ s_region s = r /\
  s_magic s = 0xdb /\ s_adr s = true /\ s_power s = 0 /\ s_pending s = 0 /\ s_rate s = MIN_RATE (c_noSF12 c).
Proof. exact DataP.fresh_values. Qed.
Print Assumptions C33_fresh.
