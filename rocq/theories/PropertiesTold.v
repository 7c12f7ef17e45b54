(* C82: the application is told about the session. *)
From Verif Require Import Words StreamM Lib FrameM CommandsM RegionM RadioM SmM MacStateM MacUtilM OpsM MacCmdM MacProcM MacApiM Scenario
  SpecHist SpecTold ReadyP PropertiesEffect PropertiesOnce.
From Verif Require ToldP.

(* --- C82 ------------------------------------------------------------------------- *)

(* After every call the session told last is the session in use, but for the
   DevNonce while the device is not joined; and this session is what a restart
   resumes.  The calls that do not tell are left out. *)
Theorem C82_told_partial : forall c r a e h, arg_ok a -> Forall (fun x => told_call (snd x)) h ->
  let m0 := MAC_init c r a e in let m := run c h m0 in
  exists s, last_session (Some (m_ctx m0)) (m_log m) = Some s /\ but_nonce s = but_nonce (m_ctx m) /\ (s_joined (m_ctx m) = true -> s = m_ctx m).
Proof. exact ToldP.told_now. Qed.
Print Assumptions C82_told_partial.
Theorem C82_resumed_partial : forall c r a e h a' e', arg_ok a -> Forall (fun x => told_call (snd x)) h ->
  let m := run c h (MAC_init c r a e) in
  s_joined (m_ctx m) = true -> ia_session a' = last_session (ia_session a) (m_log m) -> m_ctx (MAC_init c r a' e') = m_ctx m.
Proof. exact ToldP.resumed. Qed.
Print Assumptions C82_resumed_partial.

(* joined, an uplink and commands: as many sessions told as there were changes *)
Definition tellings (l : list out) : list session := flat_map (fun o => match o with OEvent (EV_SESSION_UPDATED s) => [s] | _ => [] end) l.
Example C82_example : Forall (fun x => told_call (snd x)) (h_dl [6; 8; 3]) /\
  s_joined (m_ctx (run e_cfg (h_dl [6; 8; 3]) (e_start EU_863_870))) = true /\
  map (fun s => (s_joined s, s_up s, s_rx1Delay s)) (tellings (m_log (run e_cfg (h_dl [6; 8; 3]) (e_start EU_863_870)))) =
    [(true, 0, 1); (true, 1, 1); (true, 1, 3); (true, 2, 3)].
Proof. split; [repeat constructor|]. vm_compute. auto. Qed.

(* LDL_MAC_maskChannel does not tell: after a restart the channel is used again *)
Definition again (so : option session) : init_arg := arg0 so.
Theorem C82_mask_refuted : exists c h ch, let m := run c h (MAC_init c EU_863_870 (arg0 None) (at_t 0)) in
  let m' := fst (step c (at_t 20000) (C_maskChannel ch) m) in
  s_joined (m_ctx m') = true /\ snd (step c (at_t 20000) (C_maskChannel ch) m) = RBool true /\
  channelIsMasked (s_chMask (m_ctx m')) EU_863_870 ch = true /\
  channelIsMasked (s_chMask (m_ctx (MAC_init c EU_863_870 (again (last_session None (m_log m'))) (at_t 0)))) EU_863_870 ch = false.
Proof. exists e_cfg, h_toy_join, 1. vm_compute. auto. Qed.
Print Assumptions C82_mask_refuted.
(* nor does LDL_MAC_addChannel, nor LDL_MAC_abp: after a restart the device is
   not joined *)
Theorem C82_add_refuted : exists c h, let m := run c h (MAC_init c EU_863_870 (arg0 None) (at_t 0)) in
  let k := C_addChannel 3 867100000 0 5 in let m' := fst (step c (at_t 20000) k m) in
  s_joined (m_ctx m') = true /\ snd (step c (at_t 20000) k m) = RBool true /\
  getChannel (m_ctx m') 3 = Some (867100000, 0, 5) /\
  getChannel (m_ctx (MAC_init c EU_863_870 (again (last_session None (m_log m'))) (at_t 0))) 3 = Some (0, 0, 0).
Proof. exists e_cfg, h_toy_join. vm_compute. auto. Qed.
Print Assumptions C82_add_refuted.
Theorem C82_abp_refuted : exists c h, let m := run c h (MAC_init c EU_863_870 (arg0 None) (at_t 0)) in
  s_joined (m_ctx m) = true /\ last_session None (m_log m) = None.
Proof. exists e_cfg, (h_boot ++ [(at_t 100, C_abp 5)]). vm_compute. auto. Qed.
Print Assumptions C82_abp_refuted.
