(* C33 (keys), C47: session keys over time and across restarts. *)
From Verif Require Import Lib FrameM SmM RegionM MacStateM MacUtilM OpsM MacProcM MacApiM Scenario.
From Verif Require Import SpecFrame SpecAes SpecSm SpecHist SpecKey PropertiesCounter.
From Verif Require SmP DataP RestoreP.

(* --- C33: the keys of the session that is resumed ---------------------------------- *)

Theorem C33_keys_1_0 : forall c r a e s app nwk,
  block app -> block nwk -> length (ia_joinEUI a) = 8%nat -> bytes_ok (ia_joinEUI a) ->
  ia_session a = Some s -> s_magic s = 0xdb -> s_region s = r -> sess_version c s = 0 ->
  let kdf t := aes128 (if is_1_1 (c_l2 c) then nwk else app) (kdf_block_1_0 t (s_joinNonce s) (s_netID s) (s_devNonce s)) in
  let key := key_of (c_l2 c) app nwk (m_sm (MAC_init c r a e)) in
  key KEY_FNWKSINT = kdf 1 /\ key KEY_SNWKSINT = kdf 1 /\ key KEY_NWKSENC = kdf 1 /\ key KEY_APPS = kdf 2.
Proof. exact RestoreP.restored_1_0. Qed.
Print Assumptions C33_keys_1_0.

Theorem C33_keys_1_1 : forall c r a e s app nwk,
  block app -> block nwk -> length (ia_joinEUI a) = 8%nat -> bytes_ok (ia_joinEUI a) ->
  ia_session a = Some s -> s_magic s = 0xdb -> s_region s = r -> c_l2 c = L2_1_1 -> sess_version c s <> 0 ->
  let kdf root t := aes128 root (kdf_block_1_1 t (s_joinNonce s) (ia_joinEUI a) (s_devNonce s)) in
  let key := key_of L2_1_1 app nwk (m_sm (MAC_init c r a e)) in
  key KEY_FNWKSINT = kdf nwk 1 /\ key KEY_SNWKSINT = kdf nwk 3 /\ key KEY_NWKSENC = kdf nwk 4 /\ key KEY_APPS = kdf app 2.
Proof. exact RestoreP.restored_1_1. Qed.
Print Assumptions C33_keys_1_1.

(* nothing is derived otherwise *)
Theorem C33_no_keys : forall c r a e,
  (forall s, ia_session a = Some s -> (s_magic s =? 0xdb) && region_eqb (s_region s) r = false) ->
  m_sm (MAC_init c r a e) = [].
Proof. exact RestoreP.not_restored. Qed.
Print Assumptions C33_no_keys.

(* the session of a joined device, resumed in its region and refused in another *)
Definition saved1 : option session := last_session None life1.
Example C33_example :
  match saved1 with
  | Some s => s_magic s = 0xdb /\ s_region s = EU_863_870 /\ s_joined s = true /\ s_up s = 1 /\ sess_version cfg4 s = 0 /\
      s_joined (m_ctx (MAC_init cfg4 EU_863_870 (arg0 saved1) (at_t 0))) = true /\
      s_joined (m_ctx (MAC_init cfg4 US_902_928 (arg0 saved1) (at_t 0))) = false /\
      s_joined (m_ctx (MAC_init cfg4 EU_863_870 (arg0 (Some (set_s_magic 0 s))) (at_t 0))) = false
  | None => False
  end.
Proof. vm_compute. repeat split. Qed.
Example C33_example_1_1 : exists s, s_magic s = 0xdb /\ s_region s = EU_863_870 /\ sess_version (toy_cfg L2_1_1) s <> 0.
Proof. exists (set_s_version 1 (DataP.fresh (toy_cfg L2_1_1) EU_863_870)). vm_compute. repeat split. discriminate. Qed.

(* --- C47: keys in use ------------------------------------------------------------- *)

Theorem C47_keys_match_session_partial : forall c r a e h app nwk,
  block app -> block nwk -> arg_ok a -> Forall (fun x => RestoreP.not_abp (snd x)) h ->
  let m := run c h (MAC_init c r a e) in s_joined (m_ctx m) = true ->
  forall k, net_key k -> key_of (c_l2 c) app nwk (m_sm m) k = session_key c app nwk (ia_joinEUI a) (m_ctx m) k.
Proof. exact RestoreP.keys_match. Qed.
Print Assumptions C47_keys_match_session_partial.

Theorem C47_join_keys : forall c r a e h app nwk,
  block app -> block nwk -> arg_ok a -> Forall (fun x => RestoreP.not_abp (snd x)) h -> c_l2 c = L2_1_1 ->
  let m := run c h (MAC_init c r a e) in m_op m = OP_JOINING ->
  let key := key_of L2_1_1 app nwk (m_sm m) in
  key KEY_JSINT = aes128 nwk (kdf_block_js 6 (ia_devEUI a)) /\ key KEY_JSENC = aes128 nwk (kdf_block_js 5 (ia_devEUI a)).
Proof. exact RestoreP.join_keys_match. Qed.
Print Assumptions C47_join_keys.

Theorem C47_keys_survive_restart_partial : forall c r a e h a' e' app nwk,
  block app -> block nwk -> arg_ok a -> Forall (fun x => RestoreP.not_abp (snd x)) h ->
  let m := run c h (MAC_init c r a e) in s_joined (m_ctx m) = true ->
  ia_session a' = last_session (ia_session a) (m_log m) -> ia_joinEUI a' = ia_joinEUI a ->
  let m' := MAC_init c r a' e' in
  s_joined (m_ctx m') = true /\ s_devNonce (m_ctx m') = s_devNonce (m_ctx m) /\
  forall k, net_key k -> key_of (c_l2 c) app nwk (m_sm m') k = key_of (c_l2 c) app nwk (m_sm m) k.
Proof. exact RestoreP.keys_survive. Qed.
Print Assumptions C47_keys_survive_restart_partial.

Lemma not_abp_all (h : history) : forallb (fun x => match snd x with C_abp _ => false | _ => true end) h = true ->
  Forall (fun x => RestoreP.not_abp (snd x)) h.
Proof.
  intros H. apply Forall_forall. intros x Hx. apply (proj1 (forallb_forall _ _) H) in Hx. unfold RestoreP.not_abp.
  destruct (snd x); try exact I. discriminate.
Qed.
Example C47_example : let h := h_toy_join ++ h_send 10000 in
  Forall (fun x => RestoreP.not_abp (snd x)) h /\ s_joined (m_ctx (run cfg4 h start4)) = true.
Proof. split; [apply not_abp_all; reflexivity|vm_compute; reflexivity]. Qed.

(* a session made by LDL_MAC_abp: a restart replaces its keys by keys derived
   from values it does not have *)
Definition h_abp : history := h_boot ++ [(at_t 40, C_abp 0x26011bda); (at_t 40, C_setADR true)].
Theorem C47_abp_keys_lost_refuted : exists c r a e h a' e' app nwk, let m := run c h (MAC_init c r a e) in
  block app /\ block nwk /\ arg_ok a /\ s_joined (m_ctx m) = true /\
  ia_session a' = last_session (ia_session a) (m_log m) /\ ia_joinEUI a' = ia_joinEUI a /\
  let m' := MAC_init c r a' e' in
  s_joined (m_ctx m') = true /\ s_devAddr (m_ctx m') = s_devAddr (m_ctx m) /\
  forall k, net_key k -> key_of (c_l2 c) app nwk (m_sm m') k <> key_of (c_l2 c) app nwk (m_sm m) k.
Proof.
  exists cfg4, EU_863_870, (arg0 None), (at_t 0), h_abp, (arg0 (last_session None (m_log (run cfg4 h_abp start4)))), (at_t 0), key16, key16.
  cbv zeta. split; [vm_compute; split; [reflexivity|repeat constructor; discriminate]|]. split; [vm_compute; split; [reflexivity|repeat constructor; discriminate]|].
  split; [apply arg0_ok|]. split; [vm_compute; reflexivity|]. split; [reflexivity|]. split; [reflexivity|]. split; [vm_compute; reflexivity|].
  split; [vm_compute; reflexivity|]. intros k [->|[->|[->| ->]]]; vm_compute; discriminate.
Qed.
Print Assumptions C47_abp_keys_lost_refuted.
