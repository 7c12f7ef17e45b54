(* C92: every join request sent carries its integrity code. *)
From Verif Require Import Lib FrameM CommandsM RegionM RadioM SmM MacStateM MacUtilM MacProcM MacApiM Scenario SpecFrame SpecAes SpecSm SpecHist SpecKey SpecUp SpecJoinMic.
From Verif Require Import RestoreP.
From Verif Require SmP JoinMicP.

(* Whatever is sent while joining, a repetition included, is a join request for
   the device's identifiers with the code made with the root key, never with a
   key of an earlier session. *)
Theorem C92_join_mic : forall c r a e0 h e k f b sf p fr app nwk,
  block app -> block nwk -> default_sm c app nwk -> arg_ok a ->
  let m := run c h (MAC_init c r a e0) in
  m_op m = OP_JOINING -> In (OTransmit f b sf p fr) (new_out m (fst (step c e k m))) ->
  exists n, 0 <= n < 65536 /\
    fr = join_request (ia_joinEUI a) (ia_devEUI a) n (join_mic (c_l2 c) app nwk (ia_joinEUI a) (ia_devEUI a) n).
Proof. exact JoinMicP.sent_join_mic. Qed.
Print Assumptions C92_join_mic.

Definition appk : bytes := [1; 2; 3; 4; 5; 6; 7; 8; 9; 10; 11; 12; 13; 14; 15; 16].
Definition real_of (v : l2ver) : cfg := aes_cfg v appk (rev appk).
Definition h_join : history := h_boot ++ [(at_t 30, C_otaa); P 30; P 30].
Definition sent_frames (l : list out) : list bytes :=
  flat_map (fun o => match o with OTransmit _ _ _ _ fr => [fr] | _ => [] end) l.
Definition joining (v : l2ver) : mac := run (real_of v) h_join (MAC_init (real_of v) EU_863_870 (arg0 None) (at_t 0)).

Lemma appk_block : block appk /\ block (rev appk).
Proof. split; (split; [reflexivity|]); repeat constructor; lia. Qed.
(* a 1.0.4 and a 1.1 device with the same keys send the same join request but
   for the code: the first uses AppKey, the second NwkKey *)
Example C92_join_mic_ex : Forall (fun '(v, q) => default_sm (real_of v) appk (rev appk) /\ m_op (joining v) = OP_JOINING /\
  sent_frames (new_out (joining v) (fst (step (real_of v) (at_t 55) C_process (joining v)))) =
  [[0; 8; 7; 6; 5; 4; 3; 2; 1; 2; 3; 4; 5; 6; 7; 8; 9; 0; 0] ++ q]) [(L2_1_0_4, [145; 44; 56; 201]); (L2_1_1, [180; 64; 199; 72])].
Proof.
  constructor; [|constructor; [|constructor]]; (split; [exact (SmP.aes_cfg_default _ appk (rev appk))|]); (split; vm_compute; reflexivity).
Qed.

(* Nothing else is sent: a transmission is made by LDL_MAC_process(), for a join
   or for a data request. C46_sent_partial is about the frames of the latter. *)
Theorem C92_sent_for : forall c r a e0 h e k f b sf p fr,
  let m := run c h (MAC_init c r a e0) in
  In (OTransmit f b sf p fr) (new_out m (fst (step c e k m))) ->
  k = C_process /\ (m_op m = OP_JOINING \/ m_op m = OP_DATA_UNCONFIRMED \/ m_op m = OP_DATA_CONFIRMED).
Proof. exact JoinMicP.sent_for. Qed.
Print Assumptions C92_sent_for.
Example C92_sent_for_ex : exists f b sf p fr, In (OTransmit f b sf p fr) (new_out (joining L2_1_0_4) (fst (step (real_of L2_1_0_4) (at_t 55) C_process (joining L2_1_0_4)))).
Proof. vm_compute. do 5 eexists. repeat (first [left; reflexivity|right]). Qed.
