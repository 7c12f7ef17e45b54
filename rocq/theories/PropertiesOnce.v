(* C79: how long an answer to the network is kept. *)
From Verif Require Import Words StreamM Lib FrameM CommandsM RegionM RadioM SmM MacStateM MacUtilM OpsM MacCmdM MacProcM MacApiM Scenario
  SpecHist SpecCmd SpecAnswer SpecEffect SpecOnce PropertiesEffect.
From Verif Require OnceP.

(* --- C79 ------------------------------------------------------------------------- *)

(* Until a frame is accepted or the network forgotten, an answer waits
   exactly as long as it has to: the answers sent once until the next message
   that is taken, the others all along. *)
Theorem C79_answers_kept : forall c t h m, unheard c h m ->
  waiting (m_ctx (run c h m)) t = waiting (m_ctx m) t && negb (sent_once t && in_build c t && existsb is_accepted (items c h m)).
Proof. exact OnceP.answers_kept. Qed.
Print Assumptions C79_answers_kept.

(* DevStatusReq and RXTimingSetupReq, and three uplinks without an answer *)
Definition h_msg (t : Z) : history :=
  [P t; (at_t t, C_data false 1 (Some [1;2;3]) (Some (mkOpts 1 false false))); P t; P (t + 25); P (t + 50); P (t + 75)].
Definition h_alone (t : Z) : history :=
  h_msg t ++ h_rx1 (t + 100) 1 ++
  [(timeout_at (t + 1110), C_radioEvent (t + 1110)); (timeout_at (t + 1110), C_process); P (t + 2100); P (t + 2100); P (t + 2125); P (t + 2150);
   (timeout_at (t + 2200), C_radioEvent (t + 2200)); (timeout_at (t + 2200), C_process); P (t + 2250); P (t + 100000)].
Definition frames (l : list out) : list bytes := flat_map (fun o => match o with OTransmit _ _ _ _ f => [f] | _ => [] end) l.
Definition m_told : mac := run e_cfg (h_toy_join ++ h_up 10000 ++ h_rx1 10100 1 ++ h_rx 11110 (down [6; 8; 1])) (e_start EU_863_870).
Definition three_alone : history := h_alone 4000000 ++ h_alone 8000000 ++ h_alone 12000000.
Example C79_example :
  map (waiting (m_ctx m_told)) [CMD_DEV_STATUS; CMD_RX_TIMING_SETUP] = [true; true] /\
  map (waiting (m_ctx (run e_cfg three_alone m_told))) [CMD_DEV_STATUS; CMD_RX_TIMING_SETUP] = [false; true] /\
  map (skipn 5) (frames (new_out m_told (run e_cfg three_alone m_told))) =
    [[132; 1;0; 8; 6;255;0; 1; 1;2;3; 1;2;3;4]; [129; 2;0; 8; 1; 1;2;3; 1;2;3;4]; [129; 3;0; 8; 1; 1;2;3; 1;2;3;4]].
Proof. vm_compute. auto. Qed.
Example C79_unheard_ex : unheard e_cfg (h_alone 4000000) m_told.
Proof. vm_compute. repeat split; try discriminate. Qed.

(* An answer is not always sent: it is lost with the message that would have
   carried it.  Here the message is cancelled before it is transmitted; the
   answer to DevStatusReq is in no frame. *)
Definition h_lost : history := [P 4000000; (at_t 4000000, C_data false 1 (Some [1;2;3]) None); (at_t 4000000, C_cancel); P 4000000; P 4000025; P 4000050] ++ h_alone 8000000.
Theorem C79_cancelled_refuted : exists c h m, unheard c h m /\ waiting (m_ctx m) CMD_DEV_STATUS = true /\ waiting (m_ctx (run c h m)) CMD_DEV_STATUS = false /\
  forall f b sf p fr, In (OTransmit f b sf p fr) (new_out m (run c h m)) -> fr = [64; 218;27;1;38; 129; 2;0; 8; 1; 1;2;3; 1;2;3;4].
Proof.
  exists e_cfg, h_lost, m_told. vm_compute. repeat split; try discriminate.
  intros f b sf p fr H. repeat (destruct H as [H|H]; [try discriminate H; injection H; intros; subst; reflexivity|]). contradiction.
Qed.
Print Assumptions C79_cancelled_refuted.
