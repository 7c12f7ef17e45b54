(* C04, C05, C06, C48: what a received frame can do. *)
From Verif Require Import Lib FrameM CommandsM RegionM RadioM MacStateM MacUtilM MacProcM MacApiM Scenario SpecFrame SpecAes SpecSm SpecHist SpecRx.
From Verif Require ModuleP AcceptP GenuineP CaseP CoreP DownP.
From Coq Require Import Sorting.Sorted.

Definition cfg4 : cfg := toy_cfg L2_1_0_4.
Definition start4 : mac := MAC_init cfg4 EU_863_870 (arg0 None) (at_t 0).
Lemma arg0_ok so : arg_ok (arg0 so).
Proof. unfold arg_ok, eui_ok, bytes_ok. repeat split; try (cbn; lia); repeat constructor; lia. Qed.

(* the security module shipped with the library has the properties assumed
   below, whatever its keys *)
Theorem C04_default_module : forall c app nwk,
  block app -> block nwk -> default_sm c app nwk -> octets c /\ fixed_root c.
Proof. intros c app nwk Ha Hn H. split; [exact (ModuleP.default_octets c app nwk Ha Hn H)|exact (ModuleP.default_root c app nwk H)]. Qed.
Print Assumptions C04_default_module.
Lemma key16_block : block key16.
Proof. split; [reflexivity|]. repeat constructor; lia. Qed.
Example C04_default_example v : octets (aes_cfg v key16 key16) /\ fixed_root (aes_cfg v key16 key16).
Proof. apply (C04_default_module _ key16 key16 key16_block key16_block). intros log k. repeat split; reflexivity. Qed.
Lemma toy_octets v : octets (toy_cfg v).
Proof. split; [split; [reflexivity|auto]|]. intros log b B. apply B. Qed.

(* --- C04 ------------------------------------------------------------------------- *)

(* at any time, whatever is received: a reported join means a genuine accept
   was received, with at least the stored joinNonce; one more is stored and
   reported *)
Theorem C04_accepted_genuine : forall c r a e0 h e k,
  octets c -> arg_ok a -> bytes_ok (e_rx e) ->
  let m := run c h (MAC_init c r a e0) in
  let m' := fst (step c e k m) in
  join_news (new_out m m') <> [] ->
  exists j, genuine_accept c m (heard e) j /\ join_news (new_out m m') = [j_joinNonce j + 1] /\ m_joinNonce m' = j_joinNonce j + 1.
Proof. exact GenuineP.accepted_genuine. Qed.
Print Assumptions C04_accepted_genuine.

(* power cycles, each cut off after any output and started with the last
   joinNonce reported: the values reported increase strictly *)
Theorem C04_nonces_increase : forall c d l,
  octets c -> c_l2 c <> L2_1_0_3 -> accept_lives c d l -> StronglySorted Z.lt (d :: join_news l).
Proof. exact AcceptP.accepts_increase. Qed.
Print Assumptions C04_nonces_increase.

Theorem C04_accepted_once : forall c r a e0 h1 e1 k1 h2 e2 k2,
  octets c -> fixed_root c -> c_l2 c <> L2_1_0_3 -> air_ok h2 -> bytes_ok (e_rx e1) -> e_rx e2 = e_rx e1 ->
  let m1 := run c h1 (MAC_init c r a e0) in
  let m1' := fst (step c e1 k1 m1) in
  let m2 := run c h2 m1' in
  join_news (new_out m1 m1') <> [] -> join_news (new_out m2 (fst (step c e2 k2 m2))) = [].
Proof. exact AcceptP.accepted_once. Qed.
Print Assumptions C04_accepted_once.

(* m2 is reached after a restart *)
Theorem C04_accepted_once_restart : forall c r a e0 h1 e1 k1 r' a' e0' h2 e2 k2,
  octets c -> fixed_root c -> c_l2 c <> L2_1_0_3 -> air_ok h1 -> air_ok h2 -> bytes_ok (e_rx e1) -> e_rx e2 = e_rx e1 ->
  let m1 := run c h1 (MAC_init c r a e0) in
  let m1' := fst (step c e1 k1 m1) in
  let m2 := run c h2 (MAC_init c r' a' e0') in
  join_kept (ia_joinNonce a) (m_log m1') <= ia_joinNonce a' ->
  join_news (new_out m1 m1') <> [] -> join_news (new_out m2 (fst (step c e2 k2 m2))) = [].
Proof. exact AcceptP.accepted_once_restart. Qed.
Print Assumptions C04_accepted_once_restart.

(* joins; then restarts without the session, but with the joinNonce reported,
   and receives the same accept (leaving the network first does not work: C26) *)
Definition h_accept : history := h_boot ++ h_join_tx 30 ++ h_rx1 3000 5 ++ [(rx_at 8100 toy_accept, C_radioEvent 8100)].
Definition arg_again : init_arg := mkInitArg 1000 0 0 0 30 1 2 eui_a eui_b None.
Definition m_first (v : l2ver) : mac := run (toy_cfg v) h_accept (MAC_init (toy_cfg v) EU_863_870 (arg0 None) (at_t 0)).
Definition m_again (v : l2ver) : mac := run (toy_cfg v) h_accept (MAC_init (toy_cfg v) EU_863_870 arg_again (at_t 0)).
Definition news_at (v : l2ver) (m : mac) : list Z :=
  join_news (new_out m (fst (step (toy_cfg v) (rx_at 8100 toy_accept) C_process m))).
Example C04_example :
  (m_op (m_again L2_1_0_4), m_state (m_again L2_1_0_4)) = (OP_JOINING, ST_RX1) /\
  ia_joinNonce arg_again = 2 /\ news_at L2_1_0_4 (m_first L2_1_0_4) = [2] /\ news_at L2_1_0_4 (m_again L2_1_0_4) = [].
Proof. vm_compute. auto. Qed.
Example C04_example_lives : accept_lives cfg4 0 (m_log (run cfg4 h_toy_join start4) ++ []).
Proof.
  apply (alife cfg4 0 EU_863_870 (arg0 None) (at_t 0) h_toy_join _ [] []); [apply arg0_ok|reflexivity| |symmetry; apply app_nil_r|constructor].
  repeat constructor; try (cbn; lia).
Qed.

(* 1.0.3 has no such rule: there the accept is taken again *)
Theorem C04_not_checked_in_1_0_3 :
  news_at L2_1_0_3 (m_first L2_1_0_3) = [2] /\ news_at L2_1_0_3 (m_again L2_1_0_3) = [2].
Proof. vm_compute. auto. Qed.
Print Assumptions C04_not_checked_in_1_0_3.

(* --- C06 ------------------------------------------------------------------------- *)

(* the content of a frame that is not genuine makes no difference at all *)
Theorem C06_ignored : forall c r a e0 h e w w',
  octets c -> arg_ok a -> bytes_ok w -> bytes_ok w' ->
  let m := run c h (MAC_init c r a e0) in
  ~ genuine c m (firstn 255 w) -> ~ genuine c m (firstn 255 w') -> step c (hear w e) C_process m = step c (hear w' e) C_process m.
Proof. exact GenuineP.ignored. Qed.
Print Assumptions C06_ignored.

(* and a step in which such a frame arrives tells the application nothing, and
   leaves the keys, the joinNonce and the session alone, up to what giving up
   on an answer always does *)
Theorem C06_nothing_changes : forall c r a e0 h e,
  octets c -> arg_ok a -> bytes_ok (e_rx e) ->
  let m := run c h (MAC_init c r a e0) in
  let m' := fst (step c e C_process m) in
  ~ genuine c m (heard e) ->
  forallb unheard (new_out m m') = true /\ m_sm m' = m_sm m /\ m_joinNonce m' = m_joinNonce m /\
  (backed_off (m_ctx m) (m_ctx m') \/ m_op m = OP_JOINING /\ exists n, m_ctx m' = set_s_devNonce n (m_ctx m)).
Proof. exact GenuineP.not_genuine_kept. Qed.
Print Assumptions C06_nothing_changes.

(* in a receive window after a data frame: the right frame, and one with
   another integrity code *)
Definition h_send (t : Z) : history :=
  [P t; (at_t t, C_data false 1 (Some [1;2;3]) (Some (mkOpts 2 false false))); P t; P (t + 25); P (t + 50); P (t + 75)].
Definition right : bytes := [0x60; 0xda;0x1b;0x01;0x26; 0; 0;0; 1; 9;9;9; 1;2;3;4].
Definition wrong : bytes := [0x60; 0xda;0x1b;0x01;0x26; 0; 0;0; 1; 9;9;9; 1;2;3;5].
Definition h_window : history := h_toy_join ++ h_send 10000 ++ h_rx1 10100 1 ++ [(rx_at 11110 wrong, C_radioEvent 11110)].
Definition m_window : mac := run cfg4 h_window start4.
Lemma toy_mic l k x d : c_mic cfg4 l k x d = 0x04030201. Proof. reflexivity. Qed.
Lemma m_window_state : m_op m_window = OP_DATA_UNCONFIRMED /\ m_state m_window = ST_RX1.
Proof. vm_compute. auto. Qed.
Lemma wrong_not_genuine m : m_op m = OP_DATA_UNCONFIRMED -> ~ genuine cfg4 m wrong.
Proof.
  intros E [(n & _ & _ & _ & _ & _ & _ & M)|(j & O & _)]; [|congruence]. cbv zeta in M. rewrite toy_mic in M. discriminate M.
Qed.
Lemma right_genuine m : m_op m = OP_DATA_UNCONFIRMED -> s_devAddr (m_ctx m) = 0x26011bda -> genuine cfg4 m right.
Proof.
  intros E A. left. exists 0. split; [lia|]. split; [reflexivity|]. unfold genuine_as. rewrite E, A.
  split; [auto|]. split; [cbn; lia|]. split; [left; reflexivity|]. split; [reflexivity|]. cbv zeta. rewrite toy_mic. reflexivity.
Qed.
Example C06_example_wrong : ~ genuine cfg4 m_window (heard (rx_at 11110 wrong)).
Proof. apply wrong_not_genuine. exact (proj1 m_window_state). Qed.
Example C06_example_right : genuine cfg4 m_window (heard (rx_at 11110 right)).
Proof. apply right_genuine; [exact (proj1 m_window_state)|]. vm_compute. reflexivity. Qed.
Example C06_example :
  new_out m_window (fst (step cfg4 (rx_at 11110 wrong) C_process m_window)) = [OMode MODE_SLEEP] /\
  firstn 2 (new_out m_window (fst (step cfg4 (rx_at 11110 right) C_process m_window))) = [OMode MODE_SLEEP; OEvent (EV_RX 1 [9;9;9])].
Proof. vm_compute. auto. Qed.

(* --- C05 ------------------------------------------------------------------------- *)

(* the claim fails: in one session the same frame is delivered twice *)
Definition h_twice : history :=
  h_toy_join ++ h_send 10000 ++ h_rx1 10100 1 ++ h_rx 11110 right ++ h_send 4000000 ++ h_rx1 4000100 1 ++ h_rx 4001110 right.
Theorem C05_replay_refuted :
  exists c r a e h w, let m0 := MAC_init c r a e in
  octets c /\ fixed_root c /\ arg_ok a /\ ia_session a = None /\ air_ok h /\ Forall (fun x => not_forget (snd x)) h /\
  Forall (fun x => e_rx (fst x) = [] \/ e_rx (fst x) = toy_accept \/ e_rx (fst x) = w) h /\
  length (join_news (m_log (run c h m0))) = 1%nat /\
  filter is_rx (m_log (run c h m0)) = [OEvent (EV_RX 1 [9;9;9]); OEvent (EV_RX 1 [9;9;9])].
Proof.
  exists cfg4, EU_863_870, (arg0 None), (at_t 0), h_twice, right. cbv zeta.
  split; [apply toy_octets|]. split; [intros ? ? ?; reflexivity|]. split; [apply arg0_ok|]. split; [reflexivity|].
  split; [repeat constructor; try (cbn; lia)|]. split; [repeat constructor; discriminate|].
  split; [repeat (apply Forall_cons; [cbn [fst e_rx]; auto|]); apply Forall_nil|]. vm_compute. auto.
Qed.
Print Assumptions C05_replay_refuted.

(* what remains: at most one frame is delivered for each data request, as a
   delivery ends the operation and none happens without one *)
Theorem C05_delivered_once_partial : forall c r a e0 h e k,
  let m := run c h (MAC_init c r a e0) in let m' := fst (step c e k m) in
  count_rx (new_out m m') <> 0%nat -> count_rx (new_out m m') = 1%nat /\ CaseP.is_data (m_op m) = true /\ m_op m' = OP_NONE.
Proof. exact DownP.delivered_once. Qed.
Print Assumptions C05_delivered_once_partial.
Example C05_delivered_example : count_rx (new_out m_window (fst (step cfg4 (rx_at 11110 right) C_process m_window))) = 1%nat.
Proof. vm_compute. reflexivity. Qed.

(* --- C48 ------------------------------------------------------------------------- *)

(* the high halves of the downlink counters stay 0, in the session kept and in
   all that are handed over *)
Theorem C48_high_half_stays_zero : forall c r a e0 h,
  low_start (ia_session a) -> air_ok h ->
  let m := run c h (MAC_init c r a e0) in
  low_down (m_ctx m) /\ forall s, In (OEvent (EV_SESSION_UPDATED s)) (m_log m) -> low_down s.
Proof. exact DownP.low_always. Qed.
Print Assumptions C48_high_half_stays_zero.

(* so FCnt alone is the counter of every frame accepted, and one whose
   integrity code was made with any other is lost *)
Theorem C48_fcnt_alone : forall c r a e0 h e,
  octets c -> arg_ok a -> low_start (ia_session a) -> air_ok h -> bytes_ok (e_rx e) ->
  let m := run c h (MAC_init c r a e0) in
  let m' := fst (step c e C_process m) in
  ~ genuine_as c m (heard e) (fcnt_down (heard e)) -> ~ (exists j, genuine_accept c m (heard e) j) ->
  forallb unheard (new_out m m') = true /\ m_sm m' = m_sm m /\ m_joinNonce m' = m_joinNonce m /\
  (backed_off (m_ctx m) (m_ctx m') \/ m_op m = OP_JOINING /\ exists n, m_ctx m' = set_s_devNonce n (m_ctx m)).
Proof. exact DownP.fcnt_alone. Qed.
Print Assumptions C48_fcnt_alone.

(* and a frame that was delivered is delivered again whenever it is received
   in a window of the same session.  In a 1.1 session an acknowledgement also
   names the uplink, so this is about frames without one there *)
Theorem C48_delivered_again : forall c r a e0 h1 e1 k1 h2 e2,
  low_start (ia_session a) -> air_ok h1 -> air_ok h2 -> bytes_ok (e_rx e1) -> Forall (fun x => not_forget (snd x)) h2 ->
  let m1 := run c h1 (MAC_init c r a e0) in
  let m1' := fst (step c e1 k1 m1) in
  let m2 := run c h2 m1' in
  count_rx (new_out m1 m1') <> 0%nat ->
  sess_version c (m_ctx m1) = 0 \/ Z.testbit (nth 5 (heard e1) 0) 5 = false ->
  CaseP.is_data (m_op m2) = true -> CoreP.in_rx (m_state m2) = true -> inputPending m2 = true -> e_st_rx e2 = true -> e_rx e2 = e_rx e1 ->
  filter is_rx (new_out m2 (fst (step c e2 C_process m2))) = filter is_rx (new_out m1 m1').
Proof. exact DownP.accepted_again. Qed.
Print Assumptions C48_delivered_again.
Definition m_second : mac :=
  run cfg4 (h_send 4000000 ++ h_rx1 4000100 1 ++ [(rx_at 4001110 right, C_radioEvent 4001110)]) (fst (step cfg4 (rx_at 11110 right) C_process m_window)).
Example C48_delivered_again_example :
  sess_version cfg4 (m_ctx m_window) = 0 /\ CaseP.is_data (m_op m_second) = true /\ CoreP.in_rx (m_state m_second) = true /\ inputPending m_second = true.
Proof. vm_compute. auto. Qed.

(* a session that starts with a high half of its own: every delivery is
   checked with a high half one above the last, whatever the network counts *)
Theorem C48_high_half_jumps : forall c r a e0 h e k,
  bytes_ok (e_rx e) ->
  let m := run c h (MAC_init c r a e0) in let m' := fst (step c e k m) in
  let hi := s_appDown (m_ctx m) in
  count_rx (new_out m m') <> 0%nat -> 0 < hi < 65535 ->
  genuine_as c m (heard e) ((hi + 1) * 65536 + fcnt_down (heard e)) /\ s_appDown (m_ctx m') = hi + 1.
Proof. exact DownP.high_jump. Qed.
Print Assumptions C48_high_half_jumps.
Definition high : session := set_s_appDown 1 (m_ctx toy_joined).
Definition m_high : mac :=
  run cfg4 (h_boot ++ h_send 10000 ++ h_rx1 10100 1 ++ [(rx_at 11110 right, C_radioEvent 11110)]) (MAC_init cfg4 EU_863_870 (arg0 (Some high)) (at_t 0)).
Example C48_high_half_example :
  s_appDown (m_ctx m_high) = 1 /\ count_rx (new_out m_high (fst (step cfg4 (rx_at 11110 right) C_process m_high))) = 1%nat.
Proof. vm_compute. auto. Qed.
