(* C74: an mbed device with a store that keeps what it is given. *)
From Verif Require Import Lib FrameM CommandsM RegionM RadioM MacStateM MacUtilM MacProcM MacApiM Scenario SpecHist SpecRx MbedM SpecMbed.
From Verif Require MbedP.
From Coq Require Import Sorting.Sorted.

(* the histories of Scenario with the clock of the mbed device, which counts microseconds *)
Definition us (h : history) : history :=
  map (fun x => match x with
                | (mkEnv t rnd b tx rx to d f s ra, k) =>
                    (mkEnv (1000 * t) rnd b tx rx to d f s ra,
                     match k with C_radioEvent t' => C_radioEvent (1000 * t') | _ => k end)
                end) h.
Definition st0 (n : Z) : store := mkStore eui_b eui_a n 0 None.
Definition cfg4 : cfg := toy_cfg L2_1_0_4.
Definition h_up (t : Z) : history :=
  [P t; (at_t t, C_data false 1 (Some [1;2;3]) (Some (mkOpts 0 false false))); P t; P (t + 25); P (t + 50); P (t + 75)].
Definition quiet_run (h : history) : Prop := air_ok h /\ Forall (fun x => not_forget (snd x)) h.
Definition h1 : history := us (h_toy_join ++ h_up 10000).
Definition h2 : history := us (h_boot ++ h_up 10000).
Lemma h_air h : forallb (fun x => forallb (fun b => (0 <=? b) && (b <? 256)) (e_rx (fst x))) h = true -> air_ok h.
Proof.
  intros H. apply Forall_forall. intros x I. apply (proj1 (forallb_forall _ _) H) in I. apply Forall_forall. intros b J.
  apply (proj1 (forallb_forall _ _) I) in J. cbn beta in J. apply andb_true_iff in J as [J1 J2]. apply Z.leb_le in J1. apply Z.ltb_lt in J2. now split.
Qed.
Lemma h_kept h : forallb (fun x => match snd x with C_forget => false | _ => true end) h = true -> Forall (fun x : env * call => not_forget (snd x)) h.
Proof.
  intros H. apply Forall_forall. intros [e k] I E. apply (proj1 (forallb_forall _ _) H) in I. cbn [snd] in *. subst k. discriminate I.
Qed.
Lemma whole_cycle c r (ok : history -> Prop) s e h l s' rest : ok h -> l = m_log (run c h (mbed_start c r s e)) ->
  s' = fold_left app_handler l s -> powered c r ok s' rest -> powered c r ok s (l ++ rest).
Proof. intros K -> -> H. apply (powered_on c r ok s e h _ []); [exact K|now rewrite app_nil_r|exact H]. Qed.
Lemma quiet_runs h : forallb (fun x => forallb (fun b => (0 <=? b) && (b <? 256)) (e_rx (fst x)) && match snd x with C_forget => false | _ => true end) h = true -> quiet_run h.
Proof.
  intros H. split; [apply h_air|apply h_kept]; apply forallb_forall; intros x I; apply (proj1 (forallb_forall _ _) H) in I;
  apply andb_true_iff in I; apply I.
Qed.
Lemma h1_quiet : quiet_run h1. Proof. apply quiet_runs. vm_compute. reflexivity. Qed.
Lemma h2_quiet : quiet_run h2. Proof. apply quiet_runs. vm_compute. reflexivity. Qed.
Definition out1 : list out := m_log (run cfg4 h1 (mbed_start cfg4 EU_863_870 (st0 7) (at_t 0))).
Definition st1 : store := fold_left app_handler out1 (st0 7).
Definition out2 : list out := m_log (run cfg4 h2 (mbed_start cfg4 EU_863_870 st1 (at_t 0))).

Lemma ex_powered : powered cfg4 EU_863_870 quiet_run (st0 7) (out1 ++ out2).
Proof.
  rewrite <- (app_nil_r out2).
  eapply whole_cycle with (s' := st1); [exact h1_quiet|unfold out1; reflexivity|unfold st1; reflexivity|].
  eapply whole_cycle; [exact h2_quiet|unfold out2; reflexivity|reflexivity|constructor].
Qed.
Lemma st0_ok n : (0 <=? n) && (n <? 65536) = true -> store_ok (st0 n).
Proof.
  intros H. unfold store_ok, st0, eui_ok, bytes_ok.
  repeat split; try (cbn; lia); repeat constructor; lia.
Qed.
Lemma ex_left : nonces_left (out1 ++ out2).
Proof.
  assert (forallb (fun o => match o with OEvent (EV_DEV_NONCE_UPDATED n) => (0 <=? n) && (n <? 65536) | _ => true end) (out1 ++ out2) = true) as H
    by (vm_compute; reflexivity).
  apply Forall_forall. intros o I. apply (proj1 (forallb_forall _ _) H) in I. destruct o as [[]| | | |]; auto. lia.
Qed.

(* [l]: what the device put out over any number of power cycles.  No devNonce
   is used twice, as long as they fit the 16 bits the store is given *)
Theorem C74_nonces_partial : forall c r (ok : history -> Prop) s l,
  in_place c -> c_l2 c <> L2_1_0_3 -> store_ok s -> powered c r ok s l -> nonces_left l ->
  StronglySorted Z.lt (join_nonces l) /\ Forall (fun n => st_devNonce s <= n) (join_nonces l).
Proof. exact MbedP.mbed_nonces. Qed.
Print Assumptions C74_nonces_partial.

(* every join accept taken is newer than all those taken before *)
Theorem C74_accepts : forall c r (ok : history -> Prop) s l,
  octets c -> c_l2 c <> L2_1_0_3 -> store_ok s -> (forall h, ok h -> air_ok h) -> powered c r ok s l ->
  StronglySorted Z.lt (st_joinNonce s :: join_news l).
Proof. exact MbedP.mbed_accepts. Qed.
Print Assumptions C74_accepts.

(* in one session a frame counter is used for one message *)
Theorem C74_counters : forall c r (ok : history -> Prop) s l,
  in_place c -> store_ok s -> session_ok (st_session s) ->
  (forall h, ok h -> Forall (fun x => not_forget (snd x)) h) -> powered c r ok s l ->
  let u := restart_up r (st_session s) in not_last u l ->
  StronglySorted newer (sends u l) /\ Forall (fun x => u < fst x /\ fcnt_of (snd x) = (fst x - 1) mod 65536) (sends u l).
Proof. exact MbedP.mbed_counters. Qed.
Print Assumptions C74_counters.

(* a device joins and sends, loses power, and sends again in the same session *)
Example C74_example :
  store_ok (st0 7) /\ powered cfg4 EU_863_870 quiet_run (st0 7) (out1 ++ out2) /\ nonces_left (out1 ++ out2) /\
  join_nonces (out1 ++ out2) = [7] /\ join_news (out1 ++ out2) = [2] /\ st_devNonce st1 = 8 /\ st_joinNonce st1 = 2 /\
  sends 0 (out1 ++ out2) =
    [(1, [64; 218; 27; 1; 38; 128; 0; 0; 1; 1; 2; 3; 1; 2; 3; 4]);
     (2, [64; 218; 27; 1; 38; 128; 1; 0; 1; 1; 2; 3; 1; 2; 3; 4])].
Proof. split; [exact (st0_ok 7 eq_refl)|]. split; [exact ex_powered|]. split; [exact ex_left|]. vm_compute. repeat split. Qed.

(* the bound is needed: 65536 is announced and 0 stored (store.h:72), so the
   device that has used every devNonce starts again with 0 after a power
   cycle.  Without the power cycle it would stop: C02, JOINNONCE *)
Definition h_ask : history := us (h_boot ++ h_join_tx 30).
Lemma h_ask_quiet : quiet_run h_ask. Proof. apply quiet_runs. vm_compute. reflexivity. Qed.
Definition ask1 : list out := m_log (run cfg4 h_ask (mbed_start cfg4 EU_863_870 (st0 65535) (at_t 0))).
Definition st_ask : store := fold_left app_handler ask1 (st0 65535).
Definition ask2 : list out :=
  m_log (run cfg4 h_ask (mbed_start cfg4 EU_863_870 st_ask (at_t 0))).
Lemma ask_powered : powered cfg4 EU_863_870 quiet_run (st0 65535) (ask1 ++ ask2 ++ []).
Proof.
  eapply whole_cycle with (s' := st_ask); [exact h_ask_quiet|unfold ask1; reflexivity|unfold st_ask; reflexivity|].
  eapply whole_cycle; [exact h_ask_quiet|unfold ask2; reflexivity|reflexivity|constructor].
Qed.
Theorem C74_nonces_refuted :
  exists c r ok s l, in_place c /\ c_l2 c <> L2_1_0_3 /\ store_ok s /\ powered c r ok s l /\
  ~ StronglySorted Z.lt (join_nonces l) /\ ~ Forall (fun n => st_devNonce s <= n) (join_nonces l).
Proof.
  exists cfg4, EU_863_870, quiet_run, (st0 65535), (ask1 ++ ask2 ++ []).
  split; [split; [reflexivity|auto]|]. split; [discriminate|].
  split; [exact (st0_ok 65535 eq_refl)|].
  split.
  { exact ask_powered. }
  assert (join_nonces (ask1 ++ ask2 ++ []) = [65535; 0]) as -> by (vm_compute; reflexivity).
  split; intros H.
  - inversion H as [|? ? _ F]. inversion F. lia.
  - inversion H as [|? ? _ F]. inversion F as [|? ? L _]. cbn in L. lia.
Qed.
Print Assumptions C74_nonces_refuted.

(* the store the library comes with forgets the session, and with a power
   cycle everything *)
Example C74_default_store : st_session (fold_left default_handler out1 (st0 7)) = None.
Proof. vm_compute. reflexivity. Qed.
