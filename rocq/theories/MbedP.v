(* Power cycles of an mbed device. *)
From Verif Require Import Lib StreamM FrameM CommandsM RegionM RadioM SmM MacStateM MacTac MacUtilM OpsM MacCmdM MacProcM MacApiM MacRw CoreP CaseP RxP SpecHist SpecRx HistP EndP TxP UplinkP ReadyP JoinP DataP AcceptP MbedM SpecMbed.
From Coq Require Import Sorting.Sorted.

Definition in32 (n : Z) : Prop := 0 <= n < 4294967296.

(* the joinNonce reported has 32 bits *)
Definition news_ok (l : list out) (m : mac) : Prop := so (m_op m) (m_state m) = true /\ Forall in32 (join_news l).
Lemma news_always c r a e h : Forall in32 (join_news (m_log (run c h (MAC_init c r a e)))).
Proof.
  set (m0 := MAC_init c r a e).
  destruct (init_facts c r a e) as (E1 & E2 & LG & _). cbv zeta in *. fold m0 in E1, E2, LG.
  assert (m_log (run c h m0) = outs (items c h m0)) as EL by (rewrite outs_items, LG; reflexivity). rewrite EL.
  refine (proj2 (hist_ind c (fun _ => True) (fun l m => news_ok (outs l) m) _ _ h [] m0 _ _)).
  - intros l x x' lo (S & K) Q L P. rewrite outs_app, outs_map. unfold news_ok.
    split; [eapply quiet_so; eauto|]. rewrite news_app, (news_none _ (plain_no_join _ P)), app_nil_r. exact K.
  - intros l x e1 k ret x' lo (S & K) _ AC L. rewrite !outs_app, outs_reqs, outs_map. cbn [List.app fst] in *. split; [eapply act_so; eauto|].
    rewrite news_app. apply Forall_app. split; [exact K|]. destruct (act_join _ _ _ _ _ _ _ AC L S) as [[A B]|(_ & buf & f & RF & D & JN & s & ->)].
    + rewrite (news_none _ B). constructor.
    + cbn [join_news flat_map List.app]. constructor; [|constructor]. unfold in32, u32. apply Z.mod_pos_bound. lia.
  - unfold news_ok. rewrite E1, E2. split; [reflexivity|]. constructor.
  - apply Forall_forall. auto.
Qed.

(* what the store holds *)
Lemma kept_euis pre s : st_devEUI (fold_left app_handler pre s) = st_devEUI s /\ st_joinEUI (fold_left app_handler pre s) = st_joinEUI s.
Proof.
  revert s. induction pre as [|o pre IH]; intros s; [auto|]. cbn [fold_left]. destruct (IH (app_handler s o)) as [-> ->]. destruct o as [[]| | | |]; auto.
Qed.
Lemma kept_session pre s : st_session (fold_left app_handler pre s) = last_session (st_session s) pre.
Proof.
  revert s. induction pre as [|o pre IH]; intros s; [auto|]. unfold last_session in *. cbn [fold_left]. rewrite IH. destruct o as [[]| | | |]; auto.
Qed.
Lemma kept_join pre s : Forall in32 (join_news pre) -> st_joinNonce (fold_left app_handler pre s) = join_kept (st_joinNonce s) pre.
Proof.
  revert s. induction pre as [|o pre IH]; intros s F; [auto|]. unfold join_kept, join_news in *. cbn [fold_left flat_map] in *. apply Forall_app in F as [F1 F2].
  rewrite IH by exact F2. destruct o as [[]| | | |]; auto. inversion F1; subst. cbn [app_handler st_joinNonce]. unfold u32. rewrite Z.mod_small by assumption. reflexivity.
Qed.
Lemma kept_nonce pre s : nonces_left pre -> st_devNonce (fold_left app_handler pre s) = announced (st_devNonce s) pre.
Proof.
  revert s. induction pre as [|o pre IH]; intros s F; [auto|]. unfold announced in *. inversion F; subst. cbn [fold_left].
  rewrite IH by assumption. destruct o as [[]| | | |]; auto. cbn [app_handler st_devNonce]. unfold u16. rewrite Z.mod_small by assumption. reflexivity.
Qed.
Lemma kept_ok pre s : store_ok s -> store_ok (fold_left app_handler pre s).
Proof.
  revert s. induction pre as [|o pre IH]; intros s K; [exact K|]. cbn [fold_left]. apply IH. destruct K as (K1 & K2 & K3 & K4).
  unfold store_ok, app_handler, u16, u32. destruct o as [[]| | | |]; (split; [exact K1|split; [exact K2|split]]); cbn [st_devNonce st_joinNonce]; try lia; apply Z.mod_pos_bound; lia.
Qed.
Lemma start_ok s : store_ok s -> arg_ok (start_arg s).
Proof. intros (K1 & K2 & K3 & K4). unfold arg_ok. cbn [start_arg ia_joinEUI ia_devEUI ia_devNonce ia_joinNonce]. repeat split; try apply K1; try apply K2; lia. Qed.

Theorem powered_nonces c r (ok : history -> Prop) s l : store_ok s -> powered c r ok s l -> nonces_left l -> lives c (st_devNonce s) l.
Proof.
  intros K H. induction H as [s|s e h pre post rest O EL H IH]; intros N; [constructor|]. apply Forall_app in N as [N1 N2].
  refine (life c (st_devNonce s) r (start_arg s) e h pre post rest (start_ok s K) eq_refl EL _).
  rewrite <- kept_nonce by exact N1. apply IH; [now apply kept_ok|exact N2].
Qed.
Theorem powered_accepts c r (ok : history -> Prop) s l : store_ok s -> (forall h, ok h -> air_ok h) -> powered c r ok s l -> accept_lives c (st_joinNonce s) l.
Proof.
  intros K A H. induction H as [s|s e h pre post rest O EL H IH]; [constructor|].
  refine (alife c (st_joinNonce s) r (start_arg s) e h pre post rest (start_ok s K) eq_refl (A h O) EL _).
  rewrite <- kept_join; [apply IH; now apply kept_ok|]. pose proof (news_always c r (start_arg s) e h) as N. unfold mbed_start in EL. rewrite EL, news_app in N. now apply Forall_app in N as [N _].
Qed.
Theorem powered_sessions c r (ok : history -> Prop) s l : store_ok s -> (forall h, ok h -> Forall (fun x => not_forget (snd x)) h) -> powered c r ok s l -> session_lives c r (st_session s) l.
Proof.
  intros K A H. induction H as [s|s e h pre post rest O EL H IH]; [constructor|].
  refine (slife c r (st_session s) (start_arg s) e h pre post rest (start_ok s K) eq_refl (A h O) EL _).
  rewrite <- kept_session. apply IH. now apply kept_ok.
Qed.

Theorem mbed_nonces c r (ok : history -> Prop) s l : in_place c -> c_l2 c <> L2_1_0_3 -> store_ok s -> powered c r ok s l -> nonces_left l ->
  StronglySorted Z.lt (join_nonces l) /\ Forall (fun n => st_devNonce s <= n) (join_nonces l).
Proof. intros IP V K H N. exact (lives_increase c _ l IP V (powered_nonces c r ok s l K H N)). Qed.
Theorem mbed_accepts c r (ok : history -> Prop) s l : octets c -> c_l2 c <> L2_1_0_3 -> store_ok s -> (forall h, ok h -> air_ok h) -> powered c r ok s l ->
  StronglySorted Z.lt (st_joinNonce s :: join_news l).
Proof. intros IP V K A H. exact (accepts_increase c _ l IP V (powered_accepts c r ok s l K A H)). Qed.
Theorem mbed_counters c r (ok : history -> Prop) s l : in_place c -> store_ok s -> session_ok (st_session s) -> (forall h, ok h -> Forall (fun x => not_forget (snd x)) h) -> powered c r ok s l ->
  let u := restart_up r (st_session s) in not_last u l ->
  StronglySorted newer (sends u l) /\ Forall (fun x => u < fst x /\ fcnt_of (snd x) = (fst x - 1) mod 65536) (sends u l).
Proof. intros IP K SO A H u NL. exact (crash_safe c r _ l IP SO (powered_sessions c r ok s l K A H) NL). Qed.
