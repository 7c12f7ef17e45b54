(* Refused requests. *)
From Verif Require Import Lib FrameM CommandsM RegionM RadioM SmM MacStateM MacTac MacUtilM OpsM MacCmdM MacProcM MacApiM MacRw CoreP CaseP RxP SpecHist HistP EndP.

Lemma busy_refused c e k m : is_request k = true -> m_op m <> OP_NONE ->
  fst (step c e k m) = m /\ refuses (snd (step c e k m)) = true.
Proof.
  intros R O. destruct k; try discriminate R; cbn [step]; unfold st_ret.
  - open_def MAC_entropy. destruct (m_op m); try congruence; auto.
  - open_def MAC_otaa. destruct (s_joined _); [auto|]. destruct (m_op m); try congruence; auto.
  - open_def MAC_abp. destruct (s_joined _); [auto|]. destruct (m_op m); try congruence; auto.
  - open_def MAC_data. destruct (negb _); [auto|]. destruct (m_op m); try congruence; auto.
Qed.

(* in terms of what is seen from outside *)
Theorem busy_exclusion c r a e0 h e k :
  let m0 := MAC_init c r a e0 in
  is_request k = true -> count is_start (items c h m0) <> count is_end (items c h m0) ->
  let m := run c h m0 in
  fst (step c e k m) = m /\ refuses (snd (step c e k m)) = true.
Proof.
  intros m0 R N. apply busy_refused; [exact R|]. pose proof (busy_state c r a e0 h) as B. cbv zeta in B. fold m0 in B.
  intros E. rewrite E in B. lia.
Qed.

Lemma data_refused c e cf port data o m :
  refuses (snd (step c e (C_data cf port data o) m)) = true ->
  exists tx, fst (step c e (C_data cf port data o) m) = set_m_tx tx m.
Proof.
  cbn [step]. unfold st_ret. cbn [fst snd]. open_def MAC_data.
  destruct (negb _); [intros _; exists (m_tx m); apply set_tx_same|].
  destruct (m_op m); cbn [fst snd]; try (intros _; exists (m_tx m); apply set_tx_same).
  destruct (_ && _); [|intros _; exists (m_tx m); apply set_tx_same].
  destruct (band_global m =? 0); [|intros _; exists (m_tx m); apply set_tx_same]. cbv zeta.
  destruct (selectChannel _ _ _ _ _) as [tx fd]. destruct fd; [|intros _; eexists; unfold on_tx; reflexivity].
  destruct (_ <=? _); [|intros _; exists tx; reflexivity].
  destruct (compose cf port data _ _ _) as [[f op] st] eqn:C.
  destruct (prepareData _ _ _ _ _) as [b n]. cbn [fst snd]. intros H. apply compose_op in C. destruct C as [_ [-> | ->]]; discriminate H.
Qed.

(* which refusal *)
Lemma data_status c e cf port data o m :
  let st := snd (MAC_data c e cf port data o m) in
  let s := m_ctx m in
  if negb (s_joined s) then st = STATUS_NOTJOINED
  else if negb (match m_op m with OP_NONE => true | _ => false end) then st = STATUS_BUSY
  else if negb ((1 <=? port) && (port <=? 223)) then st = STATUS_PORT
  else if negb (band_global m =? 0) then st = STATUS_NOCHANNEL
  else st <> STATUS_NOTJOINED /\ st <> STATUS_BUSY /\ st <> STATUS_PORT /\
    (st = STATUS_NOCHANNEL -> snd (selectChannel (sel_start c m) (s_rate s) 0 (e_rand e RND_CHANNEL) (m_tx (sel_start c m))) = false) /\
    (snd (selectChannel (sel_start c m) (s_rate s) 0 (e_rand e RND_CHANNEL) (m_tx (sel_start c m))) = true ->
     (st = STATUS_SIZE <-> rate_mtu (s_region s) (s_rate s) < len_of data + Frame_dataOverhead)).
Proof.
  cbv zeta. open_def MAC_data. fold (len_of data). destruct (negb (s_joined _)); [reflexivity|]. destruct (m_op m); try reflexivity. cbn [negb].
  replace ((1 <=? port) && (port <=? 223)) with ((port >? 0) && (port <=? 223)) by lia.
  destruct ((port >? 0) && (port <=? 223)); [|reflexivity]. cbn [negb]. destruct (band_global m =? 0); [|reflexivity]. cbn [negb].
  fold (sel_start c m). cbv zeta.
  destruct (selectChannel _ _ _ _ _) as [tx fd]. cbn [snd]. destruct fd; [|cbn [snd]; repeat split; congruence].
  destruct (_ <=? _) eqn:SZ.
  - destruct (compose cf port data _ _ _) as [[f op] st] eqn:C. destruct (prepareData _ _ _ _ _) as [b n]. cbn [snd].
    apply compose_op in C. destruct C as [_ [-> | ->]]; repeat split; try congruence; lia.
  - cbn [snd]. repeat split; try congruence; lia.
Qed.
