(* The SX126x driver on the chip of SpecChip. *)
From Verif Require Import Lib Words RegionM RadioM MacStateM ChipM SX126xM DriverM SpecModes SpecChip DriveP Chip7P.

Fixpoint answers (ok : nat -> bool) (n : nat) (l : list chip_op) : list (chip_op * bool) :=
  match l with
  | [] => []
  | ChipMode m :: l => (ChipMode m, true) :: answers ok n l
  | o :: l => (o, ok n) :: answers ok (S n) l
  end.
Lemma with_answers_eq ok l : with_answers ok l = answers ok 0 l.
Proof.
  unfold with_answers. generalize 0%nat. induction l as [|o l IH]; intros n; [reflexivity|]. destruct o; cbn [answers]; now rewrite IH.
Qed.

Lemma ops6_app l1 : forall s l2, chip6_ops s (l1 ++ l2) =
  (fst (chip6_ops (fst (chip6_ops s l1)) l2), snd (chip6_ops s l1) ++ snd (chip6_ops (fst (chip6_ops s l1)) l2)).
Proof.
  induction l1 as [|o l1 IH]; intros s l2; cbn [app chip6_ops].
  - cbn [fst snd app]. now destruct (chip6_ops s l2).
  - destruct (chip6_op s o) as [s1 a]. rewrite (IH s1 l2). destruct (chip6_ops s1 l1) as [s2 b]. cbn [fst snd].
    destruct (chip6_ops s2 l2). cbn [fst snd]. now rewrite app_assoc.
Qed.

Definition yes (o : chip_op) : chip_op * bool := (o, true).
Definition quiet6 (o : chip_op) : Prop := forall s b, snd (chip6_op s (o, b)) = [].

Lemma silent6 l : Forall quiet6 l -> forall ok n s, snd (chip6_ops s (answers ok n l)) = [].
Proof.
  induction 1 as [|o l Q _ IH]; intros ok n s; [reflexivity|].
  assert (forall b m, snd (chip6_ops s ((o, b) :: answers ok m l)) = []) as K.
  { intros b m. cbn [chip6_ops]. specialize (Q s b). destruct (chip6_op s (o, b)) as [s1 a]. cbn [snd] in Q. subst a.
    specialize (IH ok m s1). destruct (chip6_ops s1 _) as [s2 a]. exact IH. }
  destruct o; cbn [answers]; apply K.
Qed.

(* a sequence that is given up at the first refusal, of which only the last
   command starts the radio *)
Lemma attempt6 ok l last : Forall quiet6 l -> (forall m, last <> ChipMode m) -> (forall s, snd (chip6_op s (last, false)) = []) -> forall n s,
  snd (chip6_ops s (answers ok n (fst (attempt ok n (l ++ [last]))))) =
  if snd (attempt ok n (l ++ [last])) then snd (chip6_op (fst (chip6_ops s (map yes l))) (last, true)) else [].
Proof.
  intros Q NM NF. induction Q as [|o l Q _ IH]; intros n s.
  - cbn [app attempt map chip6_ops fst]. destruct last as [m|op d|op d]; [now destruct (NM m)| |];
      (destruct (ok n) eqn:E; cbn [fst snd answers]; rewrite E; cbn [chip6_ops];
       [destruct (chip6_op s _) as [s1 a]; cbn [snd]; apply app_nil_r|
        specialize (NF s); destruct (chip6_op s _) as [s1 a]; cbn [snd] in *; rewrite NF; reflexivity]).
  - cbn [app]. pose proof (Q s true) as Q1. pose proof (Q s false) as Q0.
    destruct o as [m|op d|op d]; cbn [attempt map].
    + specialize (IH n (fst (chip6_op s (yes (ChipMode m))))).
      destruct (attempt ok n (l ++ [last])) as [a b]. cbn [fst snd answers chip6_ops] in *. unfold yes in *.
      destruct (chip6_op s (ChipMode m, true)) as [s1 e1]. cbn [fst snd] in *. subst e1.
      destruct (chip6_ops s1 (map (fun o => (o, true)) l)) as [s3 e3]; cbn [fst] in *.
      destruct (chip6_ops s1 (answers ok n a)) as [s2 e2]. cbn [fst snd app] in *. exact IH.
    + specialize (IH (S n) (fst (chip6_op s (yes (ChipWrite op d))))).
      destruct (ok n) eqn:E.
      * destruct (attempt ok (S n) (l ++ [last])) as [a b]. cbn [fst snd answers chip6_ops] in *. rewrite E. unfold yes in *.
        destruct (chip6_op s (ChipWrite op d, true)) as [s1 e1]. cbn [fst snd] in *. subst e1.
        destruct (chip6_ops s1 (map (fun o => (o, true)) l)) as [s3 e3]; cbn [fst] in *.
        destruct (chip6_ops s1 (answers ok (S n) a)) as [s2 e2]. cbn [fst snd app] in *. exact IH.
      * cbn [fst snd answers chip6_ops]. rewrite E. cbn [chip6_op]. reflexivity.
    + specialize (IH (S n) (fst (chip6_op s (yes (ChipRead op d))))).
      destruct (ok n) eqn:E.
      * destruct (attempt ok (S n) (l ++ [last])) as [a b]. cbn [fst snd answers chip6_ops] in *. rewrite E. unfold yes in *.
        destruct (chip6_op s (ChipRead op d, true)) as [s1 e1]. cbn [fst snd] in *. subst e1.
        destruct (chip6_ops s1 (map (fun o => (o, true)) l)) as [s3 e3]; cbn [fst] in *.
        destruct (chip6_ops s1 (answers ok (S n) a)) as [s2 e2]. cbn [fst snd app] in *. exact IH.
      * cbn [fst snd answers chip6_ops]. rewrite E. cbn [chip6_op]. reflexivity.
Qed.

Lemma attempt_all ok l : (forall n, ok n = true) -> forall n, snd (attempt ok n l) = true.
Proof.
  intros H. induction l as [|o l IH]; intros n; [reflexivity|]. destruct o; cbn [attempt]; rewrite ?H.
  - specialize (IH n). destruct (attempt ok n l). exact IH.
  - specialize (IH (S n)). destruct (attempt ok (S n) l). exact IH.
  - specialize (IH (S n)). destruct (attempt ok (S n) l). exact IH.
Qed.

(* the buffer *)
Lemma load6_spec d : forall a f, Z.of_nat (length d) <= 256 ->
  (forall i, (i < length d)%nat -> load6 f a d ((a + Z.of_nat i) mod 256) = nth i d 0) /\
  (forall q, (forall i, (i < length d)%nat -> q <> (a + Z.of_nat i) mod 256) -> load6 f a d q = f q).
Proof.
  induction d as [|v d IH]; intros a f L; cbn [load6].
  - split; [intros i H; cbn [length] in H; lia|reflexivity].
  - cbn [length] in L. destruct (IH (a + 1) (upd f (a mod 256) v)) as [F O]; [lia|]. split.
    + intros [|i] Hi; cbn [length] in Hi; cbn [nth].
      * rewrite O.
        -- unfold upd. rewrite Z.add_0_r, Z.eqb_refl. reflexivity.
        -- intros i Hi2. lia.
      * replace (a + Z.of_nat (S i)) with (a + 1 + Z.of_nat i) by lia. apply F. lia.
    + intros q Hq. rewrite O.
      * unfold upd. destruct (q =? a mod 256) eqn:X; [|reflexivity]. exfalso. apply (Hq 0%nat); [cbn [length]; lia|]. rewrite Z.add_0_r. lia.
      * intros i Hi. replace (a + 1 + Z.of_nat i) with (a + Z.of_nat (S i)) by lia. apply Hq. cbn [length]. lia.
Qed.

Lemma frf6 freq : 0 <= freq < 4096000000 ->
  let f := u32 (Z.shiftl freq 25 / 32000000) in
  on_freq 1 freq (16777216 * u8 (Z.shiftr f 24) + 65536 * u8 (Z.shiftr f 16) + 256 * u8 (Z.shiftr f 8) + u8 f).
Proof.
  intros H f. unfold on_freq. unfold f, u32, u8. rewrite !Z.shiftr_div_pow2, Z.shiftl_mul_pow2 by lia.
  change (2 ^ 25) with 33554432. change (2 ^ 24) with 16777216. change (2 ^ 16) with 65536. change (2 ^ 8) with 256.
  assert (0 <= freq * 33554432 / 32000000 < 4294967296) by lia.
  rewrite (Z.mod_small (freq * 33554432 / 32000000)) by lia. lia.
Qed.

Ltac q6 := let s0 := fresh in let b0 := fresh in intros s0 b0; destruct b0; reflexivity.
Ltac f6 := repeat (apply Forall_cons; [q6|]); apply Forall_nil.
Lemma quiet_power x p : Forall quiet6 (SetPower x p).
Proof.
  unfold SetPower. cbv zeta. destruct (pa_used x); repeat (destruct (_ >? _)); repeat constructor; q6.
Qed.
Lemma quiet_image freq : quiet6 (CalibrateImage freq).
Proof. unfold CalibrateImage. repeat (destruct (_ <? _)); q6. Qed.

(* the power and calibration commands change nothing of this *)
Lemma after_power x p : forall s l, chip6_ops s (map yes (SetPower x p) ++ l) = chip6_ops s l.
Proof.
  intros s l. unfold SetPower. cbv zeta.
  destruct (pa_used x); repeat (destruct (_ >? _)); cbn [map app yes chip6_ops chip6_op cmd SetPaConfig SetTxParams chip6_cmd]; now destruct (chip6_ops s l).
Qed.
Lemma after_image (b : bool) freq : forall s l, chip6_ops s (map yes (if b then [CalibrateImage freq] else []) ++ l) = chip6_ops s l.
Proof.
  intros s l. destruct b; [|reflexivity]. unfold CalibrateImage. repeat (destruct (_ <? _)); cbn [map app yes chip6_ops chip6_op cmd chip6_cmd]; now destruct (chip6_ops s l).
Qed.

Lemma transmit6 ok x s freq b sf eirp data : 0 <= freq < 4096000000 -> rate_ok b sf -> Z.of_nat (length data) <= 255 ->
  exists a, air_for 1 freq b sf true a /\
  snd (chip6_ops s (answers ok 0 (fst (attempt ok 0 (transmit_cmds x freq b sf eirp data))))) =
  if snd (attempt ok 0 (transmit_cmds x freq b sf eirp data)) then [Sent a data] else [].
Proof.
  intros F R L. set (f := u32 (Z.shiftl freq 25 / 32000000)).
  set (frf := 16777216 * u8 (Z.shiftr f 24) + 65536 * u8 (Z.shiftr f 16) + 256 * u8 (Z.shiftr f 8) + u8 f).
  exists (mkAir frf (hz_of b) sf 1 8 true true (2 ^ sf * 1000 >? 16 * hz_of b) false true).
  split; [exists frf; split; [exact (frf6 freq F)|reflexivity]|].
  unfold transmit_cmds.
  set (pre := [SetPacketType_LORA] ++ (if d6_pending x then [CalibrateImage freq] else []) ++ SetPower x (s16 (eirp - d6_gain x)) ++
   [SetBufferBaseAddress00; SetRfFrequency freq; WriteBuffer0 data; SetModulationParams b sf;
   SetPacketParams (u8 (Z.of_nat (length data))) true false; SetDioIrqParams 1 1; SetSyncWord]).
  replace ([SetPacketType_LORA] ++ _) with (pre ++ [SetTx0]) by (unfold pre; rewrite <- !app_assoc; reflexivity).
  rewrite attempt6.
  - destruct (snd (attempt ok 0 (pre ++ [SetTx0]))); [|reflexivity].
    assert (forall z, u8 sf = z -> sf = z) as US by (intros z; unfold u8; destruct R as [R _]; rewrite Z.mod_small; lia).
    replace (fst (chip6_ops s (map yes pre))) with (mkChip6 true frf (sf, match b with BW_125 => 4 | BW_250 => 5 | BW_500 => 6 end, 1, if ldro b sf then 1 else 0)
      (8, 0, Z.of_nat (length data), 1, 0) 13380 0 (y_symbols s) (load6 (y_buffer s) 0 data)).
    + cbn [chip6_op SetTx0 cmd chip6_cmd snd y_lora]. f_equal. f_equal.
      * unfold air6. cbn [y_mod y_pkt y_frf y_sync]. rewrite <- (rates b sf R). destruct (ldro b sf), b; reflexivity.
      * unfold payload6, len6. cbn [y_pkt y_base y_buffer]. rewrite Nat2Z.id. apply payload_of. apply load6_spec. lia.
    + unfold pre. rewrite !map_app, ops6_app. cbn [fst]. rewrite after_image, after_power.
      cbn [map yes chip6_ops chip6_op cmd SetPacketType_LORA SetBufferBaseAddress00 SetRfFrequency WriteBuffer0 SetModulationParams SetPacketParams SetDioIrqParams SetSyncWord chip6_cmd fst
        y_lora y_frf y_mod y_pkt y_sync y_base y_symbols y_buffer].
      fold f. fold frf. rewrite <- (US (u8 sf) eq_refl).
      replace (u8 (Z.of_nat (length data))) with (Z.of_nat (length data)) by (unfold u8; rewrite Z.mod_small; lia). reflexivity.
  - unfold pre. rewrite !Forall_app. split; [f6|]. split; [destruct (d6_pending x); [apply Forall_cons; [apply quiet_image|]|]; apply Forall_nil|].
    split; [apply quiet_power|f6].
  - discriminate.
  - reflexivity.
Qed.

Lemma receive6 ok x s freq b sf t max : 0 <= freq < 4096000000 -> rate_ok b sf -> 0 <= t ->
  exists a, air_for 1 freq b sf false a /\
  snd (chip6_ops s (answers ok 0 (fst (attempt ok 0 (receive_cmds x freq b sf t max))))) =
  if snd (attempt ok 0 (receive_cmds x freq b sf t max)) then [Listened a (wait6 t) max] else [].
Proof.
  intros F R T. set (f := u32 (Z.shiftl freq 25 / 32000000)).
  set (frf := 16777216 * u8 (Z.shiftr f 24) + 65536 * u8 (Z.shiftr f 16) + 256 * u8 (Z.shiftr f 8) + u8 f).
  exists (mkAir frf (hz_of b) sf 1 8 true false (2 ^ sf * 1000 >? 16 * hz_of b) true true).
  split; [exists frf; split; [exact (frf6 freq F)|reflexivity]|].
  unfold receive_cmds.
  set (pre := [ChipMode CHIP_RX; SetPacketType_LORA] ++ (if d6_pending x then [CalibrateImage freq] else []) ++
   [SetBufferBaseAddress00; SetRfFrequency freq; SetModulationParams b sf;
   SetPacketParams max false true; SetDioIrqParams 514 514; SetSyncWord; SetLoRaSymbNumTimeout (symbols126 t)]).
  replace ([ChipMode CHIP_RX; SetPacketType_LORA] ++ _) with (pre ++ [SetRx0]) by (unfold pre; rewrite <- !app_assoc; reflexivity).
  rewrite attempt6.
  - destruct (snd (attempt ok 0 (pre ++ [SetRx0]))); [|reflexivity].
    assert (forall z, u8 sf = z -> sf = z) as US by (intros z; unfold u8; destruct R as [R _]; rewrite Z.mod_small; lia).
    replace (fst (chip6_ops s (map yes pre))) with (mkChip6 true frf (sf, match b with BW_125 => 4 | BW_250 => 5 | BW_500 => 6 end, 1, if ldro b sf then 1 else 0)
      (8, 0, max, 0, 1) 13380 0 (symbols126 t) (y_buffer s)).
    + cbn [chip6_op SetRx0 cmd chip6_cmd snd y_lora]. f_equal. unfold len6. cbn [y_pkt y_symbols]. f_equal.
      * unfold air6. cbn [y_mod y_pkt y_frf y_sync]. rewrite <- (rates b sf R). destruct (ldro b sf), b; reflexivity.
      * unfold symbols126, wait6, u8. destruct (t >? 255) eqn:E; lia.
    + unfold pre. rewrite !map_app, ops6_app. cbn [fst]. rewrite after_image.
      cbn [map yes chip6_ops chip6_op cmd SetPacketType_LORA SetBufferBaseAddress00 SetRfFrequency SetModulationParams SetPacketParams SetDioIrqParams SetSyncWord SetLoRaSymbNumTimeout chip6_cmd fst
        y_lora y_frf y_mod y_pkt y_sync y_base y_symbols y_buffer].
      fold f. fold frf. rewrite <- (US (u8 sf) eq_refl). reflexivity.
  - unfold pre. rewrite !Forall_app. split; [f6|]. split; [destruct (d6_pending x); [apply Forall_cons; [apply quiet_image|]|]; apply Forall_nil|]. f6.
  - discriminate.
  - reflexivity.
Qed.

Lemma entropy6 ok s : exists a n k,
  snd (chip6_ops s (answers ok 0 (fst (attempt ok 0 receiveEntropy_cmds)))) =
  if snd (attempt ok 0 receiveEntropy_cmds) then [Listened a n k] else [].
Proof.
  change receiveEntropy_cmds with ([ChipMode CHIP_RX; SetPacketType_LORA; SetDioIrqParams 0 0] ++ [SetRx0]).
  exists (air6 (mkChip6 true (y_frf s) (y_mod s) (y_pkt s) (y_sync s) (y_base s) (y_symbols s) (y_buffer s))), (y_symbols s), (len6 s).
  rewrite attempt6; [|f6|discriminate|reflexivity].
  destruct (snd (attempt ok 0 _)); reflexivity.
Qed.

Lemma quiet_mode x n l y : setMode126 x n = Some (l, y) -> Forall quiet6 l.
Proof.
  destruct x as [ty m xt pa re vo te pe g]. unfold setMode126. cbn [d6_mode]. intros H.
  destruct n, m; try discriminate H; injection H as <- _; try f6; unfold cold_start; cbn [d6_type d6_xtal d6_regulator d6_txen d6_voltage];
  rewrite !Forall_app; (split; [f6|]; split; [destruct ty; f6|destruct xt; f6]).
Qed.
Lemma allowed6 x n : change_ok (d6_mode x) n = true -> exists l y, setMode126 x n = Some (l, y) /\ d6_mode y = n.
Proof. destruct x as [ty m xt pa re vo te pe g]; cbn [d6_mode]. destruct n, m; intros H; try discriminate H; eexists; eexists; split; reflexivity. Qed.

Lemma call6 ok o x d' s : next_mode (d6_mode x) o = Some d' -> sane o = true -> tunable limit6 o ->
  exists ops y s' ev take, call126 ok o x = Some (ops, y) /\ d6_mode y = d' /\ chip6_ops s ops = (s', ev) /\
  ((forall n, ok n = true) -> take = true) /\ Forall2 (asked 1 wait6) (filter on_air (if take : bool then [o] else [])) ev.
Proof.
  intros N SN LF. apply sane_spec in SN. destruct o as [evt|n|freq b sf eirp data|freq b sf t max|]; cbn [next_mode] in N.
  - injection N as <-. exists [], x, s, [], true. repeat (split; [reflexivity|]). constructor.
  - destruct (change_ok (d6_mode x) n) eqn:C; [|discriminate N]. injection N as <-.
    destruct (allowed6 x n C) as (l & y & E & M). exists (with_answers ok l), y. cbn [call126]. rewrite E, with_answers_eq.
    destruct (chip6_ops s (answers ok 0 l)) as [s' ev] eqn:CO.
    pose proof (silent6 l (quiet_mode _ _ _ _ E) ok 0 s) as Q. rewrite CO in Q. cbn [snd] in Q. subst ev.
    exists s', [], true. repeat (split; [first [reflexivity|exact M]|]). constructor.
  - destruct (d6_mode x) eqn:M; try discriminate N. injection N as <-. destruct SN as [R L].
    destruct (transmit6 ok x s freq b sf eirp data LF R L) as (a & A & E).
    cbn [call126]. unfold transmit126. destruct (attempt ok 0 (transmit_cmds x freq b sf eirp data)) as [l k] eqn:AT. cbn [fst snd] in E.
    exists (with_answers ok l), (calibrated ok x). rewrite with_answers_eq.
    destruct (chip6_ops s (answers ok 0 l)) as [s' ev]. cbn [snd] in E. exists s', ev, k.
    split; [reflexivity|]. split; [exact M|]. split; [reflexivity|]. split.
    + intros O. pose proof (attempt_all ok (transmit_cmds x freq b sf eirp data) O 0) as X. rewrite AT in X. exact X.
    + rewrite E. destruct k; cbn [filter on_air]; [constructor; [exists a; auto|constructor]|constructor].
  - destruct (d6_mode x) eqn:M; try discriminate N. injection N as <-. destruct LF as [LF T].
    destruct (receive6 ok x s freq b sf t max LF SN T) as (a & A & E).
    cbn [call126]. unfold receive126. destruct (attempt ok 0 (receive_cmds x freq b sf t max)) as [l k] eqn:AT. cbn [fst snd] in E.
    exists (with_answers ok l), (calibrated ok x). rewrite with_answers_eq.
    destruct (chip6_ops s (answers ok 0 l)) as [s' ev]. cbn [snd] in E. exists s', ev, k.
    split; [reflexivity|]. split; [exact M|]. split; [reflexivity|]. split.
    + intros O. pose proof (attempt_all ok (receive_cmds x freq b sf t max) O 0) as X. rewrite AT in X. exact X.
    + rewrite E. destruct k; cbn [filter on_air]; [constructor; [exists a; auto|constructor]|constructor].
  - destruct (d6_mode x) eqn:M; try discriminate N. injection N as <-.
    destruct (entropy6 ok s) as (a & n & k & E). cbn [call126].
    exists (with_answers ok (fst (attempt ok 0 receiveEntropy_cmds))), x. rewrite with_answers_eq.
    destruct (chip6_ops s _) as [s' ev]. cbn [snd] in E. exists s', ev, (snd (attempt ok 0 receiveEntropy_cmds)).
    split; [reflexivity|]. split; [exact M|]. split; [reflexivity|]. split; [intros O; now apply attempt_all|].
    rewrite E. destruct (snd _); cbn [filter on_air]; [constructor; [exact I|constructor]|constructor].
Qed.

Lemma calls6 l : forall ok x d' s, modes (d6_mode x) l = Some d' -> Forall (fun o => sane o = true) l -> Forall (tunable limit6) l ->
  exists ops y s' ev take, calls126 ok l x = Some (ops, y) /\ d6_mode y = d' /\ chip6_ops s ops = (s', ev) /\
  (forall i, (forall n, ok i n = true) -> take i = true) /\ Forall2 (asked 1 wait6) (filter on_air (kept take l)) ev.
Proof.
  induction l as [|o l IH]; intros ok x d' s M F G.
  - injection M as <-. exists [], x, s, [], (fun _ => true). repeat (split; [reflexivity|]). constructor.
  - cbn [modes] in M. destruct (next_mode (d6_mode x) o) as [d1|] eqn:N; [|discriminate M].
    inversion F as [|? ? F1 F2]; subst. inversion G as [|? ? G1 G2]; subst.
    destruct (call6 (ok 0%nat) o x d1 s N F1 G1) as (o1 & y & s1 & e1 & k & E1 & M1 & C1 & K1 & A1).
    rewrite <- M1 in M.
    destruct (IH (fun n => ok (S n)) y d' s1 M F2 G2) as (o2 & z & s2 & e2 & take & E2 & M2 & C2 & K2 & A2).
    exists (o1 ++ o2), z, s2, (e1 ++ e2), (fun i => match i with O => k | S i => take i end). cbn [calls126]. rewrite E1, E2.
    split; [reflexivity|]. split; [exact M2|]. split; [|split].
    + rewrite ops6_app, C1. cbn [fst snd]. rewrite C2. reflexivity.
    + intros [|i] H; [now apply K1|now apply K2].
    + cbn [kept]. destruct k.
      * change (filter on_air (o :: kept (fun n => take n) l)) with (filter on_air ([o] ++ kept take l)). rewrite filter_app. now apply Forall2_app.
      * inversion A1; subst. exact A2.
Qed.

Lemma accepted6 l : forall ok x d', modes (d6_mode x) l = Some d' -> exists ops y, calls126 ok l x = Some (ops, y) /\ d6_mode y = d'.
Proof.
  induction l as [|o l IH]; intros ok x d' M; [injection M as <-; exists [], x; auto|].
  cbn [modes] in M. destruct (next_mode (d6_mode x) o) as [d1|] eqn:N; [|discriminate M].
  assert (exists ops y, call126 (ok 0%nat) o x = Some (ops, y) /\ d6_mode y = d1) as (o1 & y & E1 & M1).
  { destruct o as [evt|n|freq b sf eirp data|freq b sf t max|]; cbn [next_mode] in N; cbn [call126].
    - injection N as <-. eexists. eexists. split; reflexivity.
    - destruct (change_ok (d6_mode x) n) eqn:C; [|discriminate N]. injection N as <-.
      destruct (allowed6 x n C) as (l2 & y & E & X). rewrite E. eexists. eexists. split; [reflexivity|exact X].
    - destruct (d6_mode x) eqn:X; try discriminate N; injection N as <-. unfold transmit126. destruct (attempt _ _ _). eexists. eexists. split; [reflexivity|exact X].
    - destruct (d6_mode x) eqn:X; try discriminate N; injection N as <-. unfold receive126. destruct (attempt _ _ _). eexists. eexists. split; [reflexivity|exact X].
    - destruct (d6_mode x) eqn:X; try discriminate N; injection N as <-. eexists. eexists. split; [reflexivity|exact X]. }
  rewrite <- M1 in M. destruct (IH (fun n => ok (S n)) y d' M) as (o2 & z & E2 & M2).
  exists (o1 ++ o2), z. cbn [calls126]. rewrite E1, E2. auto.
Qed.
