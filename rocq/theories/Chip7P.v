(* The SX1272 and SX1276 drivers on the chip of SpecChip. *)
From Verif Require Import Lib Words RegionM RadioM MacStateM ChipM SX127xM DriverM SpecModes SpecChip DriveP.

Lemma ops7_app ty l1 : forall s l2, chip7_ops ty s (l1 ++ l2) =
  (fst (chip7_ops ty (fst (chip7_ops ty s l1)) l2), snd (chip7_ops ty s l1) ++ snd (chip7_ops ty (fst (chip7_ops ty s l1)) l2)).
Proof.
  induction l1 as [|o l1 IH]; intros s l2; cbn [app chip7_ops].
  - cbn [fst snd app]. now destruct (chip7_ops ty s l2).
  - destruct (chip7_op ty s o) as [s1 a]. rewrite (IH s1 l2). destruct (chip7_ops ty s1 l1) as [s2 b]. cbn [fst snd].
    destruct (chip7_ops ty s2 l2). cbn [fst snd]. now rewrite app_assoc.
Qed.

(* in LoRa mode, awake *)
Definition up7 (md : Z) (rg ff : Z -> Z) : chip7 := mkChip7 true md rg ff.

Lemma fifo7 ty md rg0 d : md =? 0 = false -> forall rg ff, Z.of_nat (length d) <= 256 -> 0 <= rg 13 < 256 -> (forall q, q <> 13 -> rg q = rg0 q) ->
  exists rg' ff', burst7 ty (up7 md rg ff) 0 d = (up7 md rg' ff', []) /\ (forall q, q <> 13 -> rg' q = rg0 q) /\
  (forall i, (i < length d)%nat -> ff' ((rg 13 + Z.of_nat i) mod 256) = nth i d 0) /\
  (forall a, (forall i, (i < length d)%nat -> a <> (rg 13 + Z.of_nat i) mod 256) -> ff' a = ff a).
Proof.
  intros M. induction d as [|v d IH]; intros rg ff L P Q.
  - exists rg, ff. cbn [burst7]. repeat split; auto. intros i Hi. cbn [length] in Hi. lia.
  - cbn [length] in L. cbn [burst7]. unfold write7, up7. cbn [h_lora h_mode h_reg h_fifo negb orb]. rewrite M.
    change (0 =? 1) with false. change (0 =? 0) with true. cbv iota beta.
    destruct (IH (upd rg 13 ((rg 13 + 1) mod 256)) (upd ff (rg 13) v)) as (rg' & ff' & E & R & F & O).
    + lia.
    + unfold upd. change (13 =? 13) with true. cbv iota. lia.
    + intros q Hq. unfold upd. destruct (q =? 13) eqn:X; [lia|]. auto.
    + exists rg', ff'. unfold up7 in E |- *. rewrite E. split; [reflexivity|]. split; [exact R|].
      assert (upd rg 13 ((rg 13 + 1) mod 256) 13 = (rg 13 + 1) mod 256) as U by reflexivity. rewrite U in F, O.
      assert (forall i, ((rg 13 + 1) mod 256 + Z.of_nat i) mod 256 = (rg 13 + Z.of_nat (S i)) mod 256) as T.
      { intros i. rewrite Zplus_mod_idemp_l. f_equal. lia. }
      split.
      * intros [|i] Hi; cbn [length] in Hi; cbn [nth].
        -- rewrite Z.add_0_r, Z.mod_small by lia. rewrite O.
           ++ unfold upd. now rewrite Z.eqb_refl.
           ++ intros i Hi2. rewrite T. intros C.
              assert ((rg 13 + Z.of_nat (S i)) mod 256 = rg 13) as D by auto. clear - D P Hi2 L. lia.
        -- rewrite <- T. apply F. lia.
      * intros a Ha. rewrite O.
        -- unfold upd. destruct (a =? rg 13) eqn:X; [|reflexivity]. exfalso. apply (Ha 0%nat); [cbn [length]; lia|]. rewrite Z.add_0_r, Z.mod_small; lia.
        -- intros i Hi. rewrite T. apply Ha. cbn [length]. lia.
Qed.

(* a register written in LoRa mode *)
Lemma reg7 ty md rg ff r v l : (r =? 1) = false -> (r =? 0) = false -> Z.testbit (Z.lor r 128) 7 = true -> Z.land (Z.lor r 128) 127 = r ->
  chip7_ops ty (up7 md rg ff) (writeReg r v :: l) = chip7_ops ty (up7 md (upd rg r v) ff) l.
Proof.
  intros A B C D. unfold writeReg. cbn [chip7_ops chip7_op]. rewrite C, D. cbn [burst7]. unfold write7. rewrite A, B.
  unfold up7. cbn [h_lora h_mode h_reg h_fifo negb]. rewrite andb_false_r. cbn [app]. now destruct (chip7_ops ty _ l).
Qed.
Lemma mode7 ty md rg ff m l : m <> CHIP_RESET -> chip7_ops ty (up7 md rg ff) (ChipMode m :: l) = chip7_ops ty (up7 md rg ff) l.
Proof. intros H. cbn [chip7_ops chip7_op]. destruct m; try congruence; cbn [app]; now destruct (chip7_ops ty _ l). Qed.
Lemma read7 ty s a n l : chip7_ops ty s (ChipRead a n :: l) = chip7_ops ty s l.
Proof. cbn [chip7_ops chip7_op app]. now destruct (chip7_ops ty s l). Qed.

Ltac regs := repeat (first [rewrite mode7 by discriminate | rewrite reg7 by reflexivity]).

(* registers 32 and 33, which hold the length of the preamble, are not written *)
Definition pre (rg : Z -> Z) : Prop := rg 32 = 0 /\ rg 33 = 8.

Lemma rates b sf : rate_ok b sf -> ldro b sf = (2 ^ sf * 1000 >? 16 * hz_of b).
Proof.
  intros [H N]. assert (sf = 7 \/ sf = 8 \/ sf = 9 \/ sf = 10 \/ sf = 11 \/ sf = 12) as [-> | [-> | [-> | [-> | [-> | ->]]]]] by lia;
  destruct b; try reflexivity. now destruct N.
Qed.


Lemma modem7 ty b sf (up : bool) t rg : of7 ty -> rate_ok b sf -> 0 <= t <= 1023 ->
  (match ty with
   | SX1272 =>
      rg 29 = Z.lor (Z.lor (Z.lor (match b with BW_125 => 0 | BW_250 => 64 | BW_500 => 128 end) 8) (if up then 2 else 0)) (if ldro b sf then 1 else 0) /\
      rg 30 = Z.lor (Z.lor (u8 (Z.shiftl (Z.land (u8 sf) 15) 4)) 4) (Z.land (u8 (Z.shiftr t 8)) 3)
   | _ =>
      rg 29 = Z.lor (match b with BW_125 => 112 | BW_250 => 128 | BW_500 => 144 end) 2 /\
      rg 30 = Z.lor (Z.lor (u8 (Z.shiftl (Z.land (u8 sf) 15) 4)) (if up then 4 else 0)) (Z.land (u8 (Z.shiftr t 8)) 3) /\
      rg 38 = Z.lor (if ldro b sf then 8 else 0) 4
   end) ->
  bw7 ty rg = hz_of b /\ Z.shiftr (rg 30) 4 = sf /\ cr7 ty rg = 1 /\ implicit7 ty rg = false /\ crc7 ty rg = up /\ ldro7 ty rg = ldro b sf /\
  Z.land (rg 30) 3 = Z.shiftr t 8.
Proof.
  intros T [H _] Ht R.
  assert (exists k, Z.shiftr t 8 = k /\ (k = 0 \/ k = 1 \/ k = 2 \/ k = 3)) as (k & K & KK).
  { exists (Z.shiftr t 8). split; [reflexivity|]. rewrite Z.shiftr_div_pow2 by lia. change (2 ^ 8) with 256. lia. }
  rewrite K in *.
  unfold bw7, cr7, implicit7, crc7, ldro7.
  assert (sf = 7 \/ sf = 8 \/ sf = 9 \/ sf = 10 \/ sf = 11 \/ sf = 12) as HS by lia.
  destruct T as [-> | ->]; [destruct R as [-> ->]|destruct R as (-> & -> & ->)];
  destruct HS as [-> | [-> | [-> | [-> | [-> | ->]]]]]; destruct KK as [-> | [-> | [-> | ->]]]; destruct b, up; vm_compute; repeat split; reflexivity.
Qed.

Lemma frf7 freq : 0 <= freq < 1024000000 ->
  let f := u32 (Z.shiftl freq 19 / 32000000) in
  on_freq 64 freq (64 * (65536 * u8 (Z.shiftr f 16) + 256 * u8 (Z.shiftr f 8) + u8 f)).
Proof.
  intros H f. unfold on_freq. unfold f, u32, u8. rewrite !Z.shiftr_div_pow2, Z.shiftl_mul_pow2 by lia.
  change (2 ^ 19) with 524288. change (2 ^ 16) with 65536. change (2 ^ 8) with 256.
  assert (0 <= freq * 524288 / 32000000 < 16777216) by lia.
  rewrite (Z.mod_small (freq * 524288 / 32000000)) by lia. lia.
Qed.

(* what transmit and receive do to a chip that is awake in LoRa mode *)
Lemma payload_of d f : (forall i, (i < length d)%nat -> f ((0 + Z.of_nat i) mod 256) = nth i d 0) ->
  map (fun i => f ((0 + Z.of_nat i) mod 256)) (seq 0 (length d)) = d.
Proof.
  intros H. apply (nth_ext _ _ 0 0); [now rewrite map_length, seq_length|].
  intros i Hi. rewrite map_length, seq_length in Hi. rewrite <- (H i Hi).
  rewrite (nth_indep _ 0 (f ((0 + Z.of_nat 0) mod 256))) by (now rewrite map_length, seq_length).
  rewrite (map_nth (fun i => f ((0 + Z.of_nat i) mod 256)) (seq 0 (length d)) 0%nat i), seq_nth by lia. reflexivity.
Qed.

Lemma burst_op ty md rg ff d l : chip7_ops ty (up7 md rg ff) (burstWrite RegFifo d :: l) =
  (fst (chip7_ops ty (fst (burst7 ty (up7 md rg ff) 0 d)) l), snd (burst7 ty (up7 md rg ff) 0 d) ++ snd (chip7_ops ty (fst (burst7 ty (up7 md rg ff) 0 d)) l)).
Proof.
  unfold burstWrite. cbn [chip7_ops chip7_op]. change (Z.testbit (Z.lor RegFifo 128) 7) with true. change (Z.land (Z.lor RegFifo 128) 127) with 0.
  cbv iota. destruct (burst7 _ _ _ _) as [s a]. cbn [fst snd]. now destruct (chip7_ops ty s l).
Qed.

Lemma tx_op ty md rg ff : md =? 0 = false -> chip7_ops ty (up7 md rg ff) opTX = (up7 3 rg ff, [sent7 ty (up7 3 rg ff)]).
Proof.
  intros M. unfold opTX, writeReg. cbn [chip7_ops chip7_op]. change (Z.testbit (Z.lor RegOpMode 128) 7) with true. change (Z.land (Z.lor RegOpMode 128) 127) with 1.
  cbv iota. cbn [burst7]. unfold write7, up7. cbn [h_mode h_lora h_reg h_fifo]. rewrite M. reflexivity.
Qed.
Lemma rx_op ty md rg ff : md =? 0 = false -> chip7_ops ty (up7 md rg ff) opRXSingle = (up7 6 rg ff, [listened7 ty (up7 6 rg ff)]).
Proof.
  intros M. unfold opRXSingle, writeReg. cbn [chip7_ops chip7_op]. change (Z.testbit (Z.lor RegOpMode 128) 7) with true. change (Z.land (Z.lor RegOpMode 128) 127) with 1.
  cbv iota. cbn [burst7]. unfold write7, up7. cbn [h_mode h_lora h_reg h_fifo]. rewrite M. reflexivity.
Qed.
Lemma cont_op ty md rg ff : md =? 0 = false -> chip7_ops ty (up7 md rg ff) opRXContinuous = (up7 5 rg ff, [Sampled]).
Proof.
  intros M. unfold opRXContinuous, writeReg. cbn [chip7_ops chip7_op]. change (Z.testbit (Z.lor RegOpMode 128) 7) with true. change (Z.land (Z.lor RegOpMode 128) 127) with 1.
  cbv iota. cbn [burst7]. unfold write7, up7. cbn [h_mode h_lora h_reg h_fifo]. rewrite M. reflexivity.
Qed.

(* the power settings use their own registers *)
Definition pa_settings (x : sx127x) (p : Z) : Z * Z :=
  let dbm := Z.quot p 100 in
  match d7_type x, pa_of (d7_pa x) dbm with
  | SX1272, PA_BOOST => boost1272 dbm
  | SX1272, _ => (rfo1272 dbm, 132)
  | _, PA_BOOST => boost1276 dbm
  | _, _ => (rfo1276 dbm, 132)
  end.
Definition dac7 (ty : radio_type) : Z := match ty with SX1272 => 90 | _ => 77 end.
Lemma power7 ty x p md rg ff : exists rg', (forall q, q <> 9 -> q <> 77 -> q <> 90 -> rg' q = rg q) /\
  rg' 9 = fst (pa_settings x p) /\ rg' (dac7 (d7_type x)) = snd (pa_settings x p) /\
  forall l, chip7_ops ty (up7 md rg ff) (setPower x p ++ l) = chip7_ops ty (up7 md rg' ff) l.
Proof.
  unfold setPower, pa_settings. cbv zeta.
  destruct (d7_type x); destruct (pa_of (d7_pa x) (Z.quot p 100)); cbn [app];
  (eexists; split; [|split; [|split; [|intros l; regs; reflexivity]]; reflexivity]; intros q A B C; unfold upd;
   repeat match goal with |- context [q =? ?k] => let E := fresh in destruct (q =? k) eqn:E;
     [exfalso; apply Z.eqb_eq in E; revert E; first [exact A|exact B|exact C]|clear E] end; reflexivity).
Qed.

(* the modem settings *)
Lemma config7 ty b sf up t md rg ff : of7 ty -> exists rg', (forall q, q <> 29 -> q <> 30 -> q <> 38 -> rg' q = rg q) /\
  (forall l, chip7_ops ty (up7 md rg ff) (modemConfig ty b sf up t ++ l) = chip7_ops ty (up7 md rg' ff) l) /\
  (forall rg2, rg2 29 = rg' 29 -> rg2 30 = rg' 30 -> rg2 38 = rg' 38 -> rate_ok b sf -> 0 <= t <= 1023 ->
   bw7 ty rg2 = hz_of b /\ Z.shiftr (rg2 30) 4 = sf /\ cr7 ty rg2 = 1 /\ implicit7 ty rg2 = false /\ crc7 ty rg2 = up /\
   ldro7 ty rg2 = ldro b sf /\ Z.land (rg2 30) 3 = Z.shiftr t 8).
Proof.
  intros T. unfold modemConfig. cbv zeta. 
  destruct T as [-> | ->]; cbn [app];
  (eexists; split; [|split; [intros l; regs; reflexivity|]];
   [intros q A B C; unfold upd;
    repeat match goal with |- context [q =? ?k] => let E := fresh in destruct (q =? k) eqn:E;
     [exfalso; apply Z.eqb_eq in E; revert E; first [exact A|exact B|exact C]|clear E] end; reflexivity|
    intros rg2 E1 E2 E3 R Ht; apply modem7; [unfold of7; auto|exact R|exact Ht|]; cbv iota; rewrite E1, E2, ?E3; repeat split; reflexivity]).
Qed.

Lemma transmit7 x md rg ff freq b sf eirp data : of7 (d7_type x) -> md =? 0 = false -> pre rg ->
  0 <= freq < 1024000000 -> rate_ok b sf -> Z.of_nat (length data) <= 255 ->
  exists rg' ff' a, chip7_ops (d7_type x) (up7 md rg ff) (transmit127 x freq b sf eirp data) = (up7 3 rg' ff', [Sent a data]) /\
  pre rg' /\ air_for 64 freq b sf true a /\
  rg' 9 = fst (pa_settings x (s16 (eirp - d7_gain x))) /\ rg' (dac7 (d7_type x)) = snd (pa_settings x (s16 (eirp - d7_gain x))).
Proof.
  intros T M [P1 P2] F R L. unfold transmit127.
  destruct (power7 (d7_type x) x (s16 (eirp - d7_gain x)) md rg ff) as (r1 & Q1 & W1 & W2 & E1). rewrite E1. clear E1.
  destruct (config7 (d7_type x) b sf true 0 md r1 ff T) as (r2 & Q2 & E2 & G). rewrite E2. clear E2.
  cbn [app]. regs. rewrite burst_op.
  set (r3 := upd _ RegPayloadLength _).
  assert (forall q, q <> 13 -> q <> 57 -> q <> 51 -> q <> 64 -> q <> 18 -> q <> 17 -> q <> 14 -> q <> 34 -> r3 q = r2 q) as Q3.
  { intros q K1 K2 K3 K4 K5 K6 K7 K8. unfold r3, upd.
    repeat match goal with |- context [q =? ?k] => let E := fresh in destruct (q =? k) eqn:E;
     [exfalso; apply Z.eqb_eq in E; revert E; first [exact K1|exact K2|exact K3|exact K4|exact K5|exact K6|exact K7|exact K8]|clear E] end; reflexivity. }
  destruct (fifo7 (d7_type x) md r3 data M r3 ff) as (r4 & ff' & E & Q4 & FF & _); [lia|change (r3 13) with 0; lia|auto|].
  rewrite E. cbn [fst snd app]. clear E. change (r3 13) with 0 in FF.
  unfold setFreq. cbv zeta. cbn [app]. regs. rewrite tx_op by exact M. cbn [fst snd].
  set (f := u32 _). set (r5 := upd (upd (upd r4 _ _) _ _) _ _).
  assert (forall q, q <> 6 -> q <> 7 -> q <> 8 -> r5 q = r4 q) as Q5.
  { intros q K1 K2 K3. unfold r5, upd.
    repeat match goal with |- context [q =? ?k] => let E := fresh in destruct (q =? k) eqn:E;
     [exfalso; apply Z.eqb_eq in E; revert E; first [exact K1|exact K2|exact K3]|clear E] end; reflexivity. }
  assert (r5 29 = r2 29) as A1 by (rewrite Q5, Q4, Q3 by discriminate; reflexivity).
  assert (r5 30 = r2 30) as A2 by (rewrite Q5, Q4, Q3 by discriminate; reflexivity).
  assert (r5 38 = r2 38) as A3 by (rewrite Q5, Q4, Q3 by discriminate; reflexivity).
  destruct (G r5 A1 A2 A3 R ltac:(lia)) as (B1 & B2 & B3 & B4 & B5 & B6 & _).
  assert (r5 32 = 0) as C1 by (rewrite Q5, Q4, Q3, Q2, Q1 by discriminate; exact P1).
  assert (r5 33 = 8) as C2 by (rewrite Q5, Q4, Q3, Q2, Q1 by discriminate; exact P2).
  assert (r5 57 = 52) as C3 by (rewrite Q5, Q4 by discriminate; reflexivity).
  assert (r5 51 = 39) as C4 by (rewrite Q5, Q4 by discriminate; reflexivity).
  assert (r5 14 = 0) as C5 by (rewrite Q5, Q4 by discriminate; reflexivity).
  assert (r5 34 = Z.of_nat (length data)) as C6.
  { rewrite Q5, Q4 by discriminate. unfold r3, upd. cbn [Z.eqb Pos.eqb RegPayloadLength]. change (u8 (Z.of_nat (length data)) = Z.of_nat (length data)).
    unfold u8. rewrite Z.mod_small; lia. }
  exists r5, ff'. eexists. split; [|split; [split; assumption|split; [|split]]].
  - apply f_equal. apply (f_equal (fun z => [z])). unfold sent7. cbn [h_reg up7].
    replace (payload7 (up7 3 r5 ff')) with data; [reflexivity|].
    unfold payload7, up7. cbn [h_reg h_fifo]. rewrite C5, C6, Nat2Z.id. symmetry. apply payload_of. exact FF.
  - exists (64 * (65536 * r5 6 + 256 * r5 7 + r5 8)). split; [exact (frf7 freq F)|].
    unfold air7. cbn [h_reg up7]. rewrite B1, B2, B3, B4, B5, B6, C1, C2, C3, C4, (rates b sf R). reflexivity.
  - rewrite Q5, Q4, Q3, Q2 by discriminate. exact W1.
  - destruct T as [T|T]; rewrite T in *; cbn [dac7] in *; rewrite Q5, Q4, Q3, Q2 by discriminate; exact W2.
Qed.

Lemma receive7 x md rg ff freq b sf t max : of7 (d7_type x) -> md =? 0 = false -> pre rg ->
  0 <= freq < 1024000000 -> rate_ok b sf ->
  exists rg' a, chip7_ops (d7_type x) (up7 md rg ff) (receive127 x freq b sf t max) =
    (up7 6 rg' ff, [Listened a (Z.max 8 (Z.min 1023 t)) max]) /\
  pre rg' /\ air_for 64 freq b sf false a.
Proof.
  intros T M [P1 P2] F R. unfold receive127. cbv zeta. regs. set (n := symbols127 t).
  assert (n = Z.max 8 (Z.min 1023 t)) as N by (unfold n, symbols127; destruct (t >? 1023) eqn:?; [|destruct (t <? 8) eqn:?]; lia).
  assert (8 <= n <= 1023) as NB by lia. rewrite <- N. clear N.
  destruct (config7 (d7_type x) b sf false n md rg ff T) as (r2 & Q2 & E2 & G). rewrite E2. clear E2.
  unfold setFreq. cbv zeta. cbn [app]. regs. rewrite rx_op by exact M.
  set (f := u32 _). set (r5 := upd _ RegFrfLsb _).
  assert (forall q, q <> 13 -> q <> 57 -> q <> 51 -> q <> 64 -> q <> 18 -> q <> 17 -> q <> 31 -> q <> 12 -> q <> 35 -> q <> 6 -> q <> 7 -> q <> 8 -> r5 q = r2 q) as Q5.
  { intros q K1 K2 K3 K4 K5 K6 K7 K8 K9 K10 K11 K12. unfold r5, upd.
    repeat match goal with |- context [q =? ?k] => let E := fresh in destruct (q =? k) eqn:E;
     [exfalso; apply Z.eqb_eq in E; revert E; first [exact K1|exact K2|exact K3|exact K4|exact K5|exact K6|exact K7|exact K8|exact K9|exact K10|exact K11|exact K12]|clear E] end; reflexivity. }
  assert (r5 29 = r2 29) as A1 by (rewrite Q5 by discriminate; reflexivity).
  assert (r5 30 = r2 30) as A2 by (rewrite Q5 by discriminate; reflexivity).
  assert (r5 38 = r2 38) as A3 by (rewrite Q5 by discriminate; reflexivity).
  destruct (G r5 A1 A2 A3 R ltac:(lia)) as (B1 & B2 & B3 & B4 & B5 & B6 & B7).
  assert (r5 32 = 0) as C1 by (rewrite Q5, Q2 by discriminate; exact P1).
  assert (r5 33 = 8) as C2 by (rewrite Q5, Q2 by discriminate; exact P2).
  exists r5. eexists. split; [|split; [split; assumption|]].
  - apply f_equal. apply (f_equal (fun z => [z])). unfold listened7. cbn [h_reg up7].
    rewrite B7. change (r5 31) with (u8 n). change (r5 35) with max.
    replace (256 * Z.shiftr n 8 + u8 n) with n; [reflexivity|].
    unfold u8. rewrite Z.shiftr_div_pow2 by lia. change (2 ^ 8) with 256. lia.
  - exists (64 * (65536 * r5 6 + 256 * r5 7 + r5 8)). split; [exact (frf7 freq F)|].
    unfold air7. cbn [h_reg up7]. rewrite B1, B2, B3, B4, B5, B6, C1, C2, (rates b sf R). reflexivity.
Qed.

Lemma entropy7 x md rg ff : of7 (d7_type x) -> md =? 0 = false -> pre rg ->
  exists rg', chip7_ops (d7_type x) (up7 md rg ff) (receiveEntropy127 x) = (up7 5 rg' ff, [Sampled]) /\ pre rg'.
Proof.
  intros T M P. unfold receiveEntropy127. destruct T as [-> | ->]; cbn [app]; regs; rewrite cont_op by exact M; eexists; (split; [reflexivity|exact P]).
Qed.

(* the chip in each mode of the driver *)
Definition sits (x : sx127x) (s : chip7) : Prop :=
  pre (h_reg s) /\
  match d7_mode x with
  | MODE_RESET | MODE_BOOT => h_lora s = false /\ h_mode s = 1
  | MODE_SLEEP => h_lora s = true
  | MODE_HOLD => h_lora s = true /\ (d7_xtal x = XTAL_TCXO -> h_mode s =? 0 = false)
  | _ => h_lora s = true /\ h_mode s =? 0 = false
  end.

Lemma sleep_op ty s l : chip7_ops ty s (opSleep ++ l) = chip7_ops ty (mkChip7 true 0 (h_reg s) (h_fifo s)) l.
Proof.
  unfold opSleep, writeReg. cbn [app chip7_ops chip7_op]. change (Z.testbit (Z.lor RegOpMode 128) 7) with true. change (Z.land (Z.lor RegOpMode 128) 127) with 1.
  cbv iota. cbn [burst7]. unfold write7. cbn [h_mode h_lora h_reg h_fifo]. change (1 =? 1) with true. cbv iota. cbn [h_mode h_lora h_reg h_fifo].
  change (Z.land 128 7) with 0. change (0 =? 0) with true. change (Z.testbit 128 7) with true. cbv iota. cbn [app].
  now destruct (chip7_ops ty _ l).
Qed.
Lemma standby_op ty md rg ff : chip7_ops ty (up7 md rg ff) opStandby = (up7 1 rg ff, []).
Proof.
  unfold opStandby, writeReg. cbn [chip7_ops chip7_op]. change (Z.testbit (Z.lor RegOpMode 128) 7) with true. change (Z.land (Z.lor RegOpMode 128) 127) with 1.
  cbv iota. cbn [burst7]. unfold write7, up7. cbn [h_mode h_lora h_reg h_fifo]. change (Z.testbit 129 7) with true. destruct (md =? 0); reflexivity.
Qed.
Lemma xtal_op ty x v md rg ff : exists rg', rg' 32 = rg 32 /\ rg' 33 = rg 33 /\
  forall l, chip7_ops ty (up7 md rg ff) (setXTAL x v ++ l) = chip7_ops ty (up7 md rg' ff) l.
Proof.
  unfold setXTAL. cbv zeta.
  destruct (d7_type x); destruct (Z.land v 16 >? 0); destruct (d7_xtal x); cbn [app]; unfold readReg;
  (eexists; split; [|split; [|intros l; rewrite read7; regs; reflexivity]]; reflexivity).
Qed.

Lemma mode_sits x v n l : change_ok (d7_mode x) n = true -> setMode127 x v n = Some l -> forall s, sits x s ->
  exists s', chip7_ops (d7_type x) s l = (s', []) /\ sits (set_d7_mode n x) s'.
Proof.
  intros C E s [P H]. unfold sits. destruct x as [ty m xt pa g]; cbn [d7_type d7_mode d7_xtal d7_pa d7_gain set_d7_mode] in *.
  destruct s as [lo md rg ff]; cbn [h_lora h_mode h_reg h_fifo] in *.
  destruct n; destruct m; try discriminate C; try discriminate E; cbn [setMode127 d7_mode d7_xtal] in E; injection E as <-;
  try (eexists; split; [reflexivity|]; cbn [h_lora h_mode h_reg h_fifo]; split; [split; reflexivity|split; reflexivity]).
  - eexists. split; [reflexivity|]. auto.
  - eexists. split; [exact (sleep_op ty _ [ChipMode CHIP_SLEEP])|]. auto.
  - eexists. split; [reflexivity|]. auto.
  - destruct H as [-> H]. change (mkChip7 true md rg ff) with (up7 md rg ff). cbn [app]. regs. eexists. split; [exact (sleep_op ty _ [])|].
    split; [exact P|reflexivity].
  - destruct H as [-> H]. change (mkChip7 true md rg ff) with (up7 md rg ff). cbn [app]. regs. eexists. split; [exact (sleep_op ty _ [])|].
    split; [exact P|reflexivity].
  - destruct H as [-> H]. change (mkChip7 true md rg ff) with (up7 md rg ff). cbn [app]. regs. eexists. split; [exact (sleep_op ty _ [])|].
    split; [exact P|reflexivity].
  - subst lo. change (mkChip7 true md rg ff) with (up7 md rg ff). regs.
    assert (exists rg', pre rg' /\ chip7_ops ty (up7 md rg ff) ((match xt with XTAL_TCXO => setXTAL (mk127 ty MODE_SLEEP xt pa g) v | _ => [] end) ++ opStandby) = (up7 1 rg' ff, [])) as (rg' & P' & E).
    { destruct xt; [exists rg; split; [exact P|apply standby_op]|].
      destruct (xtal_op ty (mk127 ty MODE_SLEEP XTAL_TCXO pa g) v md rg ff) as (rg' & A & B & E). exists rg'. rewrite E. split; [|apply standby_op].
      split; [rewrite A|rewrite B]; apply P. }
    eexists. split; [exact E|]. split; [exact P'|]. split; reflexivity.
  - destruct H as [-> H]. change (mkChip7 true md rg ff) with (up7 md rg ff).
    destruct xt; [eexists; split; [apply standby_op|]; split; [exact P|split; reflexivity]|].
    eexists. split; [reflexivity|]. split; [exact P|]. split; [reflexivity|]. apply H. reflexivity.
  - subst lo. change (mkChip7 true md rg ff) with (up7 md rg ff). regs.
    assert (exists rg', pre rg' /\ chip7_ops ty (up7 md rg ff) ((match xt with XTAL_TCXO => setXTAL (mk127 ty MODE_SLEEP xt pa g) v | _ => [] end) ++ opStandby) = (up7 1 rg' ff, [])) as (rg' & P' & E).
    { destruct xt; [exists rg; split; [exact P|apply standby_op]|].
      destruct (xtal_op ty (mk127 ty MODE_SLEEP XTAL_TCXO pa g) v md rg ff) as (rg' & A & B & E). exists rg'. rewrite E. split; [|apply standby_op].
      split; [rewrite A|rewrite B]; apply P. }
    eexists. split; [exact E|]. split; [exact P'|]. split; reflexivity.
  - destruct H as [-> H]. change (mkChip7 true md rg ff) with (up7 md rg ff).
    destruct xt; [eexists; split; [apply standby_op|]; split; [exact P|split; reflexivity]|].
    eexists. split; [reflexivity|]. split; [exact P|]. split; [reflexivity|]. apply H. reflexivity.
  - destruct H as [-> H]. change (mkChip7 true md rg ff) with (up7 md rg ff). cbn [app]. regs.
    destruct xt; [eexists; split; [exact (sleep_op ty _ [])|]; split; [exact P|split; [reflexivity|discriminate]]|].
    eexists. split; [reflexivity|]. split; [exact P|]. split; [reflexivity|]. intros _. exact H.
  - destruct H as [-> H]. change (mkChip7 true md rg ff) with (up7 md rg ff). cbn [app]. regs.
    destruct xt; [eexists; split; [exact (sleep_op ty _ [])|]; split; [exact P|split; [reflexivity|discriminate]]|].
    eexists. split; [reflexivity|]. split; [exact P|]. split; [reflexivity|]. intros _. exact H.
Qed.

Lemma set_mode_fields n x : d7_type (set_d7_mode n x) = d7_type x /\ d7_mode (set_d7_mode n x) = n.
Proof. split; reflexivity. Qed.
Lemma allowed7 x v n : change_ok (d7_mode x) n = true -> exists l, setMode127 x v n = Some l.
Proof. destruct x as [ty m xt pa g]; cbn [d7_mode]. destruct n, m; intros H; try discriminate H; eexists; reflexivity. Qed.

Lemma call7 v o x d' s : of7 (d7_type x) -> sits x s -> next_mode (d7_mode x) o = Some d' -> sane o = true -> tunable limit7 o ->
  exists ops y s' ev, call127 v o x = Some (ops, y) /\ d7_mode y = d' /\ d7_type y = d7_type x /\
  chip7_ops (d7_type x) s ops = (s', ev) /\ sits y s' /\ Forall2 (asked 64 wait7) (filter on_air [o]) ev.
Proof.
  intros T H N SN LF. apply sane_spec in SN. destruct o as [evt|n|freq b sf eirp data|freq b sf t max|]; cbn [next_mode] in N; cbn [filter on_air].
  - injection N as <-. exists [], x, s, []. cbn [call127]. split; [reflexivity|]. split; [reflexivity|]. split; [reflexivity|]. split; [reflexivity|]. split; [exact H|constructor].
  - destruct (change_ok (d7_mode x) n) eqn:C; [|discriminate N]. injection N as <-.
    destruct (allowed7 x v n C) as (l & E). destruct (mode_sits x v n l C E s H) as (s' & E' & S').
    exists l, (set_d7_mode n x), s', []. cbn [call127]. rewrite E. split; [reflexivity|]. split; [reflexivity|]. split; [reflexivity|]. split; [exact E'|]. split; [exact S'|constructor]. 
  - destruct (d7_mode x) eqn:M; try discriminate N. injection N as <-. destruct H as [P H]. rewrite M in H. destruct H as [H1 H2].
    destruct s as [lo md rg ff]. cbn [h_reg h_lora h_mode] in *. subst lo. destruct SN as [R L].
    destruct (transmit7 x md rg ff freq b sf eirp data T H2 P LF R L) as (rg' & ff' & a & E & P' & A & _).
    exists (transmit127 x freq b sf eirp data), x, (up7 3 rg' ff'), [Sent a data]. cbn [call127]. rewrite M.
    split; [reflexivity|]. split; [reflexivity|]. split; [reflexivity|]. split; [exact E|]. split.
    + split; [exact P'|]. rewrite M. split; reflexivity.
    + constructor; [|constructor]. exists a. auto.
  - destruct (d7_mode x) eqn:M; try discriminate N. injection N as <-. destruct H as [P H]. rewrite M in H. destruct H as [H1 H2].
    destruct s as [lo md rg ff]. cbn [h_reg h_lora h_mode] in *. subst lo.
    destruct (receive7 x md rg ff freq b sf t max T H2 P (proj1 LF) SN) as (rg' & a & E & P' & A).
    exists (receive127 x freq b sf t max), x, (up7 6 rg' ff), [Listened a (wait7 t) max]. cbn [call127]. rewrite M.
    split; [reflexivity|]. split; [reflexivity|]. split; [reflexivity|]. split; [exact E|]. split.
    + split; [exact P'|]. rewrite M. split; reflexivity.
    + constructor; [|constructor]. exists a. auto.
  - destruct (d7_mode x) eqn:M; try discriminate N. injection N as <-. destruct H as [P H]. rewrite M in H. destruct H as [H1 H2].
    destruct s as [lo md rg ff]. cbn [h_reg h_lora h_mode] in *. subst lo.
    destruct (entropy7 x md rg ff T H2 P) as (rg' & E & P').
    exists (receiveEntropy127 x), x, (up7 5 rg' ff), [Sampled]. cbn [call127]. rewrite M.
    split; [reflexivity|]. split; [reflexivity|]. split; [reflexivity|]. split; [exact E|]. split.
    + split; [exact P'|]. rewrite M. split; reflexivity.
    + constructor; [exact I|constructor].
Qed.

Lemma calls7 l : forall v x d' s, of7 (d7_type x) -> sits x s -> modes (d7_mode x) l = Some d' -> Forall (fun o => sane o = true) l -> Forall (tunable limit7) l ->
  exists ops y s' ev, calls127 v l x = Some (ops, y) /\ d7_mode y = d' /\
  chip7_ops (d7_type x) s ops = (s', ev) /\ Forall2 (asked 64 wait7) (filter on_air l) ev.
Proof.
  induction l as [|o l IH]; intros v x d' s T H M F G.
  - injection M as <-. exists [], x, s, []. repeat (split; [reflexivity|]). constructor.
  - cbn [modes] in M. destruct (next_mode (d7_mode x) o) as [d1|] eqn:N; [|discriminate M].
    inversion F as [|? ? F1 F2]; subst. inversion G as [|? ? G1 G2]; subst.
    destruct (call7 (v 0%nat) o x d1 s T H N F1 G1) as (o1 & y & s1 & e1 & E1 & M1 & T1 & C1 & H1 & A1).
    rewrite <- M1 in M. rewrite <- T1 in T.
    destruct (IH (fun n => v (S n)) y d' s1 T H1 M F2 G2) as (o2 & z & s2 & e2 & E2 & M2 & C2 & A2).
    exists (o1 ++ o2), z, s2, (e1 ++ e2). cbn [calls127]. rewrite E1, E2. repeat split; auto.
    + rewrite ops7_app, C1. cbn [fst snd]. rewrite <- T1, C2. reflexivity.
    + change (filter on_air (o :: l)) with (filter on_air ([o] ++ l)). rewrite filter_app. now apply Forall2_app.
Qed.

(* the calls alone, whatever the frequencies *)
Lemma accepted7 l : forall v x d', modes (d7_mode x) l = Some d' -> exists ops y, calls127 v l x = Some (ops, y) /\ d7_mode y = d'.
Proof.
  induction l as [|o l IH]; intros v x d' M; [injection M as <-; exists [], x; auto|].
  cbn [modes] in M. destruct (next_mode (d7_mode x) o) as [d1|] eqn:N; [|discriminate M].
  assert (exists ops y, call127 (v 0%nat) o x = Some (ops, y) /\ d7_mode y = d1) as (o1 & y & E1 & M1).
  { destruct o as [evt|n|freq b sf eirp data|freq b sf t max|]; cbn [next_mode] in N; cbn [call127];
      try (destruct (d7_mode x) eqn:X; try discriminate N; injection N as <-; eexists; eexists; split; [reflexivity|exact X]).
    - injection N as <-. eexists. eexists. split; reflexivity.
    - destruct (change_ok (d7_mode x) n) eqn:C; [|discriminate N]. injection N as <-.
      destruct (allowed7 x (v 0%nat) n C) as (l2 & E). rewrite E. eexists. eexists. split; reflexivity.
 }
  rewrite <- M1 in M. destruct (IH (fun n => v (S n)) y d' M) as (o2 & z & E2 & M2).
  exists (o1 ++ o2), z. cbn [calls127]. rewrite E1, E2. auto.
Qed.

Lemma start7 ty xt pa g : sits (init127 ty xt pa g) reset7.
Proof. split; [split; reflexivity|split; reflexivity]. Qed.
