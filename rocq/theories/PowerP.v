(* Output power, signal reports and status of the radio drivers. *)
From Verif Require Import Lib Words RegionM RadioM MacStateM ChipM SX127xM SX126xM DriverM SpecModes SpecChip SpecPower DriveP Chip7P Chip6P.

(* --- SX1272 and SX1276 --- *)
Definition level7 (x : sx127x) (p : Z) : Z :=
  out_power7 (d7_type x) (upd (upd (fun _ => 0) (dac7 (d7_type x)) (snd (pa_settings x p))) 9 (fst (pa_settings x p))).
Lemma out_power_level x p r : of7 (d7_type x) -> r 9 = fst (pa_settings x p) -> r (dac7 (d7_type x)) = snd (pa_settings x p) ->
  out_power7 (d7_type x) r = level7 x p.
Proof. intros [T|T] A B; unfold level7, out_power7; cbv zeta; rewrite T in *; cbn [dac7] in *; rewrite A, B; reflexivity. Qed.

Definition level_ok (ty : radio_type) (pa : pa127) (d : Z) : bool :=
  let w := level7 (mk127 ty MODE_TX XTAL_CRYSTAL pa 0) (100 * d) in
  let u := pa_of pa d in
  if d <? lowest7 ty u then 10 * lowest7 ty u - 6 <=? w
  else (w <=? 10 * d) && (Z.min (10 * d) (highest7 ty u) - 20 <=? w) && (w <=? highest7 ty u).
Lemma levels_ok : forallb (fun ty => forallb (fun pa => forallb (fun n => level_ok ty pa (Z.of_nat n - 328)) (seq 0 657)) [PA_AUTO; PA_RFO; PA_BOOST]) [SX1272; SX1276] = true.
Proof. vm_compute. reflexivity. Qed.
Lemma level_check ty pa d : of7 ty -> -328 <= d <= 328 -> level_ok ty pa d = true.
Proof.
  intros T D. pose proof levels_ok as H. rewrite forallb_forall in H.
  assert (In ty [SX1272; SX1276]) as IT by (destruct T as [-> | ->]; cbn [In]; auto). specialize (H ty IT). rewrite forallb_forall in H.
  assert (In pa [PA_AUTO; PA_RFO; PA_BOOST]) as IP by (destruct pa; cbn [In]; auto). specialize (H pa IP). rewrite forallb_forall in H.
  specialize (H (Z.to_nat (d + 328))). rewrite Z2Nat.id in H by lia. replace (d + 328 - 328) with d in H by lia. apply H.
  apply in_seq. lia.
Qed.
Lemma level_quot x p : level7 x p = level7 (mk127 (d7_type x) MODE_TX XTAL_CRYSTAL (d7_pa x) 0) (100 * Z.quot p 100).
Proof.
  unfold level7, pa_settings. cbn [d7_type d7_pa]. rewrite (Z.mul_comm 100), Z.quot_mul by lia. reflexivity.
Qed.
Lemma quot_range p : -32768 <= p <= 32767 -> -328 <= Z.quot p 100 <= 328.
Proof. intros H. rewrite Z.quot_div by lia. change (Z.abs 100) with 100. change (Z.sgn 100) with 1. lia. Qed.

Theorem level_bounds x p : of7 (d7_type x) -> -32768 <= p <= 32767 ->
  let d := Z.quot p 100 in let pa := pa_of (d7_pa x) d in
  lowest7 (d7_type x) pa <= d -> (0 <= p \/ p mod 100 = 0) ->
  10 * level7 x p <= p /\ Z.min p (10 * highest7 (d7_type x) pa) - 10 * level7 x p < 300.
Proof.
  intros T P d pa L C. pose proof (level_check (d7_type x) (d7_pa x) d T (quot_range p P)) as H.
  unfold level_ok in H. cbv zeta in H. replace (level7 _ (100 * d)) with (level7 x p) in H by apply level_quot. fold pa in H.
  destruct (d <? lowest7 (d7_type x) pa) eqn:E; [lia|].
  assert (100 * d <= p < 100 * d + 100) as D.
  { unfold d. rewrite Z.quot_div by lia. change (Z.abs 100) with 100. change (Z.sgn 100) with 1. lia. }
  apply andb_true_iff in H. destruct H as [H H3]. apply andb_true_iff in H. destruct H as [H1 H2]. lia.
Qed.

Theorem power_on_air x md rg ff freq b sf eirp data : of7 (d7_type x) -> md =? 0 = false -> pre rg ->
  0 <= freq < 1024000000 -> rate_ok b sf -> Z.of_nat (length data) <= 255 ->
  out_power7 (d7_type x) (h_reg (fst (chip7_ops (d7_type x) (up7 md rg ff) (transmit127 x freq b sf eirp data)))) = level7 x (s16 (eirp - d7_gain x)).
Proof.
  intros T M P F R L. destruct (transmit7 x md rg ff freq b sf eirp data T M P F R L) as (rg' & ff' & a & E & _ & _ & W1 & W2).
  rewrite E. cbn [fst up7 h_reg]. now apply out_power_level.
Qed.

Lemma amp_eq pa p : pa_of pa (Z.quot p 100) = amp7 pa p.
Proof.
  destruct pa; try reflexivity. unfold pa_of, amp7.
  replace (Z.quot p 100 <=? 14) with (p <? 1500); [reflexivity|]. rewrite Z.quot_div by lia. change (Z.abs 100) with 100. change (Z.sgn 100) with 1.
  destruct (Z.sgn_spec p) as [[H E]|[[H E]|[H E]]]; rewrite E; destruct (p <? 1500) eqn:X; symmetry; [apply Z.leb_le|apply Z.leb_gt|apply Z.leb_le|apply Z.leb_gt|apply Z.leb_le|apply Z.leb_gt]; lia.
Qed.

Theorem power_within x s freq b sf eirp data : of7 (d7_type x) -> h_lora s = true -> h_mode s <> 0 -> h_reg s 32 = 0 -> h_reg s 33 = 8 ->
  0 <= freq < 1024000000 -> rate_ok b sf -> Z.of_nat (length data) <= 255 -> -32768 <= eirp - d7_gain x <= 32767 ->
  let p := eirp - d7_gain x in let pa := amp7 (d7_pa x) p in
  lowest7 (d7_type x) pa * 100 <= p -> (0 <= p \/ p mod 100 = 0) ->
  let w := out_power7 (d7_type x) (h_reg (fst (chip7_ops (d7_type x) s (transmit127 x freq b sf eirp data)))) in
  10 * w <= p /\ Z.min p (10 * highest7 (d7_type x) pa) - 10 * w < 300.
Proof.
  intros T L M R1 R2 F R D P p pa LO C w. destruct s as [lo md rg ff]. cbn [h_lora h_mode h_reg] in *. subst lo.
  assert (md =? 0 = false) as M0 by lia.
  assert (w = level7 x p) as ->.
  { unfold w. change (mkChip7 true md rg ff) with (up7 md rg ff). rewrite power_on_air by (try assumption; split; assumption).
    unfold p. f_equal. unfold s16, u16. destruct ((eirp - d7_gain x) mod 65536 <? 32768) eqn:E; lia. }
  unfold pa in *. rewrite <- amp_eq in *.
  apply level_bounds; try assumption.
  revert LO. generalize (lowest7 (d7_type x) (pa_of (d7_pa x) (Z.quot p 100))). intros z LO.
  rewrite Z.quot_div by lia. change (Z.abs 100) with 100. change (Z.sgn 100) with 1.
  destruct (Z.sgn_spec p) as [[X E]|[[X E]|[X E]]]; rewrite E; lia.
Qed.

(* the amplifier selected is the one the board is told of *)
Lemma boost_bit x p : of7 (d7_type x) -> -32768 <= p <= 32767 -> Z.testbit (fst (pa_settings x p)) 7 = is_boost (amp7 (d7_pa x) p).
Proof.
  intros T P. rewrite <- amp_eq. pose proof (quot_range p P) as Q. unfold pa_settings. cbv zeta. revert Q. generalize (Z.quot p 100). intros d Q.
  assert (forall f : Z -> bool, forallb (fun n => f (Z.of_nat n - 328)) (seq 0 657) = true -> f d = true) as SW.
  { intros f H. rewrite forallb_forall in H. specialize (H (Z.to_nat (d + 328))). rewrite Z2Nat.id in H by lia. replace (d + 328 - 328) with d in H by lia. apply H. apply in_seq. lia. }
  destruct T as [-> | ->]; destruct (pa_of (d7_pa x) d); cbn [fst is_boost].
  - apply negb_true_iff. apply (SW (fun d => negb (Z.testbit (rfo1272 d) 7))). vm_compute. reflexivity.
  - apply negb_true_iff. apply (SW (fun d => negb (Z.testbit (rfo1272 d) 7))). vm_compute. reflexivity.
  - apply (SW (fun d => Z.testbit (fst (boost1272 d)) 7)). vm_compute. reflexivity.
  - apply negb_true_iff. apply (SW (fun d => negb (Z.testbit (rfo1276 d) 7))). vm_compute. reflexivity.
  - apply negb_true_iff. apply (SW (fun d => negb (Z.testbit (rfo1276 d) 7))). vm_compute. reflexivity.
  - apply (SW (fun d => Z.testbit (fst (boost1276 d)) 7)). vm_compute. reflexivity.
Qed.
Lemma pa_announced x p : hd_error (setPower x p) = Some (ChipMode (if is_boost (amp7 (d7_pa x) p) then CHIP_TX_BOOST else CHIP_TX_RFO)).
Proof. rewrite <- amp_eq. unfold setPower. cbv zeta. destruct (d7_type x); destruct (pa_of (d7_pa x) (Z.quot p 100)); reflexivity. Qed.
Theorem amplifier x s freq b sf eirp data : of7 (d7_type x) -> h_lora s = true -> h_mode s <> 0 -> h_reg s 32 = 0 -> h_reg s 33 = 8 ->
  0 <= freq < 1024000000 -> rate_ok b sf -> Z.of_nat (length data) <= 255 -> -32768 <= eirp - d7_gain x <= 32767 ->
  let boost := is_boost (amp7 (d7_pa x) (eirp - d7_gain x)) in
  hd_error (transmit127 x freq b sf eirp data) = Some (ChipMode (if boost then CHIP_TX_BOOST else CHIP_TX_RFO)) /\
  Z.testbit (h_reg (fst (chip7_ops (d7_type x) s (transmit127 x freq b sf eirp data))) 9) 7 = boost.
Proof.
  intros T L M R1 R2 F R D P boost. destruct s as [lo md rg ff]. cbn [h_lora h_mode h_reg] in *. subst lo.
  assert (md =? 0 = false) as M0 by lia.
  assert (s16 (eirp - d7_gain x) = eirp - d7_gain x) as S by (unfold s16, u16; destruct ((eirp - d7_gain x) mod 65536 <? 32768) eqn:E; lia).
  split.
  - unfold transmit127. rewrite S. pose proof (pa_announced x (eirp - d7_gain x)) as H. unfold boost. destruct (setPower _ _); [discriminate H|exact H].
  - destruct (transmit7 x md rg ff freq b sf eirp data T M0 (conj R1 R2) F R D) as (rg' & ff' & a & E & _ & _ & W & _).
    change (mkChip7 true md rg ff) with (up7 md rg ff). rewrite E. cbn [fst up7 h_reg]. rewrite W, S. now apply boost_bit.
Qed.

(* --- SX126x --- *)
Lemma s8_u8 v : -128 <= v < 128 -> s8 (u8 v) = v.
Proof. intros H. unfold s8, u8. rewrite Z.mod_mod by lia. destruct (v mod 256 <? 128) eqn:E; lia. Qed.
Theorem tx_params_level x freq b sf eirp data : tx_params (transmit_cmds x freq b sf eirp data) =
  Some (Z.max (lowest6 (pa_used x)) (Z.min (highest6 (pa_used x)) (Z.quot (s16 (eirp - d6_gain x)) 100))).
Proof.
  unfold transmit_cmds.
  assert (forall q l, tx_params (SetPower x q ++ l) = Some (Z.max (lowest6 (pa_used x)) (Z.min (highest6 (pa_used x)) (Z.quot q 100)))) as K.
  { intros q l. unfold SetPower. cbv zeta. generalize (Z.quot q 100). intros d.
    assert (forall lo hi, lo <= hi -> clamp lo hi d = Z.max lo (Z.min hi d)) as CL.
    { intros lo hi H. unfold clamp. destruct (d >? hi) eqn:E1; [lia|]. destruct (d <? lo) eqn:E2; lia. }
    rewrite !CL by lia. destruct (pa_used x); cbn [lowest6 highest6];
    repeat (destruct (_ >? _)); cbn [app tx_params SetPaConfig SetTxParams cmd]; rewrite s8_u8 by lia; reflexivity. }
  generalize (s16 (eirp - d6_gain x)). intros q. destruct (d6_pending x).
  - unfold CalibrateImage. repeat (destruct (_ <? _)); cbn [app tx_params SetPacketType_LORA cmd]; apply K.
  - cbn [app tx_params SetPacketType_LORA cmd]. apply K.
Qed.
Theorem tx_params_within x freq b sf eirp data : -32768 <= eirp - d6_gain x <= 32767 ->
  let p := eirp - d6_gain x in
  exists w, tx_params (transmit_cmds x freq b sf eirp data) = Some w /\ lowest6 (pa_used x) <= w <= highest6 (pa_used x) /\
  (lowest6 (pa_used x) * 100 <= p -> 0 <= p \/ p mod 100 = 0 -> 100 * w <= p /\ Z.min p (100 * highest6 (pa_used x)) - 100 * w < 100).
Proof.
  intros P p. rewrite tx_params_level. eexists. split; [reflexivity|].
  assert (s16 (eirp - d6_gain x) = p) as -> by (unfold p, s16, u16; destruct ((eirp - d6_gain x) mod 65536 <? 32768) eqn:E; lia).
  assert (lowest6 (pa_used x) <= highest6 (pa_used x)) as LH by (destruct (pa_used x); cbn [lowest6 highest6]; lia).
  revert LH. generalize (lowest6 (pa_used x)), (highest6 (pa_used x)). intros lo hi LH. split; [lia|]. intros L C.
  rewrite Z.quot_div by lia. change (Z.abs 100) with 100. change (Z.sgn 100) with 1.
  destruct (Z.sgn_spec p) as [[X E]|[[X E]|[X E]]]; rewrite E; lia.
Qed.


(* --- signal reports --- *)
Lemma byte_range v (f : Z -> bool) : forallb (fun n => f (Z.of_nat n)) (seq 0 256) = true -> 0 <= v < 256 -> f v = true.
Proof.
  intros H V. rewrite forallb_forall in H. specialize (H (Z.to_nat v)). rewrite Z2Nat.id in H by lia. apply H. apply in_seq. lia.
Qed.
Theorem meta7 x nb rssi snr max : of7 (d7_type x) -> 0 <= rssi < 256 -> 0 <= snr < 256 ->
  let m := snd (readBuffer127 x nb rssi snr max) in
  md_rssi m = rssi7 (d7_type x) rssi /\ md_snr m = (if snr <? 128 then snr_of snr else snr / 4).
Proof.
  intros T R S m. split.
  - unfold m, rssi7. cbn [readBuffer127 snd md_rssi].
    assert (forall o, 0 <= o < 256 -> s16 (s16 rssi - o) = rssi - o) as K.
    { intros o Ho. unfold s16, u16. rewrite (Z.mod_small rssi) by lia. destruct (rssi <? 32768) eqn:E; [|lia].
      destruct ((rssi - o) mod 65536 <? 32768) eqn:E2; lia. }
    destruct T as [-> | ->]; apply K; lia.
  - unfold m. cbn [readBuffer127 snd md_snr].
    apply Z.eqb_eq. apply (byte_range snr (fun v => Z.quot (s16 v) 4 =? (if v <? 128 then snr_of v else v / 4))); [vm_compute; reflexivity|exact S].
Qed.
Theorem meta6 ok n ra snr sig max r : 0 <= snr < 256 -> 0 <= sig < 256 ->
  snd (readBuffer126 ok n ra snr sig max) = Some r ->
  md_snr r = snr_of snr /\ (md_rssi r = rssi6 sig <-> sig = 0 \/ sig = 1 \/ sig = 128).
Proof.
  intros S G H. unfold readBuffer126 in H.
  assert (r = mkMeta (s16 (Z.quot (s8 sig) 2)) (s16 (Z.quot (s8 snr) 4))) as ->.
  { destruct (ok 0%nat); [|discriminate H]. destruct (ok 1%nat); [|discriminate H]. cbv zeta in H. destruct (ok 2%nat); cbn [snd] in H; congruence. }
  cbn [md_snr md_rssi]. split.
  - apply Z.eqb_eq. apply (byte_range snr (fun v => s16 (Z.quot (s8 v) 4) =? snr_of v)); [vm_compute; reflexivity|exact S].
  - pose proof (byte_range sig (fun v => eqb (s16 (Z.quot (s8 v) 2) =? rssi6 v) ((v =? 0) || (v =? 1) || (v =? 128))) ltac:(vm_compute; reflexivity) G) as K.
    cbv beta in K. apply eqb_prop in K. lia.
Qed.

(* --- lengths --- *)
Theorem length7 x nb rssi snr max : 0 <= nb -> 0 <= max ->
  let '(ops, n, _) := readBuffer127 x nb rssi snr max in
  n = Z.min nb max /\ (n = 0 \/ In (burstRead RegFifo n) ops).
Proof.
  intros A B. unfold readBuffer127, readFIFO.
  assert (fifo_size nb max = Z.min nb max) as E by (unfold fifo_size; destruct (nb >? max) eqn:?; lia). rewrite E.
  split; [reflexivity|]. destruct (Z.min nb max >? 0) eqn:G; [right|left; lia]. cbn [app In]. auto.
Qed.
Theorem length6 ok n ra snr sig max : ok 1%nat = true -> 0 <= n -> 0 <= max ->
  let '(len, stored, meta) := readBuffer126 ok n ra snr sig max in
  len <= max /\ (len = 0 \/ stored = Some len /\ meta <> None).
Proof.
  intros O N M. unfold readBuffer126. rewrite O. destruct (ok 0%nat); [|split; [lia|auto]]. cbv zeta.
  destruct (ok 2%nat); [|split; [lia|auto]]. split; [destruct (n >? max) eqn:?; lia|]. right. split; [reflexivity|discriminate].
Qed.

(* --- status --- *)
Lemma bit_gt z k : 0 <= k -> (Z.land z (2 ^ k) >? 0) = Z.testbit z k.
Proof.
  intros K. assert (Z.land z (2 ^ k) = if Z.testbit z k then 2 ^ k else 0) as ->.
  { apply Z.bits_inj'. intros i I. rewrite Z.land_spec, Z.pow2_bits_eqb by lia. destruct (k =? i) eqn:E.
    - assert (i = k) as -> by lia. rewrite andb_true_r. destruct (Z.testbit z k); [rewrite Z.pow2_bits_true by lia; reflexivity|now rewrite Z.bits_0].
    - rewrite andb_false_r. destruct (Z.testbit z k); [rewrite Z.pow2_bits_false by lia; reflexivity|now rewrite Z.bits_0]. }
  destruct (Z.testbit z k); [|reflexivity]. pose proof (Z.pow_pos_nonneg 2 k). lia.
Qed.
Theorem status7 f : getStatus127 f = mkStatus (Z.testbit f 3) (Z.testbit f 6) (Z.testbit f 7).
Proof.
  unfold getStatus127. change 8 with (2 ^ 3). change 64 with (2 ^ 6). change 128 with (2 ^ 7). now rewrite !bit_gt by lia.
Qed.
Theorem status6 hi lo : 0 <= hi < 256 -> 0 <= lo < 256 ->
  getStatus126 true hi lo = mkStatus (Z.testbit lo 0) (Z.testbit lo 1) (Z.testbit hi 1).
Proof.
  intros H L. unfold getStatus126. cbv zeta iota. set (irq := Z.lor _ _).
  assert (forall i, 0 <= i < 8 -> Z.testbit (u16 (Z.shiftl hi 8)) i = false) as Z8.
  { intros i I. unfold u16. change 65536 with (2 ^ 16). rewrite Z.mod_pow2_bits_low by lia. rewrite Z.shiftl_spec_low; [reflexivity|lia]. }
  assert (Z.testbit irq 9 = Z.testbit hi 1) as H9.
  { unfold irq. rewrite Z.lor_spec. unfold u16. change 65536 with (2 ^ 16). rewrite Z.mod_pow2_bits_low by lia. rewrite Z.shiftl_spec by lia.
    change (9 - 8) with 1. replace (Z.testbit lo 9) with false; [apply orb_false_r|]. symmetry. rewrite <- (Z.mod_small lo (2 ^ 8)) by lia.
    apply Z.mod_pow2_bits_high. lia. }
  pose proof (bit_gt irq 0 ltac:(lia)) as B0. pose proof (bit_gt irq 1 ltac:(lia)) as B1. pose proof (bit_gt irq 9 ltac:(lia)) as B9.
  change (2 ^ 0) with 1 in B0. change (2 ^ 1) with 2 in B1. change (2 ^ 9) with 512 in B9. rewrite B0, B1, B9, H9. unfold irq. rewrite !Z.lor_spec, !Z8 by lia. reflexivity.
Qed.

(* --- entropy --- *)
Theorem entropy7_bits vs i : length vs = 32%nat -> (i < 32)%nat ->
  Z.testbit (snd (readEntropy127 vs)) (Z.of_nat i) = Z.testbit (nth (31 - i) vs 0) 0.
Proof.
  intros L I. unfold readEntropy127. cbn [snd]. rewrite firstn_all2 by lia. unfold entropy_bits.
  assert (forall vs acc j, (length vs <= 32)%nat -> 0 <= acc -> 0 <= j < 32 ->
    Z.testbit (fold_left (fun acc v => Z.lor (u32 (Z.shiftl acc 1)) (Z.land v 1)) vs acc) j =
    if j <? Z.of_nat (length vs) then Z.testbit (nth (length vs - 1 - Z.to_nat j) vs 0) 0 else Z.testbit acc (j - Z.of_nat (length vs))) as K.
  { clear vs i L I. induction vs as [|v vs IH]; intros acc j L A J.
    - cbn [fold_left length]. replace (j <? Z.of_nat 0) with false by lia. f_equal. lia.
    - cbn [length] in L. cbn [fold_left]. rewrite IH.
      + assert (forall k, 0 <= k < 32 -> Z.testbit (Z.lor (u32 (Z.shiftl acc 1)) (Z.land v 1)) k = if k =? 0 then Z.testbit v 0 else Z.testbit acc (k - 1)) as B.
        { intros k Hk. rewrite Z.lor_spec. unfold u32. change 4294967296 with (2 ^ 32). rewrite Z.mod_pow2_bits_low by lia. rewrite Z.shiftl_spec by lia.
          change 1 with (Z.ones 1) at 2. destruct (k =? 0) eqn:E.
          - assert (k = 0) as -> by lia. rewrite Z.testbit_neg_r by lia. rewrite Z.land_spec. cbn [orb]. change (Z.testbit (Z.ones 1) 0) with true. apply andb_true_r.
          - rewrite (Z.land_spec v), Z.ones_spec_high by lia. rewrite andb_false_r. apply orb_false_r. }
        cbn [length]. destruct (j <? Z.of_nat (length vs)) eqn:E.
        * replace (j <? Z.of_nat (S (length vs))) with true by lia.
          replace (S (length vs) - 1 - Z.to_nat j)%nat with (S (length vs - 1 - Z.to_nat j)) by lia. reflexivity.
        * rewrite B by lia. destruct (j - Z.of_nat (length vs) =? 0) eqn:E2.
          -- replace (j <? Z.of_nat (S (length vs))) with true by lia.
             replace (S (length vs) - 1 - Z.to_nat j)%nat with 0%nat by lia. reflexivity.
          -- replace (j <? Z.of_nat (S (length vs))) with false by lia. f_equal. lia.
      + lia.
      + apply Z.lor_nonneg. split; [unfold u32; lia|]. apply Z.land_nonneg. lia.
      + exact J. }
  rewrite K by lia. rewrite L. replace (Z.of_nat i <? Z.of_nat 32) with true by lia. rewrite Nat2Z.id. reflexivity.
Qed.

(* --- image calibration --- *)
Theorem image_ok r freq : band_of_region r freq -> image_covers (CalibrateImage freq) freq.
Proof.
  unfold CalibrateImage. destruct r; cbn [band_of_region]; intros H;
  repeat (match goal with |- context [freq <? ?k] => destruct (freq <? k) eqn:? end); cbn [image_covers cmd]; lia.
Qed.
Theorem image_first x y n l : (n = MODE_RX \/ n = MODE_TX) -> d6_mode x = MODE_SLEEP -> setMode126 x n = Some (l, y) ->
  (forall ok freq b sf eirp data, exists rest, transmit_cmds y freq b sf eirp data = SetPacketType_LORA :: CalibrateImage freq :: rest /\
     (d6_pending (snd (transmit126 ok y freq b sf eirp data)) = false -> ok 0%nat = true /\ ok 1%nat = true)) /\
  (forall ok freq b sf t max, exists rest, receive_cmds y freq b sf t max = ChipMode CHIP_RX :: SetPacketType_LORA :: CalibrateImage freq :: rest /\
     (d6_pending (snd (receive126 ok y freq b sf t max)) = false -> ok 0%nat = true /\ ok 1%nat = true)).
Proof.
  intros N M H. assert (d6_pending y = true) as P.
  { unfold setMode126 in H. rewrite M in H. destruct N as [-> | ->]; injection H as _ <-; reflexivity. }
  split; intros ok freq b sf; [intros eirp data|intros t max]; unfold transmit_cmds, receive_cmds; rewrite P; eexists; (split; [reflexivity|]);
  cbn [transmit126 receive126 snd calibrated d6_pending set_d6_pending]; rewrite P; destruct (ok 0%nat), (ok 1%nat); auto.
Qed.
Theorem wl55_auto freq b sf eirp data : In (ChipMode CHIP_TX_BOOST) (transmit_cmds (init126 WL55 XTAL_CRYSTAL PA126_AUTO 1 2 1 0) freq b sf eirp data) /\
  ~ In (ChipMode CHIP_TX_RFO) (transmit_cmds (init126 WL55 XTAL_CRYSTAL PA126_AUTO 1 2 1 0) freq b sf eirp data).
Proof.
  unfold transmit_cmds, SetPower. cbn [init126 d6_pending pa_used d6_type d6_pa d6_gain]. cbv zeta.
  generalize (Z.quot (s16 (eirp - 0)) 100). intros d. repeat (destruct (_ >? _)); cbn [app In]; split; auto; intros H; repeat (destruct H as [H|H]; [discriminate H|]); exact H.
Qed.
