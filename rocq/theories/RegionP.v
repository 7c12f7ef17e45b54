(* Regional tables. *)
From Verif Require Import Words RegionM MacStateM MacUtilM Lib SpecRegion.

Definition zs (n : nat) : list Z := map Z.of_nat (seq 0 n).

Lemma zs_in n x : 0 <= x < Z.of_nat n -> In x (zs n).
Proof. intros. apply in_map_iff. exists (Z.to_nat x). rewrite in_seq. lia. Qed.

Lemma forall_zs (P : Z -> bool) n : forallb P (zs n) = true -> forall x, 0 <= x < Z.of_nat n -> P x = true.
Proof. intros H x Hx. exact (proj1 (forallb_forall P (zs n)) H x (zs_in n x Hx)). Qed.

(* --- RX1 data rate --- *)

Lemma rx1_sweep r : forallb (fun up => forallb (fun off =>
   let d := match r with
     | EU_863_870 | EU_433 => (up <=? 7) && (off <=? 5)
     | US_902_928 => (up <=? 4) && (off <=? 3)
     | AU_915_928 => (up <=? 6) && (off <=? 5) end in
   implb d (getRX1DataRate r up off =? rx1_rate r up off)) (zs 8)) (zs 8) = true.
Proof. destruct r; vm_compute; reflexivity. Qed.

Lemma rx1_spec r up off : rx1_defined r up off -> getRX1DataRate r up off = rx1_rate r up off.
Proof.
  intros H. pose proof (forall_zs _ 8 (rx1_sweep r) up) as H1. cbv beta in H1.
  assert (0 <= up < 8 /\ 0 <= off < 8) as [Hu Ho] by (destruct r; cbn in H; lia).
  specialize (H1 Hu). pose proof (forall_zs _ 8 H1 off Ho) as H2. cbv beta zeta in H2.
  apply Z.eqb_eq. destruct r; cbn [rx1_defined] in H;
  match type of H2 with implb ?c _ = true => replace c with true in H2 by lia end; exact H2.
Qed.

(* whatever the arguments, the value returned is in the table or is tx_rate *)
Lemma rx1_in_table r up off :
  In (getRX1DataRate r up off) (rx1_table r) \/ getRX1DataRate r up off = up.
Proof.
  unfold getRX1DataRate. cbv zeta. destruct (_ <? _) eqn:E; [left|now right].
  apply nth_In. unfold rx1_index in *. pose proof (u8_range (up * rx1_stride r + off)). lia.
Qed.

(* offsets 6 and 7 (and 4..7 in the US) run into the row of the next rate *)
Lemma rx1_next_row r up k :
  0 <= up -> 0 <= k -> up * rx1_stride r + rx1_stride r + k < 256 ->
  rx1_index r up (rx1_stride r + k) = rx1_index r (up + 1) k.
Proof. intros. unfold rx1_index, u8. f_equal. lia. Qed.

Lemma rx1_next_row_rate r up k :
  rx1_defined r (up + 1) k -> 0 <= up ->
  getRX1DataRate r up (rx1_stride r + k) = rx1_rate r (up + 1) k.
Proof.
  intros H Hu. rewrite <- rx1_spec by assumption. unfold getRX1DataRate. cbv zeta.
  assert (up * rx1_stride r + rx1_stride r + k < 256 /\ 0 <= k) by (destruct r; cbn in *; lia).
  rewrite rx1_next_row by lia.
  replace (rx1_index r (up + 1) k <? Z.of_nat (length (rx1_table r))) with true; [reflexivity|].
  symmetry. apply Z.ltb_lt. unfold rx1_index. rewrite u8_id; destruct r; cbn in *; lia.
Qed.

(* --- fixed channel plans --- *)

Lemma fixed_spec r ch : 0 <= ch < 256 -> Region_getChannel r ch = fixed_channel r ch.
Proof.
  intros H. destruct r; cbn [Region_getChannel fixed_channel]; try reflexivity;
  destruct (ch <? 64) eqn:E1; try (rewrite u32_id by lia; reflexivity);
  destruct (ch <? 72) eqn:E2; try (rewrite u32_id by lia; reflexivity); reflexivity.
Qed.

Lemma some3_inj (a b c x y z : Z) : Some (a, b, c) = Some (x, y, z) -> a = x /\ b = y /\ c = z.
Proof. intros H. injection H. auto. Qed.

Lemma fixed_valid r ch f lo hi : 0 <= ch -> fixed_channel r ch = Some (f, lo, hi) -> chan_valid r ch f lo hi.
Proof.
  intros H0 H. unfold chan_valid.
  destruct r; cbn [fixed_channel] in H; [discriminate| | |discriminate];
  destruct (ch <? 64) eqn:E1; [|destruct (ch <? 72) eqn:E2; [|discriminate] | |destruct (ch <? 72) eqn:E2; [|discriminate]];
  apply some3_inj in H; destruct H as (<- & <- & <-).
  all: cbn [in_region getBand uplink_rate numChannels validateFreq].
  all: unfold validateRate, upRateRange.
  all: (refine (conj _ (conj _ (conj _ (conj _ (conj _ (conj _ (conj _ _)))))));
   [lia | exists 0; split; [reflexivity|lia] | lia | lia | lia | lia | lia | ]).
  all: (replace (ch <=? 71) with true by lia).
  all: [> replace (ch <=? 63) with true by lia | replace (ch <=? 63) with false by lia
  |replace (ch <=? 63) with true by lia | replace (ch <=? 63) with false by lia]; reflexivity.
Qed.

Lemma default_valid r ch f lo hi : In (AddChannel ch f lo hi) (getDefaultChannels r) -> chan_valid r ch f lo hi.
Proof.
  intros H. unfold chan_valid. destruct r; cbn [getDefaultChannels In] in H; try contradiction;
  destruct H as [H|[H|[H|[]]]]; injection H as <- <- <- <-;
  (refine (conj _ (conj _ (conj _ (conj _ (conj _ (conj _ (conj _ _)))))));
   [cbn; lia | eexists; split; [reflexivity|lia] | cbn; lia | cbn; lia | lia | cbn; lia | reflexivity | reflexivity]).
Qed.

(* join requests of the fixed plans *)
Lemma land_1_b x : Z.land x 1 = x mod 2. Proof. apply land1. Qed.

Lemma join_index_range r trial rnd : isDynamic r = false -> 0 <= trial -> 0 <= rnd ->
  0 <= getJoinIndex r trial rnd < 72.
Proof.
  intros Hr Ht Hn.
  assert (0 <= Z.shiftr trial 1 mod 8 < 8) by (apply Z.mod_pos_bound; lia).
  assert (0 <= rnd mod 8 < 8) by (apply Z.mod_pos_bound; lia).
  destruct r; try discriminate; cbn [getJoinIndex]; destruct (0 <? Z.land trial 1);
  rewrite u8_id; lia.
Qed.

(* odd trials use the wide channels, even trials the narrow ones, and eight
   consecutive even trials visit the eight groups *)
Lemma join_index_kind r trial rnd : isDynamic r = false -> 0 <= trial -> 0 <= rnd ->
  getJoinIndex r trial rnd =
  if Z.odd trial then 64 + trial / 2 mod 8 else trial / 2 mod 8 * 8 + rnd mod 8.
Proof.
  intros Hr Ht Hn. rewrite <- Z.bit0_odd.
  assert (0 <? Z.land trial 1 = Z.testbit trial 0) as E.
  { rewrite land_1_b, Z.bit0_odd, Zmod_odd. destruct (Z.odd trial); reflexivity. }
  assert (0 <= trial / 2 mod 8 < 8) by (apply Z.mod_pos_bound; lia).
  assert (0 <= rnd mod 8 < 8) by (apply Z.mod_pos_bound; lia).
  assert (Z.shiftr trial 1 = trial / 2) as Hs by (now rewrite Z.shiftr_div_pow2).
  destruct r; try discriminate; cbn [getJoinIndex]; rewrite E, Hs;
  destruct (Z.testbit trial 0); apply u8_id; lia.
Qed.

Lemma join_rate_valid noSF12 r trial : 0 <= trial -> uplink_rate r (getJoinRate noSF12 r trial).
Proof.
  intros H. destruct r; cbn [uplink_rate getJoinRate]; try (destruct noSF12; cbn; lia);
  destruct noSF12; cbn [MIN_RATE];
  (assert (0 <= trial mod (6 - 1) < 5 /\ 0 <= trial mod (6 - 0) < 6) by (split; apply Z.mod_pos_bound; lia));
  rewrite !u8_id; rewrite ?u8_id; lia.
Qed.

(* --- duty cycle bands --- *)

Lemma offtime_eu f :
  match getBand EU_863_870 f with
  | Some b => eu_subband f = Some (getOffTimeFactor EU_863_870 b)
  | None => eu_subband f = None
  end.
Proof.
  unfold getBand, eu_subband.
  repeat match goal with |- context [if ?c then _ else _] => destruct c eqn:? end;
  cbn [getOffTimeFactor]; try reflexivity; lia.
Qed.

Lemma rx1_freq_valid r f ch : 0 <= ch < 256 -> in_region r f -> in_region r (getRX1Freq r f ch).
Proof.
  intros H Hf. assert (0 <= ch mod 8 < 8) by (apply Z.mod_pos_bound; lia).
  destruct r; cbn [getRX1Freq in_region] in *; try assumption; rewrite u32_id; lia.
Qed.

Lemma rx2_valid r : in_region r (getRX2Freq r) /\ validateFreq r (getRX2Freq r) = true.
Proof. destruct r; cbn; split; lia. Qed.
