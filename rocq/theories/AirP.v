(* Air time: what LDL_Radio_getAirTime computes. *)
From Verif Require Import Words RegionM RadioM Lib SpecRadio.



Lemma sf_cases sf : 7 <= sf <= 12 ->
  sf = 7 \/ sf = 8 \/ sf = 9 \/ sf = 10 \/ sf = 11 \/ sf = 12.
Proof. lia. Qed.

Lemma ceil_code N D : 0 < D -> N / D + (if N mod D =? 0 then 0 else 1) = ceil_div N D.
Proof.
  intros HD. unfold ceil_div. destruct (N mod D =? 0) eqn:E.
  - rewrite Z.div_opp_l_z by lia. lia.
  - rewrite Z.div_opp_l_nz by lia. lia.
Qed.

Lemma ceil_range N D : 20 <= D -> 0 <= N <= 3000 -> 0 <= ceil_div N D <= 150.
Proof.
  intros HD HN. unfold ceil_div.
  assert (- N / D <= 0) by (apply Z.div_le_upper_bound; lia).
  assert (-150 <= - N / D) by (apply Z.div_le_lower_bound; lia). lia.
Qed.

Lemma Ts_spec b sf : 7 <= sf <= 12 -> at_Ts b sf = symbol_us (bwToNumber b) sf /\ 256 <= at_Ts b sf <= 32768.
Proof.
  intros H. destruct (sf_cases sf H) as [E|[E|[E|[E|[E|E]]]]]; subst sf; destruct b;
    (split; [reflexivity|split; discriminate]).
Qed.

Lemma denom_spec b sf : 7 <= sf <= 12 ->
  at_denom b sf = 4 * (sf - 2 * low_rate (bwToNumber b) sf) /\ 20 <= at_denom b sf <= 48.
Proof.
  intros H. destruct (sf_cases sf H) as [E|[E|[E|[E|[E|E]]]]]; subst sf; destruct b;
    (split; [reflexivity|split; discriminate]).
Qed.

Lemma numerator_spec sf size crc : 7 <= sf <= 12 -> 0 <= size <= 255 ->
  at_numerator sf size crc = (8 * size - 4 * sf + 8 + 16 * Z.b2z crc) mod 4294967296.
Proof.
  intros H1 H2. unfold at_numerator, u32, Z.b2z. destruct crc; lia.
Qed.

(* for sizes where the numerator does not wrap, the code is the formula for a
   packet without explicit header *)
Lemma air_formula b sf size crc :
  7 <= sf <= 12 -> 0 <= size <= 255 ->
  4 * sf <= 8 * size + 8 + 16 * Z.b2z crc ->
  getAirTime b sf size crc =
  packet_us (bwToNumber b) sf 1 size (Z.b2z crc) / 1000 + 1.
Proof.
  intros H1 H2 H3. unfold getAirTime, packet_us, payload_symbols.
  destruct (Ts_spec b sf H1) as [<- HT]. destruct (denom_spec b sf H1) as [<- HD].
  cbv zeta. rewrite numerator_spec by assumption.
  assert (0 <= Z.b2z crc <= 1) as Hc by (destruct crc; cbn; lia).
  rewrite Z.mod_small by lia.
  replace (8 * size - 4 * sf + 28 + 16 * Z.b2z crc - 20 * 1) with (8 * size - 4 * sf + 8 + 16 * Z.b2z crc) by lia.
  set (N := 8 * size - 4 * sf + 8 + 16 * Z.b2z crc) in *. set (D := at_denom b sf) in *.
  set (T := at_Ts b sf) in *. unfold at_Npayload, at_Tpreamble.
  rewrite ceil_code by lia. 
  pose proof (ceil_range N D ltac:(lia) ltac:(lia)) as HC.
  rewrite Z.max_r by lia. set (C := ceil_div N D) in *. clearbody C.
  rewrite (u32_id (C * (1 + 4))) by lia. rewrite (u32_id (8 + C * (1 + 4))) by lia.
  assert (0 <= (8 + C * (1 + 4)) * T <= 758 * 32768) as HP by nia.
  rewrite (u32_id ((8 + C * (1 + 4)) * T)) by lia.
  rewrite (u32_id (T * 12)) by lia. rewrite (u32_id (T * 12 + T / 4)) by lia.
  set (P := (8 + C * (1 + 4)) * T) in *.
  rewrite (u32_id (T * 12 + T / 4 + P)) by lia.
  rewrite (u32_id ((T * 12 + T / 4 + P) / 1000 + 1)) by lia. unfold P.
  replace (49 * T / 4) with (T * 12 + T / 4) by lia. 
  replace (8 + C * (1 + 4)) with (8 + C * 5) by lia. reflexivity.
Qed.

(* the header correction is worth at most one code word *)
Lemma header_cost hz sf size crc : 7 <= sf <= 12 -> lora_bandwidth hz ->
  payload_symbols hz sf 1 size crc <= payload_symbols hz sf 0 size crc
  <= payload_symbols hz sf 1 size crc + 5.
Proof.
  intros H1 H2. unfold payload_symbols.
  set (D := 4 * (sf - 2 * low_rate hz sf)).
  assert (20 <= D) as HD.
  { unfold D, low_rate. destruct H2 as [->|[->| ->]];
    destruct (sf_cases sf H1) as [E|[E|[E|[E|[E|E]]]]]; subst sf; vm_compute; discriminate. }
  set (N := 8 * size - 4 * sf + 28 + 16 * crc).
  replace (N - 20 * 0) with N by lia. replace (N - 20 * 1) with (N - 20) by lia.
  clearbody D N. unfold ceil_div.
  assert (- N / D <= - (N - 20) / D) as A by (apply Z.div_le_mono; lia).
  assert (- (N - 20) / D <= - N / D + 1) as B.
  { replace (- N / D + 1) with ((- N + 1 * D) / D) by (apply Z.div_add; lia).
    apply Z.div_le_mono; lia. }
  lia.
Qed.

Lemma symbol_pos hz sf : 7 <= sf <= 12 -> lora_bandwidth hz -> 0 < symbol_us hz sf.
Proof.
  intros H1 [->|[->| ->]]; destruct (sf_cases sf H1) as [E|[E|[E|[E|[E|E]]]]]; subst sf; reflexivity.
Qed.

Lemma bw_hz b : lora_bandwidth (bwToNumber b).
Proof. unfold lora_bandwidth. destruct b; cbn; lia. Qed.

(* so the error against the true air time is one sided and bounded *)
Lemma air_bounds b sf size crc :
  7 <= sf <= 12 -> 0 <= size <= 255 -> 4 * sf <= 8 * size + 8 + 16 * Z.b2z crc ->
  let hz := bwToNumber b in
  let true_us := packet_us hz sf 0 size (Z.b2z crc) in
  true_us - 5 * symbol_us hz sf < 1000 * getAirTime b sf size crc <= true_us + 1000.
Proof.
  intros H1 H2 H3 hz true_us. rewrite air_formula by assumption. fold hz. unfold true_us, packet_us.
  pose proof (header_cost hz sf size (Z.b2z crc) H1 (bw_hz b)) as HC.
  pose proof (symbol_pos hz sf H1 (bw_hz b)) as HS.
  set (p0 := payload_symbols hz sf 0 size (Z.b2z crc)) in *.
  set (p1 := payload_symbols hz sf 1 size (Z.b2z crc)) in *.
  set (T := symbol_us hz sf) in *.
  assert (p1 * T <= p0 * T <= p1 * T + 5 * T) by nia. clearbody p0 p1 T. lia.
Qed.

(* monotone in the size *)
Lemma symbols_mono hz sf IH a b crc : 7 <= sf <= 12 -> lora_bandwidth hz -> a <= b ->
  payload_symbols hz sf IH a crc <= payload_symbols hz sf IH b crc.
Proof.
  intros H1 H2 H3. unfold payload_symbols.
  set (D := 4 * (sf - 2 * low_rate hz sf)).
  assert (20 <= D) as HD.
  { unfold D, low_rate. destruct H2 as [->|[->| ->]];
    destruct (sf_cases sf H1) as [E|[E|[E|[E|[E|E]]]]]; subst sf; vm_compute; discriminate. }
  unfold ceil_div.
  assert (- (8 * b - 4 * sf + 28 + 16 * crc - 20 * IH) / D
          <= - (8 * a - 4 * sf + 28 + 16 * crc - 20 * IH) / D) by (apply Z.div_le_mono; lia).
  lia.
Qed.

Lemma air_mono b sf s1 s2 crc :
  7 <= sf <= 12 -> 0 <= s1 -> s1 <= s2 <= 255 -> 4 * sf <= 8 * s1 + 8 + 16 * Z.b2z crc ->
  getAirTime b sf s1 crc <= getAirTime b sf s2 crc.
Proof.
  intros H1 H2 H3 H4. rewrite !air_formula by lia.
  pose proof (symbols_mono (bwToNumber b) sf 1 s1 s2 (Z.b2z crc) H1 (bw_hz b) ltac:(lia)) as HM.
  pose proof (symbol_pos (bwToNumber b) sf H1 (bw_hz b)) as HS. unfold packet_us.
  assert (payload_symbols (bwToNumber b) sf 1 s1 (Z.b2z crc) * symbol_us (bwToNumber b) sf <=
          payload_symbols (bwToNumber b) sf 1 s2 (Z.b2z crc) * symbol_us (bwToNumber b) sf) by nia.
  apply Z.add_le_mono_r, Z.div_le_mono; lia.
Qed.
