(* C12, C13, C14, C15, C43: streams and the frame codec. *)
From Verif Require Import Lib StreamM FrameM SpecStream SpecFrame SpecDecode.
From Verif Require StreamP FrameP FrameDecP FrameRtP SmP.

(* --- C12 ------------------------------------------------------------------------- *)

Theorem C12_data_frame_layout : forall f out max,
  fd_wf f -> 0 <= max < 256 -> max <= Z.of_nat (length out) ->
  let r := Frame_putData f out max in
  let w := data_bytes (msg_of f) in
  st_oob (pr_stream r) = false /\
  if Z.of_nat (length w) <=? max
  then pr_len r = Z.of_nat (length w) /\
       st_buf (pr_stream r) = w ++ skipn (length w) out
  else pr_len r = 0 /\ length (st_buf (pr_stream r)) = length out /\
       skipn (Z.to_nat max) (st_buf (pr_stream r)) = skipn (Z.to_nat max) out.
Proof. exact FrameP.putData_layout. Qed.
Print Assumptions C12_data_frame_layout.

(* the offsets handed to the encryption step point at FOpts and FRMPayload *)
Theorem C12_data_frame_offsets : forall f out max,
  fd_wf f -> 0 <= max < 256 -> max <= Z.of_nat (length out) ->
  Z.of_nat (length (data_bytes (msg_of f))) <= max ->
  pr_offOpts (Frame_putData f out max) = 8 /\
  pr_offData (Frame_putData f out max) =
    match fd_data f with Some _ => 9 + Z.of_nat (length (fd_opts f)) | None => 0 end.
Proof. exact FrameP.putData_offsets. Qed.
Print Assumptions C12_data_frame_offsets.

(* the MIC goes to the last four octets of the message and nowhere else *)
Theorem C12_mic_place : forall msg len mic, 4 < len < 256 -> len <= Z.of_nat (length msg) ->
  Frame_updateMIC msg len mic = firstn (Z.to_nat (len - 4)) msg ++ le 4 mic ++ skipn (Z.to_nat len) msg.
Proof. exact SmP.updateMIC_place. Qed.
Print Assumptions C12_mic_place.
Example C12_mic_example : Frame_updateMIC [1;2;3;4;5;6;7;8] 6 0x0d0c0b0a = [1;2;10;11;12;13;7;8].
Proof. reflexivity. Qed.

Definition ex_frame : frame_data :=
  mkFrameData FT_CONF_UP 0x01020304 0xfffe true true false false [1; 2; 3] 7 (Some [9; 8]) 0xaabbccdd.
Example C12_hypotheses_met : fd_wf ex_frame /\ 0 <= 32 < 256 /\ 32 <= Z.of_nat (length (repeat 0 40)) /\
  data_bytes (msg_of ex_frame) = [0x80; 4; 3; 2; 1; 0xa3; 0xfe; 0xff; 1; 2; 3; 7; 9; 8; 0xdd; 0xcc; 0xbb; 0xaa].
Proof.
  repeat split; cbn; try lia; try (repeat constructor; lia).
Qed.

(* --- C13 ------------------------------------------------------------------------- *)

Theorem C13_decoder_in_bounds : forall v buf n,
  bytes_ok buf -> 0 <= n < 256 -> n <= Z.of_nat (length buf) ->
  st_oob (fst (Frame_decode_s v buf n)) = false.
Proof. exact (fun v buf n H1 H2 H3 => FrameDecP.decode_in_bounds v buf n (conj H1 (conj H2 H3))). Qed.
Print Assumptions C13_decoder_in_bounds.

(* every accepted data frame whose FOpts stop before the MIC is exactly the
   serialisation of the message reported *)
Theorem C13_decoder_exact_data_partial : forall v buf n f,
  bytes_ok buf -> 0 <= n < 256 -> n <= Z.of_nat (length buf) ->
  Frame_decode v buf n = Some f -> dn_type f <> FT_JOIN_ACCEPT ->
  12 + dn_optsLen f <= n ->
  exists m, data_wf m /\ is_downlink (d_type m) = true /\ fopts_allowed m /\
    data_bytes m = firstn (Z.to_nat n) buf /\ reports_data buf f m /\
    region_inside (dn_opts f) (dn_optsLen f) n /\ region_inside (dn_data f) (dn_dataLen f) n.
Proof. exact (fun v buf n f H1 H2 H3 => FrameRtP.decode_sound v buf n f (conj H1 (conj H2 H3))). Qed.
Print Assumptions C13_decoder_exact_data_partial.

Theorem C13_decoder_exact_join : forall v buf n f,
  bytes_ok buf -> 0 <= n < 256 -> n <= Z.of_nat (length buf) ->
  Frame_decode v buf n = Some f -> dn_type f = FT_JOIN_ACCEPT ->
  exists j, accept_wf j /\ accept_bytes j = firstn (Z.to_nat n) buf /\ reports_accept buf f j.
Proof. exact (fun v buf n f H1 H2 H3 => FrameRtP.join_sound v buf n f (conj H1 (conj H2 H3))). Qed.
Print Assumptions C13_decoder_exact_join.

(* without the bound on FOptsLen it fails: the options are reported outside *)
Theorem C13_region_inside_refuted :
  exists buf f, bytes_ok buf /\ length buf = 12%nat /\
    Frame_decode L2_1_0_4 buf 12 = Some f /\ ~ region_inside (dn_opts f) (dn_optsLen f) 12.
Proof. exact FrameRtP.decode_oob_opts. Qed.
Print Assumptions C13_region_inside_refuted.

(* exactly the frames this happens for: 8 + FOptsLen exceeds the frame, and the
   byte then taken for the port (if there is one) is not 0 *)
Theorem C13_decoder_overlong_options : forall v buf n,
  bytes_ok buf -> 0 <= n < 256 -> n <= Z.of_nat (length buf) ->
  ((exists f, Frame_decode v buf n = Some f /\ dn_type f <> FT_JOIN_ACCEPT /\ 12 + dn_optsLen f > n) <->
   (12 <= n /\ (nth 0 buf 0 = mhdr UnconfirmedDown \/ nth 0 buf 0 = mhdr ConfirmedDown) /\
    8 + nth 5 buf 0 mod 16 > n /\ (n = 12 \/ nth 8 buf 0 <> 0))).
Proof. exact (fun v buf n H1 H2 H3 => FrameRtP.decode_data_exact v buf n (conj H1 (conj H2 H3))). Qed.
Print Assumptions C13_decoder_overlong_options.

Example C13_hypotheses_met :
  exists f, Frame_decode L2_1_0_4 [0xa0; 1;2;3;4; 0x32; 5;0; 6;7; 9; 10;11; 1;2;3;4] 17 = Some f /\
    dn_type f <> FT_JOIN_ACCEPT /\ 12 + dn_optsLen f <= 17 /\ dn_optsLen f = 2 /\ dn_dataLen f = 2.
Proof. eexists. split; [vm_compute; reflexivity|]. repeat split; cbn; try discriminate; lia. Qed.

(* --- C14 ------------------------------------------------------------------------- *)

Theorem C14_downlink_round_trip : forall v m rest,
  data_wf m -> is_downlink (d_type m) = true -> fopts_allowed m ->
  bytes_ok rest -> (length (data_bytes m) < 256)%nat ->
  exists f, Frame_decode v (data_bytes m ++ rest) (Z.of_nat (length (data_bytes m))) = Some f /\
    reports_data (data_bytes m ++ rest) f m /\
    region_inside (dn_opts f) (dn_optsLen f) (Z.of_nat (length (data_bytes m))) /\
    region_inside (dn_data f) (dn_dataLen f) (Z.of_nat (length (data_bytes m))).
Proof. exact FrameRtP.decode_complete. Qed.
Print Assumptions C14_downlink_round_trip.

Theorem C14_join_accept_round_trip : forall v j rest, accept_wf j -> bytes_ok rest ->
  exists f, Frame_decode v (accept_bytes j ++ rest) (Z.of_nat (length (accept_bytes j))) = Some f /\
    reports_accept (accept_bytes j ++ rest) f j.
Proof. exact FrameRtP.join_complete. Qed.
Print Assumptions C14_join_accept_round_trip.

(* two requests that produce the same frame are the same request *)
Theorem C14_uplink_unambiguous : forall f g out1 out2 max1 max2,
  fd_wf f -> fd_wf g ->
  0 <= max1 < 256 -> max1 <= Z.of_nat (length out1) ->
  0 <= max2 < 256 -> max2 <= Z.of_nat (length out2) ->
  pr_len (Frame_putData f out1 max1) <> 0 ->
  firstn (Z.to_nat (pr_len (Frame_putData f out1 max1))) (st_buf (pr_stream (Frame_putData f out1 max1))) =
  firstn (Z.to_nat (pr_len (Frame_putData g out2 max2))) (st_buf (pr_stream (Frame_putData g out2 max2))) ->
  msg_of f = msg_of g.
Proof. exact FrameRtP.putData_inj. Qed.
Print Assumptions C14_uplink_unambiguous.

Definition ex_down : data_msg :=
  DataMsg ConfirmedDown 0xfedcba98 true false true true 0x8001 [2; 0x30] (Some (5, [1; 2; 3])) 0x12345678.
Example C14_hypotheses_met : data_wf ex_down /\ is_downlink (d_type ex_down) = true /\
  fopts_allowed ex_down /\ (length (data_bytes ex_down) < 256)%nat.
Proof. repeat split; cbn; try lia; try (repeat constructor; lia). Qed.
Definition ex_accept : join_accept :=
  JoinAcceptMsg 0x010203 0x13 0x26011bda true 2 3 0 (Some (repeat 7 16)) 0xdeadbeef.
Example C14_accept_met : accept_wf ex_accept /\ length (accept_bytes ex_accept) = 33%nat.
Proof. repeat split; cbn; try lia; try (repeat constructor; lia). Qed.
Example C14_uplink_met : pr_len (Frame_putData ex_frame (repeat 0 40) 32) = 18.
Proof. vm_compute. reflexivity. Qed.

(* --- C15 ------------------------------------------------------------------------- *)

Theorem C15_join_request_format : forall f out max,
  fj_wf f -> 0 <= max < 256 -> max <= Z.of_nat (length out) ->
  let r := Frame_putJoinRequest f out max in
  let w := join_request (fj_joinEUI f) (fj_devEUI f) (fj_devNonce f) (fj_mic f) in
  length w = 23%nat /\ st_oob (fst r) = false /\
  if 23 <=? max
  then snd r = 23 /\ st_buf (fst r) = w ++ skipn 23 out
  else snd r = 0 /\ skipn (Z.to_nat max) (st_buf (fst r)) = skipn (Z.to_nat max) out.
Proof. exact FrameP.putJoin_layout. Qed.
Print Assumptions C15_join_request_format.

Theorem C15_rejoin_request_format : forall f out max,
  length (fr_devEUI f) = 8%nat -> 0 <= fr_type f < 256 ->
  0 <= max < 256 -> max <= Z.of_nat (length out) ->
  let r := Frame_putRejoinRequest f out max in
  let w := rejoin_request (fr_type f) (fr_netID f) (fr_devEUI f) (fr_rjCount f) (fr_mic f) in
  length w = 19%nat /\ st_oob (fst r) = false /\
  if 19 <=? max
  then snd r = 19 /\ st_buf (fst r) = w ++ skipn 19 out
  else snd r = 0 /\ skipn (Z.to_nat max) (st_buf (fst r)) = skipn (Z.to_nat max) out.
Proof. exact FrameP.putRejoin_layout. Qed.
Print Assumptions C15_rejoin_request_format.

Theorem C15_join_accept_lengths : forall v buf n,
  bytes_ok buf -> 0 <= n < 256 -> n <= Z.of_nat (length buf) -> 1 <= n ->
  nth 0 buf 0 = mhdr JoinAccept ->
  ((exists f, Frame_decode v buf n = Some f) <-> n = 17 \/ n = 33).
Proof. exact (fun v buf n H1 H2 H3 => FrameRtP.join_len v buf n (conj H1 (conj H2 H3))). Qed.
Print Assumptions C15_join_accept_lengths.

(* a decoded frame is reported as a join accept only for that MHDR *)
Theorem C15_join_accept_mhdr : forall v buf n f,
  bytes_ok buf -> 0 <= n < 256 -> n <= Z.of_nat (length buf) ->
  Frame_decode v buf n = Some f ->
  (dn_type f = FT_JOIN_ACCEPT <-> nth 0 buf 0 = mhdr JoinAccept).
Proof. exact (fun v buf n f H1 H2 H3 => FrameRtP.join_mhdr v buf n f (conj H1 (conj H2 H3))). Qed.
Print Assumptions C15_join_accept_mhdr.

Example C15_hypotheses_met :
  fj_wf (mkFrameJoin [1;2;3;4;5;6;7;8] [9;10;11;12;13;14;15;16] 0x1234 0x55667788) /\
  join_request [1;2;3;4;5;6;7;8] [9;10;11;12;13;14;15;16] 0x1234 0x55667788 =
   [0; 8;7;6;5;4;3;2;1; 16;15;14;13;12;11;10;9; 0x34;0x12; 0x88;0x77;0x66;0x55].
Proof. repeat split. Qed.

(* --- C43 ------------------------------------------------------------------------- *)

(* holds for sequences that do not combine a backward seek with a peek *)
Theorem C43_stream_in_bounds_partial : forall l s, fresh s -> Forall op_typed l ->
  forallb (fun o => negb (is_back o)) l = true \/ forallb (fun o => negb (is_peek o)) l = true ->
  st_oob (ops_run l s) = false.
Proof. exact StreamP.stream_in_bounds. Qed.
Print Assumptions C43_stream_in_bounds_partial.

Theorem C43_stream_error_sticky : forall l o s, st_err s = true ->
  st_err (ops_run l s) = true /\ st_buf (ops_run l s) = st_buf s /\
  (is_peek o = false -> snd (op_run o (ops_run l s)) = None).
Proof. exact StreamP.stream_error_sticky. Qed.
Print Assumptions C43_stream_error_sticky.

Theorem C43_stream_in_bounds_refuted :
  exists s l, fresh s /\ Forall op_typed l /\ st_oob (ops_run l s) = true.
Proof. exact StreamP.stream_back_oob. Qed.
Print Assumptions C43_stream_in_bounds_refuted.

(* why: a backward seek moves the cursor forward *)
Theorem C43_backward_seek_goes_forward : forall s off,
  0 <= st_pos s <= st_size s -> st_size s < 256 -> - st_pos s <= off < 0 ->
  st_pos (fst (Stream_seekCur s off)) = u8 (st_pos s - off).
Proof. exact StreamP.stream_back_exact. Qed.
Print Assumptions C43_backward_seek_goes_forward.

Theorem C43_forward_seek_exact : forall s off,
  0 <= st_pos s <= st_size s -> st_size s < 256 -> 0 <= off ->
  st_pos (fst (Stream_seekCur s off)) =
    if st_pos s + off <=? st_size s then st_pos s + off else st_pos s.
Proof. exact StreamP.stream_fwd_exact. Qed.
Print Assumptions C43_forward_seek_exact.

Example C43_hypotheses_met : fresh (Stream_init [1; 2; 3] 3) /\
  ops_run [SWrite [9; 9]; SRead 2] (Stream_init [1; 2; 3] 3) =
    mkStream [9; 9; 3] true 3 2 true false.
Proof. split; [exists [1; 2; 3], 3; repeat split; auto; lia | reflexivity]. Qed.
