(* C16, C17: MAC commands. *)
From Verif Require Import Lib StreamM FrameM CommandsM MacStateM MacUtilM MacApiM SpecFrame SpecCmd SpecAnswer.
From Verif Require CmdP AnswerP.

(* --- C16 ------------------------------------------------------------------------- *)

(* LoRaWAN 1.0.x builds: reading any field reports exactly its commands *)
Theorem C16_command_parsing_1_0 : forall v l fuel,
  is_1_1 v = false -> bytes_ok l -> (length l < 256)%nat -> (length l < fuel)%nat ->
  scan fuel v (Stream_initReadOnly l (Z.of_nat (length l))) = (map fst (parse_cmds fields v l), false).
Proof. exact CmdP.scan_exact. Qed.
Print Assumptions C16_command_parsing_1_0.

(* all builds: the same, with two ForceRejoinReq fields taken from the wrong bits *)
Theorem C16_command_parsing_as_read : forall v l fuel,
  bytes_ok l -> (length l < 256)%nat -> (length l < fuel)%nat ->
  scan fuel v (Stream_initReadOnly l (Z.of_nat (length l))) = (map fst (parse_cmds fields_read v l), false).
Proof. exact CmdP.scan_read. Qed.
Print Assumptions C16_command_parsing_as_read.

Theorem C16_only_force_rejoin_differs : forall cid p, cid <> 14 -> fields_read cid p = fields cid p.
Proof. exact CmdP.fields_read_eq. Qed.
Print Assumptions C16_only_force_rejoin_differs.

Theorem C16_force_rejoin_fields_refuted :
  exists l, bytes_ok l /\
    scan 4 L2_1_1 (Stream_initReadOnly l (Z.of_nat (length l))) <> (map fst (parse_cmds fields L2_1_1 l), false).
Proof. exact CmdP.force_rejoin_wrong. Qed.
Print Assumptions C16_force_rejoin_fields_refuted.

(* two complete commands, then a truncated one *)
Example C16_example :
  parse_cmds fields L2_1_0_4 [5; 0x21; 1; 2; 3; 6; 4] =
    [(DRXParamSetup 2 1 19712100, [6; 4]); (DDevStatus, [4])].
Proof. reflexivity. Qed.

(* --- C17 ------------------------------------------------------------------------- *)

Theorem C17_answers_fit : forall c x o,
  st_oob (mac_commands c x o) = false /\ st_err (mac_commands c x o) = false /\
  mac_bytes (mac_commands c x o) = uplink_commands (c_l2 c) (c_txps c) x o /\
  (length (mac_bytes (mac_commands c x o)) <= if is_1_1 (c_l2 c) then 21 else 16)%nat.
Proof. exact AnswerP.mac_commands_spec. Qed.
Print Assumptions C17_answers_fit.

Theorem C17_fopts_at_most_15 : forall confirmed port data maxp macs f f' op st,
  compose confirmed port data maxp macs f = (f', op, st) -> fd_opts f = [] ->
  (length (fd_opts f') <= 15)%nat.
Proof. exact AnswerP.compose_opts. Qed.
Print Assumptions C17_fopts_at_most_15.
