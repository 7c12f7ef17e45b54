(* What processing a field of MAC commands means: the commands of the field
   are executed one after the other.  A LinkADRReq closes its block when the
   next byte is not another LinkADRReq identifier. *)
From Verif Require Import Words FrameM CommandsM MacStateM MacUtilM MacCmdM SpecCmd.

Definition closes_block (rest : list Z) : bool :=
  match rest with 3 :: _ => false | _ => true end.

Definition exec_cmds (c : cfg) (e : env) (l : list (down_cmd * list Z)) (m : mac) (st : adr_state)
  : mac * adr_state :=
  fold_left (fun a x => do_command c e (fst x) (closes_block (snd x)) (fst a) (snd a)) l (m, st).
