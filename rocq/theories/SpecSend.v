(* Requests and the frames sent for them. *)
From Verif Require Import Lib RegionM MacStateM MacUtilM OpsM MacCmdM MacProcM MacApiM SpecHist.

Definition sends_data (o : out) : bool := match o with OTransmit _ _ _ _ f => is_data_frame f | _ => false end.
Definition data_count (l : list out) : Z := Z.of_nat (length (filter sends_data l)).

(* transmissions asked for: by the request, or else by the network *)
Definition redundancy (o : option data_opts) (s : session) : Z :=
  let n := match o with Some o => do_nbTrans o mod 16 | None => 0 end in
  if 0 <? n then n else if 0 <? s_nbTrans s then s_nbTrans s else 1.

Definition rand_ok (x : env * call) : Prop := 0 <= e_rand (fst x) RND_CHANNEL.
Definition no_choice (k : call) : Prop := match k with C_data _ _ _ _ | C_otaa => False | _ => True end.
