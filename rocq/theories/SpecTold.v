(* What the application is told about the session. *)
From Verif Require Import Words StreamM FrameM CommandsM RegionM MacStateM MacUtilM OpsM MacProcM MacApiM SpecHist.

(* calls that change the session without telling *)
Definition told_call (k : call) : Prop :=
  match k with C_abp _ | C_addChannel _ _ _ _ | C_maskChannel _ | C_unmaskChannel _ => False | _ => True end.
(* DevNonce is only of use to the session that is being joined *)
Definition but_nonce (s : session) : session := set_s_devNonce 0 s.
