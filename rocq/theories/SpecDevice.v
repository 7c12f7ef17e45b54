(* What the methods of Device return (C75 to C77). *)
From Verif Require Import Words FrameM CommandsM RegionM MacStateM MacUtilM MacApiM SpecHist DeviceM.

(* jobs that ask the MAC for an operation *)
Definition operates (j : job) : bool := match j with J_data _ _ _ _ | J_otaa | J_entropy => true | _ => false end.
Definition operation (k : call) : bool := match k with C_data _ _ _ _ | C_otaa | C_entropy => true | _ => false end.

(* operations are asked for by thread 0 only, which gives otaa() no time limit *)
Definition one_operator (x : move) : Prop :=
  match x with
  | M_begin i j => i = 0%nat \/ operates j = false
  | M_expire _ => False
  | _ => True
  end.

(* the last operation asked of the MAC, what it returned, and the events
   since then that end an operation *)
Definition note (acc : option (call * ret * list event)) (x : item) : option (call * ret * list event) :=
  match x with
  | IReq k r => if operation k then Some (k, r, []) else acc
  | IOut (OEvent ev) =>
      match acc with
      | Some (k, r, l) => if is_end x then Some (k, r, l ++ [ev]) else acc
      | None => None
      end
  | _ => acc
  end.
Definition last_op (l : list item) : option (call * ret * list event) := fold_left note l None.

(* what a method should return when its operation ends with an event; [first]:
   the message sent was one of MAC commands only *)
Definition answer (first : bool) (ev : event) : dstatus :=
  match ev with
  | EV_DATA_COMPLETE | EV_JOIN_COMPLETE _ _ _ | EV_ENTROPY _ => D_mac (RStatus STATUS_OK)
  | EV_DATA_TIMEOUT => if first then D_ERROR else D_NOACK
  | EV_JOIN_EXHAUSTED => D_mac (RStatus STATUS_DEVNONCE)
  | EV_OP_CANCELLED => D_CANCELLED
  | _ => D_ERROR
  end.
Definition number (ev : event) : Z := match ev with EV_ENTROPY v => v | _ => 0 end.

Definition accepted_ret (r : ret) : bool := match r with RStatus STATUS_OK | RStatus STATUS_MACPRIORITY => true | _ => false end.

Definition priority (r : ret) : bool := match r with RStatus STATUS_MACPRIORITY => true | _ => false end.

(* the return value of an operation against the log *)
Definition told (j : job) (s : dstatus) (v : Z) (l : list item) : Prop :=
  exists r evs, last_op l = Some (job_call j, r, evs) /\
  (if accepted_ret r
   then exists ev, evs = [ev] /\ s = answer (priority r) ev /\ v = number ev /\ (r = RStatus STATUS_MACPRIORITY -> ev <> EV_DATA_COMPLETE)
   else evs = [] /\ s = D_mac r /\ v = 0).

(* the operation of the MAC a method waits for *)
Definition job_kind (j : job) : kind := match j with J_data _ _ _ _ => KData | J_otaa => KJoin | _ => KEntropy end.
Definition kind_of (op : mac_op) : option kind :=
  match op with
  | OP_NONE => None | OP_ENTROPY => Some KEntropy
  | OP_JOINING | OP_REJOINING => Some KJoin
  | OP_DATA_CONFIRMED | OP_DATA_UNCONFIRMED => Some KData
  end.
