(* What an observer outside the MAC sees of a history: the requests with the
   values they returned, the events handed to the application and the frames
   handed to the radio, in order.  The properties of histories are stated over
   these lists. *)
From Verif Require Import Words FrameM CommandsM RegionM MacStateM MacUtilM MacApiM.

Inductive item := IReq (k : call) (r : ret) | IOut (o : out).

(* outputs added by a step: the log only grows *)
Definition new_out (m m' : mac) : list out := skipn (length (m_log m)) (m_log m').

(* LDL_MAC_process is not a request *)
Definition step_items (c : cfg) (e : env) (k : call) (m : mac) : list item :=
  match k with C_process => [] | _ => [IReq k (snd (step c e k m))] end
  ++ map IOut (new_out m (fst (step c e k m))).

Fixpoint items (c : cfg) (h : history) (m : mac) : list item :=
  match h with
  | [] => []
  | (e, k) :: h => step_items c e k m ++ items c h (fst (step c e k m))
  end.

(* values a caller in C can pass *)
Definition eui_ok (l : bytes) : Prop := length l = 8%nat /\ bytes_ok l.
Definition arg_ok (a : init_arg) : Prop :=
  eui_ok (ia_joinEUI a) /\ eui_ok (ia_devEUI a) /\
  0 <= ia_devNonce a < 4294967296 /\ 0 <= ia_joinNonce a < 4294967296.

(* the security module works in place: it changes no lengths.  The default
   module does so: ModuleP.default_in_place *)
Definition in_place (c : cfg) : Prop :=
  (forall log k iv d, length (c_ctr c log k iv d) = length d) /\
  (forall log k b, length b = 16%nat -> length (c_ecb c log k b) = 16%nat).

(* --- operations and how they end (C25) --- *)

Inductive kind := KEntropy | KJoin | KData.

Definition starts (x : item) : option kind :=
  match x with
  | IReq C_entropy (RStatus STATUS_OK) => Some KEntropy
  | IReq C_otaa (RStatus STATUS_OK) => Some KJoin
  | IReq (C_data _ _ _ _) (RStatus STATUS_OK) | IReq (C_data _ _ _ _) (RStatus STATUS_MACPRIORITY) => Some KData
  | _ => None
  end.

(* the terminating events, with the kinds of operation each may end *)
Definition ends (x : item) : option (kind -> bool) :=
  match x with
  | IOut (OEvent (EV_ENTROPY _)) => Some (fun k => match k with KEntropy => true | _ => false end)
  | IOut (OEvent (EV_JOIN_COMPLETE _ _ _)) | IOut (OEvent EV_JOIN_EXHAUSTED) =>
      Some (fun k => match k with KJoin => true | _ => false end)
  | IOut (OEvent EV_DATA_COMPLETE) | IOut (OEvent EV_DATA_TIMEOUT) =>
      Some (fun k => match k with KData => true | _ => false end)
  | IOut (OEvent EV_OP_ERROR) => Some (fun k => match k with KData => true | _ => false end)
  | IOut (OEvent EV_OP_CANCELLED) => Some (fun _ => true)
  | _ => None
  end.

(* the operation in progress after x, given the one before; None if x starts
   an operation during another, or ends one that is not in progress *)
Definition follow (s : option (option kind)) (x : item) : option (option kind) :=
  match s with
  | None => None
  | Some cur =>
      match starts x, ends x with
      | Some k, None => match cur with None => Some (Some k) | Some _ => None end
      | None, Some may => match cur with Some k => if may k then Some None else None | None => None end
      | None, None => Some cur
      | Some _, Some _ => None
      end
  end.
Definition in_progress (l : list item) : option (option kind) := fold_left follow l (Some None).

Definition count (P : item -> bool) (l : list item) : Z := Z.of_nat (length (filter P l)).
Definition is_start (x : item) : bool := match starts x with Some _ => true | None => false end.
Definition is_end (x : item) : bool := match ends x with Some _ => true | None => false end.

(* --- frames on the air (LoRaWAN: first byte is MHDR) --- *)

Definition is_join_frame (f : bytes) : bool := match f with 0x00 :: _ => true | _ => false end.
Definition is_data_frame (f : bytes) : bool := match f with 0x40 :: _ | 0x80 :: _ => true | _ => false end.
(* MHDR, JoinEUI (8), DevEUI (8), DevNonce (2) *)
Definition nonce_of (f : bytes) : Z := nth 17 f 0 + 256 * nth 18 f 0.
(* MHDR, DevAddr (4), FCtrl, FCnt (2) *)
Definition fcnt_of (f : bytes) : Z := nth 6 f 0 + 256 * nth 7 f 0.

(* nonces of the join requests handed to the radio, in order *)
Definition join_nonces (l : list out) : list Z :=
  flat_map (fun o => match o with OTransmit _ _ _ _ f => if is_join_frame f then [nonce_of f] else [] | _ => [] end) l.

(* the value a restart would use: the last one announced, or the one given at
   start *)
Definition announced (d0 : Z) (l : list out) : Z :=
  fold_left (fun d o => match o with OEvent (EV_DEV_NONCE_UPDATED n) => n | _ => d end) l d0.

(* data requests accepted *)
Definition is_accepted (x : item) : bool := match starts x with Some KData => true | _ => false end.
Definition accepted (l : list item) : Z := count is_accepted l.

(* requests that end the session *)
Definition not_forget (k : call) : Prop := k <> C_forget.

(* the counter a restart from the last session handed over would use next *)
Definition saved_up (u0 : Z) (l : list out) : Z :=
  fold_left (fun u o => match o with OEvent (EV_SESSION_UPDATED s) => s_up s | _ => u end) l u0.

Definition outs (l : list item) : list out := flat_map (fun x => match x with IOut o => [o] | _ => [] end) l.

(* data frames handed to the radio, each with the counter that a restart at
   that moment would use next *)
Fixpoint sends (u : Z) (l : list out) : list (Z * bytes) :=
  match l with
  | [] => []
  | OEvent (EV_SESSION_UPDATED s) :: l => sends (s_up s) l
  | OTransmit _ _ _ _ f :: l => (if is_data_frame f then [(u, f)] else []) ++ sends u l
  | _ :: l => sends u l
  end.
(* a later transmission has a larger counter or is the same frame *)
Definition newer (x y : Z * bytes) : Prop := fst x < fst y \/ (fst x = fst y /\ snd x = snd y).
(* the counter has not reached its last value *)
Definition not_last (u : Z) (l : list out) : Prop := forall p q, l = p ++ q -> saved_up u p < 4294967295.

(* --- one power cycle after another; a crash may fall between any two outputs --- *)

(* devNonce kept from the last value announced *)
Inductive lives (c : cfg) : Z -> list out -> Prop :=
| no_life d : lives c d []
| life d r a e h pre post rest : arg_ok a -> ia_devNonce a = d -> m_log (run c h (MAC_init c r a e)) = pre ++ post ->
    lives c (announced d pre) rest -> lives c d (pre ++ rest).

(* the last session handed over *)
Definition last_session (so : option session) (l : list out) : option session :=
  fold_left (fun d o => match o with OEvent (EV_SESSION_UPDATED s) => Some s | _ => d end) l so.
(* counter a start from this session uses first *)
Definition restart_up (r : region) (so : option session) : Z :=
  match so with
  | Some s => if (s_magic s =? sessionMagicNumber) && region_eqb (s_region s) r then s_up s else 0
  | None => 0
  end.
Definition session_ok (so : option session) : Prop := match so with Some s => 0 <= s_up s < 4294967296 | None => True end.

(* session kept from the last one handed over; no LDL_MAC_forget *)
Inductive session_lives (c : cfg) (r : region) : option session -> list out -> Prop :=
| no_slife so : session_lives c r so []
| slife so a e h pre post rest : arg_ok a -> ia_session a = so -> Forall (fun x => not_forget (snd x)) h ->
    m_log (run c h (MAC_init c r a e)) = pre ++ post ->
    session_lives c r (last_session so pre) rest -> session_lives c r so (pre ++ rest).

(* --- every item has property G, which may depend on those before it --- *)
Definition each {A} (G : list A -> A -> Prop) (l : list A) : Prop :=
  forall pre x post, l = pre ++ x :: post -> G pre x.

(* --- requests and refusals (C24, C29) --- *)

Definition is_request (k : call) : bool :=
  match k with C_entropy | C_otaa | C_abp _ | C_data _ _ _ _ => true | _ => false end.
(* every status but OK and MACPRIORITY refuses *)
Definition refuses (r : ret) : bool :=
  match r with RStatus STATUS_OK | RStatus STATUS_MACPRIORITY => false | RStatus _ => true | _ => false end.
