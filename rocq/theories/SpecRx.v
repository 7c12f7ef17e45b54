(* What is received, as seen by an observer outside the MAC (C04-C06). *)
From Verif Require Import Words FrameM CommandsM RegionM SmM MacStateM MacUtilM MacApiM SpecFrame SpecDecode SpecAes SpecSm SpecHist.

(* --- join accepts (C04) --- *)

(* the security module decrypts into bytes and the radio receives bytes; the default module does:
   ModuleP.default_octets *)
Definition octets (c : cfg) : Prop :=
  in_place c /\ (forall log b, block b -> bytes_ok (c_ecb c log KEY_NWK b)).
Definition air_ok (h : history) : Prop := Forall (fun x => bytes_ok (e_rx (fst x))) h.

(* root keys never change; true of the default module: ModuleP.default_root *)
Definition fixed_root (c : cfg) : Prop := forall l l' b, c_ecb c l KEY_NWK b = c_ecb c l' KEY_NWK b.

(* what join accepts report, and the value a restart would use *)
Definition join_news (l : list out) : list Z :=
  flat_map (fun o => match o with OEvent (EV_JOIN_COMPLETE n _ _) => [n] | _ => [] end) l.
Definition join_kept (d0 : Z) (l : list out) : Z :=
  fold_left (fun d o => match o with OEvent (EV_JOIN_COMPLETE n _ _) => n | _ => d end) l d0.
(* joinNonce kept from the last value reported *)
Inductive accept_lives (c : cfg) : Z -> list out -> Prop :=
| no_alife d : accept_lives c d []
| alife d r a e h pre post rest : arg_ok a -> ia_joinNonce a = d -> air_ok h -> m_log (run c h (MAC_init c r a e)) = pre ++ post ->
    accept_lives c (join_kept d pre) rest -> accept_lives c d (pre ++ rest).


(* --- what makes a received frame genuine (C04-C06) --- *)

(* the radio delivers at most 255 bytes *)
Definition heard (e : env) : bytes := firstn 255 (e_rx e).

(* a join accept in clear: all but the first byte is one or two blocks *)
Definition opened (c : cfg) (log : smlog) (w : bytes) : bytes :=
  firstn 1 w ++ c_ecb c log KEY_NWK (slice w 1 16)
  ++ (if (length w =? 33)%nat then c_ecb c log KEY_NWK (slice w 17 16) else []).

(* 6.2.3: the integrity code of a join accept; 1.1 networks add the join EUI
   and the devNonce of the request *)
Definition accept_mic (c : cfg) (m : mac) (j : join_accept) : Z :=
  let w := accept_bytes j in
  let body := firstn (length w - 4) w in
  if is_1_1 (c_l2 c) && j_optNeg j
  then c_mic c (m_sm m) KEY_JSINT ([0xff] ++ rev (m_joinEUI m) ++ le 2 (s_devNonce (m_ctx m))) body
  else c_mic c (m_sm m) KEY_NWK [] body.

Definition genuine_accept (c : cfg) (m : mac) (w : bytes) (j : join_accept) : Prop :=
  m_op m = OP_JOINING /\ accept_wf j /\ (length w = 17 \/ length w = 33)%nat /\
  opened c (m_sm m) w = accept_bytes j /\ j_mic j = accept_mic c m j /\
  (c_l2 c <> L2_1_0_3 -> m_joinNonce m <= j_joinNonce j).

(* 4.4: addressed to this device, and the integrity code matches for this
   counter.  An acknowledgement in a 1.1 session names the uplink *)
Definition genuine_as (c : cfg) (m : mac) (w : bytes) (counter : Z) : Prop :=
  let n := length w in
  let s := m_ctx m in
  (m_op m = OP_DATA_UNCONFIRMED \/ m_op m = OP_DATA_CONFIRMED) /\
  (12 <= n)%nat /\ (nth 0 w 0 = mhdr UnconfirmedDown \/ nth 0 w 0 = mhdr ConfirmedDown) /\
  le_val (slice w 1 4) = s_devAddr s /\
  let confirm := if (sess_version c s =? 1) && Z.testbit (nth 5 w 0) 5 then (s_up s - 1) mod 2 ^ 16 else 0 in
  le_val (slice w (n - 4) 4) =
    c_mic c (m_sm m) KEY_SNWKSINT (block_B0 confirm false (s_devAddr s) counter (Z.of_nat n - 4)) (firstn (n - 4) w).
(* FCnt *)
Definition fcnt_down (w : bytes) : Z := le_val (slice w 6 2).
Definition genuine_data (c : cfg) (m : mac) (w : bytes) : Prop :=
  exists counter, 0 <= counter < 2 ^ 32 /\ counter mod 2 ^ 16 = fcnt_down w /\ genuine_as c m w counter.

Definition genuine (c : cfg) (m : mac) (w : bytes) : Prop :=
  genuine_data c m w \/ exists j, genuine_accept c m w j.

(* the same surroundings, but these bytes are received *)
Definition hear (w : bytes) (e : env) : env :=
  mkEnv (e_now e) (e_rand e) (e_battery e) (e_st_tx e) (e_st_rx e) (e_st_timeout e) w (e_rssi e) (e_snr e) (e_entropy e).

(* nothing that came from the network *)
Definition unheard (o : out) : bool :=
  match o with
  | OEvent (EV_RX _ _) | OEvent (EV_JOIN_COMPLETE _ _ _) | OEvent (EV_LINK_STATUS _ _) | OEvent (EV_DEVICE_TIME _ _) => false
  | _ => true
  end.

(* what giving up on an answer may do to a session: with ADR, a lower rate,
   all channels enabled, or full power *)
Definition backed_off (s s' : session) : Prop :=
  s' = s \/ s' = set_s_rate (s_rate s - 1) s \/ s' = set_s_power 0 s \/
  s' = set_s_chMask (unmaskAllChannels (s_chMask s)) s.

(* --- downlink counters (C05, C48) --- *)

(* the session given at the start, if any, has only seen counters below 65536 *)
Definition low_down (s : session) : Prop := s_appDown s = 0 /\ s_nwkDown s = 0.
Definition low_start (so : option session) : Prop := match so with Some s => low_down s | None => True end.

(* data for the application *)
Definition is_rx (o : out) : bool := match o with OEvent (EV_RX _ _) => true | _ => false end.
Definition count_rx (l : list out) : nat := length (filter is_rx l).
