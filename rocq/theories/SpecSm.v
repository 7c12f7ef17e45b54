(* The keys and blocks of LoRaWAN 1.0.x and 1.1, as bytes. *)
From Coq Require Import ZArith List Bool.
From Verif Require Import Words FrameM SmM MacStateM Scenario SpecFrame SpecAes SpecCmac.
Import ListNotations.
Open Scope Z_scope.

(* the integrity code: first four bytes of the CMAC, little endian *)
Definition mic_of (key hdr data : list Z) : Z :=
  le_val (firstn 4 (cmac (aes128 key) (hdr ++ data))).

(* 6.2.5 (1.0.x) and 6.1.1.3/6.2.5 (1.1): derivation blocks *)
Definition kdf_block_1_0 (t joinNonce netID devNonce : Z) : list Z :=
  [t] ++ le 3 joinNonce ++ le 3 netID ++ le 2 devNonce ++ repeat 0 7.
Definition kdf_block_1_1 (t joinNonce : Z) (joinEUI : list Z) (devNonce : Z) : list Z :=
  [t] ++ le 3 joinNonce ++ rev joinEUI ++ le 2 devNonce ++ repeat 0 2.
Definition kdf_block_js (t : Z) (devEUI : list Z) : list Z :=
  [t] ++ rev devEUI ++ repeat 0 7.

(* 4.3.3: key stream block; 4.4: first blocks of the integrity code *)
Definition block_A (up : bool) (devAddr counter i : Z) : list Z :=
  [1] ++ repeat 0 4 ++ [if up then 0 else 1] ++ le 4 devAddr ++ le 4 counter ++ [0; i].
Definition block_B0 (confirm : Z) (up : bool) (devAddr counter len : Z) : list Z :=
  [0x49] ++ le 2 confirm ++ [0; 0] ++ [if up then 0 else 1] ++ le 4 devAddr ++ le 4 counter ++ [0; len].
Definition block_B1 (confirm rate ch : Z) (devAddr counter len : Z) : list Z :=
  [0x49] ++ le 2 confirm ++ [rate; ch] ++ [0] ++ le 4 devAddr ++ le 4 counter ++ [0; len].

(* the MAC is wired to the default security module, provisioned with these
   root keys *)
Definition default_sm (c : cfg) (appKey nwkKey : list Z) : Prop :=
  let s log := sm_replay (c_l2 c) (SM_init (c_l2 c) appKey nwkKey) log in
  forall log k,
    (forall h d, c_mic c log k h d = SM_mic (c_l2 c) (s log) k h d) /\
    (forall b, c_ecb c log k b = SM_ecb (c_l2 c) (s log) k b) /\
    (forall iv d, c_ctr c log k iv d = SM_ctr (c_l2 c) (s log) k iv d).

(* the keys it holds after a log of updates *)
Definition key_of (v : l2ver) (appKey nwkKey : list Z) (log : smlog) (k : sm_key) : list Z :=
  getKey v (sm_replay v (SM_init v appKey nwkKey) log) k.

(* every derivation block handed to it so far has 16 bytes *)
Definition log_ok (l : smlog) : Prop := Forall (fun x => block (snd x)) l.

(* 4.4 (1.0.x and 1.1): the integrity code of an uplink [body]; confCounter is
   the 1.1 ConfFCnt: the counter of the confirmed downlink being acknowledged *)
Definition uplink_mic (version : Z) (fnwk snwk : list Z) (confCounter rate ch devAddr counter : Z)
  (body : list Z) : Z :=
  let len := Z.of_nat (length body) in
  let micF := mic_of fnwk (block_B0 0 true devAddr counter len) body in
  let micS := mic_of snwk (block_B1 confCounter rate ch devAddr counter len) body in
  if version =? 1 then (micF mod 65536) * 65536 + micS mod 65536 else micF.
