(* The integrity code of a join request. *)
From Verif Require Import Lib FrameM SmM MacStateM SpecFrame SpecSm.

(* LoRaWAN 1.0.x 6.2.4, 1.1 6.2.5: over MHDR, JoinEUI, DevEUI and DevNonce
   with the root key of the network: NwkKey in 1.1, AppKey before *)
Definition join_mic (v : l2ver) (app nwk joinEUI devEUI : list Z) (devNonce : Z) : Z :=
  mic_of (if is_1_1 v then nwk else app) [] ([mhdr JoinRequest] ++ rev joinEUI ++ rev devEUI ++ le 2 devNonce).
