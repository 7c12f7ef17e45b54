(* The keys of a session, from the LoRaWAN specification. *)
From Verif Require Import Lib FrameM SmM MacStateM OpsM SpecAes SpecSm.

(* keys protecting the messages of a session *)
Definition net_key (k : sm_key) : Prop := k = KEY_FNWKSINT \/ k = KEY_SNWKSINT \/ k = KEY_NWKSENC \/ k = KEY_APPS.

(* LoRaWAN 1.0.x 6.2.5, 1.1 6.2.5: from the root keys and the values of the
   join procedure *)
Definition session_key (c : cfg) (app nwk joinEUI : list Z) (s : session) (k : sm_key) : list Z :=
  if sess_version c s =? 0 then
    aes128 (if is_1_1 (c_l2 c) then nwk else app)
      (kdf_block_1_0 (match k with KEY_APPS => 2 | _ => 1 end) (s_joinNonce s) (s_netID s) (s_devNonce s))
  else
    aes128 (match k with KEY_APPS => app | _ => nwk end)
      (kdf_block_1_1 (match k with KEY_APPS => 2 | KEY_SNWKSINT => 3 | KEY_NWKSENC => 4 | _ => 1 end) (s_joinNonce s) joinEUI (s_devNonce s)).
