(* The mbed class MAC and the store it keeps its state in: wrappers/mbed/mac.cpp,
   store.h, default_store.h.

   The store is an interface.  Modelled is one that returns what was saved
   last, as store.h asks of it; the session is kept whole, so the size
   comparison of mac.cpp:139 succeeds for any session saved. *)
From Verif Require Import Words FrameM CommandsM RegionM MacStateM MacUtilM MacApiM.

(* store.h:37-44 (init_params), 55-90 *)
Record store := mkStore {
  st_devEUI : bytes;
  st_joinEUI : bytes;
  st_devNonce : Z;
  st_joinNonce : Z;
  st_session : option session
}.

(* mac.cpp:63-89 (MAC::app_handler); save_next_dev_nonce takes 16 bits of the
   32 of nextDevNonce (store.h:72), save_join_accept all 32 (store.h:80).  The
   call of event_cb is DeviceM.handle_mac_event *)
Definition app_handler (s : store) (o : out) : store :=
  match o with
  | OEvent (EV_DEV_NONCE_UPDATED n) => mkStore (st_devEUI s) (st_joinEUI s) (u16 n) (st_joinNonce s) (st_session s)
  | OEvent (EV_JOIN_COMPLETE n _ _) => mkStore (st_devEUI s) (st_joinEUI s) (st_devNonce s) (u32 n) (st_session s)
  | OEvent (EV_SESSION_UPDATED x) => mkStore (st_devEUI s) (st_joinEUI s) (st_devNonce s) (st_joinNonce s) (Some x)
  | _ => s
  end.

(* mac.cpp:106-146 (MAC::start).  tps, a, b and advance are the constants of
   mbed_lib.json:38-57; the fields not set are zero *)
Definition start_arg (s : store) : init_arg :=
  mkInitArg 1000000 0 4000 0 0 (st_devNonce s) (st_joinNonce s) (st_joinEUI s) (st_devEUI s) (st_session s).
Definition mbed_start (c : cfg) (r : region) (s : store) (e : env) : mac := MAC_init c r (start_arg s) e.

(* default_store.h:35-89: saves the nonces but not the session *)
Definition default_handler (s : store) (o : out) : store :=
  match o with OEvent (EV_SESSION_UPDATED _) => s | _ => app_handler s o end.
