(* Concrete configurations and histories, used to show that the hypotheses of
   the theorems can be met and as witnesses of refutations. *)
From Verif Require Import Words StreamM FrameM CommandsM RegionM RadioM SmM MacStateM MacUtilM OpsM MacCmdM MacProcM MacApiM.

(* the default security module behind the MAC: replay of the log of
   update_session_key calls on the initial key store *)
Definition sm_replay (v : l2ver) (s : sm) (log : smlog) : sm :=
  fold_left (fun s x => SM_updateSessionKey v s (fst (fst x)) (snd (fst x)) (snd x)) log s.

Definition aes_cfg (v : l2ver) (appKey nwkKey : bytes) : cfg :=
  let s0 := SM_init v appKey nwkKey in {|
  c_l2 := v; c_noSF12 := false; c_txps := true; c_errata := false;
  c_startup := 0; c_xtal := 25;
  c_mic := fun log => SM_mic v (sm_replay v s0 log);
  c_ecb := fun log => SM_ecb v (sm_replay v s0 log);
  c_ctr := fun log => SM_ctr v (sm_replay v s0 log)
|}.

(* a security module that is quick to evaluate *)
Definition toy_cfg (v : l2ver) : cfg := {|
  c_l2 := v; c_noSF12 := false; c_txps := true; c_errata := false;
  c_startup := 0; c_xtal := 25;
  c_mic := fun _ _ _ _ => 0x04030201;
  c_ecb := fun _ _ b => b;
  c_ctr := fun _ _ _ d => d
|}.

Definition key16 : bytes := [1;2;3;4;5;6;7;8;9;10;11;12;13;14;15;16].
Definition eui_a : bytes := [1;2;3;4;5;6;7;8].
Definition eui_b : bytes := [9;8;7;6;5;4;3;2].

(* 1000 ticks per second *)
Definition arg0 (so : option session) : init_arg :=
  mkInitArg 1000 0 0 0 30 0 0 eui_a eui_b so.

(* environment at tick t with nothing from the radio *)
Definition at_t (t : Z) : env :=
  mkEnv t (fun _ => 0) 255 false false false [] 0 0 0.
Definition at_rnd (t r : Z) : env :=
  mkEnv t (fun _ => r) 255 false false false [] 0 0 0.
Definition tx_at (t : Z) : env :=
  mkEnv t (fun _ => 0) 255 true false false [] 0 0 0.
Definition rx_at (t : Z) (d : bytes) : env :=
  mkEnv t (fun _ => 0) 255 false true false d 0 0 0.
Definition timeout_at (t : Z) : env :=
  mkEnv t (fun _ => 0) 255 false false true [] 0 0 0.

Definition P (t : Z) : env * call := (at_t t, C_process).

(* from reset to IDLE *)
Definition h_boot : history := [P 0; P 10; P 30].
(* join: request, WAIT_OTAA, WAIT_TX, start of transmission *)
Definition h_join_tx (t : Z) : history :=
  [(at_t t, C_otaa); P t; P t; P (t + 25)].
(* transmission complete at t, then RX1 opened d seconds later *)
Definition h_rx1 (t d : Z) : history :=
  [(tx_at t, C_radioEvent t); (tx_at t, C_process);
   P (t + 1000 * d); P (t + 1000 * d)].
(* frame received *)
Definition h_rx (t : Z) (f : bytes) : history :=
  [(rx_at t f, C_radioEvent t); (rx_at t f, C_process)].

(* join accept without CFList for the toy module: devAddr 0x26011bda *)
Definition toy_accept : bytes :=
  [0x20; 1;0;0; 0x13;0;0; 0xda;0x1b;0x01;0x26; 0x00; 0x01; 1;2;3;4].

Definition h_toy_join : history :=
  h_boot ++ h_join_tx 30 ++ h_rx1 3000 5 ++ h_rx 8100 toy_accept.

Definition toy_joined : mac :=
  run (toy_cfg L2_1_0_4) h_toy_join (MAC_init (toy_cfg L2_1_0_4) EU_863_870 (arg0 None) (at_t 0)).
