(* The mbed class Device: wrappers/mbed/device.cpp, _device.h.  Threads call its
   methods; a worker thread runs the MAC and the requests of the others, one at
   a time.

   A move is the smallest step other threads cannot see a part of: one pass of
   the worker over process() or over one request of its queue, or one thread
   that returns from waiting.  Moves come in any order.  Not modelled: the
   semaphores work, queue and status, which make the worker run and hand it
   requests one by one (here waiting requests are served in any order), the
   callbacks set by the application, cb_mutex, deep sleep, and the time limit
   of unconfirmed() and confirmed(), which is always the longest possible
   (device.cpp:525-551). *)
From Verif Require Import Words FrameM CommandsM RegionM MacStateM MacUtilM MacApiM SpecHist.

(* methods that wait for an operation, and those that do not.  Getters change
   nothing and are left out *)
Inductive job :=
| J_data (confirmed : bool) (port : Z) (data : option bytes) (opts : option data_opts)
| J_otaa
| J_entropy
| J_forget
| J_cancel
| J_abp (devAddr : Z)
| J_setRate (rate : Z)
| J_setPower (power : Z)
| J_setADR (v : bool)
| J_setMaxDCycle (v : Z).

(* enum ldl_mac_status as Device returns it: what the MAC returned, or one of
   the values Device adds (device.cpp:373-500) *)
Inductive dstatus := D_mac (r : ret) | D_NOACK | D_CANCELLED | D_TIMEOUT | D_ERROR.

Inductive thread :=
| T_none                                   (* not in a method *)
| T_queue (j : job)                        (* request in the queue of the worker *)
| T_op (j : job) (first : bool)            (* waits for op_flags; [first]: after MACPRIORITY *)
| T_band (j : job)                         (* waits for band_flags *)
| T_drop                                   (* otaa() timed out and calls forget() *)
| T_done (j : job) (s : dstatus) (value : Z).  (* returned; value: of entropy() *)

Record device := mkDevice {
  d_mac : mac;
  d_op : Z;                                (* op_flags *)
  d_band : bool;                           (* band_flags *)
  d_sem : bool;                            (* data_semaphore is free *)
  d_entropy : Z;                           (* entropy_value *)
  d_threads : nat -> thread;
  d_log : list item                        (* ghost: requests made of the MAC and its outputs *)
}.

Definition set_thread (i : nat) (t : thread) (d : device) : device :=
  mkDevice (d_mac d) (d_op d) (d_band d) (d_sem d) (d_entropy d)
           (fun x => if Nat.eqb x i then t else d_threads d x) (d_log d).
Definition set_op (v : Z) (d : device) : device :=
  mkDevice (d_mac d) v (d_band d) (d_sem d) (d_entropy d) (d_threads d) (d_log d).
Definition set_band (v : bool) (d : device) : device :=
  mkDevice (d_mac d) (d_op d) v (d_sem d) (d_entropy d) (d_threads d) (d_log d).
Definition set_sem (v : bool) (d : device) : device :=
  mkDevice (d_mac d) (d_op d) (d_band d) v (d_entropy d) (d_threads d) (d_log d).

(* the flag of an event of enum ldl_mac_response_type (ldl_mac.h:75-146) *)
Definition flag (ev : event) : Z :=
  match ev with
  | EV_ENTROPY _ => 1 | EV_CHANNEL_READY => 2 | EV_OP_ERROR => 4 | EV_OP_CANCELLED => 8
  | EV_JOIN_COMPLETE _ _ _ => 16 | EV_DEV_NONCE_UPDATED _ => 32 | EV_JOIN_EXHAUSTED => 64
  | EV_DATA_COMPLETE => 128 | EV_DATA_TIMEOUT => 256 | EV_RX _ _ => 512
  | EV_LINK_STATUS _ _ => 1024 | EV_SESSION_UPDATED _ => 2048 | EV_DEVICE_TIME _ _ => 4096
  end.

(* device.cpp:250-325 (handle_mac_event) *)
Definition handle_mac_event (o : out) (d : device) : device :=
  match o with
  | OEvent EV_CHANNEL_READY => set_band true d
  | OEvent (EV_ENTROPY v) =>
      mkDevice (d_mac d) (Z.lor (d_op d) (flag (EV_ENTROPY v))) (d_band d) (d_sem d) v (d_threads d) (d_log d)
  | OEvent (EV_OP_CANCELLED as ev) | OEvent (EV_OP_ERROR as ev) | OEvent (EV_JOIN_COMPLETE _ _ _ as ev)
  | OEvent (EV_DATA_COMPLETE as ev) | OEvent (EV_DATA_TIMEOUT as ev) | OEvent (EV_JOIN_EXHAUSTED as ev) =>
      set_op (Z.lor (d_op d) (flag ev)) d
  | _ => d
  end.

(* a call into the MAC, which calls handle_mac_event for each event *)
Definition mac_call (c : cfg) (e : env) (k : call) (d : device) : device :=
  let m := fst (step c e k (d_mac d)) in
  fold_left (fun d o => handle_mac_event o d) (new_out (d_mac d) m)
    (mkDevice m (d_op d) (d_band d) (d_sem d) (d_entropy d) (d_threads d) (d_log d ++ step_items c e k (d_mac d))).

(* what the worker calls for a request: device.cpp:98-248.  do_cancel
   calls mac.forget(), not mac.cancel() (device.cpp:153-157) *)
Definition job_call (j : job) : call :=
  match j with
  | J_data cf p da o => C_data cf p da o
  | J_otaa => C_otaa
  | J_entropy => C_entropy
  | J_forget | J_cancel => C_forget
  | J_abp a => C_abp a
  | J_setRate r => C_setRate r
  | J_setPower p => C_setPower p
  | J_setADR v => C_setADR v
  | J_setMaxDCycle v => C_setMaxDCycle v
  end.
Definition is_data (j : job) : bool := match j with J_data _ _ _ _ => true | _ => false end.

(* a method returns; data_service releases the semaphore (device.cpp:434) *)
Definition done (i : nat) (j : job) (s : dstatus) (v : Z) (d : device) : device :=
  set_thread i (T_done j s v) (if is_data j then set_sem true d else d).

(* the worker runs the request of thread i (device.cpp:98-248), and the thread
   goes on to its wait (device.cpp:369-440, 491-520, 575-600) *)
Definition serve (c : cfg) (e : env) (i : nat) (j : job) (d : device) : device :=
  let r := snd (step c e (job_call j) (d_mac d)) in
  let d := mac_call c e (job_call j) d in
  match j, r with
  | J_data _ _ _ _, RStatus STATUS_OK => set_thread i (T_op j false) (set_op 0 d)
  | J_data _ _ _ _, RStatus STATUS_MACPRIORITY => set_thread i (T_op j true) d
  | J_data _ _ _ _, RStatus STATUS_NOCHANNEL => set_thread i (T_band j) (set_band false d)
  | J_otaa, RStatus STATUS_OK => set_thread i (T_op j false) (set_op 0 d)
  | J_entropy, RStatus STATUS_OK => set_thread i (T_op j false) d
  | _, _ => done i j (D_mac r) 0 d
  end.

(* the flags a method waits for *)
Definition mask (j : job) : Z :=
  match j with
  | J_data _ _ _ _ => 128 + 256 + 8 + 4                          (* device.cpp:373-378, 397-402 *)
  | J_otaa => 16 + 8 + 64                                        (* device.cpp:495-500 *)
  | J_entropy => 1 + 4 + 8                                       (* device.cpp:577-581 *)
  | _ => 0
  end.

(* the switch over the flags (device.cpp:380-393, 404-415, 502-516, 583-593).
   None: send again *)
Definition result (j : job) (first : bool) (flags : Z) : option dstatus :=
  match j with
  | J_data _ _ _ _ =>
      if flags =? 128 then (if first then None else Some (D_mac (RStatus STATUS_OK)))
      else if (flags =? 256) && negb first then Some D_NOACK
      else if flags =? 8 then Some D_CANCELLED
      else Some D_ERROR
  | J_otaa =>
      if flags =? 16 then Some (D_mac (RStatus STATUS_OK))
      else if flags =? 8 then Some D_CANCELLED
      else if flags =? 64 then Some (D_mac (RStatus STATUS_DEVNONCE))
      else Some D_TIMEOUT
  | _ =>
      if flags =? 1 then Some (D_mac (RStatus STATUS_OK))
      else if flags =? 8 then Some D_CANCELLED
      else Some D_ERROR
  end.

Inductive move :=
| M_process (e : env)                      (* worker: mac.process() *)
| M_radio (e : env) (t : Z)                (* interrupt: MAC::handle_radio_event *)
| M_begin (i : nat) (j : job)              (* thread i calls a method *)
| M_serve (i : nat) (e : env)              (* worker: the request of thread i *)
| M_wake (i : nat)                         (* thread i returns from wait_any, if it can *)
| M_expire (i : nat).                      (* the time limit of otaa() passes *)

Definition in_method (t : thread) : bool := match t with T_none | T_done _ _ _ => false | _ => true end.

(* EventFlags::wait_any returns the flags as they were, and clears those waited for *)
Definition dstep (c : cfg) (x : move) (d : device) : device :=
  match x with
  | M_process e => mac_call c e C_process d
  | M_radio e t => mac_call c e (C_radioEvent t) d
  | M_begin i j =>
      if in_method (d_threads d i) then d
      else if is_data j
           (* device.cpp:345: the time limit of try_acquire_until is the epoch, so it does not wait *)
           then if d_sem d then set_thread i (T_queue j) (set_sem false d)
                else set_thread i (T_done j D_TIMEOUT 0) d
           else set_thread i (T_queue j) d
  | M_serve i e =>
      match d_threads d i with
      | T_queue j => serve c e i j d
      | T_drop => set_thread i (T_done J_otaa D_TIMEOUT 0) (mac_call c e C_forget d)
      | _ => d
      end
  | M_wake i =>
      match d_threads d i with
      | T_op j first =>
          if Z.land (d_op d) (mask j) =? 0 then d
          else
            let flags := d_op d in
            let d := set_op (Z.ldiff flags (mask j)) d in
            match result j first flags with
            | Some D_TIMEOUT => set_thread i T_drop d
            | Some s => done i j s (match j, s with J_entropy, D_mac _ => d_entropy d | _, _ => 0 end) d
            | None => set_thread i (T_queue j) d
            end
      (* device.cpp:421-427: a wait that ended is not 0, so the loop is left *)
      | T_band j => if d_band d then done i j (D_mac (RStatus STATUS_NOCHANNEL)) 0 (set_band false d) else d
      | _ => d
      end
  | M_expire i =>
      match d_threads d i with
      | T_op J_otaa _ => set_thread i T_drop d
      | _ => d
      end
  end.

Definition drun (c : cfg) (l : list move) (d : device) : device := fold_left (fun d x => dstep c x d) l d.

(* device.cpp:31-40, 447-462: threads are not yet in a method *)
Definition device_start (m : mac) : device := mkDevice m 0 false true 0 (fun _ => T_none) [].
