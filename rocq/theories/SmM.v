(* Model of /repo/src/ldl_sm.c, the default security module, and of the
   interface in /repo/include/ldl_sm_internal.h *)
From Verif Require Import Words FrameM AesM CmacM CtrM.

(* ldl_sm_internal.h:47-59 *)
Inductive sm_key :=
| KEY_FNWKSINT | KEY_APPS | KEY_SNWKSINT | KEY_NWKSENC
| KEY_JSENC | KEY_JSINT | KEY_APP | KEY_NWK.

(* ldl_sm_internal.h:61-67 struct ldl_sm_interface: the MAC talks to the
   security module through this table; [T] is the module's state *)
Record sm_interface (T : Type) := mkSmI {
  smi_update : T -> sm_key -> sm_key -> bytes -> T;
  smi_mic : T -> sm_key -> bytes -> bytes -> Z;
  smi_ecb : T -> sm_key -> bytes -> bytes;
  smi_ctr : T -> sm_key -> bytes -> bytes -> bytes
}.
Arguments smi_update {T}. Arguments smi_mic {T}.
Arguments smi_ecb {T}. Arguments smi_ctr {T}.

(* struct ldl_sm (ldl_sm.h:48-54): eight keys in 1.1 builds, three otherwise *)
Definition sm := list bytes.

(* ldl_sm.c:149-177 getKey: index of the key slot *)
Definition keyIndex (v : l2ver) (k : sm_key) : nat :=
  if is_1_1 v then
    match k with
    | KEY_FNWKSINT => 0 | KEY_APPS => 1 | KEY_SNWKSINT => 2 | KEY_NWKSENC => 3
    | KEY_JSENC => 4 | KEY_JSINT => 5 | KEY_APP => 6 | KEY_NWK => 7
    end
  else
    match k with
    | KEY_APP | KEY_NWK => 0
    | KEY_FNWKSINT | KEY_SNWKSINT | KEY_NWKSENC | KEY_JSINT | KEY_JSENC => 1
    | KEY_APPS => 2
    end.

Definition numKeys (v : l2ver) : nat := if is_1_1 v then 8 else 3.

Definition getKey (v : l2ver) (s : sm) (k : sm_key) : bytes :=
  nth (keyIndex v k) s [].

(* ldl_sm.c:43-73 LDL_SM_init.  1.0.x builds have only the appKey argument
   (nwkKey is then ignored here). *)
Definition SM_init (v : l2ver) (appKey nwkKey : bytes) : sm :=
  let z := repeat (fill 0 16) (numKeys v) in
  if is_1_1 v then upd (upd z 6 appKey) 7 nwkKey
  else upd z 0 appKey.

Definition isSessionKey (k : sm_key) : bool :=
  match k with KEY_APP | KEY_NWK => false | _ => true end.

(* the block cipher under a key slot *)
Definition sm_enc (v : l2ver) (s : sm) (k : sm_key) : bytes -> bytes :=
  AES_encrypt (AES_init (getKey v s k)).

(* ldl_sm.c:80-103 LDL_SM_updateSessionKey *)
Definition SM_updateSessionKey (v : l2ver) (s : sm) (key root : sm_key) (iv : bytes) : sm :=
  if isSessionKey key
  then upd s (keyIndex v key) (sm_enc v s root iv)
  else s.

(* ldl_sm.c:105-129 LDL_SM_mic *)
Definition SM_mic (v : l2ver) (s : sm) (k : sm_key) (hdr data : bytes) : Z :=
  let enc := sm_enc v s k in
  let c := CMAC_init in
  let c := CMAC_update enc c hdr in
  let c := CMAC_update enc c data in
  let mic := CMAC_finish enc c 4 in
  Z.lor (Z.shiftl (Z.lor (Z.shiftl (Z.lor (Z.shiftl (nth 3 mic 0) 8)
    (nth 2 mic 0)) 8) (nth 1 mic 0)) 8) (nth 0 mic 0).

(* ldl_sm.c:131-137 LDL_SM_ecb on a 16 byte block *)
Definition SM_ecb (v : l2ver) (s : sm) (k : sm_key) (b : bytes) : bytes :=
  sm_enc v s k b.

(* ldl_sm.c:139-145 LDL_SM_ctr *)
Definition SM_ctr (v : l2ver) (s : sm) (k : sm_key) (iv data : bytes) : bytes :=
  CTR_encrypt (sm_enc v s k) iv data.

(* ldl_sm.c:34-39 and 75-78 LDL_SM_getInterface *)
Definition SM_interface (v : l2ver) : sm_interface sm :=
  mkSmI sm (SM_updateSessionKey v) (SM_mic v) (SM_ecb v) (SM_ctr v).
