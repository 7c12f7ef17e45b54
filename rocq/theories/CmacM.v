(* Model of /repo/src/ldl_cmac.c.  The AES context pointer becomes the block
   function [enc] it determines. *)
From Verif Require Import Words.

(* ldl_cmac.c:207-225 (and the identical ldl_ctr.c:83-101) xor128 *)
Fixpoint xor128 (acc mask : bytes) : bytes :=
  match acc, mask with
  | a :: acc', m :: mask' => Z.lxor a m :: xor128 acc' mask'
  | _, _ => acc
  end.

(* ldl_cmac.c:185-205 leftShift128: the loop runs from the last byte to the
   first with a carry; returns the shifted bytes and the carry out *)
Fixpoint leftShift_c (v : bytes) : bytes * Z :=
  match v with
  | [] => ([], 0)
  | t :: v' =>
      let (v'', carry) := leftShift_c v' in
      (Z.lor (u8 (Z.shiftl t 1)) carry :: v'',
       if Z.land t 0x80 =? 0x80 then 1 else 0)
  end.
Definition leftShift128 (v : bytes) : bytes := fst (leftShift_c v).

(* struct ldl_cmac_ctx (ldl_cmac.h): m[16], x[16], uint8_t size *)
Record cmac_ctx := mkCmac { cm_m : bytes; cm_x : bytes; cm_size : Z }.

(* ldl_cmac.c:59-66 LDL_CMAC_init *)
Definition CMAC_init : cmac_ctx := mkCmac (fill 0 16) (fill 0 16) 0.

Section Enc.
  Variable enc : bytes -> bytes.

  (* ldl_cmac.c:103-112: process n whole blocks; state (m, x, part, pos) *)
  Fixpoint cmac_blocks (n : nat) (inb : bytes) (m x : bytes) (part pos : Z)
    : bytes * bytes * Z * Z :=
    match n with
    | O => (m, x, part, pos)
    | S n' =>
        let m := splice m (Z.to_nat part)
                   (slice inb (Z.to_nat pos) (Z.to_nat (16 - part))) in
        let pos := u8 (pos + (16 - part)) in
        let x := enc (xor128 x m) in
        cmac_blocks n' inb m x 0 pos
    end.

  (* ldl_cmac.c:68-120 LDL_CMAC_update; len = length of the data, which the
     caller passes as a uint8_t *)
  Definition CMAC_update (c : cmac_ctx) (inb : bytes) : cmac_ctx :=
    let len := Z.of_nat (length inb) in
    let part := cm_size c mod 16 in
    if 0 <? len then
      let cached := (part =? 0) && (0 <? cm_size c) in
      let '(m, x, part, pos) :=
        if cached || (16 <? part + len) then
          let x := if cached then enc (xor128 (cm_x c) (cm_m c)) else cm_x c in
          let blocks := u8 ((part + len) / 16) in
          let blocks := if (part + len) mod 16 =? 0 then u8 (blocks - 1) else blocks in
          cmac_blocks (Z.to_nat blocks) inb (cm_m c) x part 0
        else (cm_m c, cm_x c, part, 0) in
      let tmp := u8 (len - pos) in
      let m := splice m (Z.to_nat part) (slice inb (Z.to_nat pos) (Z.to_nat tmp)) in
      mkCmac m x (u8 (cm_size c + len))
    else c.

  (* ldl_cmac.c:143-146 and 151-154: conditional constant added to the last
     byte of a shifted key *)
  Definition subkey (k : bytes) : bytes :=
    let k1 := leftShift128 k in
    if Z.land (nth 0 k 0) 0x80 =? 0x80
    then upd k1 15 (Z.lxor (nth 15 k1 0) 0x87) else k1.

  (* ldl_cmac.c:122-181 LDL_CMAC_finish *)
  Definition CMAC_finish (c : cmac_ctx) (outMax : Z) : bytes :=
    let k := enc (fill 0 16) in
    let k1 := subkey k in
    let k2 := subkey k1 in
    let part := cm_size c mod 16 in
    let m_last :=
      if (cm_size c =? 0) || (0 <? part) then
        let m := splice (fill 0 16) 0 (firstn (Z.to_nat part) (cm_m c)) in
        let m := upd m (Z.to_nat part) 0x80 in
        xor128 m k2
      else xor128 (cm_m c) k1 in
    let m_last := enc (xor128 m_last (cm_x c)) in
    firstn (Z.to_nat (if 16 <? outMax then 16 else outMax)) m_last.
End Enc.
