(* Model of /repo/src/ldl_ctr.c *)
From Verif Require Import Words CmacM.

Section Enc.
  Variable enc : bytes -> bytes.

  (* ldl_ctr.c:59-78: n remaining blocks, current counter block a, position
     pos (uint8_t) and output so far.  In and out are the same buffer in every
     call made by the library (ldl_sm.c:144); block i reads and writes only
     its own bytes. *)
  Fixpoint ctr_blocks (n : nat) (a : bytes) (len pos : Z) (buf : bytes) : bytes :=
    match n with
    | O => buf
    | S n' =>
        let size := if 16 <=? len - pos then 16 else u8 (len - pos) in
        let pld := splice (fill 0 16) 0
                     (slice buf (Z.to_nat pos) (Z.to_nat size)) in
        let s := enc a in
        let a := upd a 15 (u8 (nth 15 a 0 + 1)) in
        let pld := xor128 pld s in
        let buf := splice buf (Z.to_nat pos) (firstn (Z.to_nat size) pld) in
        ctr_blocks n' a len (u8 (pos + 16)) buf
    end.

  (* ldl_ctr.c:35-79 LDL_CTR_encrypt of a whole buffer *)
  Definition CTR_encrypt (iv buf : bytes) : bytes :=
    let len := Z.of_nat (length buf) in
    let k := u8 (len / 16 + (if len mod 16 =? 0 then 0 else 1)) in
    ctr_blocks (Z.to_nat k) iv len 0 buf.
End Enc.
