(* C integer types and byte strings.

   Every C unsigned integer is a Z kept in range by an explicit conversion.
   Models the macros of /repo/src/ldl_internal.h (U8, U16, U32 casts) and the
   implicit conversions of assignments to uint8_t/uint16_t/uint32_t. *)
From Coq Require Export ZArith List Bool.
Export ListNotations.
Open Scope Z_scope.

(* uint8_t conversion: ldl_internal.h U8() *)
Definition u8 (x : Z) : Z := x mod 256.
(* uint16_t conversion: ldl_internal.h U16() *)
Definition u16 (x : Z) : Z := x mod 65536.
(* uint32_t conversion: ldl_internal.h U32() *)
Definition u32 (x : Z) : Z := x mod 4294967296.

(* INT32_MAX and UINT32_MAX of <stdint.h> *)
Definition INT32_MAX : Z := 2147483647.
Definition UINT32_MAX : Z := 4294967295.

(* byte strings *)
Definition bytes := list Z.

Definition byte_ok (b : Z) : Prop := 0 <= b < 256.
Definition bytes_ok (l : bytes) : Prop := Forall byte_ok l.

(* little-endian encodings used by LDL_Stream_putU16/U24/U32
   (ldl_stream.c:186-247; both the LDL_LITTLE_ENDIAN and the portable branch) *)
Definition le16 (v : Z) : bytes := [u8 v; u8 (Z.shiftr v 8)].
Definition le24 (v : Z) : bytes := [u8 v; u8 (Z.shiftr v 8); u8 (Z.shiftr v 16)].
Definition le32 (v : Z) : bytes :=
  [u8 v; u8 (Z.shiftr v 8); u8 (Z.shiftr v 16); u8 (Z.shiftr v 24)].

(* sub-list [off, off+n) of a buffer: memcpy(dst, &buf[off], n) *)
Definition slice (l : bytes) (off n : nat) : bytes := firstn n (skipn off l).

(* overwrite part of a buffer: memcpy(&buf[off], d, length d) *)
Definition splice (l : bytes) (off : nat) (d : bytes) : bytes :=
  firstn off l ++ d ++ skipn (off + length d) l.

(* array element update a[i] = v *)
Fixpoint upd {A} (l : list A) (i : nat) (v : A) : list A :=
  match l, i with
  | [], _ => []
  | _ :: t, O => v :: t
  | h :: t, S i' => h :: upd t i' v
  end.

(* memset(p, v, n) *)
Definition fill (v : Z) (n : nat) : bytes := repeat v n.
