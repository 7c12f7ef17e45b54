(* Model of /repo/src/ldl_stream.c and /repo/include/ldl_stream.h.

   struct ldl_stream (ldl_stream.h:32-39) holds pointers into a caller's
   buffer; the model carries the buffer itself.  [st_w] says whether the
   write pointer is non-NULL.  [st_oob] is a ghost flag, absent from the C
   code, that records an access outside the buffer (undefined behaviour in C).
   LDL_PEDANTIC checks are compiled out by default and are not modelled. *)
From Verif Require Import Words.

Record stream := mkStream {
  st_buf : bytes;      (* memory behind read/write *)
  st_w : bool;         (* write != NULL *)
  st_size : Z;         (* uint8_t size *)
  st_pos : Z;          (* uint8_t pos *)
  st_err : bool;       (* error *)
  st_oob : bool        (* ghost: out of bounds access happened *)
}.

(* ldl_stream.c:28-38 LDL_Stream_init *)
Definition Stream_init (buf : bytes) (size : Z) : stream :=
  mkStream buf true size 0 false false.

(* ldl_stream.c:40-50 LDL_Stream_initReadOnly *)
Definition Stream_initReadOnly (buf : bytes) (size : Z) : stream :=
  mkStream buf false size 0 false false.

(* does [pos, pos+n) leave the buffer? *)
Definition oob (buf : bytes) (pos n : Z) : bool :=
  Z.ltb (Z.of_nat (length buf)) (pos + n).

Definition set_pos (s : stream) (p : Z) : stream :=
  mkStream (st_buf s) (st_w s) (st_size s) p (st_err s) (st_oob s).
Definition set_err (s : stream) : stream :=
  mkStream (st_buf s) (st_w s) (st_size s) (st_pos s) true (st_oob s).

(* ldl_stream.c:52-74 LDL_Stream_read; None = false.  The subtraction
   size - pos is done in int, so it does not wrap. *)
Definition Stream_read (s : stream) (count : Z) : stream * option bytes :=
  if st_err s then (s, None)
  else if count <=? st_size s - st_pos s then
    (mkStream (st_buf s) (st_w s) (st_size s) (u8 (st_pos s + count)) (st_err s)
              (st_oob s || oob (st_buf s) (st_pos s) count),
     Some (slice (st_buf s) (Z.to_nat (st_pos s)) (Z.to_nat count)))
  else (set_err s, None).

(* ldl_stream.c:76-100 LDL_Stream_write (count = length of the data) *)
Definition Stream_write (s : stream) (d : bytes) : stream * bool :=
  if st_w s then
    if st_err s then (s, false)
    else
      let count := Z.of_nat (length d) in
      if count <=? st_size s - st_pos s then
        (mkStream (splice (st_buf s) (Z.to_nat (st_pos s)) d) (st_w s) (st_size s)
                  (u8 (st_pos s + count)) (st_err s)
                  (st_oob s || oob (st_buf s) (st_pos s) count),
         true)
      else (set_err s, false)
  else (s, false).

(* ldl_stream.c:102-107 *)
Definition Stream_tell (s : stream) : Z := st_pos s.

(* ldl_stream.c:109-114: the result is converted to uint8_t *)
Definition Stream_remaining (s : stream) : Z := u8 (st_size s - st_pos s).

(* ldl_stream.c:116-129; returns the ghost flag as part of the stream *)
Definition Stream_peek (s : stream) : stream * option Z :=
  if 0 <? Stream_remaining s then
    (mkStream (st_buf s) (st_w s) (st_size s) (st_pos s) (st_err s)
              (st_oob s || oob (st_buf s) (st_pos s) 1),
     Some (nth (Z.to_nat (st_pos s)) (st_buf s) 0))
  else (s, None).

(* ldl_stream.c:131-144 *)
Definition Stream_seekSet (s : stream) (off : Z) : stream * bool :=
  if off <=? st_size s then (set_pos s off, true) else (s, false).

(* ldl_stream.c:146-151 *)
Definition Stream_rewind (s : stream) : stream := set_pos s 0.

(* ldl_stream.c:153-177: off is int16_t; both branches convert the offset to
   uint8_t, so a negative offset is subtracted as 256 - |off| *)
Definition Stream_seekCur (s : stream) (off : Z) : stream * bool :=
  let pos := st_pos s + off in
  if (0 <=? pos) && (pos <=? st_size s) then
    if 0 <=? off then (set_pos s (u8 (st_pos s + u8 off)), true)
    else (set_pos s (u8 (st_pos s - u8 off)), true)
  else (s, false).

(* ldl_stream.c:179-247; only the stream is kept, as every caller discards the
   returned flag *)
Definition putU8 (s : stream) (v : Z) : stream := fst (Stream_write s [u8 v]).
Definition putU16 (s : stream) (v : Z) : stream := fst (Stream_write s (le16 v)).
Definition putU24 (s : stream) (v : Z) : stream := fst (Stream_write s (le24 v)).
Definition putU32 (s : stream) (v : Z) : stream := fst (Stream_write s (le32 v)).

(* ldl_stream.c:249-265: EUIs are written most significant byte last *)
Definition putEUI (s : stream) (v : bytes) : stream :=
  fst (Stream_write s
    (map (fun i => nth i v 0) [7; 6; 5; 4; 3; 2; 1; 0]%nat)).

Definition byte_at (l : bytes) (i : nat) : Z := nth i l 0.

(* ldl_stream.c:267-350: the destination keeps its previous value [d] when the
   read fails (LDL_LITTLE_ENDIAN getU24 zeroes it first: the only difference
   between the two builds, visible in neither result nor stream) *)
Definition getU8 (s : stream) (d : Z) : stream * Z :=
  match Stream_read s 1 with
  | (s', Some b) => (s', byte_at b 0)
  | (s', None) => (s', d)
  end.
Definition getU16 (s : stream) (d : Z) : stream * Z :=
  match Stream_read s 2 with
  | (s', Some b) => (s', Z.lor (Z.shiftl (byte_at b 1) 8) (byte_at b 0))
  | (s', None) => (s', d)
  end.
Definition getU24 (s : stream) (d : Z) : stream * Z :=
  match Stream_read s 3 with
  | (s', Some b) =>
      (s', Z.lor (Z.shiftl (Z.lor (Z.shiftl (byte_at b 2) 8) (byte_at b 1)) 8)
                 (byte_at b 0))
  | (s', None) => (s', d)
  end.
Definition getU32 (s : stream) (d : Z) : stream * Z :=
  match Stream_read s 4 with
  | (s', Some b) =>
      (s', Z.lor (Z.shiftl (Z.lor (Z.shiftl
             (Z.lor (Z.shiftl (byte_at b 3) 8) (byte_at b 2)) 8) (byte_at b 1)) 8)
             (byte_at b 0))
  | (s', None) => (s', d)
  end.
(* ldl_stream.c:352-374 *)
Definition getEUI (s : stream) (d : bytes) : stream * bytes :=
  match Stream_read s 8 with
  | (s', Some b) => (s', map (byte_at b) [7; 6; 5; 4; 3; 2; 1; 0]%nat)
  | (s', None) => (s', d)
  end.

(* ldl_stream.c:376-381 *)
Definition Stream_error (s : stream) : bool := st_err s.
