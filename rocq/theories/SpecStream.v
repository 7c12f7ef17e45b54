(* Sequences of stream operations, for property C43. *)
From Verif Require Import Words StreamM.

(* Arguments have their C types: uint8_t counts, int16_t relative offsets. *)
Inductive stream_op :=
| SRead (count : Z)
| SWrite (data : bytes)
| SPeek
| SSeekSet (offset : Z)
| SSeekCur (offset : Z)
| SRewind.

Definition op_typed (o : stream_op) : Prop :=
  match o with
  | SRead n => 0 <= n < 256
  | SWrite d => Z.of_nat (length d) < 256
  | SPeek | SRewind => True
  | SSeekSet n => 0 <= n < 256
  | SSeekCur n => -32768 <= n < 32768
  end.

(* bytes handed to the caller by one operation *)
Definition op_run (o : stream_op) (s : stream) : stream * option bytes :=
  match o with
  | SRead n => Stream_read s n
  | SWrite d => (fst (Stream_write s d), None)
  | SPeek => match Stream_peek s with (s, Some b) => (s, Some [b]) | (s, None) => (s, None) end
  | SSeekSet n => (fst (Stream_seekSet s n), None)
  | SSeekCur n => (fst (Stream_seekCur s n), None)
  | SRewind => (Stream_rewind s, None)
  end.

Fixpoint ops_run (l : list stream_op) (s : stream) : stream :=
  match l with
  | [] => s
  | o :: l => ops_run l (fst (op_run o s))
  end.

(* backward relative seek *)
Definition is_back (o : stream_op) : bool :=
  match o with SSeekCur n => n <? 0 | _ => false end.
Definition is_peek (o : stream_op) : bool :=
  match o with SPeek => true | _ => false end.

(* a stream as the initialisers leave it: the buffer has the announced size *)
Definition fresh (s : stream) : Prop :=
  exists buf size, 0 <= size < 256 /\ Z.of_nat (length buf) = size /\
    (s = Stream_init buf size \/ s = Stream_initReadOnly buf size).
