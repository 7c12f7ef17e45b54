(* AES-128 encryption as FIPS-197 defines it.  Bytes are integers 0..255; the
   state is the list of its 16 bytes, column by column (FIPS-197 3.4). *)
From Coq Require Import ZArith List Bool.
From Verif Require Import Words.
Import ListNotations.
Open Scope Z_scope.

(* a block or key: 16 bytes *)
Definition block (s : list Z) : Prop := length s = 16%nat /\ bytes_ok s.

(* 4.2: multiplication modulo x^8 + x^4 + x^3 + x + 1 *)
Definition xtime (a : Z) : Z :=
  if Z.testbit a 7 then Z.lxor (2 * a - 256) 0x1b else 2 * a.
Definition gmul (a b : Z) : Z :=
  fst (fold_left (fun '(acc, x) i => (if Z.testbit a (Z.of_nat i) then Z.lxor acc x else acc, xtime x))
         (seq 0 8) (0, b)).

(* the multiplicative inverse, with 0 mapped to 0 *)
Definition ginv (a : Z) : Z :=
  match find (fun b => gmul a (Z.of_nat b) =? 1) (seq 0 256) with
  | Some b => Z.of_nat b
  | None => 0
  end.

(* 5.1.1: S-box, inverse followed by the affine map of equation 5.1 *)
Definition affine (b : Z) : Z :=
  fold_left (fun acc i =>
    let t j := Z.testbit b (Z.of_nat ((i + j) mod 8)) in
    if xorb (xorb (xorb (xorb (xorb (t 0%nat) (t 4%nat)) (t 5%nat)) (t 6%nat)) (t 7%nat)) (Z.testbit 0x63 (Z.of_nat i))
    then acc + 2 ^ Z.of_nat i else acc) (seq 0 8) 0.
Definition sub_byte (a : Z) : Z := affine (ginv a).

Definition sub_bytes (s : list Z) : list Z := map sub_byte s.

(* 5.1.2: row r moves r columns to the left; byte (r,c) is at r + 4c *)
Definition shift_rows (s : list Z) : list Z :=
  map (fun i => nth ((i + 4 * (i mod 4)) mod 16) s 0) (seq 0 16).

(* 5.1.3 *)
Definition mix_col (a b c d : Z) : list Z :=
  let x := Z.lxor in
  [x (x (x (gmul 2 a) (gmul 3 b)) c) d;
   x (x (x a (gmul 2 b)) (gmul 3 c)) d;
   x (x (x a b) (gmul 2 c)) (gmul 3 d);
   x (x (x (gmul 3 a) b) c) (gmul 2 d)].
Definition mix_cols (s : list Z) : list Z :=
  flat_map (fun c => mix_col (nth (4 * c) s 0) (nth (4 * c + 1) s 0) (nth (4 * c + 2) s 0) (nth (4 * c + 3) s 0))
    (seq 0 4).

(* 5.1.4 *)
Definition add_round_key (s k : list Z) : list Z :=
  map (fun i => Z.lxor (nth i s 0) (nth i k 0)) (seq 0 16).

(* 5.2: key expansion; a word is a list of four bytes *)
Definition xor_word (a b : list Z) : list Z :=
  map (fun i => Z.lxor (nth i a 0) (nth i b 0)) (seq 0 4).
Definition rot_word (w : list Z) : list Z := [nth 1 w 0; nth 2 w 0; nth 3 w 0; nth 0 w 0].
Definition rcon_word (i : nat) : list Z := [Nat.iter (i - 1) xtime 1; 0; 0; 0].
Definition next_word (ws : list (list Z)) : list Z :=
  let i := length ws in
  let temp := nth (i - 1) ws [] in
  let temp := if (i mod 4 =? 0)%nat
              then xor_word (map sub_byte (rot_word temp)) (rcon_word (i / 4)) else temp in
  xor_word (nth (i - 4) ws []) temp.
Definition words_of (key : list Z) : list (list Z) :=
  map (fun i => firstn 4 (skipn (4 * i) key)) (seq 0 4).
Definition key_expansion (key : list Z) : list (list Z) :=
  Nat.iter 40 (fun ws => ws ++ [next_word ws]) (words_of key).
Definition round_key (key : list Z) (r : nat) : list Z :=
  concat (firstn 4 (skipn (4 * r) (key_expansion key))).

(* 5.1: the cipher *)
Definition aes_round (key : list Z) (s : list Z) (r : nat) : list Z :=
  add_round_key (mix_cols (shift_rows (sub_bytes s))) (round_key key r).
Definition aes128 (key block : list Z) : list Z :=
  let s := add_round_key block (round_key key 0) in
  let s := fold_left (aes_round key) (seq 1 9) s in
  add_round_key (shift_rows (sub_bytes s)) (round_key key 10).
