(* AES-CMAC as RFC 4493 defines it, over any 16 byte block cipher, and
   counter-mode encryption as LoRaWAN 4.3.3 uses it. *)
From Coq Require Import ZArith List Bool.
From Verif Require Import SpecAes.
Import ListNotations.
Open Scope Z_scope.

Definition xor16 (a b : list Z) : list Z :=
  map (fun i => Z.lxor (nth i a 0) (nth i b 0)) (seq 0 16).

(* big endian numbers *)
Definition be_val (l : list Z) : Z := fold_left (fun acc b => 256 * acc + b) l 0.
Fixpoint be_bytes (n : nat) (v : Z) : list Z :=
  match n with
  | O => []
  | S n => be_bytes n (v / 256) ++ [v mod 256]
  end.

Section Cipher.
  Variable enc : list Z -> list Z.

  (* RFC 4493 2.3: subkeys *)
  Definition dbl (l : list Z) : list Z :=
    let v := be_val l in
    be_bytes 16 (Z.lxor (2 * v mod 2 ^ 128) (if 2 ^ 127 <=? v then 0x87 else 0)).
  Definition K1 : list Z := dbl (enc (repeat 0 16)).
  Definition K2 : list Z := dbl K1.

  (* RFC 4493 2.4: chaining over the first n blocks of M *)
  Definition cbc (M : list Z) (n : nat) : list Z :=
    fold_left (fun x i => enc (xor16 x (firstn 16 (skipn (16 * i) M)))) (seq 0 n) (repeat 0 16).

  Definition pad (l : list Z) : list Z := l ++ [0x80] ++ repeat 0 (15 - length l).

  Definition cmac (M : list Z) : list Z :=
    let n := ((length M - 1) / 16)%nat in      (* blocks before the last *)
    let last := skipn (16 * n) M in
    let m_last := if (length last =? 16)%nat then xor16 last K1 else xor16 (pad last) K2 in
    enc (xor16 (cbc M n) m_last).

  (* counter mode: block i of the key stream is enc of the IV with i added to
     its last byte *)
  Definition ctr_block (iv : list Z) (i : nat) : list Z :=
    enc (firstn 15 iv ++ [(nth 15 iv 0 + Z.of_nat i) mod 256]).
  Definition ctr (iv data : list Z) : list Z :=
    map (fun j => Z.lxor (nth j data 0) (nth (j mod 16) (ctr_block iv (j / 16)) 0)) (seq 0 (length data)).
End Cipher.
