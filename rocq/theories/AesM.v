(* Model of /repo/src/ldl_aes.c (AES-128 encryption) *)
From Verif Require Import Words.

(* ldl_aes.c:64-97 sbox[] *)
Definition sbox : list Z :=
  [99; 124; 119; 123; 242; 107; 111; 197; 48; 1; 103; 43; 254; 215; 171; 118;
   202; 130; 201; 125; 250; 89; 71; 240; 173; 212; 162; 175; 156; 164; 114; 192;
   183; 253; 147; 38; 54; 63; 247; 204; 52; 165; 229; 241; 113; 216; 49; 21;
   4; 199; 35; 195; 24; 150; 5; 154; 7; 18; 128; 226; 235; 39; 178; 117;
   9; 131; 44; 26; 27; 110; 90; 160; 82; 59; 214; 179; 41; 227; 47; 132;
   83; 209; 0; 237; 32; 252; 177; 91; 106; 203; 190; 57; 74; 76; 88; 207;
   208; 239; 170; 251; 67; 77; 51; 133; 69; 249; 2; 127; 80; 60; 159; 168;
   81; 163; 64; 143; 146; 157; 56; 245; 188; 182; 218; 33; 16; 255; 243; 210;
   205; 12; 19; 236; 95; 151; 68; 23; 196; 167; 126; 61; 100; 93; 25; 115;
   96; 129; 79; 220; 34; 42; 144; 136; 70; 238; 184; 20; 222; 94; 11; 219;
   224; 50; 58; 10; 73; 6; 36; 92; 194; 211; 172; 98; 145; 149; 228; 121;
   231; 200; 55; 109; 141; 213; 78; 169; 108; 86; 244; 234; 101; 122; 174; 8;
   186; 120; 37; 46; 28; 166; 180; 198; 232; 221; 116; 31; 75; 189; 139; 138;
   112; 62; 181; 102; 72; 3; 246; 14; 97; 53; 87; 185; 134; 193; 29; 158;
   225; 248; 152; 17; 105; 217; 142; 148; 155; 30; 135; 233; 206; 85; 40; 223;
   140; 161; 137; 13; 191; 230; 66; 104; 65; 153; 45; 15; 176; 84; 187; 22].

(* ldl_aes.c:56 SBOX(C) *)
Definition SBOX (c : Z) : Z := nth (Z.to_nat c) sbox 0.

(* ldl_aes.c:111-113 rcon[] *)
Definition rcon : list Z := [0x8d; 0x01; 0x02; 0x04; 0x08; 0x10; 0x20; 0x40; 0x80; 0x1b; 0x36].

(* ldl_aes.c:42 GALOIS_MUL2 *)
Definition GALOIS_MUL2 (b : Z) : Z :=
  if Z.land b 0x80 =? 0x80 then u8 (Z.lxor (Z.shiftl b 1) 0x1b)
  else u8 (Z.shiftl b 1).

(* k[p - d] where p is the number of key bytes produced so far *)
Definition kback (k : bytes) (d : nat) : Z := nth (length k - d) k 0.

(* ldl_aes.c:136-140: the inner loop of the key schedule.  ctx->k is written
   once per position in increasing order, so the array is modelled by the list
   of the bytes written so far and k[p] = v by appending v. *)
Fixpoint key_inner (n : nat) (k : bytes) : bytes :=
  match n with
  | O => k
  | S n' => key_inner n' (k ++ [Z.lxor (kback k 4) (kback k 16)])
  end.

(* ldl_aes.c:127-143: one iteration of the while loop; the right-hand sides at
   lines 130-133 read only bytes written before the iteration *)
Definition key_round (i : nat) (k : bytes) : bytes :=
  let k' := k ++
    [Z.lxor (Z.lxor (SBOX (kback k 3)) (kback k 16)) (nth i rcon 0);
     Z.lxor (SBOX (kback k 2)) (kback k 15);
     Z.lxor (SBOX (kback k 1)) (kback k 14);
     Z.lxor (SBOX (kback k 4)) (kback k 13)] in
  key_inner 12 k'.

(* ldl_aes.c:101-144 LDL_AES_init: 16 key bytes, then ten iterations
   (p = 16, 32, .., 160 < 176) with i = 1..10 *)
Definition AES_init (key : bytes) : bytes :=
  fold_left (fun k i => key_round i k) (seq 1 10) key.

(* ldl_aes.c:161-189: add round key, sbox and shift rows in place; [p] is the
   offset of the round key *)
Definition sub_shift (k : bytes) (p : nat) (s : bytes) : bytes :=
  let g (s : bytes) (i : nat) := SBOX (Z.lxor (nth i s 0) (nth (p + i) k 0)) in
  (* row 1 *)
  let s := upd s 0 (g s 0%nat) in
  let s := upd s 4 (g s 4%nat) in
  let s := upd s 8 (g s 8%nat) in
  let s := upd s 12 (g s 12%nat) in
  (* row 2 *)
  let a := g s 1%nat in
  let s := upd s 1 (g s 5%nat) in
  let s := upd s 5 (g s 9%nat) in
  let s := upd s 9 (g s 13%nat) in
  let s := upd s 13 a in
  (* row 3 *)
  let a := g s 2%nat in
  let b := g s 6%nat in
  let s := upd s 2 (g s 10%nat) in
  let s := upd s 6 (g s 14%nat) in
  let s := upd s 10 a in
  let s := upd s 14 b in
  (* row 4 *)
  let a := g s 15%nat in
  let s := upd s 15 (g s 11%nat) in
  let s := upd s 11 (g s 7%nat) in
  let s := upd s 7 (g s 3%nat) in
  upd s 3 a.

(* ldl_aes.c:207-221: mix one column starting at i *)
Definition mix_column (s : bytes) (i : nat) : bytes :=
  let a := nth i s 0 in
  let b := nth (i + 1) s 0 in
  let c := nth (i + 2) s 0 in
  let d := nth (i + 3) s 0 in
  let t := Z.lxor (Z.lxor (Z.lxor a b) c) d in
  let s := upd s i (Z.lxor (nth i s 0) (Z.lxor t (GALOIS_MUL2 (Z.lxor a b)))) in
  let s := upd s (i + 1) (Z.lxor (nth (i + 1) s 0) (Z.lxor t (GALOIS_MUL2 (Z.lxor b c)))) in
  let s := upd s (i + 2) (Z.lxor (nth (i + 2) s 0) (Z.lxor t (GALOIS_MUL2 (Z.lxor c d)))) in
  upd s (i + 3) (Z.lxor (nth (i + 3) s 0) (Z.lxor t (GALOIS_MUL2 (Z.lxor d a)))).

(* ldl_aes.c:205-222 *)
Definition mix_columns (s : bytes) : bytes :=
  fold_left mix_column [0; 4; 8; 12]%nat s.

(* ldl_aes.c:196-199: final add round key *)
Definition add_key (k : bytes) (p : nat) (s : bytes) : bytes :=
  map (fun i => Z.lxor (nth i s 0) (nth (p + i) k 0)) (seq 0 16).

(* ldl_aes.c:159-225: rounds r = 10-n .. 9 *)
Fixpoint aes_rounds (n : nat) (p : nat) (k s : bytes) : bytes :=
  match n with
  | O => s
  | S O => add_key k (p + 16) (sub_shift k p s)
  | S n' => aes_rounds n' (p + 16) k (mix_columns (sub_shift k p s))
  end.

(* ldl_aes.c:146-226 LDL_AES_encrypt on a 16 byte block *)
Definition AES_encrypt (k : bytes) (s : bytes) : bytes := aes_rounds 10 0 k s.
