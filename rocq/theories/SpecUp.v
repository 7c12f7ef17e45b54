(* What is said about the frames a device sends. *)
From Verif Require Import Lib MacStateM SpecFrame SpecAes SpecSm SpecHist SpecKey.

(* the frame held ready for the radio *)
Definition prepared (m : mac) : bytes := firstn (Z.to_nat (m_bufferLen m)) (m_buffer m).
(* the n octets in front of its integrity code *)
Definition before_mic (n : nat) (F : bytes) : bytes := firstn n (skipn (length F - 4 - n) F).

(* LoRaWAN: octet j of an encrypted payload, d being the plain one, with the
   counter the blocks A_1, A_2.. are made with *)
Definition payload_cipher (key : list Z) (devAddr counter : Z) (d : bytes) : bytes :=
  map (fun j => Z.lxor (nth j d 0) (nth (j mod 16) (aes128 key (block_A true devAddr counter (1 + Z.of_nat (j / 16)))) 0))
      (seq 0 (length d)).
