(* The fields of a data downlink and how they are encrypted.
   LoRaWAN 1.0.4 4.3, LoRaWAN 1.1 4.3.1.6 and 4.3.3. *)
From Verif Require Import Words Lib FrameM MacStateM SpecFrame SpecAes SpecSm SpecRx.

Definition opts_len (w : bytes) : nat := Z.to_nat (nth 5 w 0 mod 16).
(* FOptsLen is not longer than the frame *)
Definition well_sized (w : bytes) : Prop := (12 + opts_len w <= length w)%nat.
Definition options_in (w : bytes) : bytes := slice w 8 (opts_len w).
Definition has_port (w : bytes) : bool := (13 + opts_len w <=? length w)%nat.
Definition port_in (w : bytes) : Z := if has_port w then nth (8 + opts_len w) w 0 else 0.
Definition payload_in (w : bytes) : bytes := slice w (9 + opts_len w) (length w - 13 - opts_len w).

(* octet j of an encrypted field of a downlink, d being the plain one; [i] is
   the number of the first block.  Encrypting twice gives d again *)
Definition down_cipher (key : list Z) (devAddr counter i : Z) (d : bytes) : bytes :=
  map (fun j => Z.lxor (nth j d 0) (nth (j mod 16) (aes128 key (block_A false devAddr counter (i + Z.of_nat (j / 16)))) 0))
      (seq 0 (length d)).

(* a data frame may not have options and FPort 0 *)
Definition no_clash (w : bytes) : Prop := ~ (has_port w = true /\ (0 < opts_len w)%nat /\ port_in w = 0).
