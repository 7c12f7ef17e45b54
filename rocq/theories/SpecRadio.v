(* Air time of a LoRa packet, from the Semtech SX1272/SX1276 data sheets
   (time on air), in exact integer arithmetic. *)
From Coq Require Import ZArith Bool.
Open Scope Z_scope.

(* bandwidth in hertz *)
Definition lora_bandwidth (hz : Z) : Prop := hz = 125000 \/ hz = 250000 \/ hz = 500000.

(* symbol time in microseconds; an integer for these bandwidths *)
Definition symbol_us (hz sf : Z) : Z := 2 ^ sf * 1000000 / hz.

(* LoRaWAN regional parameters: low data rate optimisation is on for SF11 and
   SF12 at 125 kHz (symbols longer than 16 ms) and off for every other rate *)
Definition low_rate (hz sf : Z) : Z := if (hz =? 125000) && (11 <=? sf) then 1 else 0.

(* ceil (a / b) for b > 0 *)
Definition ceil_div (a b : Z) : Z := - ((- a) / b).

(* payload symbols at coding rate 4/5.  IH = 1 when the packet has no
   explicit header; LoRaWAN packets always have one, so IH = 0. *)
Definition payload_symbols (hz sf IH size crc : Z) : Z :=
  8 + Z.max 0 (ceil_div (8 * size - 4 * sf + 28 + 16 * crc - 20 * IH)
                        (4 * (sf - 2 * low_rate hz sf))) * 5.

(* eight preamble symbols and the 4.25 of the sync word *)
Definition packet_us (hz sf IH size crc : Z) : Z :=
  (49 * symbol_us hz sf) / 4 + payload_symbols hz sf IH size crc * symbol_us hz sf.
