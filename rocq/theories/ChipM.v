(* The hardware interface of the radio drivers: /repo/include/ldl_chip.h *)
From Verif Require Import Words.

(* signed conversions: (int8_t) and (int16_t), ldl_internal.h S16 *)
Definition s8 (x : Z) : Z := if u8 x <? 128 then u8 x else u8 x - 256.
Definition s16 (x : Z) : Z := if u16 x <? 32768 then u16 x else u16 x - 65536.

(* ldl_chip.h:91-99 enum ldl_chip_mode *)
Inductive chip_mode := CHIP_RESET | CHIP_SLEEP | CHIP_STANDBY | CHIP_RX | CHIP_TX_RFO | CHIP_TX_BOOST.

(* calls of the three functions the application provides (ldl_chip.h:110, 132,
   157): chip_set_mode, chip_write with its opcode and payload, chip_read with
   its opcode and the number of bytes wanted *)
Inductive chip_op :=
| ChipMode (m : chip_mode)
| ChipWrite (opcode data : bytes)
| ChipRead (opcode : bytes) (size : Z).

(* ldl_radio.h:70-77 enum ldl_radio_type without LDL_RADIO_NONE *)
Inductive radio_type := SX1272 | SX1276 | SX1261 | SX1262 | WL55.
(* ldl_radio.h:93-97 *)
Inductive xtal := XTAL_CRYSTAL | XTAL_TCXO.

(* ldl_radio.h:123-128 struct ldl_radio_status *)
Record radio_status := mkStatus { rs_tx : bool; rs_rx : bool; rs_timeout : bool }.
(* ldl_radio.h:117-121 struct ldl_radio_packet_metadata *)
Record metadata := mkMeta { md_rssi : Z; md_snr : Z }.
