(* The MAC answers and requests of an uplink as LoRaWAN lays them out. *)
From Verif Require Import Words FrameM CommandsM MacStateM MacUtilM MacApiM SpecCmd SpecFrame.

Definition one (b : bool) (l : list Z) : list Z := if b then l else [].

(* status octet: bit 2, bit 1, bit 0 *)
Definition flags3 (b2 b1 b0 : bool) : Z := 4 * b2z b2 + 2 * b2z b1 + b2z b0.

(* answer waiting in this session *)
Definition waiting (x : session) (t : cmd_type) : bool := Z.testbit (s_pending x) (cmd_bit t).

Definition uplink_commands (v : l2ver) (txps : bool) (x : session) (o : data_opts) : list Z :=
  let w := waiting x in
  one (is_1_1 v && w CMD_REKEY) [11; s_version x mod 256] ++
  one (w CMD_RX_PARAM_SETUP)
      [5; flags3 (rp_offset (s_rxp_ans x)) (rp_rate (s_rxp_ans x)) (rp_channel (s_rxp_ans x))] ++
  one (w CMD_DL_CHANNEL) [10; flags3 false (dc_uplink (s_dlc_ans x)) (dc_freq (s_dlc_ans x))] ++
  one (w CMD_RX_TIMING_SETUP) [8] ++
  one (w CMD_LINK_ADR)
      [3; flags3 (la_power (s_adr_ans x)) (la_rate (s_adr_ans x)) (la_mask (s_adr_ans x))] ++
  one (w CMD_DEV_STATUS) [6; ds_battery (s_dev_ans x) mod 256; ds_margin (s_dev_ans x) mod 64] ++
  one (w CMD_NEW_CHANNEL) [7; flags3 false (nc_rate (s_nch_ans x)) (nc_freq (s_nch_ans x))] ++
  one (is_1_1 v && w CMD_REJOIN_PARAM_SETUP) [15; b2z (s_rjp_ans x)] ++
  one (is_1_1 v && w CMD_ADR_PARAM_SETUP) [12] ++
  one (txps && w CMD_TX_PARAM_SETUP) [9] ++
  one (w CMD_DUTY_CYCLE) [4] ++
  one (do_check o) [2] ++
  one (do_getTime o) [13].
