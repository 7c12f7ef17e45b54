(* When the receive windows ought to open (C35), in unbounded arithmetic. *)
From Coq Require Import ZArith List Bool.
From Verif Require Import Words FrameM RegionM RadioM MacStateM MacUtilM MacApiM SpecTime.
Import ListNotations.
Open Scope Z_scope.

Definition hz (b : bw) : Z := match b with BW_125 => 125000 | BW_250 => 250000 | BW_500 => 500000 end.
Definition ceil_div (x y : Z) : Z := (x + y - 1) / y.

(* whole ticks in one symbol *)
Definition symbol_ticks (tps sf : Z) (b : bw) : Z := 2 ^ sf * tps / hz b.
(* ticks by which the clock may be off after [secs] seconds: A per second,
   either way, and B *)
Definition clock_error (m : mac) (secs : Z) : Z := 2 * m_a m * secs + m_b m.
(* symbols added to the window to cover this, at least three *)
Definition extra_symbols (m : mac) (secs sf : Z) (b : bw) : Z :=
  Z.max 3 (ceil_div (clock_error m secs) (symbol_ticks (m_tps m) sf b)).
(* half of them come before the nominal time *)
Definition lead (m : mac) (secs sf : Z) (b : bw) : Z :=
  extra_symbols m secs sf b * symbol_ticks (m_tps m) sf b / 2.
(* the documented advance and the time the radio's oscillator needs *)
Definition prepare (c : cfg) (m : mac) : Z := m_advance m + ceil_div (c_xtal c * m_tps m) 1000.

(* seconds from the end of the transmission to the first window *)
Definition first_delay (m : mac) : Z := match m_op m with OP_JOINING => 5 | _ => s_rx1Delay (m_ctx m) end.
Definition rx1_rate (m : mac) : Z := getRX1DataRate (s_region (m_ctx m)) (tx_rate (m_tx m)) (s_rx1DROffset (m_ctx m)).
Definition rx2_rate (m : mac) : Z := s_rx2DataRate (m_ctx m).

Definition lead_at (m : mac) (secs rate : Z) : Z := let r := s_region (m_ctx m) in lead m secs (rate_sf r rate) (rate_bw r rate).
Definition symbol_at (m : mac) (rate : Z) : Z := let r := s_region (m_ctx m) in symbol_ticks (m_tps m) (rate_sf r rate) (rate_bw r rate).

(* the timers for a transmission that ended at Te *)
Definition first_timer (c : cfg) (m : mac) (Te : Z) : Z :=
  Te + first_delay m * m_tps m - prepare c m - lead_at m (first_delay m) (rx1_rate m).
Definition second_timer (c : cfg) (m : mac) (Te : Z) : Z :=
  Te + (first_delay m + 1) * m_tps m - prepare c m - lead_at m (first_delay m + 1) (rx2_rate m).

(* parameters for which this is meant: tick rates of LDL_MAC_init, and clock
   errors and delays of up to some minutes *)
Definition sane (c : cfg) (m : mac) : Prop :=
  1000 <= m_tps m <= 1000000 /\ 0 <= m_a m /\ 0 <= m_b m /\ clock_error m (first_delay m + 1) < 2 ^ 30 /\
  0 <= m_advance m < 2 ^ 29 /\ 0 <= c_xtal c <= 1000 /\ 0 <= first_delay m <= 255.

(* The end of a transmission, signalled at T0, is served at T. *)
Definition end_served (m : mac) (e : env) (T0 T : Z) : Prop :=
  inputPending m = true /\ m_state m = ST_TX /\ e_st_tx e = true /\
  in_time (m_inputs m) = clock T0 /\ e_now e = clock T /\ T0 <= T < T0 + 2 ^ 29.
(* both window lengths can be computed *)
Definition computable (m : mac) : Prop := 0 < symbol_at m (rx1_rate m) /\ 0 < symbol_at m (rx2_rate m).
(* the end of the transmission as the MAC sees it: one tick late if the
   counter has wrapped since (C40) *)
Definition seen_end (T0 T : Z) : Z := T0 + (if wraps T0 T then 1 else 0).
(* by how much the MAC believes to be late *)
Definition lateness (D T : Z) : Z := T - D - (if wraps D T then 1 else 0).
(* symbols to listen for, as a uint16_t *)
Definition listen_for (m : mac) (secs rate : Z) : Z :=
  (5 + extra_symbols m secs (rate_sf (s_region (m_ctx m)) rate) (rate_bw (s_region (m_ctx m)) rate)) mod 65536.
