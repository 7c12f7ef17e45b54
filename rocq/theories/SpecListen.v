(* LoRaWAN: where and how the two receive windows after an uplink listen. *)
From Verif Require Import Lib RegionM MacStateM SpecRegion.

(* the transmission before *)
Definition last_tx (l : list out) : option out :=
  fold_left (fun a o => match o with OTransmit _ _ _ _ _ => Some o | _ => a end) l None.

(* modulation of a data rate and the longest frame of it: M, MHDR and MIC *)
Definition modulation (r : region) (rate : Z) (b : bw) (sf len : Z) : Prop :=
  b = rate_bw r rate /\ sf = rate_sf r rate /\ len = rate_mtu r rate + 5.

(* frequency of the first window: that of the uplink, or the downlink channel
   of the fixed plans with the index of the uplink channel modulo 8 *)
Definition first_freq (r : region) (up ch : Z) : Z :=
  match r with
  | US_902_928 | AU_915_928 => 923300000 + 600000 * (ch mod 8)
  | _ => up
  end.

(* the radio is told to listen when the MAC is in state m *)
Definition window_ok (m : mac) (f : Z) (b : bw) (sf len : Z) : Prop :=
  let s := m_ctx m in let r := s_region s in
  let ch := tx_chIndex (m_tx m) in let up := tx_rate (m_tx m) in
  exists tf tb tsf p fr, last_tx (m_log m) = Some (OTransmit tf tb tsf p fr) /\
    tb = rate_bw r up /\ tsf = rate_sf r up /\
    (isDynamic r = false -> exists lo hi, fixed_channel r ch = Some (tf, lo, hi) /\ lo <= up <= hi) /\
    match m_state m with
    | ST_START_RADIO_FOR_RX1 => f = first_freq r tf ch /\ (rx1_defined r up (s_rx1DROffset s) -> modulation r (rx1_rate r up (s_rx1DROffset s)) b sf len)
    | ST_START_RADIO_FOR_RX2 => f = s_rx2Freq s /\ modulation r (s_rx2DataRate s) b sf len
    | _ => False
    end.
