(* LoRaWAN: the power and the air time a transmission may have. *)
From Verif Require Import Words RegionM MacStateM MacUtilM SpecRadio.

(* in hundredths of a dBm.  Regional parameters: the highest EIRP of the region
   and the steps of 2 dB below it *)
Definition max_eirp (r : region) : Z :=
  match r with EU_863_870 => 1600 | EU_433 => 1215 | US_902_928 | AU_915_928 => 3000 end.
Definition power_level (r : region) (p : Z) : Z := max_eirp r - 200 * p.

(* LoRaWAN 1.0.3, 5.8: the MaxEIRP values of TxParamSetupReq, in dBm; the command
   is used in AU 915-928 *)
Definition max_eirp_codes : list Z := [8; 10; 12; 13; 14; 16; 18; 20; 21; 24; 26; 27; 29; 30; 33; 36].
Definition network_eirp (param : Z) : Z := 100 * nth (Z.to_nat (param mod 16)) max_eirp_codes 0.
Definition eirp_of (c : cfg) (r : region) (param p : Z) : Z :=
  match r with
  | AU_915_928 => if c_txps c then Z.min (power_level r p) (network_eirp param) else power_level r p
  | _ => power_level r p
  end.

(* bit 4 of the parameters: uplinks are limited to 400 ms *)
Definition dwell_us : Z := 400000.
Definition dwell_limited (param : Z) : bool := Z.testbit param 4.

(* Regional parameters: the settings before the network has changed any *)
Definition rx2_default (r : region) : Z * Z :=
  match r with
  | EU_863_870 => (869525000, 0) | EU_433 => (434665000, 0)
  | US_902_928 | AU_915_928 => (923300000, 8)
  end.
Definition default_freqs (r : region) : list Z :=
  match r with
  | EU_863_870 => [868100000; 868300000; 868500000]
  | EU_433 => [433175000; 433375000; 433575000]
  | _ => []
  end.
Definition has_defaults (r : region) (s : session) : Prop :=
  s_region s = r /\ s_joined s = false /\
  s_rx1DROffset s = 0 /\ s_rx1Delay s = 1 /\ (s_rx2Freq s, s_rx2DataRate s) = rx2_default r /\
  s_adr_ack_limit s = 64 /\ s_adr_ack_delay s = 32 /\ s_nbTrans s = 0 /\ s_pending s = 0 /\
  s_up s = 0 /\ s_nwkDown s = 0 /\ s_appDown s = 0 /\
  Forall (fun x => x = 0) (s_chMask s) /\
  (isDynamic r = true -> forall ch, 0 <= ch < 16 ->
     getChannel s ch = Some (nth (Z.to_nat ch) (default_freqs r) 0, 0, if ch <? 3 then 5 else 0)).
