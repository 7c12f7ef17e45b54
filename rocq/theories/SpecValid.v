(* Settings of a session that fit its region. *)
From Verif Require Import Lib RegionM MacStateM MacApiM SpecRegion.

(* highest power setting: LoRaWAN regional parameters, 7, 5 and 10 *)
Definition top_power (r : region) : Z :=
  match r with EU_863_870 => 7 | EU_433 => 5 | US_902_928 | AU_915_928 => 10 end.

Definition valid_settings (r : region) (s : session) : Prop :=
  s_region s = r /\ tables_ok s /\ uplink_rate r (s_rate s) /\ 0 <= s_power s <= top_power r /\ 0 <= s_nbTrans s <= 15.

(* a session kept by the application, if it is used at all *)
Definition valid_start (r : region) (so : option session) : Prop :=
  match so with Some s => s_region s = r -> valid_settings r s | None => True end.

(* the power argument is a uint8_t *)
Definition power_arg (k : call) : Prop := match k with C_setPower p => 0 <= p | _ => True end.
