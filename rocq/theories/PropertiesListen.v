(* C78: the frequency and data rate of the receive windows. *)
From Verif Require Import Lib FrameM RegionM RadioM MacStateM MacUtilM MacProcM MacApiM Scenario SpecRegion SpecHist SpecListen.
From Verif Require ListenP.

(* --- C78 ------------------------------------------------------------------------- *)

(* whenever the radio is told to listen, it is in one of the two windows after
   the last transmission: the first on the frequency that goes with the uplink
   and at its rate less the offset, the second at the frequency and rate set
   for it; in the fixed plans the uplink was on the channel given *)
Theorem C78_windows_tuned : forall c r a e0 h f b sf sym len,
  In (OReceive f b sf sym len) (m_log (run c h (MAC_init c r a e0))) ->
  exists h1 e h2, h = h1 ++ (e, C_process) :: h2 /\ window_ok (run c h1 (MAC_init c r a e0)) f b sf len.
Proof. exact ListenP.window_listens. Qed.
Print Assumptions C78_windows_tuned.

(* a join request and both windows after it *)
Definition calls (l : list out) : list out := filter (fun o => match o with OTransmit _ _ _ _ _ | OReceive _ _ _ _ _ => true | _ => false end) l.
Definition h_windows : history := h_boot ++ [(at_rnd 30 5, C_otaa); P 30; P 30; P 55] ++ h_rx1 3000 5 ++
  [(timeout_at 8100, C_radioEvent 8100); (timeout_at 8100, C_process); P 9000; P 9000; P 9010].
Definition tuning (r : region) : list (Z * bw * Z) :=
  map (fun o => match o with OTransmit f b sf _ _ | OReceive f b sf _ _ => (f, b, sf) | _ => (0, BW_125, 0) end)
    (calls (m_log (run (toy_cfg L2_1_0_4) h_windows (MAC_init (toy_cfg L2_1_0_4) r (arg0 None) (at_t 0))))).
Example C78_example :
  tuning EU_863_870 = [(868500000, BW_125, 7); (868500000, BW_125, 7); (869525000, BW_125, 12)] /\
  (* 902.3 + 0.2 * 5 and 923.3 + 0.6 * 5; the second window is the one of the
     defaults the device starts with, see C67 *)
  tuning US_902_928 = [(903300000, BW_125, 10); (926300000, BW_500, 10); (869525000, BW_125, 10)] /\
  tuning AU_915_928 = [(916200000, BW_125, 10); (926300000, BW_500, 10); (869525000, BW_125, 12)] /\
  first_freq US_902_928 903300000 5 = 926300000 /\ rx1_rate US_902_928 0 0 = 10 /\
  (* after an uplink on channel 64 with offset 3 *)
  first_freq US_902_928 903000000 64 = 923300000 /\ rx1_defined US_902_928 4 3 /\ rx1_rate US_902_928 4 3 = 11.
Proof. vm_compute. repeat split; discriminate. Qed.
