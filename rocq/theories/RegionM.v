(* Model of /repo/src/ldl_region.c and /repo/include/ldl_region.h.
   All four regions are taken as enabled in the build.  [noSF12] stands for
   the build option LDL_DISABLE_SF12 (ldl_region.c:40-44).  Functions that
   call back into the MAC (getDefaultChannels, processCFList) return the list
   of calls they make. *)
From Verif Require Import Words.

(* ldl_region.h enum ldl_region *)
Inductive region := EU_863_870 | US_902_928 | AU_915_928 | EU_433.

(* enum values with all regions enabled; stored in the session *)
Definition region_code (r : region) : Z :=
  match r with EU_863_870 => 0 | US_902_928 => 1 | AU_915_928 => 2 | EU_433 => 3 end.

Definition region_eqb (a b : region) : bool := region_code a =? region_code b.

(* ldl_region.c:40-44 MIN_RATE *)
Definition MIN_RATE (noSF12 : bool) : Z := if noSF12 then 1 else 0.

(* enum ldl_signal_bandwidth, ldl_radio_defs.h *)
Inductive bw := BW_125 | BW_250 | BW_500.

(* ldl_region.c:54-255 LDL_Region_convertRate: spreading factor (enum
   ldl_spreading_factor has the value of the factor), bandwidth, mtu *)
Definition convertRate (r : region) (rate : Z) : Z * bw * Z :=
  match r with
  | EU_863_870 | EU_433 =>
      match rate with
      | 0 => (12, BW_125, 59)
      | 1 => (11, BW_125, 59)
      | 2 => (10, BW_125, 59)
      | 3 => (9, BW_125, 123)
      | 4 => (8, BW_125, 250)
      | 5 => (7, BW_125, 250)
      | 6 => (7, BW_250, 250)
      | _ => (7, BW_125, 250)
      end
  | US_902_928 =>
      match rate with
      | 0 => (10, BW_125, 19)
      | 1 => (9, BW_125, 61)
      | 2 => (8, BW_125, 133)
      | 3 => (7, BW_125, 250)
      | 4 | 12 => (8, BW_500, 250)
      | 8 => (12, BW_500, 61)
      | 9 => (11, BW_500, 137)
      | 10 => (10, BW_500, 250)
      | 11 => (9, BW_500, 250)
      | 13 => (7, BW_500, 250)
      | _ => (7, BW_125, 250)
      end
  | AU_915_928 =>
      match rate with
      | 0 => (12, BW_125, 59)
      | 1 => (11, BW_125, 59)
      | 2 => (10, BW_125, 59)
      | 3 => (9, BW_125, 123)
      | 4 => (8, BW_125, 250)
      | 5 => (7, BW_125, 250)
      | 6 | 12 => (8, BW_500, 250)
      | 8 => (12, BW_500, 61)
      | 9 => (11, BW_500, 137)
      | 10 => (10, BW_500, 250)
      | 11 => (9, BW_500, 250)
      | 13 => (7, BW_500, 250)
      | _ => (7, BW_125, 250)
      end
  end.

Definition rate_sf r rate : Z := fst (fst (convertRate r rate)).
Definition rate_bw r rate : bw := snd (fst (convertRate r rate)).
Definition rate_mtu r rate : Z := snd (convertRate r rate).

(* ldl_region.c:257-302 LDL_Region_getBand; None = false *)
Definition getBand (r : region) (freq : Z) : option Z :=
  match r with
  | EU_863_870 =>
      if (863000000 <=? freq) && (freq <=? 868000000) then Some 0
      else if (868000000 <=? freq) && (freq <=? 868600000) then Some 1
      else if (868700000 <=? freq) && (freq <=? 869200000) then Some 2
      else if (869400000 <=? freq) && (freq <=? 869650000) then Some 3
      else if (869700000 <=? freq) && (freq <? 870000000) then Some 4
      else None
  | _ => Some 0
  end.

(* ldl_region.c:304-325 *)
Definition isDynamic (r : region) : bool :=
  match r with US_902_928 | AU_915_928 => false | _ => true end.

(* ldl_region.c:327-389 LDL_Region_getChannel: (freq, minRate, maxRate) *)
Definition Region_getChannel (r : region) (ch : Z) : option (Z * Z * Z) :=
  match r with
  | US_902_928 =>
      if ch <? 64 then Some (u32 (902300000 + 200000 * ch), 0, 3)
      else if ch <? 72 then Some (u32 (903000000 + 1600000 * (ch - 64)), 4, 4)
      else None
  | AU_915_928 =>
      if ch <? 64 then Some (u32 (915200000 + 200000 * ch), 0, 5)
      else if ch <? 72 then Some (u32 (915900000 + 1600000 * (ch - 64)), 6, 6)
      else None
  | _ => None
  end.

(* ldl_region.c:391-413 *)
Definition numChannels (r : region) : Z :=
  match r with US_902_928 | AU_915_928 => 72 | _ => 16 end.

(* ldl_region.c:1114-1182 upRateRange; None = false *)
Definition upRateRange (r : region) (ch : Z) : option (Z * Z) :=
  match r with
  | EU_863_870 | EU_433 => if ch <? 16 then Some (0, 5) else None
  | US_902_928 =>
      if ch <=? 71 then (if ch <=? 63 then Some (0, 3) else Some (4, 4)) else None
  | AU_915_928 =>
      if ch <=? 71 then (if ch <=? 63 then Some (0, 5) else Some (6, 6)) else None
  end.

(* calls made back into the MAC *)
Inductive chan_call :=
| AddChannel (ch freq minRate maxRate : Z)   (* LDL_MAC_addChannel *)
| MaskChannel (ch : Z)                       (* LDL_MAC_maskChannel *)
| UnmaskChannel (ch : Z).                    (* LDL_MAC_unmaskChannel *)

(* ldl_region.c:415-447 LDL_Region_getDefaultChannels *)
Definition getDefaultChannels (r : region) : list chan_call :=
  match r with
  | EU_863_870 => [AddChannel 0 868100000 0 5; AddChannel 1 868300000 0 5;
                   AddChannel 2 868500000 0 5]
  | EU_433 => [AddChannel 0 433175000 0 5; AddChannel 1 433375000 0 5;
               AddChannel 2 433575000 0 5]
  | _ => []
  end.

(* ldl_region.c:450-461 unpackCFListFreq at offset pos *)
Definition unpackCFListFreq (cf : bytes) (pos : nat) : Z :=
  u32 ((nth (pos + 2) cf 0 * 65536 + nth (pos + 1) cf 0 * 256 + nth pos cf 0) * 100).

(* ldl_region.c:465-472 unpackCFListMask at offset pos *)
Definition unpackCFListMask (cf : bytes) (pos : nat) : Z :=
  nth (pos + 1) cf 0 * 256 + nth pos cf 0.

(* ldl_region.c:475-550 LDL_Region_processCFList; cf is the list of cfListLen
   bytes.  The index (i*16)+b passed to (un)maskChannel is at most 79. *)
Definition processCFList (r : region) (cf : bytes) : list chan_call :=
  if Z.of_nat (length cf) =? 16 then
    match r with
    | EU_863_870 | EU_433 =>
        if nth 15 cf 0 =? 0 then
          map (fun i => AddChannel (3 + Z.of_nat i) (unpackCFListFreq cf (3 * i)) 0 5)
              (seq 0 5)
        else []
    | US_902_928 | AU_915_928 =>
        if nth 15 cf 0 =? 1 then
          flat_map (fun i =>
            let mask := unpackCFListMask cf (2 * i) in
            map (fun b =>
                   if Z.testbit mask (Z.of_nat b)
                   then UnmaskChannel (Z.of_nat i * 16 + Z.of_nat b)
                   else MaskChannel (Z.of_nat i * 16 + Z.of_nat b))
                (seq 0 16)) (seq 0 5)
        else []
    end
  else [].

(* ldl_region.c:552-589 *)
Definition getOffTimeFactor (r : region) (band : Z) : Z :=
  match r with
  | EU_863_870 =>
      match band with
      | 0 | 1 | 4 => 100
      | 2 => 1000
      | 3 => 10
      | _ => 0
      end
  | EU_433 => 100
  | _ => 0
  end.

(* ldl_region.c:591-606 *)
Definition validateRate (r : region) (ch minRate maxRate : Z) : bool :=
  match upRateRange r ch with
  | Some (mn, mx) => (mn <=? minRate) && (maxRate <=? mx)
  | None => false
  end.

(* ldl_region.c:608-646 *)
Definition validateFreq (r : region) (freq : Z) : bool :=
  match r with
  | EU_863_870 => (863000000 <? freq) && (freq <? 870000000)
  | EU_433 => (433175000 <=? freq) && (freq <=? 434665000)
  | US_902_928 => (902000000 <? freq) && (freq <? 928000000)
  | AU_915_928 => (915000000 <? freq) && (freq <? 928000000)
  end.

(* ldl_region.c:668-677, 688-694, 705-713: tables, row by row *)
Definition rx1_table (r : region) : list Z :=
  match r with
  | EU_863_870 | EU_433 =>
      [0; 0; 0; 0; 0; 0;
       1; 0; 0; 0; 0; 0;
       2; 1; 0; 0; 0; 0;
       3; 2; 1; 0; 0; 0;
       4; 3; 2; 1; 0; 0;
       5; 4; 3; 2; 1; 0;
       6; 5; 4; 3; 2; 1;
       7; 6; 5; 4; 3; 2]
  | US_902_928 =>
      [10; 9; 8; 8;
       11; 10; 9; 8;
       12; 11; 10; 9;
       13; 12; 11; 10;
       13; 13; 12; 11]
  | AU_915_928 =>
      [8; 8; 8; 8; 8; 8;
       9; 8; 8; 8; 8; 8;
       10; 9; 8; 8; 8; 8;
       11; 10; 9; 8; 8; 8;
       12; 11; 10; 9; 8; 8;
       13; 12; 11; 10; 9; 8;
       13; 13; 12; 11; 10; 9]
  end.

Definition rx1_stride (r : region) : Z :=
  match r with US_902_928 => 4 | _ => 6 end.

(* ldl_region.c:648-735 LDL_Region_getRX1DataRate; the index is a uint8_t *)
Definition rx1_index (r : region) (tx_rate offset : Z) : Z :=
  u8 (tx_rate * rx1_stride r + offset).
Definition getRX1DataRate (r : region) (tx_rate offset : Z) : Z :=
  let i := rx1_index r tx_rate offset in
  if i <? Z.of_nat (length (rx1_table r))
  then nth (Z.to_nat i) (rx1_table r) 0
  else tx_rate.

(* ldl_region.c:737-757 *)
Definition getRX1Freq (r : region) (txFreq ch : Z) : Z :=
  match r with
  | US_902_928 | AU_915_928 => u32 (923300000 + (ch mod 8) * 600000)
  | _ => txFreq
  end.

(* ldl_region.c:759-778 *)
Definition getRX1Delay (r : region) : Z := 1.
Definition getJA1Delay (r : region) : Z := 5.
Definition getRX1Offset (r : region) : Z := 0.

(* ldl_region.c:780-809 *)
Definition getRX2Freq (r : region) : Z :=
  match r with
  | EU_863_870 => 869525000 | EU_433 => 434665000
  | US_902_928 => 923300000 | AU_915_928 => 923300000
  end.

(* ldl_region.c:811-840 *)
Definition getRX2Rate (r : region) : Z :=
  match r with EU_863_870 | EU_433 => 0 | _ => 8 end.

(* ldl_region.c:842-885 *)
Definition validateTXPower (r : region) (power : Z) : bool :=
  match r with
  | EU_863_870 => power <=? 7
  | EU_433 => power <=? 5
  | _ => power <=? 10
  end.

(* ldl_region.c:887-942, dBm * 100 *)
Definition getTXPower (r : region) (power : Z) : Z :=
  match r with
  | EU_863_870 => if power <=? 7 then 1600 - power * 200 else 1600 - 7 * 200
  | EU_433 => if power <=? 5 then 1215 - power * 200 else 1215 - 5 * 200
  | _ => if power <=? 10 then 3000 - power * 200 else 3000 - 10 * 200
  end.

(* ldl_region.c:944-977 *)
Definition getJoinRate (noSF12 : bool) (r : region) (trial : Z) : Z :=
  match r with
  | EU_863_870 | EU_433 => u8 (5 - u8 (trial mod (6 - MIN_RATE noSF12)))
  | US_902_928 => MIN_RATE noSF12
  | AU_915_928 => 2
  end.

(* ldl_region.c:979-1019 *)
Definition getJoinIndex (r : region) (trial random : Z) : Z :=
  match r with
  | US_902_928 | AU_915_928 =>
      if 0 <? Z.land trial 1 then u8 (64 + (Z.shiftr trial 1) mod 8)
      else u8 (((Z.shiftr trial 1) mod 8) * 8 + random mod 8)
  | _ => 0
  end.

(* ldl_region.c:1021-1035: half an hour in 1/256 s *)
Definition getMaxDCycleOffLimit (r : region) : Z := 30 * 60 * 256.

(* ldl_region.c:1072-1088 *)
Definition txParamSetupImplemented (r : region) : bool :=
  match r with AU_915_928 => true | _ => false end.

(* ldl_region.c:1090-1110 *)
Definition applyUplinkDwell (r : region) (dwell : bool) (rate : Z) : Z :=
  match r with
  | AU_915_928 => if dwell && (rate <? 2) then 2 else rate
  | _ => rate
  end.
