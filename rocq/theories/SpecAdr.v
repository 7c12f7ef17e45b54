(* What a block of LinkADRReq commands asks for (C30, C54, C55). *)
From Verif Require Import Words FrameM CommandsM RegionM MacStateM MacUtilM SpecCmd SpecExec.

Record adr_req := mkReq { q_rate : Z; q_power : Z; q_mask : Z; q_ctl : Z; q_trans : Z }.

(* The first contiguous block among the commands of a field, and whether it is
   complete: the byte after its last request is not the identifier of another
   one. *)
Fixpoint first_block (l : list (down_cmd * list Z)) : list adr_req * bool :=
  match l with
  | [] => ([], false)
  | (DLinkADR dr pw mk ctl nb, rest) :: l =>
      let q := mkReq dr pw mk ctl nb in
      if closes_block rest then ([q], true) else let (qs, whole) := first_block l in (q :: qs, whole)
  | _ :: l => first_block l
  end.

(* channel [ch] is off in a mask *)
Definition bit_off (mask : bytes) (ch : Z) : bool := Z.testbit (nth (Z.to_nat (ch / 8)) mask 0) (ch mod 8).

(* One request.  ChMaskCntl in regions with 16 channels: 0 selects the
   channels by ChMask, 6 turns all on, other values are not defined.  In
   regions with 72 channels: 0 to 4 select sixteen channels by ChMask, 6 and 7
   turn the first 64 on and off. *)
Definition off_after1 (r : region) (off : Z -> bool) (q : adr_req) : Z -> bool := fun ch =>
  if isDynamic r then
    if q_ctl q =? 0 then (if ch <? 16 then negb (Z.testbit (q_mask q) ch) else off ch)
    else if q_ctl q =? 6 then false else off ch
  else
    if q_ctl q =? 6 then (if ch <? 64 then false else off ch)
    else if q_ctl q =? 7 then (if ch <? 64 then true else off ch)
    else if (16 * q_ctl q <=? ch) && (ch <? 16 * q_ctl q + 16) then negb (Z.testbit (q_mask q) (ch - 16 * q_ctl q))
    else off ch.
Definition off_after (r : region) (off : Z -> bool) (qs : list adr_req) : Z -> bool := fold_left (off_after1 r) qs off.

Definition all_ch : list Z := map Z.of_nat (seq 0 72).

(* The verdict: the settings of the last request, the masks of all.  The value
   15 keeps a setting.  The mask is refused if one control value is not
   defined, or if it leaves none of 72 channels on. *)
Definition last_req (qs : list adr_req) : adr_req := List.last qs (mkReq 0 0 0 0 0).
Definition rate_fits (r : region) (q : adr_req) : bool := (15 <=? q_rate q) || rateSettingIsValid r (q_rate q).
Definition power_fits (r : region) (q : adr_req) : bool := (15 <=? q_power q) || validateTXPower r (q_power q).
Definition ctl_known (r : region) (q : adr_req) : bool := negb (isDynamic r) || (q_ctl q =? 0) || (q_ctl q =? 6).
Definition mask_fits (r : region) (off : Z -> bool) (qs : list adr_req) : bool :=
  forallb (ctl_known r) qs && negb (forallb (off_after r off qs) all_ch).
Definition verdict (r : region) (off : Z -> bool) (qs : list adr_req) : link_adr_ans :=
  mkAdrAns (power_fits r (last_req qs)) (rate_fits r (last_req qs)) (mask_fits r off qs).
Definition granted (a : link_adr_ans) : bool := la_power a && la_rate a && la_mask a.

Definition asked (keep old v : Z) : Z := if v =? keep then old else v.

(* the four settings are as requested *)
Definition takes_effect (s s' : session) (qs : list adr_req) : Prop :=
  let q := last_req qs in
  s_rate s' = asked 15 (s_rate s) (q_rate q) /\
  s_power s' = asked 15 (s_power s) (q_power q) /\
  s_nbTrans s' = asked 0 (s_nbTrans s) (Z.min 3 (q_trans q)) /\
  forall ch, 0 <= ch < 72 -> bit_off (s_chMask s') ch = off_after (s_region s) (bit_off (s_chMask s)) qs ch.
(* the four settings are as before *)
Definition no_effect (s s' : session) : Prop :=
  s_rate s' = s_rate s /\ s_power s' = s_power s /\ s_nbTrans s' = s_nbTrans s /\ s_chMask s' = s_chMask s.

(* ChMaskCntl in US902-928 and AU915-928 (RP002, tables 13 and 32): 0 to 4
   sixteen channels each, 5 the eight sub-bands of eight 125 kHz channels and
   one 500 kHz channel, 6 and 7 all 125 kHz channels on or off and ChMask for
   the 500 kHz channels *)
Definition regional_off (off : Z -> bool) (q : adr_req) : Z -> bool := fun ch =>
  if q_ctl q <? 5 then
    if (16 * q_ctl q <=? ch) && (ch <? 16 * q_ctl q + 16) then negb (Z.testbit (q_mask q) (ch - 16 * q_ctl q)) else off ch
  else if q_ctl q =? 5 then negb (Z.testbit (q_mask q) (if ch <? 64 then ch / 8 else ch - 64))
  else if ch <? 64 then q_ctl q =? 7
  else negb (Z.testbit (q_mask q) (ch - 64)).
