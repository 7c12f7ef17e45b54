(* Final statements: adaptive data rate (C30, C31, C54, C55). *)
From Verif Require Import Words StreamM Lib FrameM CommandsM RegionM RadioM MacStateM MacUtilM OpsM MacCmdM MacProcM MacApiM Scenario
  SpecHist SpecRegion SpecCmd SpecExec SpecAnswer SpecAdr SpecBack BackP.
From Verif Require AdrP.

Definition a_cfg : cfg := toy_cfg L2_1_0_4.
(* a restored session *)
Definition a_start (r : region) (s : session) : mac := MAC_init a_cfg r (arg0 (Some s)) (at_t 0).
Definition joined_at (r : region) (rate power : Z) : session :=
  set_s_rate rate (set_s_power power (set_s_joined true (m_ctx (MAC_init a_cfg r (arg0 None) (at_t 0))))).

(* --- C31 ------------------------------------------------------------------------- *)

(* The settings after any history without downlink, from the number of data
   operations finished in it.  A step is due each time the delay has passed
   after the limit, but the count stops at 255. *)
Theorem C31_back_off c h m : silent c h m -> let min := MIN_RATE (c_noSF12 c) in let d := dials_of m in starts_fresh min d ->
  let d' := dials_of (run c h m) in
  let k := Z.min (steps_due (d_limit d) (d_delay d) (finished (outs (items c h m)))) (steps_possible (d_limit d) (d_delay d)) in
  if k <? steps_needed min d then after_steps k d d' else robust min d'.
Proof. exact (back_off c h m). Qed.
Print Assumptions C31_back_off.

(* they become the most robust ones and stay so, if as many steps are possible
   as are needed *)
Theorem C31_reaches_partial c h m : silent c h m -> let min := MIN_RATE (c_noSF12 c) in let d := dials_of m in starts_fresh min d ->
  steps_needed min d <= steps_possible (d_limit d) (d_delay d) ->
  d_limit d + d_delay d * steps_needed min d < finished (outs (items c h m)) -> robust min (dials_of (run c h m)).
Proof. exact (reached c h m). Qed.
Print Assumptions C31_reaches_partial.

(* limit and delay 1, as ADRParamSetupReq can set them: five uplinks from rate
   1 and reduced power *)
Definition up_at (t : Z) : history :=
  [(at_t t, C_data false 1 (Some [1]) None); P t; P (t + 25); (tx_at (t + 100), C_radioEvent (t + 100)); (tx_at (t + 100), C_process);
   P (t + 1100); P (t + 1100); (timeout_at (t + 1150), C_radioEvent (t + 1150)); (timeout_at (t + 1150), C_process);
   P (t + 2100); P (t + 2100); (timeout_at (t + 2150), C_radioEvent (t + 2150)); (timeout_at (t + 2150), C_process); P (t + 9000); P (t + 9000)].
Definition us_near : session := set_s_adr_ack_limit 1 (set_s_adr_ack_delay 1 (set_s_chMask [0; 0; 4; 0; 0; 0; 0; 0; 0] (joined_at US_902_928 1 3))).
Definition h_near : history := h_boot ++ up_at 100 ++ up_at 10000 ++ up_at 20000 ++ up_at 30000 ++ up_at 40000.
Example C31_reaches_ex : let m := a_start US_902_928 us_near in
  silent a_cfg h_near m /\ starts_fresh 0 (dials_of m) /\ steps_needed 0 (dials_of m) = 3 /\ steps_possible 1 1 = 253 /\
  finished (outs (items a_cfg h_near m)) = 5 /\ dials_of (run a_cfg h_near m) = mkDials true 1 1 0 0 (repeat 0 9) 0.
Proof. split; [apply no_packet; vm_compute; reflexivity|]. vm_compute. repeat split; discriminate. Qed.

(* If not, the mask stays as it is and the rate does not get lower than so
   many steps. *)
Theorem C31_never_reaches c h m : silent c h m -> let min := MIN_RATE (c_noSF12 c) in let d := dials_of m in starts_fresh min d ->
  steps_possible (d_limit d) (d_delay d) < steps_needed min d ->
  let d' := dials_of (run c h m) in d_mask d' = d_mask d /\
  d_rate d - Z.max 0 (steps_possible (d_limit d) (d_delay d) - (if d_power d >? 0 then 1 else 0)) <= d_rate d'.
Proof. exact (never_reached c h m). Qed.
Print Assumptions C31_never_reaches.

(* With the limit 64 and the delay 32 that LoRaWAN prescribes five steps are
   possible: a device at rate 5 with reduced power never gets below rate 1. *)
Definition eu_far : mac := a_start EU_863_870 (joined_at EU_863_870 5 1).
Example C31_never_reaches_ex : starts_fresh 0 (dials_of eu_far) /\ steps_possible 64 32 = 5 /\ steps_needed 0 (dials_of eu_far) = 7.
Proof. vm_compute. repeat split; discriminate. Qed.
Theorem C31_reaches_refuted : exists c m, starts_fresh (MIN_RATE (c_noSF12 c)) (dials_of m) /\ d_limit (dials_of m) = 64 /\ d_delay (dials_of m) = 32 /\
  forall h, silent c h m -> 1 <= d_rate (dials_of (run c h m)) /\ ~ robust (MIN_RATE (c_noSF12 c)) (dials_of (run c h m)).
Proof.
  exists a_cfg, eu_far. split; [exact (proj1 C31_never_reaches_ex)|]. split; [vm_compute; reflexivity|]. split; [vm_compute; reflexivity|].
  intros h S. assert (starts_fresh (MIN_RATE (c_noSF12 a_cfg)) (dials_of eu_far)) as F by exact (proj1 C31_never_reaches_ex).
  destruct (C31_never_reaches a_cfg h eu_far S F ltac:(vm_compute; reflexivity)) as [_ R].
  revert R. generalize (dials_of (run a_cfg h eu_far)). intros x R.
  assert (1 <= d_rate x) as X by (refine (Z.le_trans _ _ _ _ R); vm_compute; discriminate). split; [exact X|].
  intros (_ & RR & _). change (MIN_RATE (c_noSF12 a_cfg)) with 0 in RR. lia.
Qed.
Print Assumptions C31_reaches_refuted.

(* --- C30 ------------------------------------------------------------------------- *)

(* The effect of a field of commands on the settings, for every content.  Only
   the first block of the field counts.  A complete block is answered and is
   carried out whole or not at all.  A block that breaks off in the middle of
   a request changes the mask and is not answered. *)
Theorem C30_field : forall c e l m, bytes_ok l -> (length l < 256)%nat -> let s := m_ctx m in let r := s_region s in let off := bit_off (s_chMask s) in
  tables_ok s -> bytes_ok (s_chMask s) -> waiting s CMD_LINK_ADR = false ->
  let s' := m_ctx (processCommands c e l m) in
  let (qs, whole) := first_block (parse_cmds fields_read (c_l2 c) l) in
  if whole then
    waiting s' CMD_LINK_ADR = true /\ s_adr_ans s' = verdict r off qs /\
    (if granted (verdict r off qs) then takes_effect s s' qs else no_effect s s')
  else
    waiting s' CMD_LINK_ADR = false /\ s_rate s' = s_rate s /\ s_power s' = s_power s /\ s_nbTrans s' = s_nbTrans s /\
    forall ch, 0 <= ch < 72 -> bit_off (s_chMask s') ch = off_after r off qs ch.
Proof. exact AdrP.adr_field. Qed.
Print Assumptions C30_field.

Theorem C30_all_or_nothing_partial : forall c e l m qs, bytes_ok l -> (length l < 256)%nat -> let s := m_ctx m in let off := bit_off (s_chMask s) in
  tables_ok s -> bytes_ok (s_chMask s) -> waiting s CMD_LINK_ADR = false ->
  first_block (parse_cmds fields_read (c_l2 c) l) = (qs, true) ->
  let s' := m_ctx (processCommands c e l m) in
  waiting s' CMD_LINK_ADR = true /\ s_adr_ans s' = verdict (s_region s) off qs /\
  (granted (s_adr_ans s') = true /\ takes_effect s s' qs \/ granted (s_adr_ans s') = false /\ no_effect s s').
Proof.
  intros c e l m qs B L s off T K W F s'. pose proof (AdrP.adr_field c e l m B L T K W) as X. cbv zeta in X. rewrite F in X.
  destruct X as (X1 & X2 & X3). split; [exact X1|]. split; [exact X2|]. unfold s'. rewrite X2.
  destruct (granted _); [left|right]; auto.
Qed.
Print Assumptions C30_all_or_nothing_partial.

(* EU868: a block of two requests (mask 0x0007, then rate 3, power 2, three
   transmissions, all on) between other commands; the same with power 9, which
   is not defined; DutyCycleReq first, DevStatusReq last *)
Definition adr_of (s : session) : list Z * link_adr_ans := ([s_rate s; s_power s; s_nbTrans s] ++ firstn 2 (s_chMask s), s_adr_ans s).
Definition eu_sess : mac := set_m_ctx (set_s_joined true (m_ctx eu_far)) eu_far.
Definition blk (rp : Z) : bytes := [4; 0; 3; 0xff; 7; 0; 0; 3; rp; 3; 0; 3; 6].
Example C30_ex : tables_ok (m_ctx eu_sess) /\ bytes_ok (s_chMask (m_ctx eu_sess)) /\ waiting (m_ctx eu_sess) CMD_LINK_ADR = false /\
  first_block (parse_cmds fields_read L2_1_0_4 (blk 0x32)) = ([mkReq 15 15 7 0 0; mkReq 3 2 3 0 3], true) /\
  adr_of (m_ctx eu_sess) = ([5; 1; 0; 0; 0], s_adr_ans (m_ctx eu_sess)) /\
  adr_of (m_ctx (processCommands a_cfg (at_t 0) (blk 0x32) eu_sess)) = ([3; 2; 3; 0xfc; 0xff], mkAdrAns true true true) /\
  adr_of (m_ctx (processCommands a_cfg (at_t 0) (blk 0x39) eu_sess)) = ([5; 1; 0; 0; 0], mkAdrAns false true true).
Proof.
  split; [vm_compute; auto|]. split; [unfold bytes_ok; vm_compute; repeat (constructor; [split; [discriminate|reflexivity]|]); constructor|].
  vm_compute. auto 10.
Qed.

(* A block that breaks off: the mask is changed, nothing is answered. *)
Theorem C30_broken_off_refuted : exists c e l m, let s := m_ctx m in let s' := m_ctx (processCommands c e l m) in
  waiting s CMD_LINK_ADR = false /\ waiting s' CMD_LINK_ADR = false /\ s_chMask s' <> s_chMask s /\ s_rate s' = s_rate s /\ q_rate (hd (mkReq 0 0 0 0 0) (fst (first_block (parse_cmds fields_read (c_l2 c) l)))) = 3.
Proof.
  exists a_cfg, (at_t 0), [3; 0x32; 7; 0; 0; 3; 0x32], eu_sess. cbv zeta. vm_compute. repeat split. discriminate.
Qed.
Print Assumptions C30_broken_off_refuted.

(* A second block in the same field is not carried out, although it would be
   granted by itself, and it is not answered apart from the first. *)
Theorem C30_second_block_refuted : exists c e l l2 m, let s' := m_ctx (processCommands c e (l ++ l2) m) in let s2 := m_ctx (processCommands c e l2 m) in
  closes_block l2 = true /\ s_adr_ans s2 = mkAdrAns true true true /\ s_rate s2 = 4 /\ s_adr_ans s' = mkAdrAns true true true /\ s_rate s' = 3.
Proof.
  exists a_cfg, (at_t 0), [3; 0x32; 7; 0; 0], [6; 3; 0x42; 7; 0; 0], eu_sess. cbv zeta. vm_compute. auto.
Qed.
Print Assumptions C30_second_block_refuted.

(* --- C54 ------------------------------------------------------------------------- *)

(* with 72 channels a granted block leaves one on *)
Theorem C54_one_left_partial : forall c e l m qs, bytes_ok l -> (length l < 256)%nat -> let s := m_ctx m in
  tables_ok s -> bytes_ok (s_chMask s) -> waiting s CMD_LINK_ADR = false -> isDynamic (s_region s) = false ->
  first_block (parse_cmds fields_read (c_l2 c) l) = (qs, true) ->
  let s' := m_ctx (processCommands c e l m) in granted (s_adr_ans s') = true ->
  exists ch, 0 <= ch < numChannels (s_region s) /\ channelIsMasked (s_chMask s') (s_region s) ch = false.
Proof. exact AdrP.one_left_on. Qed.
Print Assumptions C54_one_left_partial.

Definition us_sess : mac := a_start US_902_928 (joined_at US_902_928 1 3).
(* all 125 kHz channels off: granted; the others too: refused *)
Example C54_one_left_ex : isDynamic (s_region (m_ctx us_sess)) = false /\ waiting (m_ctx us_sess) CMD_LINK_ADR = false /\
  s_adr_ans (m_ctx (processCommands a_cfg (at_t 0) [3; 0xff; 0; 0; 0x70] us_sess)) = mkAdrAns true true true /\
  s_adr_ans (m_ctx (processCommands a_cfg (at_t 0) [3; 0xff; 0; 0; 0x70; 3; 0xff; 0; 0; 0x40] us_sess)) = mkAdrAns true true false.
Proof. vm_compute. auto. Qed.

(* with 16 channels the test never fails: what lies past them counts as on *)
Theorem C54_sixteen_all_off : forall c e l m qs, bytes_ok l -> (length l < 256)%nat -> let s := m_ctx m in
  tables_ok s -> bytes_ok (s_chMask s) -> waiting s CMD_LINK_ADR = false -> isDynamic (s_region s) = true ->
  (exists ch, 16 <= ch < 72 /\ bit_off (s_chMask s) ch = false) ->
  first_block (parse_cmds fields_read (c_l2 c) l) = (qs, true) ->
  q_ctl (last_req qs) = 0 -> q_mask (last_req qs) = 0 -> 
  forallb (ctl_known (s_region s)) qs = true -> power_fits (s_region s) (last_req qs) = true -> rate_fits (s_region s) (last_req qs) = true ->
  let s' := m_ctx (processCommands c e l m) in
  s_adr_ans s' = mkAdrAns true true true /\ forall ch, 0 <= ch < 16 -> bit_off (s_chMask s') ch = true.
Proof. exact AdrP.sixteen_off. Qed.
Print Assumptions C54_sixteen_all_off.
Definition mask_none : bytes := [3; 0xff; 0; 0; 0].
Example C54_sixteen_ex : isDynamic (s_region (m_ctx eu_sess)) = true /\ bit_off (s_chMask (m_ctx eu_sess)) 16 = false /\
  first_block (parse_cmds fields_read L2_1_0_4 mask_none) = ([mkReq 15 15 0 0 0], true) /\
  ctl_known EU_863_870 (mkReq 15 15 0 0 0) && power_fits EU_863_870 (mkReq 15 15 0 0 0) && rate_fits EU_863_870 (mkReq 15 15 0 0 0) = true.
Proof. vm_compute. auto. Qed.

(* The device has joined; the request comes with a downlink and is answered
   OK; from then on every data request is refused. *)
Definition none_down : bytes := [0x60; 0xda; 0x1b; 0x01; 0x26; 0x05; 0; 0] ++ mask_none ++ [1; 2; 3; 4].
Definition h_none : history := h_toy_join ++
  [P 8100; P 3000000; (at_t 3000000, C_data false 1 (Some [1]) None); P 3000000; P 3000025; (tx_at 3001025, C_radioEvent 3001025); (tx_at 3001025, C_process);
   P 3002025; P 3002025] ++ h_rx 3002100 none_down ++ [P 3002100; P 6000000; P 9000000].
Theorem C54_all_off_refuted : exists c h, let m := run c h (MAC_init c EU_863_870 (arg0 None) (at_t 0)) in
  s_joined (m_ctx m) = true /\ m_state m = ST_IDLE /\ s_adr_ans (m_ctx m) = mkAdrAns true true true /\
  (forall ch, 0 <= ch < 16 -> channelIsMasked (s_chMask (m_ctx m)) EU_863_870 ch = true) /\
  snd (step c (at_t 9000000) (C_data false 1 (Some [1]) None) m) = RStatus STATUS_NOCHANNEL.
Proof.
  exists a_cfg, h_none. cbv zeta. set (m := run _ _ _).
  assert (s_joined (m_ctx m) = true /\ m_state m = ST_IDLE /\ s_adr_ans (m_ctx m) = mkAdrAns true true true /\
    forallb (fun n => channelIsMasked (s_chMask (m_ctx m)) EU_863_870 (Z.of_nat n)) (seq 0 16) = true /\
    snd (step a_cfg (at_t 9000000) (C_data false 1 (Some [1]) None) m) = RStatus STATUS_NOCHANNEL) as (A & B & C & D & E).
  { unfold m. vm_compute. auto 10. }
  clearbody m. split; [exact A|]. split; [exact B|]. split; [exact C|]. split; [|exact E].
  intros ch H. rewrite forallb_forall in D. specialize (D (Z.to_nat ch)). rewrite in_seq, Z2Nat.id in D by lia. apply D. lia.
Qed.
Print Assumptions C54_all_off_refuted.

(* --- C55 ------------------------------------------------------------------------- *)

(* values 0 to 4 as the regional parameters say; 6 and 7 on the first 64 *)
Theorem C55_mask_control_partial : forall c e l m qs ch, bytes_ok l -> (length l < 256)%nat -> let s := m_ctx m in
  tables_ok s -> bytes_ok (s_chMask s) -> waiting s CMD_LINK_ADR = false -> isDynamic (s_region s) = false ->
  first_block (parse_cmds fields_read (c_l2 c) l) = (qs, true) -> 0 <= ch < 72 ->
  Forall (fun q => q_ctl q < 5 \/ 5 < q_ctl q /\ ch < 64) qs ->
  let s' := m_ctx (processCommands c e l m) in granted (s_adr_ans s') = true ->
  bit_off (s_chMask s') ch = fold_left regional_off qs (bit_off (s_chMask s)) ch.
Proof. exact AdrP.mask_control. Qed.
Print Assumptions C55_mask_control_partial.
Example C55_mask_control_ex : isDynamic (s_region (m_ctx us_sess)) = false /\
  s_chMask (m_ctx (processCommands a_cfg (at_t 0) [3; 0xff; 0; 0; 0x70; 3; 0xff; 0; 0xff; 0; 3; 0xff; 2; 0; 0x40] us_sess)) = [255; 0; 255; 255; 255; 255; 255; 255; 253].
Proof. vm_compute. auto. Qed.

(* 6 and 7 leave the other eight as they are, and 5 changes nothing; both are
   answered OK *)
Theorem C55_mask_control_refuted : exists c e m, let s := m_ctx m in s_region s = US_902_928 /\ waiting s CMD_LINK_ADR = false /\
  (let l := [3; 0xff; 2; 0; 0x50] in let s' := m_ctx (processCommands c e l m) in
   first_block (parse_cmds fields_read (c_l2 c) l) = ([mkReq 15 15 2 5 0], true) /\ s_adr_ans s' = mkAdrAns true true true /\
   regional_off (bit_off (s_chMask s)) (mkReq 15 15 2 5 0) 0 = true /\ s_chMask s' = s_chMask s /\ bit_off (s_chMask s') 0 = false) /\
  (let l := [3; 0xff; 2; 0; 0x70] in let s' := m_ctx (processCommands c e l m) in
   first_block (parse_cmds fields_read (c_l2 c) l) = ([mkReq 15 15 2 7 0], true) /\ s_adr_ans s' = mkAdrAns true true true /\
   regional_off (bit_off (s_chMask s)) (mkReq 15 15 2 7 0) 64 = true /\ bit_off (s_chMask s') 64 = false).
Proof. exists a_cfg, (at_t 0), us_sess. cbv zeta. vm_compute. auto 20. Qed.
Print Assumptions C55_mask_control_refuted.
