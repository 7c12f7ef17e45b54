(* LoRaWAN 5: what the commands of a downlink do to the settings of the device,
   apart from LinkADRReq (SpecAdr). *)
From Verif Require Import Words FrameM CommandsM RegionM MacStateM MacUtilM SpecFrame SpecCmd.

(* the value given by the last command of a kind *)
Definition latest {A : Type} (sel : down_cmd -> option A) (l : list down_cmd) (old : A) : A :=
  fold_left (fun a d => match sel d with Some v => v | None => a end) l old.

Definition duty_of (d : down_cmd) : option Z := match d with DDutyCycle x => Some x | _ => None end.
(* offset of RX1, rate and frequency of RX2 *)
Definition rx_of (d : down_cmd) : option (Z * Z * Z) := match d with DRXParamSetup o r f => Some (o, r, f) | _ => None end.
Definition delay_of (d : down_cmd) : option Z := match d with DRXTimingSetup x => Some x | _ => None end.
Definition limits_of (d : down_cmd) : option (Z * Z) := match d with DADRParamSetup l x => Some (2 ^ l, 2 ^ x) | _ => None end.
(* AU 915-928 only *)
Definition param_of (on : bool) (r : region) (d : down_cmd) : option Z :=
  match d, r with DTXParamSetup x, AU_915_928 => if on then Some x else None | _, _ => None end.

(* the settings that belong to the network *)
Definition net_settings (s : session) : Z * (Z * Z * Z) * Z * Z * (Z * Z) :=
  (s_maxDutyCycle s, (s_rx1DROffset s, s_rx2DataRate s, s_rx2Freq s), s_rx1Delay s, s_tx_param s,
   (s_adr_ack_limit s, s_adr_ack_delay s)).
Definition settings_by (on : bool) (k : list down_cmd) (s : session) : Z * (Z * Z * Z) * Z * Z * (Z * Z) :=
  (latest duty_of k (s_maxDutyCycle s), latest rx_of k (s_rx1DROffset s, s_rx2DataRate s, s_rx2Freq s),
   latest delay_of k (s_rx1Delay s), latest (param_of on (s_region s)) k (s_tx_param s),
   latest limits_of k (s_adr_ack_limit s, s_adr_ack_delay s)).

(* the settings a join accept gives *)
Definition settings_joined (f : frame_down) (s : session) : Z * (Z * Z * Z) * Z * Z * (Z * Z) :=
  (s_maxDutyCycle s, (dn_rx1DROffset f, dn_rx2DataRate f, s_rx2Freq s), dn_rxDelay f, s_tx_param s,
   (s_adr_ack_limit s, s_adr_ack_delay s)).
(* and those of a device that knows no network *)
Definition settings_none (txps : bool) (r : region) (maxDC : Z) : Z * (Z * Z * Z) * Z * Z * (Z * Z) :=
  (maxDC, (getRX1Offset r, getRX2Rate r, getRX2Freq r), getRX1Delay r, (if txps then 255 else 0), (64, 32)).

(* the channels the network may set: frequency and rates in range *)
Definition channel_allowed (r : region) (f lo hi : Z) : bool :=
  match r with
  | EU_863_870 => (863000000 <? f) && (f <? 870000000) && (0 <=? lo) && (hi <=? 5)
  | EU_433 => (433175000 <=? f) && (f <=? 434665000) && (0 <=? lo) && (hi <=? 5)
  | _ => false
  end.
Definition channel_of (r : region) (ch : Z) (d : down_cmd) : option (option (Z * Z * Z)) :=
  match d with
  | DNewChannel i f hi lo => if (i =? ch) && channel_allowed r f lo hi then Some (Some (f, lo, hi)) else None
  | _ => None
  end.

(* the commands that are answered *)
Definition asks (on : bool) (r : region) (d : down_cmd) : option cmd_type :=
  match d with
  | DDutyCycle _ => Some CMD_DUTY_CYCLE
  | DRXParamSetup _ _ _ => Some CMD_RX_PARAM_SETUP
  | DDevStatus => Some CMD_DEV_STATUS
  | DNewChannel _ _ _ _ => if isDynamic r then Some CMD_NEW_CHANNEL else None
  | DDLChannel _ _ => if isDynamic r then Some CMD_DL_CHANNEL else None
  | DRXTimingSetup _ => Some CMD_RX_TIMING_SETUP
  | DTXParamSetup _ => match r with AU_915_928 => if on then Some CMD_TX_PARAM_SETUP else None | _ => None end
  | DADRParamSetup _ _ => Some CMD_ADR_PARAM_SETUP
  | DRejoinParamSetup _ _ => Some CMD_REJOIN_PARAM_SETUP
  | _ => None
  end.
Definition asks_for (on : bool) (r : region) (t : cmd_type) (d : down_cmd) : bool :=
  match asks on r d with Some t' => cmd_bit t' =? cmd_bit t | None => false end.

(* the contents of the answers: RXParamSetupAns, NewChannelAns, DlChannelAns,
   RejoinParamSetupAns *)
Definition contents (s : session) : rx_param_ans * new_channel_ans * dl_channel_ans * bool :=
  (s_rxp_ans s, s_nch_ans s, s_dlc_ans s, s_rjp_ans s).
Definition rxp_of (d : down_cmd) : option rx_param_ans :=
  match d with DRXParamSetup _ _ _ => Some (mkRxParamAns true true true) | _ => None end.
Definition freq_allowed (r : region) (f : Z) : bool :=
  match r with
  | EU_863_870 => (863000000 <? f) && (f <? 870000000)
  | EU_433 => (433175000 <=? f) && (f <=? 434665000)
  | _ => false
  end.
Definition nch_of (r : region) (d : down_cmd) : option new_channel_ans :=
  match d with
  | DNewChannel i f hi lo => if isDynamic r then Some (mkNewChAns ((i <? 16) && (hi <=? 5)) (freq_allowed r f)) else None
  | _ => None
  end.
Definition dlc_of (r : region) (d : down_cmd) : option dl_channel_ans :=
  match d with DDLChannel _ f => if isDynamic r then Some (mkDlChAns true (freq_allowed r f)) else None | _ => None end.
Definition rjp_of (d : down_cmd) : option bool := match d with DRejoinParamSetup _ _ => Some false | _ => None end.
Definition contents_by (r : region) (k : list down_cmd) (s : session) : rx_param_ans * new_channel_ans * dl_channel_ans * bool :=
  (latest rxp_of k (s_rxp_ans s), latest (nch_of r) k (s_nch_ans s), latest (dlc_of r) k (s_dlc_ans s), latest rjp_of k (s_rjp_ans s)).

(* the network's time, in seconds and 1/256 s, [now - at_tx] ticks after the
   uplink it refers to *)
Definition network_time (tps at_tx now sec fr : Z) : Z * Z :=
  let t := 256 * sec + fr + 256 * ((now - at_tx) mod 2 ^ 32) / tps in (t / 256 mod 2 ^ 32, t mod 256).
(* what the application is told *)
Definition told_by (tps at_tx now : Z) (d : down_cmd) : list out :=
  match d with
  | DLinkCheck margin gw => [OEvent (EV_LINK_STATUS margin gw)]
  | DDeviceTime sec fr => let '(s, f) := network_time tps at_tx now sec fr in [OEvent (EV_DEVICE_TIME s f)]
  | _ => []
  end.

(* a receive window is open; the frame carries data *)
Definition window_open (m : mac) : bool := match m_state m with ST_RX1 | ST_RX2 => true | _ => false end.
Definition data_frame (f : frame_down) : bool := match dn_type f with FT_CONF_DOWN | FT_UNCONF_DOWN => true | _ => false end.

(* the commands of a received data frame: those of FOpts, then those of a
   payload with FPort 0; [buf] is the decrypted frame *)
Definition field (buf : bytes) (off : option Z) (n : Z) : bytes :=
  match off with Some o => slice buf (Z.to_nat o) (Z.to_nat n) | None => [] end.
Definition frame_cmds (v : l2ver) (buf : bytes) (f : frame_down) : list down_cmd :=
  map fst (parse_cmds fields_read v (field buf (dn_opts f) (dn_optsLen f))) ++
  (if dn_port f =? 0 then map fst (parse_cmds fields_read v (field buf (dn_data f) (dn_dataLen f))) else []).
(* answers repeated until a downlink arrives *)
Definition repeated (t : cmd_type) : bool :=
  match t with CMD_RX_TIMING_SETUP | CMD_DL_CHANNEL | CMD_RX_PARAM_SETUP => true | _ => false end.
Definition is_report (o : out) : bool :=
  match o with OEvent (EV_LINK_STATUS _ _) | OEvent (EV_DEVICE_TIME _ _) => true | _ => false end.

(* the counter a received frame is checked against: with a 1.1 network, frames
   with FPort 0 count by themselves *)
Definition network_frame (c : cfg) (s : session) (f : frame_down) : bool :=
  (sess_version c s >? 0) && (dn_port f =? 0).
(* the high half after a frame was accepted *)
Definition moves_on (h : Z) : Z := if h =? 0 then 0 else h + 1.
