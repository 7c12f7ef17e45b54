(* State of the MAC: /repo/include/ldl_mac.h and ldl_mac_internal.h.

   Differences from the C structures:
   - the application pointers (handler, app, ticks, rand, battery) and the radio
     and security module pointers are replaced by the environment of a step
     ([env]), the static configuration ([cfg]) and the output log [m_log];
   - the security module state is represented by the sequence of
     update_session_key calls made so far ([m_sm]): any deterministic module is
     a function of that sequence;
   - fields that exist only under build options (version, tx_param_setup,
     otaaDither) are always present; the build options are fields of [cfg];
   - LDL_ENABLE_TEST_MODE, LDL_ENABLE_CLASS_B and LDL_ENABLE_STATIC_RX_BUFFER
     are taken as off, LDL_DISABLE_CHECK/DEVICE_TIME as not defined. *)
From Verif Require Import Words FrameM CommandsM RegionM SmM.

(* ldl_mac.h:157-183 *)
Inductive mac_state :=
| ST_INIT | ST_RADIO_RESET | ST_RADIO_BOOT | ST_IDLE
| ST_WAIT_ENTROPY | ST_START_RADIO_FOR_ENTROPY | ST_ENTROPY
| ST_WAIT_OTAA | ST_WAIT_TX | ST_START_RADIO_FOR_TX | ST_TX
| ST_WAIT_RX1 | ST_START_RADIO_FOR_RX1 | ST_RX1
| ST_WAIT_RX2 | ST_START_RADIO_FOR_RX2 | ST_RX2 | ST_RX2_LOCKOUT.

(* ldl_mac.h:186-194 *)
Inductive mac_op :=
| OP_NONE | OP_ENTROPY | OP_JOINING | OP_REJOINING
| OP_DATA_UNCONFIRMED | OP_DATA_CONFIRMED.

(* ldl_mac.h:197-218, codes used by the MAC *)
Inductive status :=
| STATUS_OK | STATUS_NOCHANNEL | STATUS_SIZE | STATUS_RATE | STATUS_PORT
| STATUS_BUSY | STATUS_NOTJOINED | STATUS_POWER | STATUS_MACPRIORITY
| STATUS_JOINED | STATUS_DEVNONCE.

(* ldl_mac.h:147-154 *)
Inductive sme := SME_NONE | SME_TIMER_A | SME_TIMER_B | SME_INTERRUPT | SME_BAND.

(* ldl_mac.h:322-326, 328-333, 341-346, 303-308 *)
Record timer := mkTimer { tm_time : Z; tm_armed : bool }.
Record input := mkInput { in_armed : bool; in_state : bool; in_time : Z }.
Record mac_time := mkTime { mt_ticks : Z; mt_remainder : Z; mt_parked : bool }.
Record data_opts := mkOpts { do_nbTrans : Z; do_check : bool; do_getTime : bool }.

(* ldl_mac_internal.h:31-39: indices into timers *)
Definition WAITA : nat := 0.
Definition WAITB : nat := 1.
Definition TBAND : nat := 2.

(* ldl_mac.h:311-320: index of the global off-time counter *)
Definition BAND_GLOBAL : nat := 5.

(* struct ldl_mac_tx, ldl_mac.h:403-412 *)
Record mac_tx := mkTx {
  tx_freq : Z;
  tx_counter : Z;
  tx_airTime : Z;
  tx_chIndex : Z;
  tx_rate : Z;
  tx_power : Z
}.

(* struct ldl_mac_session, ldl_mac.h:349-401 *)
Record session := mkSession {
  s_magic : Z;
  s_joined : bool;
  s_adr : bool;
  s_version : Z;
  s_region : region;
  s_up : Z;
  s_appDown : Z;
  s_nwkDown : Z;
  s_devAddr : Z;
  s_netID : Z;
  s_chConfig : list (Z * Z);
  s_chMask : bytes;
  s_rate : Z;
  s_power : Z;
  s_maxDutyCycle : Z;
  s_nbTrans : Z;
  s_rx1DROffset : Z;
  s_rx1Delay : Z;
  s_rx2DataRate : Z;
  s_rx2Freq : Z;
  s_adr_ack_limit : Z;
  s_adr_ack_delay : Z;
  s_rxp_ans : rx_param_ans;
  s_dlc_ans : dl_channel_ans;
  s_adr_ans : link_adr_ans;
  s_dev_ans : dev_status_ans;
  s_nch_ans : new_channel_ans;
  s_rjp_ans : bool;
  s_joinNonce : Z;
  s_devNonce : Z;
  s_pending : Z;
  s_tx_param : Z
}.

(* calls of update_session_key: (key, root, iv) *)
Definition smlog := list (sm_key * sm_key * bytes).

(* enum ldl_radio_mode, ldl_radio.h *)
Inductive radio_mode := MODE_RESET | MODE_BOOT | MODE_SLEEP | MODE_RX | MODE_TX | MODE_HOLD.

(* events passed to the application handler: ldl_mac.h:77-145, arguments
   225-291 *)
Inductive event :=
| EV_ENTROPY (value : Z)
| EV_CHANNEL_READY
| EV_OP_ERROR
| EV_OP_CANCELLED
| EV_JOIN_COMPLETE (joinNonce netID devAddr : Z)
| EV_DEV_NONCE_UPDATED (next : Z)
| EV_JOIN_EXHAUSTED
| EV_DATA_COMPLETE
| EV_DATA_TIMEOUT
| EV_RX (port : Z) (data : bytes)
| EV_LINK_STATUS (margin gwCount : Z)
| EV_SESSION_UPDATED (s : session)
| EV_DEVICE_TIME (seconds fractions : Z).

(* what leaves the MAC: events to the application and calls into the radio
   interface (ldl_radio.h struct ldl_radio_interface) *)
Inductive out :=
| OEvent (e : event)
| OMode (m : radio_mode)
| OTransmit (freq : Z) (b : bw) (sf eirp : Z) (frame : bytes)
| OReceive (freq : Z) (b : bw) (sf timeout max : Z)
| OReceiveEntropy.

(* struct ldl_mac, ldl_mac.h:415-512 *)
Record mac := mkMac {
  m_state : mac_state;
  m_op : mac_op;
  m_pendingACK : bool;
  m_joinEUI : bytes;
  m_devEUI : bytes;
  m_buffer : bytes;
  m_bufferLen : Z;
  m_band : list Z;
  m_day : Z;
  m_devNonce : Z;
  m_joinNonce : Z;
  m_rx_snr : Z;
  m_tx : mac_tx;
  m_rx1_symbols : Z;
  m_rx2_symbols : Z;
  m_ctx : session;
  m_sm : smlog;
  m_inputs : input;
  m_timers : list timer;
  m_adrAckCounter : Z;
  m_adrAckReq : bool;
  m_time : mac_time;
  m_ticks_at_tx : Z;
  m_trials : Z;
  m_opts : data_opts;
  m_fPending : bool;
  m_tps : Z;
  m_a : Z;
  m_b : Z;
  m_advance : Z;
  m_maxDutyCycle : Z;
  m_otaaDither : Z;
  m_log : list out
}.

(* field updates *)
Definition set_tx_freq (v : Z) (r : mac_tx) : mac_tx :=
  mkTx v (tx_counter r) (tx_airTime r) (tx_chIndex r) (tx_rate r) (tx_power r).
Definition set_tx_counter (v : Z) (r : mac_tx) : mac_tx :=
  mkTx (tx_freq r) v (tx_airTime r) (tx_chIndex r) (tx_rate r) (tx_power r).
Definition set_tx_airTime (v : Z) (r : mac_tx) : mac_tx :=
  mkTx (tx_freq r) (tx_counter r) v (tx_chIndex r) (tx_rate r) (tx_power r).
Definition set_tx_chIndex (v : Z) (r : mac_tx) : mac_tx :=
  mkTx (tx_freq r) (tx_counter r) (tx_airTime r) v (tx_rate r) (tx_power r).
Definition set_tx_rate (v : Z) (r : mac_tx) : mac_tx :=
  mkTx (tx_freq r) (tx_counter r) (tx_airTime r) (tx_chIndex r) v (tx_power r).
Definition set_tx_power (v : Z) (r : mac_tx) : mac_tx :=
  mkTx (tx_freq r) (tx_counter r) (tx_airTime r) (tx_chIndex r) (tx_rate r) v.
Definition set_s_magic (v : Z) (r : session) : session :=
  mkSession v (s_joined r) (s_adr r) (s_version r) (s_region r) (s_up r) (s_appDown r) (s_nwkDown r) (s_devAddr r) (s_netID r) (s_chConfig r) (s_chMask r) (s_rate r) (s_power r) (s_maxDutyCycle r) (s_nbTrans r) (s_rx1DROffset r) (s_rx1Delay r) (s_rx2DataRate r) (s_rx2Freq r) (s_adr_ack_limit r) (s_adr_ack_delay r) (s_rxp_ans r) (s_dlc_ans r) (s_adr_ans r) (s_dev_ans r) (s_nch_ans r) (s_rjp_ans r) (s_joinNonce r) (s_devNonce r) (s_pending r) (s_tx_param r).
Definition set_s_joined (v : bool) (r : session) : session :=
  mkSession (s_magic r) v (s_adr r) (s_version r) (s_region r) (s_up r) (s_appDown r) (s_nwkDown r) (s_devAddr r) (s_netID r) (s_chConfig r) (s_chMask r) (s_rate r) (s_power r) (s_maxDutyCycle r) (s_nbTrans r) (s_rx1DROffset r) (s_rx1Delay r) (s_rx2DataRate r) (s_rx2Freq r) (s_adr_ack_limit r) (s_adr_ack_delay r) (s_rxp_ans r) (s_dlc_ans r) (s_adr_ans r) (s_dev_ans r) (s_nch_ans r) (s_rjp_ans r) (s_joinNonce r) (s_devNonce r) (s_pending r) (s_tx_param r).
Definition set_s_adr (v : bool) (r : session) : session :=
  mkSession (s_magic r) (s_joined r) v (s_version r) (s_region r) (s_up r) (s_appDown r) (s_nwkDown r) (s_devAddr r) (s_netID r) (s_chConfig r) (s_chMask r) (s_rate r) (s_power r) (s_maxDutyCycle r) (s_nbTrans r) (s_rx1DROffset r) (s_rx1Delay r) (s_rx2DataRate r) (s_rx2Freq r) (s_adr_ack_limit r) (s_adr_ack_delay r) (s_rxp_ans r) (s_dlc_ans r) (s_adr_ans r) (s_dev_ans r) (s_nch_ans r) (s_rjp_ans r) (s_joinNonce r) (s_devNonce r) (s_pending r) (s_tx_param r).
Definition set_s_version (v : Z) (r : session) : session :=
  mkSession (s_magic r) (s_joined r) (s_adr r) v (s_region r) (s_up r) (s_appDown r) (s_nwkDown r) (s_devAddr r) (s_netID r) (s_chConfig r) (s_chMask r) (s_rate r) (s_power r) (s_maxDutyCycle r) (s_nbTrans r) (s_rx1DROffset r) (s_rx1Delay r) (s_rx2DataRate r) (s_rx2Freq r) (s_adr_ack_limit r) (s_adr_ack_delay r) (s_rxp_ans r) (s_dlc_ans r) (s_adr_ans r) (s_dev_ans r) (s_nch_ans r) (s_rjp_ans r) (s_joinNonce r) (s_devNonce r) (s_pending r) (s_tx_param r).
Definition set_s_region (v : region) (r : session) : session :=
  mkSession (s_magic r) (s_joined r) (s_adr r) (s_version r) v (s_up r) (s_appDown r) (s_nwkDown r) (s_devAddr r) (s_netID r) (s_chConfig r) (s_chMask r) (s_rate r) (s_power r) (s_maxDutyCycle r) (s_nbTrans r) (s_rx1DROffset r) (s_rx1Delay r) (s_rx2DataRate r) (s_rx2Freq r) (s_adr_ack_limit r) (s_adr_ack_delay r) (s_rxp_ans r) (s_dlc_ans r) (s_adr_ans r) (s_dev_ans r) (s_nch_ans r) (s_rjp_ans r) (s_joinNonce r) (s_devNonce r) (s_pending r) (s_tx_param r).
Definition set_s_up (v : Z) (r : session) : session :=
  mkSession (s_magic r) (s_joined r) (s_adr r) (s_version r) (s_region r) v (s_appDown r) (s_nwkDown r) (s_devAddr r) (s_netID r) (s_chConfig r) (s_chMask r) (s_rate r) (s_power r) (s_maxDutyCycle r) (s_nbTrans r) (s_rx1DROffset r) (s_rx1Delay r) (s_rx2DataRate r) (s_rx2Freq r) (s_adr_ack_limit r) (s_adr_ack_delay r) (s_rxp_ans r) (s_dlc_ans r) (s_adr_ans r) (s_dev_ans r) (s_nch_ans r) (s_rjp_ans r) (s_joinNonce r) (s_devNonce r) (s_pending r) (s_tx_param r).
Definition set_s_appDown (v : Z) (r : session) : session :=
  mkSession (s_magic r) (s_joined r) (s_adr r) (s_version r) (s_region r) (s_up r) v (s_nwkDown r) (s_devAddr r) (s_netID r) (s_chConfig r) (s_chMask r) (s_rate r) (s_power r) (s_maxDutyCycle r) (s_nbTrans r) (s_rx1DROffset r) (s_rx1Delay r) (s_rx2DataRate r) (s_rx2Freq r) (s_adr_ack_limit r) (s_adr_ack_delay r) (s_rxp_ans r) (s_dlc_ans r) (s_adr_ans r) (s_dev_ans r) (s_nch_ans r) (s_rjp_ans r) (s_joinNonce r) (s_devNonce r) (s_pending r) (s_tx_param r).
Definition set_s_nwkDown (v : Z) (r : session) : session :=
  mkSession (s_magic r) (s_joined r) (s_adr r) (s_version r) (s_region r) (s_up r) (s_appDown r) v (s_devAddr r) (s_netID r) (s_chConfig r) (s_chMask r) (s_rate r) (s_power r) (s_maxDutyCycle r) (s_nbTrans r) (s_rx1DROffset r) (s_rx1Delay r) (s_rx2DataRate r) (s_rx2Freq r) (s_adr_ack_limit r) (s_adr_ack_delay r) (s_rxp_ans r) (s_dlc_ans r) (s_adr_ans r) (s_dev_ans r) (s_nch_ans r) (s_rjp_ans r) (s_joinNonce r) (s_devNonce r) (s_pending r) (s_tx_param r).
Definition set_s_devAddr (v : Z) (r : session) : session :=
  mkSession (s_magic r) (s_joined r) (s_adr r) (s_version r) (s_region r) (s_up r) (s_appDown r) (s_nwkDown r) v (s_netID r) (s_chConfig r) (s_chMask r) (s_rate r) (s_power r) (s_maxDutyCycle r) (s_nbTrans r) (s_rx1DROffset r) (s_rx1Delay r) (s_rx2DataRate r) (s_rx2Freq r) (s_adr_ack_limit r) (s_adr_ack_delay r) (s_rxp_ans r) (s_dlc_ans r) (s_adr_ans r) (s_dev_ans r) (s_nch_ans r) (s_rjp_ans r) (s_joinNonce r) (s_devNonce r) (s_pending r) (s_tx_param r).
Definition set_s_netID (v : Z) (r : session) : session :=
  mkSession (s_magic r) (s_joined r) (s_adr r) (s_version r) (s_region r) (s_up r) (s_appDown r) (s_nwkDown r) (s_devAddr r) v (s_chConfig r) (s_chMask r) (s_rate r) (s_power r) (s_maxDutyCycle r) (s_nbTrans r) (s_rx1DROffset r) (s_rx1Delay r) (s_rx2DataRate r) (s_rx2Freq r) (s_adr_ack_limit r) (s_adr_ack_delay r) (s_rxp_ans r) (s_dlc_ans r) (s_adr_ans r) (s_dev_ans r) (s_nch_ans r) (s_rjp_ans r) (s_joinNonce r) (s_devNonce r) (s_pending r) (s_tx_param r).
Definition set_s_chConfig (v : list (Z * Z)) (r : session) : session :=
  mkSession (s_magic r) (s_joined r) (s_adr r) (s_version r) (s_region r) (s_up r) (s_appDown r) (s_nwkDown r) (s_devAddr r) (s_netID r) v (s_chMask r) (s_rate r) (s_power r) (s_maxDutyCycle r) (s_nbTrans r) (s_rx1DROffset r) (s_rx1Delay r) (s_rx2DataRate r) (s_rx2Freq r) (s_adr_ack_limit r) (s_adr_ack_delay r) (s_rxp_ans r) (s_dlc_ans r) (s_adr_ans r) (s_dev_ans r) (s_nch_ans r) (s_rjp_ans r) (s_joinNonce r) (s_devNonce r) (s_pending r) (s_tx_param r).
Definition set_s_chMask (v : bytes) (r : session) : session :=
  mkSession (s_magic r) (s_joined r) (s_adr r) (s_version r) (s_region r) (s_up r) (s_appDown r) (s_nwkDown r) (s_devAddr r) (s_netID r) (s_chConfig r) v (s_rate r) (s_power r) (s_maxDutyCycle r) (s_nbTrans r) (s_rx1DROffset r) (s_rx1Delay r) (s_rx2DataRate r) (s_rx2Freq r) (s_adr_ack_limit r) (s_adr_ack_delay r) (s_rxp_ans r) (s_dlc_ans r) (s_adr_ans r) (s_dev_ans r) (s_nch_ans r) (s_rjp_ans r) (s_joinNonce r) (s_devNonce r) (s_pending r) (s_tx_param r).
Definition set_s_rate (v : Z) (r : session) : session :=
  mkSession (s_magic r) (s_joined r) (s_adr r) (s_version r) (s_region r) (s_up r) (s_appDown r) (s_nwkDown r) (s_devAddr r) (s_netID r) (s_chConfig r) (s_chMask r) v (s_power r) (s_maxDutyCycle r) (s_nbTrans r) (s_rx1DROffset r) (s_rx1Delay r) (s_rx2DataRate r) (s_rx2Freq r) (s_adr_ack_limit r) (s_adr_ack_delay r) (s_rxp_ans r) (s_dlc_ans r) (s_adr_ans r) (s_dev_ans r) (s_nch_ans r) (s_rjp_ans r) (s_joinNonce r) (s_devNonce r) (s_pending r) (s_tx_param r).
Definition set_s_power (v : Z) (r : session) : session :=
  mkSession (s_magic r) (s_joined r) (s_adr r) (s_version r) (s_region r) (s_up r) (s_appDown r) (s_nwkDown r) (s_devAddr r) (s_netID r) (s_chConfig r) (s_chMask r) (s_rate r) v (s_maxDutyCycle r) (s_nbTrans r) (s_rx1DROffset r) (s_rx1Delay r) (s_rx2DataRate r) (s_rx2Freq r) (s_adr_ack_limit r) (s_adr_ack_delay r) (s_rxp_ans r) (s_dlc_ans r) (s_adr_ans r) (s_dev_ans r) (s_nch_ans r) (s_rjp_ans r) (s_joinNonce r) (s_devNonce r) (s_pending r) (s_tx_param r).
Definition set_s_maxDutyCycle (v : Z) (r : session) : session :=
  mkSession (s_magic r) (s_joined r) (s_adr r) (s_version r) (s_region r) (s_up r) (s_appDown r) (s_nwkDown r) (s_devAddr r) (s_netID r) (s_chConfig r) (s_chMask r) (s_rate r) (s_power r) v (s_nbTrans r) (s_rx1DROffset r) (s_rx1Delay r) (s_rx2DataRate r) (s_rx2Freq r) (s_adr_ack_limit r) (s_adr_ack_delay r) (s_rxp_ans r) (s_dlc_ans r) (s_adr_ans r) (s_dev_ans r) (s_nch_ans r) (s_rjp_ans r) (s_joinNonce r) (s_devNonce r) (s_pending r) (s_tx_param r).
Definition set_s_nbTrans (v : Z) (r : session) : session :=
  mkSession (s_magic r) (s_joined r) (s_adr r) (s_version r) (s_region r) (s_up r) (s_appDown r) (s_nwkDown r) (s_devAddr r) (s_netID r) (s_chConfig r) (s_chMask r) (s_rate r) (s_power r) (s_maxDutyCycle r) v (s_rx1DROffset r) (s_rx1Delay r) (s_rx2DataRate r) (s_rx2Freq r) (s_adr_ack_limit r) (s_adr_ack_delay r) (s_rxp_ans r) (s_dlc_ans r) (s_adr_ans r) (s_dev_ans r) (s_nch_ans r) (s_rjp_ans r) (s_joinNonce r) (s_devNonce r) (s_pending r) (s_tx_param r).
Definition set_s_rx1DROffset (v : Z) (r : session) : session :=
  mkSession (s_magic r) (s_joined r) (s_adr r) (s_version r) (s_region r) (s_up r) (s_appDown r) (s_nwkDown r) (s_devAddr r) (s_netID r) (s_chConfig r) (s_chMask r) (s_rate r) (s_power r) (s_maxDutyCycle r) (s_nbTrans r) v (s_rx1Delay r) (s_rx2DataRate r) (s_rx2Freq r) (s_adr_ack_limit r) (s_adr_ack_delay r) (s_rxp_ans r) (s_dlc_ans r) (s_adr_ans r) (s_dev_ans r) (s_nch_ans r) (s_rjp_ans r) (s_joinNonce r) (s_devNonce r) (s_pending r) (s_tx_param r).
Definition set_s_rx1Delay (v : Z) (r : session) : session :=
  mkSession (s_magic r) (s_joined r) (s_adr r) (s_version r) (s_region r) (s_up r) (s_appDown r) (s_nwkDown r) (s_devAddr r) (s_netID r) (s_chConfig r) (s_chMask r) (s_rate r) (s_power r) (s_maxDutyCycle r) (s_nbTrans r) (s_rx1DROffset r) v (s_rx2DataRate r) (s_rx2Freq r) (s_adr_ack_limit r) (s_adr_ack_delay r) (s_rxp_ans r) (s_dlc_ans r) (s_adr_ans r) (s_dev_ans r) (s_nch_ans r) (s_rjp_ans r) (s_joinNonce r) (s_devNonce r) (s_pending r) (s_tx_param r).
Definition set_s_rx2DataRate (v : Z) (r : session) : session :=
  mkSession (s_magic r) (s_joined r) (s_adr r) (s_version r) (s_region r) (s_up r) (s_appDown r) (s_nwkDown r) (s_devAddr r) (s_netID r) (s_chConfig r) (s_chMask r) (s_rate r) (s_power r) (s_maxDutyCycle r) (s_nbTrans r) (s_rx1DROffset r) (s_rx1Delay r) v (s_rx2Freq r) (s_adr_ack_limit r) (s_adr_ack_delay r) (s_rxp_ans r) (s_dlc_ans r) (s_adr_ans r) (s_dev_ans r) (s_nch_ans r) (s_rjp_ans r) (s_joinNonce r) (s_devNonce r) (s_pending r) (s_tx_param r).
Definition set_s_rx2Freq (v : Z) (r : session) : session :=
  mkSession (s_magic r) (s_joined r) (s_adr r) (s_version r) (s_region r) (s_up r) (s_appDown r) (s_nwkDown r) (s_devAddr r) (s_netID r) (s_chConfig r) (s_chMask r) (s_rate r) (s_power r) (s_maxDutyCycle r) (s_nbTrans r) (s_rx1DROffset r) (s_rx1Delay r) (s_rx2DataRate r) v (s_adr_ack_limit r) (s_adr_ack_delay r) (s_rxp_ans r) (s_dlc_ans r) (s_adr_ans r) (s_dev_ans r) (s_nch_ans r) (s_rjp_ans r) (s_joinNonce r) (s_devNonce r) (s_pending r) (s_tx_param r).
Definition set_s_adr_ack_limit (v : Z) (r : session) : session :=
  mkSession (s_magic r) (s_joined r) (s_adr r) (s_version r) (s_region r) (s_up r) (s_appDown r) (s_nwkDown r) (s_devAddr r) (s_netID r) (s_chConfig r) (s_chMask r) (s_rate r) (s_power r) (s_maxDutyCycle r) (s_nbTrans r) (s_rx1DROffset r) (s_rx1Delay r) (s_rx2DataRate r) (s_rx2Freq r) v (s_adr_ack_delay r) (s_rxp_ans r) (s_dlc_ans r) (s_adr_ans r) (s_dev_ans r) (s_nch_ans r) (s_rjp_ans r) (s_joinNonce r) (s_devNonce r) (s_pending r) (s_tx_param r).
Definition set_s_adr_ack_delay (v : Z) (r : session) : session :=
  mkSession (s_magic r) (s_joined r) (s_adr r) (s_version r) (s_region r) (s_up r) (s_appDown r) (s_nwkDown r) (s_devAddr r) (s_netID r) (s_chConfig r) (s_chMask r) (s_rate r) (s_power r) (s_maxDutyCycle r) (s_nbTrans r) (s_rx1DROffset r) (s_rx1Delay r) (s_rx2DataRate r) (s_rx2Freq r) (s_adr_ack_limit r) v (s_rxp_ans r) (s_dlc_ans r) (s_adr_ans r) (s_dev_ans r) (s_nch_ans r) (s_rjp_ans r) (s_joinNonce r) (s_devNonce r) (s_pending r) (s_tx_param r).
Definition set_s_rxp_ans (v : rx_param_ans) (r : session) : session :=
  mkSession (s_magic r) (s_joined r) (s_adr r) (s_version r) (s_region r) (s_up r) (s_appDown r) (s_nwkDown r) (s_devAddr r) (s_netID r) (s_chConfig r) (s_chMask r) (s_rate r) (s_power r) (s_maxDutyCycle r) (s_nbTrans r) (s_rx1DROffset r) (s_rx1Delay r) (s_rx2DataRate r) (s_rx2Freq r) (s_adr_ack_limit r) (s_adr_ack_delay r) v (s_dlc_ans r) (s_adr_ans r) (s_dev_ans r) (s_nch_ans r) (s_rjp_ans r) (s_joinNonce r) (s_devNonce r) (s_pending r) (s_tx_param r).
Definition set_s_dlc_ans (v : dl_channel_ans) (r : session) : session :=
  mkSession (s_magic r) (s_joined r) (s_adr r) (s_version r) (s_region r) (s_up r) (s_appDown r) (s_nwkDown r) (s_devAddr r) (s_netID r) (s_chConfig r) (s_chMask r) (s_rate r) (s_power r) (s_maxDutyCycle r) (s_nbTrans r) (s_rx1DROffset r) (s_rx1Delay r) (s_rx2DataRate r) (s_rx2Freq r) (s_adr_ack_limit r) (s_adr_ack_delay r) (s_rxp_ans r) v (s_adr_ans r) (s_dev_ans r) (s_nch_ans r) (s_rjp_ans r) (s_joinNonce r) (s_devNonce r) (s_pending r) (s_tx_param r).
Definition set_s_adr_ans (v : link_adr_ans) (r : session) : session :=
  mkSession (s_magic r) (s_joined r) (s_adr r) (s_version r) (s_region r) (s_up r) (s_appDown r) (s_nwkDown r) (s_devAddr r) (s_netID r) (s_chConfig r) (s_chMask r) (s_rate r) (s_power r) (s_maxDutyCycle r) (s_nbTrans r) (s_rx1DROffset r) (s_rx1Delay r) (s_rx2DataRate r) (s_rx2Freq r) (s_adr_ack_limit r) (s_adr_ack_delay r) (s_rxp_ans r) (s_dlc_ans r) v (s_dev_ans r) (s_nch_ans r) (s_rjp_ans r) (s_joinNonce r) (s_devNonce r) (s_pending r) (s_tx_param r).
Definition set_s_dev_ans (v : dev_status_ans) (r : session) : session :=
  mkSession (s_magic r) (s_joined r) (s_adr r) (s_version r) (s_region r) (s_up r) (s_appDown r) (s_nwkDown r) (s_devAddr r) (s_netID r) (s_chConfig r) (s_chMask r) (s_rate r) (s_power r) (s_maxDutyCycle r) (s_nbTrans r) (s_rx1DROffset r) (s_rx1Delay r) (s_rx2DataRate r) (s_rx2Freq r) (s_adr_ack_limit r) (s_adr_ack_delay r) (s_rxp_ans r) (s_dlc_ans r) (s_adr_ans r) v (s_nch_ans r) (s_rjp_ans r) (s_joinNonce r) (s_devNonce r) (s_pending r) (s_tx_param r).
Definition set_s_nch_ans (v : new_channel_ans) (r : session) : session :=
  mkSession (s_magic r) (s_joined r) (s_adr r) (s_version r) (s_region r) (s_up r) (s_appDown r) (s_nwkDown r) (s_devAddr r) (s_netID r) (s_chConfig r) (s_chMask r) (s_rate r) (s_power r) (s_maxDutyCycle r) (s_nbTrans r) (s_rx1DROffset r) (s_rx1Delay r) (s_rx2DataRate r) (s_rx2Freq r) (s_adr_ack_limit r) (s_adr_ack_delay r) (s_rxp_ans r) (s_dlc_ans r) (s_adr_ans r) (s_dev_ans r) v (s_rjp_ans r) (s_joinNonce r) (s_devNonce r) (s_pending r) (s_tx_param r).
Definition set_s_rjp_ans (v : bool) (r : session) : session :=
  mkSession (s_magic r) (s_joined r) (s_adr r) (s_version r) (s_region r) (s_up r) (s_appDown r) (s_nwkDown r) (s_devAddr r) (s_netID r) (s_chConfig r) (s_chMask r) (s_rate r) (s_power r) (s_maxDutyCycle r) (s_nbTrans r) (s_rx1DROffset r) (s_rx1Delay r) (s_rx2DataRate r) (s_rx2Freq r) (s_adr_ack_limit r) (s_adr_ack_delay r) (s_rxp_ans r) (s_dlc_ans r) (s_adr_ans r) (s_dev_ans r) (s_nch_ans r) v (s_joinNonce r) (s_devNonce r) (s_pending r) (s_tx_param r).
Definition set_s_joinNonce (v : Z) (r : session) : session :=
  mkSession (s_magic r) (s_joined r) (s_adr r) (s_version r) (s_region r) (s_up r) (s_appDown r) (s_nwkDown r) (s_devAddr r) (s_netID r) (s_chConfig r) (s_chMask r) (s_rate r) (s_power r) (s_maxDutyCycle r) (s_nbTrans r) (s_rx1DROffset r) (s_rx1Delay r) (s_rx2DataRate r) (s_rx2Freq r) (s_adr_ack_limit r) (s_adr_ack_delay r) (s_rxp_ans r) (s_dlc_ans r) (s_adr_ans r) (s_dev_ans r) (s_nch_ans r) (s_rjp_ans r) v (s_devNonce r) (s_pending r) (s_tx_param r).
Definition set_s_devNonce (v : Z) (r : session) : session :=
  mkSession (s_magic r) (s_joined r) (s_adr r) (s_version r) (s_region r) (s_up r) (s_appDown r) (s_nwkDown r) (s_devAddr r) (s_netID r) (s_chConfig r) (s_chMask r) (s_rate r) (s_power r) (s_maxDutyCycle r) (s_nbTrans r) (s_rx1DROffset r) (s_rx1Delay r) (s_rx2DataRate r) (s_rx2Freq r) (s_adr_ack_limit r) (s_adr_ack_delay r) (s_rxp_ans r) (s_dlc_ans r) (s_adr_ans r) (s_dev_ans r) (s_nch_ans r) (s_rjp_ans r) (s_joinNonce r) v (s_pending r) (s_tx_param r).
Definition set_s_pending (v : Z) (r : session) : session :=
  mkSession (s_magic r) (s_joined r) (s_adr r) (s_version r) (s_region r) (s_up r) (s_appDown r) (s_nwkDown r) (s_devAddr r) (s_netID r) (s_chConfig r) (s_chMask r) (s_rate r) (s_power r) (s_maxDutyCycle r) (s_nbTrans r) (s_rx1DROffset r) (s_rx1Delay r) (s_rx2DataRate r) (s_rx2Freq r) (s_adr_ack_limit r) (s_adr_ack_delay r) (s_rxp_ans r) (s_dlc_ans r) (s_adr_ans r) (s_dev_ans r) (s_nch_ans r) (s_rjp_ans r) (s_joinNonce r) (s_devNonce r) v (s_tx_param r).
Definition set_s_tx_param (v : Z) (r : session) : session :=
  mkSession (s_magic r) (s_joined r) (s_adr r) (s_version r) (s_region r) (s_up r) (s_appDown r) (s_nwkDown r) (s_devAddr r) (s_netID r) (s_chConfig r) (s_chMask r) (s_rate r) (s_power r) (s_maxDutyCycle r) (s_nbTrans r) (s_rx1DROffset r) (s_rx1Delay r) (s_rx2DataRate r) (s_rx2Freq r) (s_adr_ack_limit r) (s_adr_ack_delay r) (s_rxp_ans r) (s_dlc_ans r) (s_adr_ans r) (s_dev_ans r) (s_nch_ans r) (s_rjp_ans r) (s_joinNonce r) (s_devNonce r) (s_pending r) v.
Definition set_m_state (v : mac_state) (r : mac) : mac :=
  mkMac v (m_op r) (m_pendingACK r) (m_joinEUI r) (m_devEUI r) (m_buffer r) (m_bufferLen r) (m_band r) (m_day r) (m_devNonce r) (m_joinNonce r) (m_rx_snr r) (m_tx r) (m_rx1_symbols r) (m_rx2_symbols r) (m_ctx r) (m_sm r) (m_inputs r) (m_timers r) (m_adrAckCounter r) (m_adrAckReq r) (m_time r) (m_ticks_at_tx r) (m_trials r) (m_opts r) (m_fPending r) (m_tps r) (m_a r) (m_b r) (m_advance r) (m_maxDutyCycle r) (m_otaaDither r) (m_log r).
Definition set_m_op (v : mac_op) (r : mac) : mac :=
  mkMac (m_state r) v (m_pendingACK r) (m_joinEUI r) (m_devEUI r) (m_buffer r) (m_bufferLen r) (m_band r) (m_day r) (m_devNonce r) (m_joinNonce r) (m_rx_snr r) (m_tx r) (m_rx1_symbols r) (m_rx2_symbols r) (m_ctx r) (m_sm r) (m_inputs r) (m_timers r) (m_adrAckCounter r) (m_adrAckReq r) (m_time r) (m_ticks_at_tx r) (m_trials r) (m_opts r) (m_fPending r) (m_tps r) (m_a r) (m_b r) (m_advance r) (m_maxDutyCycle r) (m_otaaDither r) (m_log r).
Definition set_m_pendingACK (v : bool) (r : mac) : mac :=
  mkMac (m_state r) (m_op r) v (m_joinEUI r) (m_devEUI r) (m_buffer r) (m_bufferLen r) (m_band r) (m_day r) (m_devNonce r) (m_joinNonce r) (m_rx_snr r) (m_tx r) (m_rx1_symbols r) (m_rx2_symbols r) (m_ctx r) (m_sm r) (m_inputs r) (m_timers r) (m_adrAckCounter r) (m_adrAckReq r) (m_time r) (m_ticks_at_tx r) (m_trials r) (m_opts r) (m_fPending r) (m_tps r) (m_a r) (m_b r) (m_advance r) (m_maxDutyCycle r) (m_otaaDither r) (m_log r).
Definition set_m_joinEUI (v : bytes) (r : mac) : mac :=
  mkMac (m_state r) (m_op r) (m_pendingACK r) v (m_devEUI r) (m_buffer r) (m_bufferLen r) (m_band r) (m_day r) (m_devNonce r) (m_joinNonce r) (m_rx_snr r) (m_tx r) (m_rx1_symbols r) (m_rx2_symbols r) (m_ctx r) (m_sm r) (m_inputs r) (m_timers r) (m_adrAckCounter r) (m_adrAckReq r) (m_time r) (m_ticks_at_tx r) (m_trials r) (m_opts r) (m_fPending r) (m_tps r) (m_a r) (m_b r) (m_advance r) (m_maxDutyCycle r) (m_otaaDither r) (m_log r).
Definition set_m_devEUI (v : bytes) (r : mac) : mac :=
  mkMac (m_state r) (m_op r) (m_pendingACK r) (m_joinEUI r) v (m_buffer r) (m_bufferLen r) (m_band r) (m_day r) (m_devNonce r) (m_joinNonce r) (m_rx_snr r) (m_tx r) (m_rx1_symbols r) (m_rx2_symbols r) (m_ctx r) (m_sm r) (m_inputs r) (m_timers r) (m_adrAckCounter r) (m_adrAckReq r) (m_time r) (m_ticks_at_tx r) (m_trials r) (m_opts r) (m_fPending r) (m_tps r) (m_a r) (m_b r) (m_advance r) (m_maxDutyCycle r) (m_otaaDither r) (m_log r).
Definition set_m_buffer (v : bytes) (r : mac) : mac :=
  mkMac (m_state r) (m_op r) (m_pendingACK r) (m_joinEUI r) (m_devEUI r) v (m_bufferLen r) (m_band r) (m_day r) (m_devNonce r) (m_joinNonce r) (m_rx_snr r) (m_tx r) (m_rx1_symbols r) (m_rx2_symbols r) (m_ctx r) (m_sm r) (m_inputs r) (m_timers r) (m_adrAckCounter r) (m_adrAckReq r) (m_time r) (m_ticks_at_tx r) (m_trials r) (m_opts r) (m_fPending r) (m_tps r) (m_a r) (m_b r) (m_advance r) (m_maxDutyCycle r) (m_otaaDither r) (m_log r).
Definition set_m_bufferLen (v : Z) (r : mac) : mac :=
  mkMac (m_state r) (m_op r) (m_pendingACK r) (m_joinEUI r) (m_devEUI r) (m_buffer r) v (m_band r) (m_day r) (m_devNonce r) (m_joinNonce r) (m_rx_snr r) (m_tx r) (m_rx1_symbols r) (m_rx2_symbols r) (m_ctx r) (m_sm r) (m_inputs r) (m_timers r) (m_adrAckCounter r) (m_adrAckReq r) (m_time r) (m_ticks_at_tx r) (m_trials r) (m_opts r) (m_fPending r) (m_tps r) (m_a r) (m_b r) (m_advance r) (m_maxDutyCycle r) (m_otaaDither r) (m_log r).
Definition set_m_band (v : list Z) (r : mac) : mac :=
  mkMac (m_state r) (m_op r) (m_pendingACK r) (m_joinEUI r) (m_devEUI r) (m_buffer r) (m_bufferLen r) v (m_day r) (m_devNonce r) (m_joinNonce r) (m_rx_snr r) (m_tx r) (m_rx1_symbols r) (m_rx2_symbols r) (m_ctx r) (m_sm r) (m_inputs r) (m_timers r) (m_adrAckCounter r) (m_adrAckReq r) (m_time r) (m_ticks_at_tx r) (m_trials r) (m_opts r) (m_fPending r) (m_tps r) (m_a r) (m_b r) (m_advance r) (m_maxDutyCycle r) (m_otaaDither r) (m_log r).
Definition set_m_day (v : Z) (r : mac) : mac :=
  mkMac (m_state r) (m_op r) (m_pendingACK r) (m_joinEUI r) (m_devEUI r) (m_buffer r) (m_bufferLen r) (m_band r) v (m_devNonce r) (m_joinNonce r) (m_rx_snr r) (m_tx r) (m_rx1_symbols r) (m_rx2_symbols r) (m_ctx r) (m_sm r) (m_inputs r) (m_timers r) (m_adrAckCounter r) (m_adrAckReq r) (m_time r) (m_ticks_at_tx r) (m_trials r) (m_opts r) (m_fPending r) (m_tps r) (m_a r) (m_b r) (m_advance r) (m_maxDutyCycle r) (m_otaaDither r) (m_log r).
Definition set_m_devNonce (v : Z) (r : mac) : mac :=
  mkMac (m_state r) (m_op r) (m_pendingACK r) (m_joinEUI r) (m_devEUI r) (m_buffer r) (m_bufferLen r) (m_band r) (m_day r) v (m_joinNonce r) (m_rx_snr r) (m_tx r) (m_rx1_symbols r) (m_rx2_symbols r) (m_ctx r) (m_sm r) (m_inputs r) (m_timers r) (m_adrAckCounter r) (m_adrAckReq r) (m_time r) (m_ticks_at_tx r) (m_trials r) (m_opts r) (m_fPending r) (m_tps r) (m_a r) (m_b r) (m_advance r) (m_maxDutyCycle r) (m_otaaDither r) (m_log r).
Definition set_m_joinNonce (v : Z) (r : mac) : mac :=
  mkMac (m_state r) (m_op r) (m_pendingACK r) (m_joinEUI r) (m_devEUI r) (m_buffer r) (m_bufferLen r) (m_band r) (m_day r) (m_devNonce r) v (m_rx_snr r) (m_tx r) (m_rx1_symbols r) (m_rx2_symbols r) (m_ctx r) (m_sm r) (m_inputs r) (m_timers r) (m_adrAckCounter r) (m_adrAckReq r) (m_time r) (m_ticks_at_tx r) (m_trials r) (m_opts r) (m_fPending r) (m_tps r) (m_a r) (m_b r) (m_advance r) (m_maxDutyCycle r) (m_otaaDither r) (m_log r).
Definition set_m_rx_snr (v : Z) (r : mac) : mac :=
  mkMac (m_state r) (m_op r) (m_pendingACK r) (m_joinEUI r) (m_devEUI r) (m_buffer r) (m_bufferLen r) (m_band r) (m_day r) (m_devNonce r) (m_joinNonce r) v (m_tx r) (m_rx1_symbols r) (m_rx2_symbols r) (m_ctx r) (m_sm r) (m_inputs r) (m_timers r) (m_adrAckCounter r) (m_adrAckReq r) (m_time r) (m_ticks_at_tx r) (m_trials r) (m_opts r) (m_fPending r) (m_tps r) (m_a r) (m_b r) (m_advance r) (m_maxDutyCycle r) (m_otaaDither r) (m_log r).
Definition set_m_tx (v : mac_tx) (r : mac) : mac :=
  mkMac (m_state r) (m_op r) (m_pendingACK r) (m_joinEUI r) (m_devEUI r) (m_buffer r) (m_bufferLen r) (m_band r) (m_day r) (m_devNonce r) (m_joinNonce r) (m_rx_snr r) v (m_rx1_symbols r) (m_rx2_symbols r) (m_ctx r) (m_sm r) (m_inputs r) (m_timers r) (m_adrAckCounter r) (m_adrAckReq r) (m_time r) (m_ticks_at_tx r) (m_trials r) (m_opts r) (m_fPending r) (m_tps r) (m_a r) (m_b r) (m_advance r) (m_maxDutyCycle r) (m_otaaDither r) (m_log r).
Definition set_m_rx1_symbols (v : Z) (r : mac) : mac :=
  mkMac (m_state r) (m_op r) (m_pendingACK r) (m_joinEUI r) (m_devEUI r) (m_buffer r) (m_bufferLen r) (m_band r) (m_day r) (m_devNonce r) (m_joinNonce r) (m_rx_snr r) (m_tx r) v (m_rx2_symbols r) (m_ctx r) (m_sm r) (m_inputs r) (m_timers r) (m_adrAckCounter r) (m_adrAckReq r) (m_time r) (m_ticks_at_tx r) (m_trials r) (m_opts r) (m_fPending r) (m_tps r) (m_a r) (m_b r) (m_advance r) (m_maxDutyCycle r) (m_otaaDither r) (m_log r).
Definition set_m_rx2_symbols (v : Z) (r : mac) : mac :=
  mkMac (m_state r) (m_op r) (m_pendingACK r) (m_joinEUI r) (m_devEUI r) (m_buffer r) (m_bufferLen r) (m_band r) (m_day r) (m_devNonce r) (m_joinNonce r) (m_rx_snr r) (m_tx r) (m_rx1_symbols r) v (m_ctx r) (m_sm r) (m_inputs r) (m_timers r) (m_adrAckCounter r) (m_adrAckReq r) (m_time r) (m_ticks_at_tx r) (m_trials r) (m_opts r) (m_fPending r) (m_tps r) (m_a r) (m_b r) (m_advance r) (m_maxDutyCycle r) (m_otaaDither r) (m_log r).
Definition set_m_ctx (v : session) (r : mac) : mac :=
  mkMac (m_state r) (m_op r) (m_pendingACK r) (m_joinEUI r) (m_devEUI r) (m_buffer r) (m_bufferLen r) (m_band r) (m_day r) (m_devNonce r) (m_joinNonce r) (m_rx_snr r) (m_tx r) (m_rx1_symbols r) (m_rx2_symbols r) v (m_sm r) (m_inputs r) (m_timers r) (m_adrAckCounter r) (m_adrAckReq r) (m_time r) (m_ticks_at_tx r) (m_trials r) (m_opts r) (m_fPending r) (m_tps r) (m_a r) (m_b r) (m_advance r) (m_maxDutyCycle r) (m_otaaDither r) (m_log r).
Definition set_m_sm (v : smlog) (r : mac) : mac :=
  mkMac (m_state r) (m_op r) (m_pendingACK r) (m_joinEUI r) (m_devEUI r) (m_buffer r) (m_bufferLen r) (m_band r) (m_day r) (m_devNonce r) (m_joinNonce r) (m_rx_snr r) (m_tx r) (m_rx1_symbols r) (m_rx2_symbols r) (m_ctx r) v (m_inputs r) (m_timers r) (m_adrAckCounter r) (m_adrAckReq r) (m_time r) (m_ticks_at_tx r) (m_trials r) (m_opts r) (m_fPending r) (m_tps r) (m_a r) (m_b r) (m_advance r) (m_maxDutyCycle r) (m_otaaDither r) (m_log r).
Definition set_m_inputs (v : input) (r : mac) : mac :=
  mkMac (m_state r) (m_op r) (m_pendingACK r) (m_joinEUI r) (m_devEUI r) (m_buffer r) (m_bufferLen r) (m_band r) (m_day r) (m_devNonce r) (m_joinNonce r) (m_rx_snr r) (m_tx r) (m_rx1_symbols r) (m_rx2_symbols r) (m_ctx r) (m_sm r) v (m_timers r) (m_adrAckCounter r) (m_adrAckReq r) (m_time r) (m_ticks_at_tx r) (m_trials r) (m_opts r) (m_fPending r) (m_tps r) (m_a r) (m_b r) (m_advance r) (m_maxDutyCycle r) (m_otaaDither r) (m_log r).
Definition set_m_timers (v : list timer) (r : mac) : mac :=
  mkMac (m_state r) (m_op r) (m_pendingACK r) (m_joinEUI r) (m_devEUI r) (m_buffer r) (m_bufferLen r) (m_band r) (m_day r) (m_devNonce r) (m_joinNonce r) (m_rx_snr r) (m_tx r) (m_rx1_symbols r) (m_rx2_symbols r) (m_ctx r) (m_sm r) (m_inputs r) v (m_adrAckCounter r) (m_adrAckReq r) (m_time r) (m_ticks_at_tx r) (m_trials r) (m_opts r) (m_fPending r) (m_tps r) (m_a r) (m_b r) (m_advance r) (m_maxDutyCycle r) (m_otaaDither r) (m_log r).
Definition set_m_adrAckCounter (v : Z) (r : mac) : mac :=
  mkMac (m_state r) (m_op r) (m_pendingACK r) (m_joinEUI r) (m_devEUI r) (m_buffer r) (m_bufferLen r) (m_band r) (m_day r) (m_devNonce r) (m_joinNonce r) (m_rx_snr r) (m_tx r) (m_rx1_symbols r) (m_rx2_symbols r) (m_ctx r) (m_sm r) (m_inputs r) (m_timers r) v (m_adrAckReq r) (m_time r) (m_ticks_at_tx r) (m_trials r) (m_opts r) (m_fPending r) (m_tps r) (m_a r) (m_b r) (m_advance r) (m_maxDutyCycle r) (m_otaaDither r) (m_log r).
Definition set_m_adrAckReq (v : bool) (r : mac) : mac :=
  mkMac (m_state r) (m_op r) (m_pendingACK r) (m_joinEUI r) (m_devEUI r) (m_buffer r) (m_bufferLen r) (m_band r) (m_day r) (m_devNonce r) (m_joinNonce r) (m_rx_snr r) (m_tx r) (m_rx1_symbols r) (m_rx2_symbols r) (m_ctx r) (m_sm r) (m_inputs r) (m_timers r) (m_adrAckCounter r) v (m_time r) (m_ticks_at_tx r) (m_trials r) (m_opts r) (m_fPending r) (m_tps r) (m_a r) (m_b r) (m_advance r) (m_maxDutyCycle r) (m_otaaDither r) (m_log r).
Definition set_m_time (v : mac_time) (r : mac) : mac :=
  mkMac (m_state r) (m_op r) (m_pendingACK r) (m_joinEUI r) (m_devEUI r) (m_buffer r) (m_bufferLen r) (m_band r) (m_day r) (m_devNonce r) (m_joinNonce r) (m_rx_snr r) (m_tx r) (m_rx1_symbols r) (m_rx2_symbols r) (m_ctx r) (m_sm r) (m_inputs r) (m_timers r) (m_adrAckCounter r) (m_adrAckReq r) v (m_ticks_at_tx r) (m_trials r) (m_opts r) (m_fPending r) (m_tps r) (m_a r) (m_b r) (m_advance r) (m_maxDutyCycle r) (m_otaaDither r) (m_log r).
Definition set_m_ticks_at_tx (v : Z) (r : mac) : mac :=
  mkMac (m_state r) (m_op r) (m_pendingACK r) (m_joinEUI r) (m_devEUI r) (m_buffer r) (m_bufferLen r) (m_band r) (m_day r) (m_devNonce r) (m_joinNonce r) (m_rx_snr r) (m_tx r) (m_rx1_symbols r) (m_rx2_symbols r) (m_ctx r) (m_sm r) (m_inputs r) (m_timers r) (m_adrAckCounter r) (m_adrAckReq r) (m_time r) v (m_trials r) (m_opts r) (m_fPending r) (m_tps r) (m_a r) (m_b r) (m_advance r) (m_maxDutyCycle r) (m_otaaDither r) (m_log r).
Definition set_m_trials (v : Z) (r : mac) : mac :=
  mkMac (m_state r) (m_op r) (m_pendingACK r) (m_joinEUI r) (m_devEUI r) (m_buffer r) (m_bufferLen r) (m_band r) (m_day r) (m_devNonce r) (m_joinNonce r) (m_rx_snr r) (m_tx r) (m_rx1_symbols r) (m_rx2_symbols r) (m_ctx r) (m_sm r) (m_inputs r) (m_timers r) (m_adrAckCounter r) (m_adrAckReq r) (m_time r) (m_ticks_at_tx r) v (m_opts r) (m_fPending r) (m_tps r) (m_a r) (m_b r) (m_advance r) (m_maxDutyCycle r) (m_otaaDither r) (m_log r).
Definition set_m_opts (v : data_opts) (r : mac) : mac :=
  mkMac (m_state r) (m_op r) (m_pendingACK r) (m_joinEUI r) (m_devEUI r) (m_buffer r) (m_bufferLen r) (m_band r) (m_day r) (m_devNonce r) (m_joinNonce r) (m_rx_snr r) (m_tx r) (m_rx1_symbols r) (m_rx2_symbols r) (m_ctx r) (m_sm r) (m_inputs r) (m_timers r) (m_adrAckCounter r) (m_adrAckReq r) (m_time r) (m_ticks_at_tx r) (m_trials r) v (m_fPending r) (m_tps r) (m_a r) (m_b r) (m_advance r) (m_maxDutyCycle r) (m_otaaDither r) (m_log r).
Definition set_m_fPending (v : bool) (r : mac) : mac :=
  mkMac (m_state r) (m_op r) (m_pendingACK r) (m_joinEUI r) (m_devEUI r) (m_buffer r) (m_bufferLen r) (m_band r) (m_day r) (m_devNonce r) (m_joinNonce r) (m_rx_snr r) (m_tx r) (m_rx1_symbols r) (m_rx2_symbols r) (m_ctx r) (m_sm r) (m_inputs r) (m_timers r) (m_adrAckCounter r) (m_adrAckReq r) (m_time r) (m_ticks_at_tx r) (m_trials r) (m_opts r) v (m_tps r) (m_a r) (m_b r) (m_advance r) (m_maxDutyCycle r) (m_otaaDither r) (m_log r).
Definition set_m_tps (v : Z) (r : mac) : mac :=
  mkMac (m_state r) (m_op r) (m_pendingACK r) (m_joinEUI r) (m_devEUI r) (m_buffer r) (m_bufferLen r) (m_band r) (m_day r) (m_devNonce r) (m_joinNonce r) (m_rx_snr r) (m_tx r) (m_rx1_symbols r) (m_rx2_symbols r) (m_ctx r) (m_sm r) (m_inputs r) (m_timers r) (m_adrAckCounter r) (m_adrAckReq r) (m_time r) (m_ticks_at_tx r) (m_trials r) (m_opts r) (m_fPending r) v (m_a r) (m_b r) (m_advance r) (m_maxDutyCycle r) (m_otaaDither r) (m_log r).
Definition set_m_a (v : Z) (r : mac) : mac :=
  mkMac (m_state r) (m_op r) (m_pendingACK r) (m_joinEUI r) (m_devEUI r) (m_buffer r) (m_bufferLen r) (m_band r) (m_day r) (m_devNonce r) (m_joinNonce r) (m_rx_snr r) (m_tx r) (m_rx1_symbols r) (m_rx2_symbols r) (m_ctx r) (m_sm r) (m_inputs r) (m_timers r) (m_adrAckCounter r) (m_adrAckReq r) (m_time r) (m_ticks_at_tx r) (m_trials r) (m_opts r) (m_fPending r) (m_tps r) v (m_b r) (m_advance r) (m_maxDutyCycle r) (m_otaaDither r) (m_log r).
Definition set_m_b (v : Z) (r : mac) : mac :=
  mkMac (m_state r) (m_op r) (m_pendingACK r) (m_joinEUI r) (m_devEUI r) (m_buffer r) (m_bufferLen r) (m_band r) (m_day r) (m_devNonce r) (m_joinNonce r) (m_rx_snr r) (m_tx r) (m_rx1_symbols r) (m_rx2_symbols r) (m_ctx r) (m_sm r) (m_inputs r) (m_timers r) (m_adrAckCounter r) (m_adrAckReq r) (m_time r) (m_ticks_at_tx r) (m_trials r) (m_opts r) (m_fPending r) (m_tps r) (m_a r) v (m_advance r) (m_maxDutyCycle r) (m_otaaDither r) (m_log r).
Definition set_m_advance (v : Z) (r : mac) : mac :=
  mkMac (m_state r) (m_op r) (m_pendingACK r) (m_joinEUI r) (m_devEUI r) (m_buffer r) (m_bufferLen r) (m_band r) (m_day r) (m_devNonce r) (m_joinNonce r) (m_rx_snr r) (m_tx r) (m_rx1_symbols r) (m_rx2_symbols r) (m_ctx r) (m_sm r) (m_inputs r) (m_timers r) (m_adrAckCounter r) (m_adrAckReq r) (m_time r) (m_ticks_at_tx r) (m_trials r) (m_opts r) (m_fPending r) (m_tps r) (m_a r) (m_b r) v (m_maxDutyCycle r) (m_otaaDither r) (m_log r).
Definition set_m_maxDutyCycle (v : Z) (r : mac) : mac :=
  mkMac (m_state r) (m_op r) (m_pendingACK r) (m_joinEUI r) (m_devEUI r) (m_buffer r) (m_bufferLen r) (m_band r) (m_day r) (m_devNonce r) (m_joinNonce r) (m_rx_snr r) (m_tx r) (m_rx1_symbols r) (m_rx2_symbols r) (m_ctx r) (m_sm r) (m_inputs r) (m_timers r) (m_adrAckCounter r) (m_adrAckReq r) (m_time r) (m_ticks_at_tx r) (m_trials r) (m_opts r) (m_fPending r) (m_tps r) (m_a r) (m_b r) (m_advance r) v (m_otaaDither r) (m_log r).
Definition set_m_otaaDither (v : Z) (r : mac) : mac :=
  mkMac (m_state r) (m_op r) (m_pendingACK r) (m_joinEUI r) (m_devEUI r) (m_buffer r) (m_bufferLen r) (m_band r) (m_day r) (m_devNonce r) (m_joinNonce r) (m_rx_snr r) (m_tx r) (m_rx1_symbols r) (m_rx2_symbols r) (m_ctx r) (m_sm r) (m_inputs r) (m_timers r) (m_adrAckCounter r) (m_adrAckReq r) (m_time r) (m_ticks_at_tx r) (m_trials r) (m_opts r) (m_fPending r) (m_tps r) (m_a r) (m_b r) (m_advance r) (m_maxDutyCycle r) v (m_log r).
Definition set_m_log (v : list out) (r : mac) : mac :=
  mkMac (m_state r) (m_op r) (m_pendingACK r) (m_joinEUI r) (m_devEUI r) (m_buffer r) (m_bufferLen r) (m_band r) (m_day r) (m_devNonce r) (m_joinNonce r) (m_rx_snr r) (m_tx r) (m_rx1_symbols r) (m_rx2_symbols r) (m_ctx r) (m_sm r) (m_inputs r) (m_timers r) (m_adrAckCounter r) (m_adrAckReq r) (m_time r) (m_ticks_at_tx r) (m_trials r) (m_opts r) (m_fPending r) (m_tps r) (m_a r) (m_b r) (m_advance r) (m_maxDutyCycle r) (m_otaaDither r) v.

(* what a step can observe of the outside world.  All clock reads during one
   call return [e_now]; [e_rand i] is the random number returned at call site
   i of the step, each site calling the generator at most once per step. *)
Record env := mkEnv {
  e_now : Z;              (* self->ticks(), uint32_t *)
  e_rand : nat -> Z;      (* self->rand(), uint32_t *)
  e_battery : Z;          (* self->get_battery_level(), uint8_t *)
  e_st_tx : bool;         (* radio get_status *)
  e_st_rx : bool;
  e_st_timeout : bool;
  e_rx : bytes;           (* radio read_buffer: the received bytes *)
  e_rssi : Z;             (* int16_t *)
  e_snr : Z;              (* int16_t *)
  e_entropy : Z           (* radio read_entropy *)
}.

(* build options and the security module *)
Record cfg := mkCfg {
  c_l2 : l2ver;
  c_noSF12 : bool;             (* LDL_DISABLE_SF12 *)
  c_txps : bool;               (* LDL_DISABLE_TX_PARAM_SETUP not defined *)
  c_errata : bool;             (* LDL_ENABLE_ERRATA_A1 *)
  c_startup : Z;               (* LDL_STARTUP_DELAY, ms *)
  c_xtal : Z;                  (* radio get_xtal_delay, ms *)
  c_mic : smlog -> sm_key -> bytes -> bytes -> Z;
  c_ecb : smlog -> sm_key -> bytes -> bytes;
  c_ctr : smlog -> sm_key -> bytes -> bytes -> bytes
}.

(* update of one field of the session inside the MAC *)
Definition on_ctx (f : session -> session) (m : mac) : mac := set_m_ctx (f (m_ctx m)) m.
Definition on_tx (f : mac_tx -> mac_tx) (m : mac) : mac := set_m_tx (f (m_tx m)) m.

(* append to the output log *)
Definition emit (o : out) (m : mac) : mac := set_m_log (m_log m ++ [o]) m.
Definition notify (e : event) (m : mac) : mac := emit (OEvent e) m.

(* SESS_VERSION, ldl_internal.h:40-44 *)
Definition sess_version (c : cfg) (s : session) : Z :=
  if is_1_1 (c_l2 c) then s_version s else 0.
