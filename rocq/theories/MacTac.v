(* reduction of field accesses over updates; generated with MacStateM.v *)
From Verif Require Import Words MacStateM.

Ltac mred := cbn [tx_freq tx_counter tx_airTime tx_chIndex tx_rate tx_power set_tx_freq
  set_tx_counter set_tx_airTime set_tx_chIndex set_tx_rate set_tx_power
  s_magic s_joined s_adr s_version s_region s_up s_appDown s_nwkDown s_devAddr
  s_netID s_chConfig s_chMask s_rate s_power s_maxDutyCycle s_nbTrans
  s_rx1DROffset s_rx1Delay s_rx2DataRate s_rx2Freq s_adr_ack_limit
  s_adr_ack_delay s_rxp_ans s_dlc_ans s_adr_ans s_dev_ans s_nch_ans s_rjp_ans
  s_joinNonce s_devNonce s_pending s_tx_param set_s_magic set_s_joined
  set_s_adr set_s_version set_s_region set_s_up set_s_appDown set_s_nwkDown
  set_s_devAddr set_s_netID set_s_chConfig set_s_chMask set_s_rate set_s_power
  set_s_maxDutyCycle set_s_nbTrans set_s_rx1DROffset set_s_rx1Delay
  set_s_rx2DataRate set_s_rx2Freq set_s_adr_ack_limit set_s_adr_ack_delay
  set_s_rxp_ans set_s_dlc_ans set_s_adr_ans set_s_dev_ans set_s_nch_ans
  set_s_rjp_ans set_s_joinNonce set_s_devNonce set_s_pending set_s_tx_param
  m_state m_op m_pendingACK m_joinEUI m_devEUI m_buffer m_bufferLen m_band
  m_day m_devNonce m_joinNonce m_rx_snr m_tx m_rx1_symbols m_rx2_symbols m_ctx
  m_sm m_inputs m_timers m_adrAckCounter m_adrAckReq m_time m_ticks_at_tx
  m_trials m_opts m_fPending m_tps m_a m_b m_advance m_maxDutyCycle
  m_otaaDither m_log set_m_state set_m_op set_m_pendingACK set_m_joinEUI
  set_m_devEUI set_m_buffer set_m_bufferLen set_m_band set_m_day
  set_m_devNonce set_m_joinNonce set_m_rx_snr set_m_tx set_m_rx1_symbols
  set_m_rx2_symbols set_m_ctx set_m_sm set_m_inputs set_m_timers
  set_m_adrAckCounter set_m_adrAckReq set_m_time set_m_ticks_at_tx
  set_m_trials set_m_opts set_m_fPending set_m_tps set_m_a set_m_b
  set_m_advance set_m_maxDutyCycle set_m_otaaDither set_m_log
  on_ctx on_tx emit notify fst snd].
Ltac mred_in H := cbn [tx_freq tx_counter tx_airTime tx_chIndex tx_rate tx_power set_tx_freq
  set_tx_counter set_tx_airTime set_tx_chIndex set_tx_rate set_tx_power
  s_magic s_joined s_adr s_version s_region s_up s_appDown s_nwkDown s_devAddr
  s_netID s_chConfig s_chMask s_rate s_power s_maxDutyCycle s_nbTrans
  s_rx1DROffset s_rx1Delay s_rx2DataRate s_rx2Freq s_adr_ack_limit
  s_adr_ack_delay s_rxp_ans s_dlc_ans s_adr_ans s_dev_ans s_nch_ans s_rjp_ans
  s_joinNonce s_devNonce s_pending s_tx_param set_s_magic set_s_joined
  set_s_adr set_s_version set_s_region set_s_up set_s_appDown set_s_nwkDown
  set_s_devAddr set_s_netID set_s_chConfig set_s_chMask set_s_rate set_s_power
  set_s_maxDutyCycle set_s_nbTrans set_s_rx1DROffset set_s_rx1Delay
  set_s_rx2DataRate set_s_rx2Freq set_s_adr_ack_limit set_s_adr_ack_delay
  set_s_rxp_ans set_s_dlc_ans set_s_adr_ans set_s_dev_ans set_s_nch_ans
  set_s_rjp_ans set_s_joinNonce set_s_devNonce set_s_pending set_s_tx_param
  m_state m_op m_pendingACK m_joinEUI m_devEUI m_buffer m_bufferLen m_band
  m_day m_devNonce m_joinNonce m_rx_snr m_tx m_rx1_symbols m_rx2_symbols m_ctx
  m_sm m_inputs m_timers m_adrAckCounter m_adrAckReq m_time m_ticks_at_tx
  m_trials m_opts m_fPending m_tps m_a m_b m_advance m_maxDutyCycle
  m_otaaDither m_log set_m_state set_m_op set_m_pendingACK set_m_joinEUI
  set_m_devEUI set_m_buffer set_m_bufferLen set_m_band set_m_day
  set_m_devNonce set_m_joinNonce set_m_rx_snr set_m_tx set_m_rx1_symbols
  set_m_rx2_symbols set_m_ctx set_m_sm set_m_inputs set_m_timers
  set_m_adrAckCounter set_m_adrAckReq set_m_time set_m_ticks_at_tx
  set_m_trials set_m_opts set_m_fPending set_m_tps set_m_a set_m_b
  set_m_advance set_m_maxDutyCycle set_m_otaaDither set_m_log
  on_ctx on_tx emit notify fst snd] in H.
Ltac mred_all := cbn [tx_freq tx_counter tx_airTime tx_chIndex tx_rate tx_power set_tx_freq
  set_tx_counter set_tx_airTime set_tx_chIndex set_tx_rate set_tx_power
  s_magic s_joined s_adr s_version s_region s_up s_appDown s_nwkDown s_devAddr
  s_netID s_chConfig s_chMask s_rate s_power s_maxDutyCycle s_nbTrans
  s_rx1DROffset s_rx1Delay s_rx2DataRate s_rx2Freq s_adr_ack_limit
  s_adr_ack_delay s_rxp_ans s_dlc_ans s_adr_ans s_dev_ans s_nch_ans s_rjp_ans
  s_joinNonce s_devNonce s_pending s_tx_param set_s_magic set_s_joined
  set_s_adr set_s_version set_s_region set_s_up set_s_appDown set_s_nwkDown
  set_s_devAddr set_s_netID set_s_chConfig set_s_chMask set_s_rate set_s_power
  set_s_maxDutyCycle set_s_nbTrans set_s_rx1DROffset set_s_rx1Delay
  set_s_rx2DataRate set_s_rx2Freq set_s_adr_ack_limit set_s_adr_ack_delay
  set_s_rxp_ans set_s_dlc_ans set_s_adr_ans set_s_dev_ans set_s_nch_ans
  set_s_rjp_ans set_s_joinNonce set_s_devNonce set_s_pending set_s_tx_param
  m_state m_op m_pendingACK m_joinEUI m_devEUI m_buffer m_bufferLen m_band
  m_day m_devNonce m_joinNonce m_rx_snr m_tx m_rx1_symbols m_rx2_symbols m_ctx
  m_sm m_inputs m_timers m_adrAckCounter m_adrAckReq m_time m_ticks_at_tx
  m_trials m_opts m_fPending m_tps m_a m_b m_advance m_maxDutyCycle
  m_otaaDither m_log set_m_state set_m_op set_m_pendingACK set_m_joinEUI
  set_m_devEUI set_m_buffer set_m_bufferLen set_m_band set_m_day
  set_m_devNonce set_m_joinNonce set_m_rx_snr set_m_tx set_m_rx1_symbols
  set_m_rx2_symbols set_m_ctx set_m_sm set_m_inputs set_m_timers
  set_m_adrAckCounter set_m_adrAckReq set_m_time set_m_ticks_at_tx
  set_m_trials set_m_opts set_m_fPending set_m_tps set_m_a set_m_b
  set_m_advance set_m_maxDutyCycle set_m_otaaDither set_m_log
  on_ctx on_tx emit notify fst snd] in *.
