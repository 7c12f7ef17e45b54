{
 "claims": [
  {
   "property": "C01",
   "status": "partial",
   "theorems": [
    "C01_counters_increase_partial",
    "C01_one_counter_per_request",
    "C01_counter_wraps_refuted"
   ],
   "note": "Every history and any number of power cycles: counters of data frames handed to the radio never repeat for different frames and increase, one counter per accepted request, as long as the counter has not reached 4294967295. C01_counter_wraps_refuted: at that value the next request wraps to zero and is sent, so the full statement is false."
  },
  {
   "property": "C02",
   "status": "proved",
   "theorems": [
    "C02_crash_safe",
    "C02_saved_session_resumes"
   ],
   "note": "Over any number of power cycles from the last session handed over; the session handed over before a frame is sent already carries the next counter."
  },
  {
   "property": "C03",
   "status": "proved",
   "theorems": [
    "C03_nonces_increase",
    "C03_announced_first",
    "C03_exhausted"
   ],
   "note": "For builds other than 1.0.3, where devNonce is random; over power cycles from the last nonce announced."
  },
  {
   "property": "C04",
   "status": "proved",
   "theorems": [
    "C04_default_module",
    "C04_accepted_genuine",
    "C04_nonces_increase",
    "C04_accepted_once",
    "C04_accepted_once_restart",
    "C04_not_checked_in_1_0_3"
   ],
   "note": "Proved for every history and power cycle: an accept is taken only if it is genuine (opened with the network key, integrity code over its contents) and its joinNonce is at least the stored one; the stored and reported value is then one more; reported values increase strictly over all lives; the same bytes are not accepted again in the same or a later life. The assumptions on the security module (octets, fixed_root) are proved of the default module. A theorem shows that 1.0.3 takes the accept again, as that version allows."
  },
  {
   "property": "C05",
   "status": "partial",
   "theorems": [
    "C05_replay_refuted",
    "C05_delivered_once_partial"
   ],
   "note": "False of the code: C05_replay_refuted is a history in which the same frame is delivered twice in one session. What holds is that each accepted data request delivers at most one frame. C48 states exactly what the stored downlink counter does."
  },
  {
   "property": "C06",
   "status": "proved",
   "theorems": [
    "C06_ignored",
    "C06_nothing_changes"
   ],
   "note": "Proved for every history and every byte string: two frames that are not genuine have the same effect, and a step in which one arrives delivers nothing to the application and leaves keys and joinNonce alone. The session may change only as it does when no frame arrives (ADR back-off, or a new devNonce while joining), since a bad frame also closes the window."
  },
  {
   "property": "C07",
   "status": "partial",
   "theorems": [
    "C07_keystream_reused_refuted",
    "C07_keystreams_disjoint_partial",
    "C07_keystream_repeats_partial"
   ],
   "note": "Two application payloads of one session with fewer than 65535 requests accepted between them use disjoint counter blocks, for every history. The full statement is false: the blocks are made from the low 16 bits of the counter, so payloads 65536 apart are encrypted alike (C07_keystream_repeats_partial in general, C07_keystream_reused_refuted with AES). The theorems are about application payloads; MAC commands sent as payload use another key."
  },
  {
   "property": "C08",
   "status": "partial",
   "theorems": [
    "C08_mic_is_cmac_partial",
    "C08_mic_is_cmac_refuted",
    "C08_last_block_not_covered"
   ],
   "note": "Exact for every key, header and body except a total of exactly 256 bytes, where the 8-bit length of the CMAC context wraps to 0 (C08_mic_is_cmac_refuted). That is a 244 byte frame; its last 16 bytes are then not authenticated (C08_last_block_not_covered)."
  },
  {
   "property": "C09",
   "status": "proved",
   "theorems": [
    "C09_cmac_of_pieces"
   ],
   "note": "Any sequence of pieces of up to 255 bytes in all gives the RFC 4493 value of their concatenation, for any block cipher."
  },
  {
   "property": "C10",
   "status": "proved",
   "theorems": [
    "C10_aes_is_fips_197"
   ],
   "note": "Key schedule, rounds and S-box equal an independent FIPS-197 definition (S-box by field inversion) for every key and block."
  },
  {
   "property": "C11",
   "status": "proved",
   "theorems": [
    "C11_ctr_keystream",
    "C11_ctr_involution"
   ],
   "note": "Key stream position by position, involution and length for up to 255 bytes."
  },
  {
   "property": "C12",
   "status": "proved",
   "theorems": [
    "C12_data_frame_layout",
    "C12_data_frame_offsets",
    "C12_mic_place"
   ],
   "note": "Exact bytes, offsets and failure condition of the data frame serialiser for every request and buffer size."
  },
  {
   "property": "C13",
   "status": "partial",
   "theorems": [
    "C13_decoder_in_bounds",
    "C13_decoder_exact_data_partial",
    "C13_decoder_exact_join",
    "C13_region_inside_refuted",
    "C13_decoder_overlong_options"
   ],
   "note": "Bounds are proved for every input, and exactness for join accepts and for data frames whose FOpts end before the MIC. The claim fails for frames whose FOptsLen reaches past the end of the frame: they are accepted and the options region is reported outside the frame (C13_region_inside_refuted); C13_decoder_overlong_options says exactly which frames."
  },
  {
   "property": "C14",
   "status": "proved",
   "theorems": [
    "C14_downlink_round_trip",
    "C14_join_accept_round_trip",
    "C14_uplink_unambiguous"
   ],
   "note": "Every well formed downlink and join accept decodes to its fields; the uplink serialisation is injective."
  },
  {
   "property": "C15",
   "status": "proved",
   "theorems": [
    "C15_join_request_format",
    "C15_rejoin_request_format",
    "C15_join_accept_lengths",
    "C15_join_accept_mhdr"
   ],
   "note": "Exact join and rejoin request bytes; join accepts are accepted exactly at 17 and 33 bytes."
  },
  {
   "property": "C16",
   "status": "partial",
   "theorems": [
    "C16_command_parsing_1_0",
    "C16_command_parsing_as_read",
    "C16_only_force_rejoin_differs",
    "C16_force_rejoin_fields_refuted"
   ],
   "note": "Termination, bounds, identifiers, truncation and fields are proved for every byte string; the full claim holds for 1.0.x builds. In 1.1 builds it fails for ForceRejoinReq alone: Period and Max_Retries are read one bit too low (C16_force_rejoin_fields_refuted); the command is otherwise ignored by the MAC."
  },
  {
   "property": "C17",
   "status": "proved",
   "theorems": [
    "C17_answers_fit",
    "C17_fopts_at_most_15"
   ],
   "note": "The staged commands are exactly the LoRaWAN answers, at most 21 (1.1) or 16 (1.0.x) bytes of the 30 available, and FOpts never holds more than 15 bytes."
  },
  {
   "property": "C18",
   "status": "partial",
   "theorems": [
    "C18_data_channel_partial",
    "C18_nochannel_exact",
    "C18_join_channel_partial",
    "C18_repeat_not_clear_refuted",
    "C18_masked_join_refuted",
    "C18_join_not_clear_refuted"
   ],
   "note": "True of every data frame at the time its request is accepted (C18_data_channel_partial), and NOCHANNEL is returned exactly when no channel is open or the global off-time runs (C18_nochannel_exact). A join request of EU 863-870 or EU 433 is given a channel that is open soonest (C18_join_channel_partial). False for repetitions, which do not wait for the sub-band; for joins of US 902-928 and AU 915-928, which ignore the mask; and for a join after forget, which waits for the global off-time only (three refuted theorems). A channel defined with its lowest rate above its highest has no rate in range and is not covered."
  },
  {
   "property": "C19",
   "status": "partial",
   "theorems": [
    "C19_next_request_partial",
    "C19_any_other_partial",
    "C19_after_refusal_refuted",
    "C19_repeat_same_channel_refuted"
   ],
   "note": "Holds for two data requests accepted with no other request between them; any other open channel can be chosen. Refuted for a request that follows one refused as too long, and for the repetitions of one request, which all use one channel."
  },
  {
   "property": "C20",
   "status": "proved",
   "theorems": [
    "C20_timer_deadline",
    "C20_timer_fires_iff_due",
    "C20_late_limit_refuted"
   ],
   "note": "For real times of setting and checking, with the counter modulo 2^32: the timer fires exactly when the deadline has been reached, for checks less than 2^31-1 ticks late. The reported lag is one tick short across a wrap. The refuted theorem shows that 2^31-1 is the exact limit."
  },
  {
   "property": "C21",
   "status": "partial",
   "theorems": [
    "C21_ticks_until_next_event",
    "C21_zero_when_nothing_due_refuted"
   ],
   "note": "Proved: 0 whenever something is due, and never beyond the earliest deadline nor more than one tick short of it. Missing: the 'exactly' of the statement is false (refuted theorem): the code returns 0 one tick early across a wrap. A deadline exactly half a period away is excluded."
  },
  {
   "property": "C22",
   "status": "partial",
   "theorems": [
    "C22_off_time_clock_partial",
    "C22_wrap_loses_a_tick_refuted"
   ],
   "note": "Proved for any sequence of updates while the off-time clock runs, with the exact error: one tick is lost for each wrap of the counter (refuted theorem). Idle time before the clock starts is treated in C42 and C23."
  },
  {
   "property": "C23",
   "status": "partial",
   "theorems": [
    "C23_charge",
    "C23_wait",
    "C23_next_request_partial",
    "C23_idle_refuted",
    "C23_repeat_refuted",
    "C23_join_refuted"
   ],
   "note": "Proved for data requests whenever the off-time clock was running at the end of the transmission: the off-time is charged and no request gets the sub-band more than 1/256 s early, for every history. Refuted after an idle time (the stopped clock is restarted with a stale time, which wipes the off-time), for the repeats of a request, and for join requests."
  },
  {
   "property": "C24",
   "status": "proved",
   "theorems": [
    "C24_busy_exclusion",
    "C24_busy_state"
   ],
   "note": "For every reachable state, from what is seen outside (more operations started than ended), and for every state whatever; the refused call changes no field of the state."
  },
  {
   "property": "C25",
   "status": "partial",
   "theorems": [
    "C25_events_match_requests",
    "C25_at_most_one_completion",
    "C25_idle_means_ended",
    "C25_operation_ends_refuted"
   ],
   "note": "Safety is proved for every history: events match requests in kind and number at every point. Missing: that every accepted operation ends. It does not (refuted theorem): after the RX2 timer is swallowed during RX1 the operation never ends unless it is cancelled. C86 proves that every operation ends when the calls are made in time for the windows."
  },
  {
   "property": "C26",
   "status": "partial",
   "theorems": [
    "C26_cancel_stops_the_mac",
    "C26_cancel_returns_to_service_refuted",
    "C26_startup_partial"
   ],
   "note": "The claim fails in every state but the three of start-up: the wait timer is cleared and never set again, so the MAC stays in RADIO_RESET under every schedule (C26_cancel_stops_the_mac, refuted theorem for an idle MAC). The part that holds: cancelling before start-up leaves start-up to run to idle."
  },
  {
   "property": "C27",
   "status": "proved",
   "theorems": [
    "C27_tries",
    "C27_acknowledged"
   ],
   "note": "The redundancy is that of the request if not zero (modulo 16) and else that of the session, over every history. Acknowledgement is a data frame accepted by LDL_OPS_receiveFrame with its ACK bit set while a confirmed request is in a receive window."
  },
  {
   "property": "C28",
   "status": "partial",
   "theorems": [
    "C28_data_size_partial",
    "C28_join_size",
    "C28_too_long_refuted",
    "C28_answers_too_long_refuted"
   ],
   "note": "Frames fit the data rate of the session at the time of the request, and join requests always fit. Refuted in the regions with channels of their own when the channel chosen does not have that data rate, and when answers to commands take precedence at the lowest rate of US 902-928; in all other cases the frame fits the rate it is sent at (C28_data_size_partial)."
  },
  {
   "property": "C29",
   "status": "proved",
   "theorems": [
    "C29_refused_request",
    "C29_refusal_reasons"
   ],
   "note": "A refused data request changes nothing but the transmit parameters (frequency, rate, power, channel) that the next request overwrites; the reason returned is characterised."
  },
  {
   "property": "C30",
   "status": "partial",
   "theorems": [
    "C30_field",
    "C30_all_or_nothing_partial",
    "C30_broken_off_refuted",
    "C30_second_block_refuted"
   ],
   "note": "For every field of commands the exact effect; a complete first block is carried out whole or not at all, with one verdict. Refuted for a block cut off by the end of the field (the mask is changed, nothing is answered) and for a second block in the same field (ignored, not answered by itself)."
  },
  {
   "property": "C31",
   "status": "partial",
   "theorems": [
    "C31_back_off",
    "C31_reaches_partial",
    "C31_never_reaches",
    "C31_reaches_refuted"
   ],
   "note": "Refuted with the prescribed limit 64 and delay 32: the count of unanswered uplinks stops at 255, so only five steps are possible and a device that needs more never reaches the lowest rate. The exact progress is proved for every history without a downlink, and reaching it where enough steps are possible."
  },
  {
   "property": "C32",
   "status": "proved",
   "theorems": [
    "C32_settings_valid"
   ],
   "note": "Over every history, for the session and for every session given to the application: data rate, power, redundancy and channel tables are valid for the region. The restored session must be valid when its region is the one configured; the power argument is unsigned."
  },
  {
   "property": "C33",
   "status": "proved",
   "theorems": [
    "C33_restore",
    "C33_fresh",
    "C33_keys_1_0",
    "C33_keys_1_1",
    "C33_no_keys"
   ],
   "note": "Which session LDL_MAC_init starts with, the fresh session, the keys derived for a resumed session (both key schemes) and none otherwise. What becomes of the keys of an ABP session is C47."
  },
  {
   "property": "C34",
   "status": "partial",
   "theorems": [
    "C34_air_time_partial",
    "C34_air_time_bounds",
    "C34_air_time_monotone_partial",
    "C34_header_left_out_refuted",
    "C34_short_packet_wraps_refuted"
   ],
   "note": "The code is the LoRa formula for a packet without header, plus one millisecond; the error against the real packet is bounded. Refuted: the air time of a LoRaWAN packet is under-reported, and packets below the stated size wrap."
  },
  {
   "property": "C35",
   "status": "partial",
   "theorems": [
    "C35_windows_partial",
    "C35_one_second_apart",
    "C35_timers_one_second_refuted",
    "C35_wrap_refuted"
   ],
   "note": "Proved for every delay up to 255 s, tick rate 1 kHz to 1 MHz, clock error below 2^30 ticks, data rate and latency below 2^29 ticks: both timers are exactly t + delay minus advance, oscillator time and half the margin, computed without overflow, and the windows are one second apart. Refuted in two details: the timers themselves differ by more or less than one second when the margins of the two rates differ, and both are one tick late if the counter wrapped. Needs the symbol periods to be positive (C53) and the array of timers to have its length."
  },
  {
   "property": "C36",
   "status": "proved",
   "theorems": [
    "C36_rx1_rate",
    "C36_rx1_in_table",
    "C36_rx1_next_row"
   ],
   "note": "Every rate and offset the region defines, plus what happens for every other byte."
  },
  {
   "property": "C37",
   "status": "partial",
   "theorems": [
    "C37_default_channels",
    "C37_fixed_plan",
    "C37_fixed_channels",
    "C37_join_channel",
    "C37_join_channel_exists",
    "C37_join_rate",
    "C37_rx2_default",
    "C37_rx1_frequency",
    "C37_eu_duty_cycle",
    "C37_cflist_channels_partial",
    "C37_cflist_other_channels",
    "C37_cflist_masks",
    "C37_cflist_band_gap_refuted"
   ],
   "note": "Defaults, fixed plans, join channels, join rates, RX1 and RX2 frequencies, CFList of both types. Missing: CFList channels need not belong to a duty cycle band (refuted theorem)."
  },
  {
   "property": "C38",
   "status": "partial",
   "theorems": [
    "C38_add_channel_result",
    "C38_add_channel_reads_back_partial",
    "C38_add_channel_changes_no_other",
    "C38_add_channel_frame",
    "C38_mask_channel",
    "C38_unmask_channel",
    "C38_mask_out_of_range",
    "C38_unmask_all",
    "C38_rate_above_15_refuted",
    "C38_frequency_rounded_refuted"
   ],
   "note": "Exact for frequencies that are a multiple of 100 Hz and rates up to 15. Refuted for other frequencies (rounded down) and for a lowest rate above 15 (changes the frequency)."
  },
  {
   "property": "C39",
   "status": "partial",
   "theorems": [
    "C39_second_window_lost",
    "C39_lost_for_good",
    "C39_second_window_used_refuted",
    "C39_second_window_partial"
   ],
   "note": "Refuted, with the exact mechanism: the RX2 timer coming due while RX1 is open is taken and ignored, and RX2 is then never opened. Proved: with its timer still running when RX1 has timed out, RX2 opens on time."
  },
  {
   "property": "C40",
   "status": "partial",
   "theorems": [
    "C40_disarmed_ignored",
    "C40_first_signal",
    "C40_pending_is_fresh",
    "C40_armed_on_air",
    "C40_never_otherwise",
    "C40_once",
    "C40_end_of_transmission",
    "C40_time_refuted",
    "C40_reception"
   ],
   "note": "Refuted in one detail: the time delivered is one tick late when the tick counter has wrapped since the signal. Everything else is proved for every history: a signal is kept only while armed, with the first time; a pending signal was raised since the radio was last started; one call of LDL_MAC_process consumes it; a signal left over by cancelling is dropped without looking at what the radio reports."
  },
  {
   "property": "C41",
   "status": "proved",
   "theorems": [
    "C41_session_keys_1_0",
    "C41_session_keys_1_1",
    "C41_join_keys",
    "C41_root_keys_constant",
    "C41_update_changes_one_key",
    "C41_slots_distinct_1_1"
   ],
   "note": "Derived keys equal the LoRaWAN 1.0.x and 1.1 derivations, root keys survive every log of updates, one update changes one slot."
  },
  {
   "property": "C42",
   "status": "partial",
   "theorems": [
    "C42_join_starts_day",
    "C42_tier_partial",
    "C42_join_off_time",
    "C42_idle_time_counts_refuted"
   ],
   "note": "Tier is exact for the time credited since the join started while the off-time clock runs, and it is the factor charged. Refuted for a device that was idle before its first request: the idle time is credited as joining time."
  },
  {
   "property": "C43",
   "status": "partial",
   "theorems": [
    "C43_stream_in_bounds_partial",
    "C43_stream_error_sticky",
    "C43_stream_in_bounds_refuted",
    "C43_backward_seek_goes_forward",
    "C43_forward_seek_exact"
   ],
   "note": "In bounds unless a backward relative seek and a peek are combined; that combination reads outside the buffer (C43_stream_in_bounds_refuted) because a backward seek moves the cursor forward. The library itself never does it. Errors are sticky for every sequence."
  },
  {
   "property": "C44",
   "status": "proved",
   "theorems": [
    "C44_device_status"
   ],
   "note": "At MAC level, for every SNR value the radio driver reports; the conversion of the register value is not part of this claim."
  },
  {
   "property": "C45",
   "status": "proved",
   "theorems": [
    "C45_keystream_block",
    "C45_integrity_block_0",
    "C45_integrity_block_1"
   ],
   "note": "Exact bytes."
  },
  {
   "property": "C46",
   "status": "partial",
   "theorems": [
    "C46_uplink_mic_partial",
    "C46_acknowledging_uplink_refuted",
    "C46_sent_partial"
   ],
   "note": "C46_sent_partial: every data frame sent in any history without LDL_MAC_abp, repetitions included, ends in its integrity code under the keys derived for the session (C46_uplink_mic_partial: for any keys). Proved for 1.0 sessions and for 1.1 uplinks that acknowledge nothing (ConfFCnt = 0), except 244 byte frames (see C08). Fails for acknowledging uplinks of a 1.1 session: ConfFCnt is always 0 (C46_acknowledging_uplink_refuted)."
  },
  {
   "property": "C47",
   "status": "partial",
   "theorems": [
    "C47_keys_match_session_partial",
    "C47_join_keys",
    "C47_keys_survive_restart_partial",
    "C47_abp_keys_lost_refuted"
   ],
   "note": "Proved for every history without LDL_MAC_abp. C47_abp_keys_lost_refuted: LDL_MAC_init derives keys for every stored session, so the restart of a session activated by personalisation replaces its keys."
  },
  {
   "property": "C48",
   "status": "proved",
   "theorems": [
    "C48_two_counters",
    "C48_high_half_stays_zero",
    "C48_fcnt_alone",
    "C48_delivered_again",
    "C48_high_half_jumps"
   ],
   "note": "Proved for every history from a new session or one whose stored high halves are zero; the last theorem covers restored sessions whose high half is not zero."
  },
  {
   "property": "C49",
   "status": "partial",
   "theorems": [
    "C49_low_half_partial",
    "C49_payload_refuted"
   ],
   "note": "With the default security module and a joined or restored session, every history: the payload is exactly the specified cipher with the derived AppSKey, but with the counter modulo 65536 (C49_low_half_partial), so as specified while the counter is below 65536 (C49_payload_partial). C49_payload_refuted shows a frame at counter 65536 that is not. ABP sessions are left out because their keys come from the application."
  },
  {
   "property": "C50",
   "status": "proved",
   "theorems": [
    "C50_repetitions_alike"
   ],
   "note": "Over every history, security module and region."
  },
  {
   "property": "C51",
   "status": "partial",
   "theorems": [
    "C51_first_window",
    "C51_second_window",
    "C51_planned_time_refuted"
   ],
   "note": "Refuted: the latency is subtracted from the start-up time although the timer is appended to its own deadline, so listening starts early by the latency. The exact time is proved for both windows."
  },
  {
   "property": "C52",
   "status": "partial",
   "theorems": [
    "C52_no_first_window",
    "C52_one_second_refuted"
   ],
   "note": "Holds for join accept (the decoder turns 0 into 1, C12) and is refuted for RXTimingSetupReq: 0 is stored and then the first window is never opened, whatever the latency (proved for every state)."
  },
  {
   "property": "C53",
   "status": "partial",
   "theorems": [
    "C53_zero_iff",
    "C53_no_division_by_zero_partial",
    "C53_no_division_by_zero_refuted"
   ],
   "note": "Refuted at 1000 ticks per second for a US 902-928 session at rate 3. Proved for 3907 to 10^6 ticks per second for every region and rate, with the exact condition."
  },
  {
   "property": "C54",
   "status": "partial",
   "theorems": [
    "C54_one_left_partial",
    "C54_sixteen_all_off",
    "C54_all_off_refuted"
   ],
   "note": "Proved for the regions with 72 channels and, in C54_sixteen_all_off, exactly what happens in those with 16: refuted there, because the test looks at all nine bytes of the mask, of which only two are used."
  },
  {
   "property": "C55",
   "status": "partial",
   "theorems": [
    "C55_mask_control_partial",
    "C55_mask_control_refuted"
   ],
   "note": "Values 0 to 4 are right; 6 and 7 are right on the first 64 channels. Refuted for the rest: 5 is ignored, and 6 and 7 do not write the 500 kHz channels, though each is answered as accepted."
  },
  {
   "property": "C56",
   "status": "proved",
   "theorems": [
    "C56_calls_are_accepted"
   ],
   "note": "For every history, both drivers, every setting of the chips. The check that the frequency is not zero is not part of it."
  },
  {
   "property": "C57",
   "status": "partial",
   "theorems": [
    "C57_sx127x_does_what_is_asked_partial",
    "C57_far_refuted"
   ],
   "note": "Proved for every history whose frequencies the 24 bit register can hold, against a model of the chip's registers, from reset. Refuted otherwise: RXParamSetupReq can set a frequency that wraps around in the register."
  },
  {
   "property": "C58",
   "status": "proved",
   "theorems": [
    "C58_sx126x_does_what_is_asked"
   ],
   "note": "For every history and every pattern of refused commands, against a model of the chip's commands, from reset; for frequencies below 4096 MHz, which the MAC commands cannot exceed."
  },
  {
   "property": "C59",
   "status": "partial",
   "theorems": [
    "C59_sx127x_power_partial",
    "C59_sx127x_amplifier",
    "C59_sx127x_power_refuted"
   ],
   "note": "Proved for requests the amplifier can go down to, not negative or of whole dBm. Refuted below the range of the amplifier and for negative fractions, which are rounded up."
  },
  {
   "property": "C60",
   "status": "partial",
   "theorems": [
    "C60_sx126x_power_partial",
    "C60_sx126x_power_refuted",
    "C60_wl55_auto_refuted"
   ],
   "note": "Proved for requests the amplifier can go down to, not negative or of whole dBm. Refuted for the others as for the SX127x, and for the automatic choice on the WL55, which never takes the low power amplifier."
  },
  {
   "property": "C61",
   "status": "partial",
   "theorems": [
    "C61_sx127x_signal_partial",
    "C61_sx126x_signal_partial",
    "C61_signal_refuted"
   ],
   "note": "The exact values are proved for both drivers. Refuted: the SX127x driver does not extend the sign of the ratio, the SX126x driver takes the strength for a signed number although the chip gives its negative."
  },
  {
   "property": "C62",
   "status": "partial",
   "theorems": [
    "C62_sx127x_length",
    "C62_sx126x_length_partial",
    "C62_sx126x_length_refuted",
    "C62_sx127x_status",
    "C62_sx126x_status",
    "C62_sx127x_entropy"
   ],
   "note": "Proved for the SX127x. Refuted for the SX126x when GetPacketStatus is refused: a length, even beyond the buffer, is returned with nothing stored; proved otherwise."
  },
  {
   "property": "C63",
   "status": "proved",
   "theorems": [
    "C63_image_covers",
    "C63_image_first"
   ],
   "note": "For all frequencies of the four regions and every cold start."
  },
  {
   "property": "C64",
   "status": "proved",
   "theorems": [
    "C64_power_table",
    "C64_data_power",
    "C64_join_power"
   ],
   "note": "For every history; the table of steps is checked against the regional parameters."
  },
  {
   "property": "C65",
   "status": "partial",
   "theorems": [
    "C65_join_dwell",
    "C65_us_data_dwell_partial",
    "C65_dwell_rate",
    "C65_au_data_refuted",
    "C65_us_answers_refuted"
   ],
   "note": "Proved for all join requests and for all data frames in US 902-928 except answers to commands at DR0, for which it is refuted. Refuted in AU 915-928: LDL_MAC_unconfirmedData and LDL_MAC_confirmedData adjust the rate for the dwell time and then choose the channel with the unadjusted one."
  },
  {
   "property": "C66",
   "status": "partial",
   "theorems": [
    "C66_join_channel_partial",
    "C66_eu433_refuted"
   ],
   "note": "Proved for the regions with a fixed plan; for the others C18 says which channel is chosen. Refuted for EU 433: initSession fills in the channels before it stores the region, so a new device sends its join request on 868.1 MHz."
  },
  {
   "property": "C67",
   "status": "partial",
   "theorems": [
    "C67_forget_defaults",
    "C67_init_defaults_partial",
    "C67_init_defaults_refuted"
   ],
   "note": "Proved for LDL_MAC_forget in every region and for LDL_MAC_init in EU 863-870. Refuted for LDL_MAC_init in the other regions, which start with the second window and the channels of EU 863-870; in US 902-928 the wrong second window remains after the join."
  },
  {
   "property": "C68",
   "status": "partial",
   "theorems": [
    "C68_settings",
    "C68_channels",
    "C68_answers",
    "C68_nothing_else",
    "C68_dl_channel_refuted"
   ],
   "note": "Proved for every accepted data frame. Refuted for DlChannelReq, which is acknowledged although the RX1 frequency is not used. The effect of LinkADRReq is C32 and C55."
  },
  {
   "property": "C69",
   "status": "partial",
   "theorems": [
    "C69_channels_partial",
    "C69_rx_param_refuted",
    "C69_new_channel_refuted"
   ],
   "note": "Proved for channels in the frequency bands. Refuted for RXParamSetupReq, whose offset, rate and frequency are acknowledged unchecked, and for NewChannelReq, which accepts a minimum rate above the maximum and moves default channels."
  },
  {
   "property": "C70",
   "status": "partial",
   "theorems": [
    "C70_reports_partial",
    "C70_wrapped",
    "C70_wrapped_refuted"
   ],
   "note": "Proved as long as the tick counter does not wrap between uplink and answer; after a wrap the time is one tick short, so the equality is refuted."
  },
  {
   "property": "C71",
   "status": "proved",
   "theorems": [
    "C71_wakes",
    "C71_sleeps"
   ],
   "note": "For every history; saturated counters (2^32-1) are excluded, and off-times longer than the timer can hold are checked again earlier."
  },
  {
   "property": "C72",
   "status": "partial",
   "theorems": [
    "C72_payload_partial",
    "C72_commands",
    "C72_payload_refuted"
   ],
   "note": "The key and the FCnt used for decryption are proved for every history. The integrity code is checked with the whole counter and the payload decrypted with the low 16 bits only (C72_payload_refuted), so the property holds only for sessions whose counter has no high half. The FOpts theorem excludes the build with the 1.1 errata."
  },
  {
   "property": "C73",
   "status": "proved",
   "theorems": [
    "C73_delivered",
    "C73_accepted"
   ],
   "note": "For sessions without a high half of the counter (the only ones a join starts with, and they stay so: C48). Frames shorter than their FOptsLen are excluded."
  },
  {
   "property": "C74",
   "status": "partial",
   "theorems": [
    "C74_nonces_partial",
    "C74_accepts",
    "C74_counters",
    "C74_nonces_refuted"
   ],
   "note": "The store is an interface; modelled is one that returns what was saved last. Join accepts and counters are proved as stated. The store is given 16 bits of the next devNonce, so the one after the last is stored as 0 and a restarted device uses all of them again (C74_nonces_refuted); C74_nonces_partial holds up to there. Not for builds of LoRaWAN 1.0.3, whose devNonce is random."
  },
  {
   "property": "C75",
   "status": "partial",
   "theorems": [
    "C75_results_partial",
    "C75_not_left_waiting",
    "C75_time_limit_refuted",
    "C75_two_threads_refuted"
   ],
   "note": "Proved for one thread that asks for operations without a time limit, among any others that cancel, forget or change settings. Refuted for otaa() with a time limit (C75_time_limit_refuted: a stale OP_CANCELLED flag ends the next entropy() early) and for two threads that ask for operations (C75_two_threads_refuted: one waits for ever). Semaphores that only order the requests are not modelled: requests are served in any order."
  },
  {
   "property": "C76",
   "status": "partial",
   "theorems": [
    "C76_only_waits",
    "C76_sends_refuted",
    "C76_second_refuted"
   ],
   "note": "Refuted: a call that finds no channel waits for a band and then returns NOCHANNEL without sending (C76_sends_refuted; C76_only_waits proves that it never does anything else), and a second thread gets TIMEOUT at once instead of waiting (C76_second_refuted). Messages that find a free channel are covered by C75."
  },
  {
   "property": "C77",
   "status": "partial",
   "theorems": [
    "C77_cancels_partial",
    "C77_forgets",
    "C77_session_refuted"
   ],
   "note": "Ends the operation: proved for one thread that asks for operations. Refuted for the session: do_cancel calls mac.forget(), so the device is no longer joined (C77_session_refuted, C77_forgets)."
  },
  {
   "property": "C78",
   "status": "proved",
   "theorems": [
    "C78_windows_tuned"
   ],
   "note": "For every reception in the log of every history. Offsets outside the table of the region are the finding of C36; a first window that ignores DlChannelReq is the finding of C68; the default second window of US/AU is the finding of C67."
  },
  {
   "property": "C79",
   "status": "partial",
   "theorems": [
    "C79_answers_kept",
    "C79_cancelled_refuted"
   ],
   "note": "C79_answers_kept: exactly which answers still wait, for every history without a downlink; what an uplink carries of the waiting answers is C17. Refuted: the answers sent once are dropped when the message is taken, so a message that is cancelled or fails loses them (C79_cancelled_refuted)."
  },
  {
   "property": "C80",
   "status": "proved",
   "theorems": [
    "C80_owed",
    "C80_acknowledged"
   ],
   "note": "C80_owed: the acknowledgement owed after every history; C80_acknowledged: the control bits of every data frame handed to the radio. What is owed is not part of the session, so it does not survive a restart."
  },
  {
   "property": "C81",
   "status": "partial",
   "theorems": [
    "C81_starts_again",
    "C81_asks_partial",
    "C81_late_refuted",
    "C81_stops_refuted"
   ],
   "note": "C81_asks_partial gives the bit exactly: it is set if the uplinks without an answer are more than the limit and at most 255 (until the settings are the most robust ones); C81_starts_again: every downlink starts the count. Refuted: it comes one uplink late (C81_late_refuted) and is cleared for good after 255 uplinks (C81_stops_refuted)."
  },
  {
   "property": "C82",
   "status": "partial",
   "theorems": [
    "C82_told_partial",
    "C82_resumed_partial",
    "C82_mask_refuted",
    "C82_add_refuted",
    "C82_abp_refuted"
   ],
   "note": "Proved for every history without LDL_MAC_addChannel, LDL_MAC_maskChannel, LDL_MAC_unmaskChannel and LDL_MAC_abp, which do not tell (C82_add_refuted, C82_mask_refuted, C82_abp_refuted). While the device is not joined, the DevNonce of the session is left out: it is of no use before the join accept, which is told."
  },
  {
   "property": "C83",
   "status": "partial",
   "theorems": [
    "C83_ready_exact",
    "C83_taken_partial",
    "C83_taken_refuted"
   ],
   "note": "Ready is answered exactly when the machine is idle, the global off-time is zero and some channel is defined, unmasked and clear (C83_ready_exact). In the idle state the answer to a request is then computed exactly: no channel when not ready, else the verdict on its size (C83_taken_partial). Refuted outside the idle state: while the radio is being reset the device is not ready but takes the request (C83_taken_refuted)."
  },
  {
   "property": "C84",
   "status": "partial",
   "theorems": [
    "C84_mtu_partial",
    "C84_rate_refuted",
    "C84_answer_refuted",
    "C84_options_refuted"
   ],
   "note": "Proved where every unmasked channel takes the rate of the session, no option is used, no answer to TXParamSetupReq waits and at most 15 octets of answers wait (C84_mtu_partial). Refuted in four ways: where channels have different rates the size told is that of another rate, in US902-928 after a join 242 is told and 12 refused (C84_rate_refuted); the answer to TXParamSetupReq and the options of the request are not counted (C84_answer_refuted, C84_options_refuted)."
  },
  {
   "property": "C85",
   "status": "proved",
   "theorems": [
    "C85_none",
    "C85_serial",
    "C85_leftover",
    "C85_leftover_kept"
   ],
   "note": "Nine places cover the call, one around every access to the inputs. Without interrupts the call is that of the model (C85_none). In every history with interrupts the outcome of a call equals an interrupt before it and one after it, or is the overdue case (C85_serial). There the flag makes the next call due at once; that call clears it and otherwise only counts the off-time, keeping state, session and both timers (C85_leftover, C85_leftover_kept)."
  },
  {
   "property": "C86",
   "status": "proved",
   "theorems": [
    "C86_never_stuck",
    "C86_takes_the_step",
    "C86_ends",
    "C86_steps"
   ],
   "note": "In time means: no call finds the timer of the second window expired while the first window is still awaited or open, the case in which C25 shows an operation that never ends. Then what each state waits for is running (C86_never_stuck), a call when it has come takes a step (C86_takes_the_step), and after at most 14 steps for entropy, 254 for data and 14 plus 16 per remaining device nonce for a join the operation has ended (C86_ends, C86_steps). That the application calls LDL_MAC_process again is an assumption; C71 says when it is told to."
  },
  {
   "property": "C87",
   "status": "partial",
   "theorems": [
    "C87_taken",
    "C87_only",
    "C87_anew",
    "C87_sessions_out",
    "C87_channels",
    "C87_other_channels",
    "C87_masks",
    "C87_reserved_bits_refuted"
   ],
   "note": "Refuted for reserved bits: the upper half of the RxDelay octet is reserved, but the whole octet becomes the delay, so an accept with one of these bits set makes the device listen at the wrong time (C87_reserved_bits_refuted). Proved: a genuine accept is taken (C87_taken), only such an accept joins (C87_only), all 32 fields of the session after it (joined_session), counters start at zero (C87_anew), and the channels of the list (C87_channels, C87_other_channels, C87_masks)."
  },
  {
   "property": "C88",
   "status": "partial",
   "theorems": [
    "C88_wait",
    "C88_not_before",
    "C88_range",
    "C88_seconds",
    "C88_doubles",
    "C88_wraps_refuted"
   ],
   "note": "The wait is tps * 2^n ticks modulo 2^31 (C88_wait), nothing goes out before it is over and the first call after it starts the transmission (C88_not_before). It is 2^n seconds wherever that fits 31 bits, and for all 14 repetitions up to 131071 ticks per second (C88_seconds, C88_doubles). At the 1 MHz that porting.md shows it is not: after the 12th transmission the device waits 1949 seconds instead of 4096 (C88_wraps_refuted). The wait starts when the MAC finds that no answer came, that is after the lock-out that follows the second window or after a frame that is not for the device."
  },
  {
   "property": "C89",
   "status": "partial",
   "theorems": [
    "C89_wait",
    "C89_always",
    "C89_not_before",
    "C89_range_partial",
    "C89_ticks_refuted",
    "C89_division_refuted",
    "C89_division"
   ],
   "note": "The draw, its exact outcome and when it is made are C89_wait; that no join request is sent without it is C89_always; that nothing is sent in between is C89_not_before. The range holds while tps * otaaDither is at most 2^31 (C89_range_partial). ldl_mac.h documents the setting in ticks while the code takes seconds (C89_ticks_refuted); a value in ticks can make the divisor zero, for instance 131072 at 32768 ticks per second, and the modulo is then undefined (C89_division_refuted; C89_division: never where the product fits 32 bits). In the model x mod 0 is x, so C89_wait describes the program only where the divisor is not zero. The build without LDL_ENABLE_OTAA_DITHER is the case otaaDither = 30."
  },
  {
   "property": "C90",
   "status": "proved",
   "theorems": [
    "C90_first",
    "C90_second",
    "C90_nominal",
    "C90_covers"
   ],
   "note": "C90_first and C90_second follow the windows over any history; C90_nominal and C90_covers are the arithmetic of when listening begins and what it takes in. The theorems also give the time when the call that starts the oscillator is late: the lateness is taken off the settling time although the timer already runs from when the window was due, so listening may begin that much early (listen_at; the finding of C51). The settings are those the plan is exact for (sane and computable, see C35 and C53), and the second window must be due within half the clock's range."
  },
  {
   "property": "C91",
   "status": "partial",
   "theorems": [
    "C91_after_packet",
    "C91_foreign_refuted"
   ],
   "note": "Refuted: processRX clears both timers before it looks at the packet and a packet that is not accepted goes to downlinkMissingHandler, so one foreign byte in the first window ends the transmission and an unconfirmed message is reported complete (C91_foreign_refuted). What holds is the other half: after an accepted frame, or any packet, in either window the radio is not told to listen again before the next transmission (C91_after_packet)."
  },
  {
   "property": "C92",
   "status": "proved",
   "theorems": [
    "C92_join_mic",
    "C92_sent_for"
   ],
   "note": "For the default security module. Which nonce a request carries is C03."
  }
 ]
}