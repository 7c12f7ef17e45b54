{"id": "C01", "title": "Uplink frame counters never repeat within a session", "statement": "Between two joins, every data uplink handed to the radio as a new message carries a frame counter strictly greater than every earlier message's; only retransmissions of the same message repeat a counter, and they repeat the same frame payload.", "quantifier": "every history of API calls, radio interrupts, random numbers and clock readings", "why_tests_cant": "a counter that repeats only after some rare sequence (failed request, retry, cancelled operation) breaks confidentiality and integrity; tests sample a few sequences", "anchors": ["src/ldl_mac.c:externalDataCommand", "src/ldl_mac.c:LDL_MAC_process", "src/ldl_mac.c:LDL_MAC_unconfirmedData"]}
{"id": "C02", "title": "Uplink counters survive a crash", "statement": "Whenever a new data frame reaches the radio, the application has already been handed, in an earlier LDL_MAC_SESSION_UPDATED event, a session whose next counter is greater than the frame's; so restarting at any instant from the last session handed over never reuses a counter.", "quantifier": "every history and every crash point", "why_tests_cant": "crash points between individual side effects are not reachable from unit tests", "anchors": ["src/ldl_mac.c:externalDataCommand", "src/ldl_mac.c:pushSessionUpdate", "src/ldl_mac.c:LDL_MAC_init"]}
{"id": "C03", "title": "Join nonces are never reused", "statement": "In LoRaWAN 1.0.4 and 1.1 builds each LDL_MAC_otaa attempt transmits a devNonce strictly greater than every one transmitted before; the next value is announced in LDL_MAC_DEV_NONCE_UPDATED before the join request is sent, so a restart from the last announced value never reuses one; when values run out LDL_MAC_otaa refuses.", "quantifier": "every history and every crash point", "why_tests_cant": "65536 attempts and arbitrary restarts cannot be enumerated by tests", "anchors": ["src/ldl_mac.c:LDL_MAC_otaa", "src/ldl_mac.c:fillJoinBuffer"]}
{"id": "C04", "title": "Join accept replay protection", "statement": "A join accept is accepted only if its joinNonce is at least the stored one and afterwards the stored one is strictly greater, so (1.0.4/1.1) the same join accept is never accepted twice, and the value reported in LDL_MAC_JOIN_COMPLETE makes this hold across restarts.", "quantifier": "every frame content and every history", "why_tests_cant": "attacker-chosen frames range over all byte strings", "anchors": ["src/ldl_ops.c:LDL_OPS_receiveFrame", "src/ldl_mac.c:processRX"]}
{"id": "C05", "title": "Downlink replay protection", "statement": "A downlink data frame that has been accepted once is never accepted again in the same session.", "quantifier": "every downlink frame and session", "why_tests_cant": "needs reasoning about all 2^32 counters and stored states", "anchors": ["src/ldl_ops.c:deriveDownCounter", "src/ldl_ops.c:LDL_OPS_syncDownCounter", "src/ldl_mac.c:processRX"]}
{"id": "C06", "title": "Unauthenticated frames change nothing", "statement": "A received frame whose MIC does not match (or whose address, type or length is wrong) never changes session state, never delivers data to the application and never triggers MAC commands.", "quantifier": "every received byte string, every session, every pending operation", "why_tests_cant": "the attacker controls all bytes of the frame", "anchors": ["src/ldl_ops.c:LDL_OPS_receiveFrame", "src/ldl_mac.c:processRX"]}
{"id": "C07", "title": "Uplink keystream is never reused", "statement": "Within a session, the AES-CTR blocks used to encrypt two different data uplinks are disjoint.", "quantifier": "every pair of uplink counters and payload lengths", "why_tests_cant": "reuse only appears after 65536 uplinks", "anchors": ["src/ldl_ops.c:LDL_OPS_prepareData", "src/ldl_ops.c:initA", "src/ldl_ctr.c:LDL_CTR_encrypt"]}
{"id": "C08", "title": "Message integrity code is AES-CMAC", "statement": "The security module's MIC is the first four bytes, little endian, of RFC 4493 AES-CMAC of header followed by data.", "quantifier": "every key, header and data (8-bit lengths)", "why_tests_cant": "all contents and lengths; a wrap at one exact total length is easily missed", "anchors": ["src/ldl_sm.c:LDL_SM_mic", "src/ldl_cmac.c:LDL_CMAC_update", "src/ldl_cmac.c:LDL_CMAC_finish"]}
{"id": "C09", "title": "CMAC does not depend on how the message is split", "statement": "Feeding a message to the CMAC context in any sequence of pieces gives the same MAC as feeding it at once.", "quantifier": "every message and every partition into pieces (total below the 8-bit size limit)", "why_tests_cant": "unbounded number of partitions", "anchors": ["src/ldl_cmac.c:LDL_CMAC_update"]}
{"id": "C10", "title": "AES block cipher conforms to FIPS-197", "statement": "LDL_AES_init followed by LDL_AES_encrypt computes AES-128 encryption.", "quantifier": "every 128-bit key and block", "why_tests_cant": "2^256 inputs; test vectors cover a handful", "anchors": ["src/ldl_aes.c:LDL_AES_init", "src/ldl_aes.c:LDL_AES_encrypt"]}
{"id": "C11", "title": "CTR encryption is an involution that preserves length", "statement": "Encrypting twice with the same key and initial block returns the original bytes, the length never changes, and byte i is combined with keystream block iv + i/16 (last byte incremented modulo 256).", "quantifier": "every key, initial block and message up to 255 bytes", "why_tests_cant": "all contents and lengths", "anchors": ["src/ldl_ctr.c:LDL_CTR_encrypt", "src/ldl_sm.c:LDL_SM_ctr"]}
{"id": "C12", "title": "Data frame layout", "statement": "A data frame is serialised exactly as MHDR | DevAddr | FCtrl | FCnt | FOpts | FPort | FRMPayload | MIC with little-endian fields; serialisation fails exactly when the frame does not fit, and never writes outside the buffer.", "quantifier": "every field value, option list, payload and buffer size", "why_tests_cant": "combinatorial in lengths and field values", "anchors": ["src/ldl_frame.c:LDL_Frame_putData", "src/ldl_stream.c"]}
{"id": "C13", "title": "Downlink decoder is total, in bounds and exact", "statement": "Decoding any byte string terminates without reading outside it; when it succeeds the reported fields are exactly those LoRaWAN assigns to these bytes and every reported region lies inside the frame.", "quantifier": "every byte string up to 255 bytes", "why_tests_cant": "attacker-chosen input", "anchors": ["src/ldl_frame.c:LDL_Frame_decode", "src/ldl_stream.c"]}
{"id": "C14", "title": "Frame encode/decode round trip", "statement": "Any well-formed downlink built from fields decodes to the same fields; an uplink produced by the library parses back to the request under the LoRaWAN frame grammar.", "quantifier": "every field value and payload", "why_tests_cant": "all values and lengths", "anchors": ["src/ldl_frame.c:LDL_Frame_putData", "src/ldl_frame.c:LDL_Frame_decode"]}
{"id": "C15", "title": "Join request and join accept formats", "statement": "A join request is exactly MHDR | JoinEUI | DevEUI | DevNonce | MIC in LoRaWAN byte order, and a join accept is accepted by the decoder exactly when it is 17 or 33 bytes long with the right MHDR.", "quantifier": "every EUI, nonce and byte string", "why_tests_cant": "all values and lengths", "anchors": ["src/ldl_frame.c:LDL_Frame_putJoinRequest", "src/ldl_frame.c:LDL_Frame_decode"]}
{"id": "C16", "title": "MAC command parsing", "statement": "Parsing a MAC command field always terminates, never reads past the field, recognises exactly the LoRaWAN identifiers, extracts the specified bit fields, and never reports a command whose payload is truncated.", "quantifier": "every byte string", "why_tests_cant": "attacker/network-chosen input", "anchors": ["src/ldl_mac_commands.c:LDL_MAC_getDownCommand", "src/ldl_mac.c:processCommands"]}
{"id": "C17", "title": "MAC answers always fit", "statement": "The MAC answers and requests queued for an uplink are at most 30 bytes, so the staging buffer never overflows, and when sent in FOpts they are at most 15 bytes.", "quantifier": "every combination of pending answers, options and build configuration", "why_tests_cant": "exponential number of combinations of pending answers", "anchors": ["src/ldl_mac.c:externalDataCommand", "src/ldl_mac_commands.c"]}
{"id": "C18", "title": "Channel selection is sound and complete", "statement": "A data or join request is sent only on a channel that is defined, not masked, in range for the data rate used, and whose sub-band and global off-time are clear; NOCHANNEL is returned exactly when there is none.", "quantifier": "every mask, channel table, band state, rate and random number", "why_tests_cant": "the selection loop depends on random numbers and 72-bit masks", "anchors": ["src/ldl_mac.c:selectChannel", "src/ldl_mac.c:isAvailable"]}
{"id": "C19", "title": "Channel hopping", "statement": "When more than one channel is available, the channel used previously is not chosen again.", "quantifier": "every mask, channel table, band state, rate and random number", "why_tests_cant": "as C18", "anchors": ["src/ldl_mac.c:selectChannel"]}
{"id": "C20", "title": "Timers never fire early", "statement": "A timer set for t ticks fires at the first check made at least t ticks later and at no check made less than t ticks later, even if the 32-bit clock wraps, as long as checks are less than 2^31-1 ticks late.", "quantifier": "every set time, delay and check time including counter wrap", "why_tests_cant": "wrap-around happens once in 2^32 ticks", "anchors": ["src/ldl_mac.c:timerSet", "src/ldl_mac.c:timerCheck", "src/ldl_mac.c:timerDelta"]}
{"id": "C21", "title": "Sleeping until the next event never misses it", "statement": "LDL_MAC_ticksUntilNextEvent returns 0 exactly when an event is due; sleeping for the returned time never passes the earliest armed timer, and an app that sleeps repeatedly always reaches it.", "quantifier": "every timer and input state and clock value", "why_tests_cant": "wrap-around and interleaving of several timers", "anchors": ["src/ldl_mac.c:LDL_MAC_ticksUntilNextEvent", "src/ldl_mac.c:timerTicksUntilNext"]}
{"id": "C22", "title": "Duty-cycle clock is exact", "statement": "The elapsed time credited to the sub-band counters over any sequence of updates equals the elapsed ticks converted to 1/256 s rounded down, with no loss or gain from rounding or wrap.", "quantifier": "every sequence of update times and every tick rate", "why_tests_cant": "rounding remainders accumulate over unbounded sequences", "anchors": ["src/ldl_mac.c:processBands"]}
{"id": "C23", "title": "Duty-cycle limits are enforced", "statement": "After a transmission of air time T in a sub-band with off-time factor k, no further data or join frame is sent in that sub-band until k*T (capped at the documented half hour) has elapsed.", "quantifier": "every history", "why_tests_cant": "depends on idle periods and history", "anchors": ["src/ldl_mac.c:registerTime", "src/ldl_mac.c:processBands", "src/ldl_mac.c:isAvailable"]}
{"id": "C24", "title": "Busy exclusion", "statement": "While an operation is in progress every request (data, OTAA, entropy) is refused and changes nothing observable.", "quantifier": "every reachable state and every request", "why_tests_cant": "all states times all requests", "anchors": ["src/ldl_mac.c:LDL_MAC_otaa", "src/ldl_mac.c:externalDataCommand", "src/ldl_mac.c:LDL_MAC_entropy"]}
{"id": "C25", "title": "Exactly one completion per operation", "statement": "Every accepted operation ends with exactly one terminating event (complete, timeout, error, cancelled, join complete/exhausted) and nothing terminates an operation that was not started.", "quantifier": "every history", "why_tests_cant": "needs all interleavings of interrupts, timers and API calls", "anchors": ["src/ldl_mac.c:LDL_MAC_process", "src/ldl_mac.c:downlinkMissingHandler", "src/ldl_mac.c:handleRadioError"]}
{"id": "C26", "title": "Cancel returns the MAC to service", "statement": "After LDL_MAC_cancel or LDL_MAC_forget the MAC becomes ready for a new operation after finitely many process calls.", "quantifier": "every state in which cancel is called, every later schedule", "why_tests_cant": "liveness over all schedules", "anchors": ["src/ldl_mac.c:LDL_MAC_cancel", "src/ldl_mac.c:LDL_MAC_forget"]}
{"id": "C27", "title": "Retransmission bound", "statement": "One data request is transmitted at most nbTrans times where nbTrans is the effective redundancy (1..15), and a confirmed request stops as soon as it is acknowledged.", "quantifier": "every history", "why_tests_cant": "all interleavings", "anchors": ["src/ldl_mac.c:downlinkMissingHandler", "src/ldl_mac.c:externalDataCommand"]}
{"id": "C28", "title": "Frame size respects the data rate", "statement": "A frame handed to the radio never exceeds the maximum size of the data rate it is sent at.", "quantifier": "every session, channel plan, rate and payload length", "why_tests_cant": "depends on channel rate ranges chosen by the network and random channel choice", "anchors": ["src/ldl_mac.c:externalDataCommand", "src/ldl_mac.c:LDL_MAC_mtu"]}
{"id": "C29", "title": "Refused requests leave no trace", "statement": "A data request that is refused (port, size, no channel, busy, not joined) leaves the session, the frame counter and the pending answers unchanged.", "quantifier": "every state and request", "why_tests_cant": "all states", "anchors": ["src/ldl_mac.c:externalDataCommand"]}
{"id": "C30", "title": "LinkADR is all or nothing", "statement": "A block of LinkADRReq commands either takes effect completely (rate, power, mask, redundancy) and is answered OK, or leaves all of them unchanged and is answered with the failing bit.", "quantifier": "every MAC command field and session", "why_tests_cant": "network-chosen input", "anchors": ["src/ldl_mac.c:processCommands"]}
{"id": "C31", "title": "ADR back-off reaches the most robust settings", "statement": "With ADR on and no downlink, the device eventually returns to maximum power, minimum data rate and all channels enabled.", "quantifier": "every starting session, unbounded number of unanswered uplinks", "why_tests_cant": "hundreds of uplinks with counter saturation", "anchors": ["src/ldl_mac.c:adaptRate"]}
{"id": "C32", "title": "Session parameters stay valid", "statement": "The data rate and power kept in the session are always valid for the region, whatever the application or network requests.", "quantifier": "every history", "why_tests_cant": "network-chosen input", "anchors": ["src/ldl_mac.c:LDL_MAC_setRate", "src/ldl_mac.c:LDL_MAC_setPower", "src/ldl_mac.c:processCommands", "src/ldl_mac.c:adaptRate", "src/ldl_region.c"]}
{"id": "C33", "title": "Session restore is guarded", "statement": "LDL_MAC_init resumes a saved session exactly when it carries the right marker and region, re-deriving the keys of that session; otherwise it starts from a fresh unjoined default session.", "quantifier": "every stored session", "why_tests_cant": "arbitrary stored bytes", "anchors": ["src/ldl_mac.c:LDL_MAC_init", "src/ldl_mac.c:initSession"]}
{"id": "C34", "title": "Air time arithmetic", "statement": "For every region, data rate and frame size the computed air time is the LoRa formula rounded to the next millisecond, with no intermediate overflow or underflow, and is monotone in the frame size.", "quantifier": "all sizes 0..255, spreading factors and bandwidths", "why_tests_cant": "32-bit overflow at particular combinations", "anchors": ["src/ldl_radio.c:LDL_Radio_getAirTime"]}
{"id": "C35", "title": "Receive windows open at the right time", "statement": "After a transmission ends at time t the first window timer is set to t + delay (5 s for join) minus the documented advance and the second exactly one second later, with no overflow for tick rates up to 1 MHz.", "quantifier": "every delay 0..15, tick rate, crystal error, data rate and interrupt latency", "why_tests_cant": "arithmetic over the full ranges of parameters", "anchors": ["src/ldl_mac.c:processTX"]}
{"id": "C36", "title": "RX1 data rate lookup", "statement": "The RX1 data rate table lookup never leaves the table and gives the LoRaWAN regional value for every data rate and every offset the region allows.", "quantifier": "every rate and offset byte", "why_tests_cant": "65536 combinations per region", "anchors": ["src/ldl_region.c:LDL_Region_getRX1DataRate"]}
{"id": "C37", "title": "Regional parameters are consistent", "statement": "Default channels, join channels, join rates and CFList channels are always inside the region's frequency and rate limits, belong to a duty-cycle band, and index existing channels.", "quantifier": "every region, trial number, random number, CFList", "why_tests_cant": "unbounded trial numbers and arbitrary CFLists", "anchors": ["src/ldl_region.c"]}
{"id": "C38", "title": "Channel table integrity", "statement": "Adding a channel stores exactly the requested frequency and rate range and changes no other channel; masking changes exactly the requested channel; out-of-range indices change nothing.", "quantifier": "every index, frequency and rate range", "why_tests_cant": "bit-packed storage over all values", "anchors": ["src/ldl_mac.c:setChannel", "src/ldl_mac.c:getChannel", "src/ldl_mac.c:maskChannel", "src/ldl_mac.c:unmaskChannel"]}
{"id": "C39", "title": "Second receive window is always used", "statement": "If nothing is received in RX1 the MAC opens RX2 at the scheduled time, whatever the order and latency of process calls.", "quantifier": "every schedule of process calls and interrupts", "why_tests_cant": "depends on latency of calls relative to the timers", "anchors": ["src/ldl_mac.c:processRX", "src/ldl_mac.c:processStartRadioForRX2", "src/ldl_mac.c:LDL_MAC_process"]}
{"id": "C40", "title": "Radio interrupts are delivered once and only when expected", "statement": "An interrupt signalled while armed is delivered exactly once with the time of the first signal; interrupts while disarmed, or left over from an earlier operation, are never delivered.", "quantifier": "every interleaving of arm, disarm, signal and check", "why_tests_cant": "interleavings", "anchors": ["src/ldl_mac.c:inputArm", "src/ldl_mac.c:inputSignal", "src/ldl_mac.c:inputCheck", "src/ldl_mac.c:inputDisarm"]}
{"id": "C41", "title": "Key hierarchy", "statement": "Session keys are exactly those the LoRaWAN specification derives from root key, nonces and identifiers; root keys never change; updating one session key changes no other (up to the documented 1.0.x sharing).", "quantifier": "every root key, nonce, identifier", "why_tests_cant": "all values", "anchors": ["src/ldl_sm.c:LDL_SM_updateSessionKey", "src/ldl_ops.c:LDL_OPS_deriveKeys"]}
{"id": "C42", "title": "Join back-off", "statement": "The off-time imposed on join requests follows the 1%, 0.1%, 0.01% tiers of the first hour, next ten hours and thereafter.", "quantifier": "every time since the first attempt", "why_tests_cant": "hours of simulated time", "anchors": ["src/ldl_mac.c:getOTAAOffTime"]}
{"id": "C43", "title": "Stream cursor safety", "statement": "No sequence of stream reads, writes and seeks ever accesses memory outside the buffer it was initialised with, and once an error occurs no further byte is transferred.", "quantifier": "every sequence of operations and arguments", "why_tests_cant": "unbounded sequences", "anchors": ["src/ldl_stream.c"]}
{"id": "C44", "title": "Device status answer", "statement": "The margin in a DevStatusAns is the 6-bit two's complement of the demodulation SNR clamped to [-32, 31].", "quantifier": "every SNR value", "why_tests_cant": "all 16-bit values", "anchors": ["src/ldl_mac.c:processRX", "src/ldl_mac.c:processCommands", "src/ldl_mac_commands.c:LDL_MAC_putDevStatusAns"]}
{"id": "C45", "title": "Layout of the cryptographic blocks", "statement": "The initial blocks used to encrypt payloads and to compute integrity codes are those of LoRaWAN 4.3.3 and 4.4, for either direction.", "quantifier": "every device address, counter, direction, block index, length, rate and channel", "why_tests_cant": "all values of every field; a mistake in the high bytes of a counter only shows after 65536 frames", "anchors": ["src/ldl_ops.c:initA", "src/ldl_ops.c:initB"]}
{"id": "C46", "title": "Integrity code of an uplink", "statement": "The last four bytes of every uplink are the LoRaWAN integrity code of the rest: CMAC over B0 in a 1.0 session, and the two half codes over B1 and B0 in a 1.1 session, where B1 carries the counter of the confirmed downlink being acknowledged.", "quantifier": "every frame, session and key", "why_tests_cant": "all contents, lengths and session states", "anchors": ["src/ldl_ops.c:LDL_OPS_micDataFrame", "src/ldl_frame.c:LDL_Frame_updateMIC"]}
{"id": "C47", "title": "Session keys over time", "statement": "At every moment while the device is joined, the keys held by the security module are the ones the LoRaWAN specification derives for the session in use, while it is joining with 1.1 they are the join keys of the device, and a restart from the last session handed to the application puts the same keys back.", "quantifier": "every call history and restart, every build version", "why_tests_cant": "keys are the result of every derivation call since start-up, across power cycles", "anchors": ["src/ldl_ops.c:LDL_OPS_deriveKeys", "src/ldl_ops.c:LDL_OPS_deriveJoinKeys", "src/ldl_mac.c:LDL_MAC_init", "src/ldl_mac.c:LDL_MAC_otaa", "src/ldl_mac.c:LDL_MAC_abp"]}
{"id": "C48", "title": "Downlink counter in practice", "statement": "Starting from a new or joined session the high half of the stored downlink counter is always zero, so FCnt alone decides which counter a received frame is checked against; frames made with a larger counter are lost and a delivered frame is delivered again whenever it is received in a window of the same session. If a restored session has a high half between 1 and 65534, every delivered frame moves it on by one whatever its FCnt.", "quantifier": "every call history, session and received frame", "why_tests_cant": "the stored counter is checked against 2^32 values over unbounded histories", "anchors": ["src/ldl_ops.c:deriveDownCounter", "src/ldl_ops.c:LDL_OPS_syncDownCounter", "src/ldl_ops.c:LDL_OPS_receiveFrame", "src/ldl_mac.c:processRX"]}
{"id": "C49", "title": "Uplink payloads are encrypted as specified", "statement": "The application payload of every data frame is encrypted as LoRaWAN specifies: each block is the AppSKey cipher of a block made from the device address and the full 32-bit frame counter.", "quantifier": "every history, key, payload and counter", "why_tests_cant": "the counter must pass 65535 before a wrong block can be seen, and the keys depend on the whole history", "anchors": ["src/ldl_ops.c:LDL_OPS_prepareData", "src/ldl_ops.c:initA", "src/ldl_sm.c:LDL_SM_ctr"]}
{"id": "C50", "title": "Repetitions are alike", "statement": "From the acceptance of a data request until the next one is accepted, every data frame handed to the radio is the same frame, at the same frequency, data rate and power.", "quantifier": "every call history, request and redundancy", "why_tests_cant": "the frame is kept in a buffer shared with received frames and rebuilt between repetitions, over unbounded histories of calls, events and errors", "anchors": ["src/ldl_mac.c:downlinkMissingHandler", "src/ldl_mac.c:externalDataCommand", "src/ldl_ops.c:LDL_OPS_micDataFrame"]}
{"id": "C51", "title": "Listening starts at the planned time", "statement": "If the timer of a receive window is served late, but within the start-up time of the radio's oscillator, listening still starts exactly that start-up time after the moment the timer was set for.", "quantifier": "every latency, tick rate and start-up time, both windows", "why_tests_cant": "the error equals the latency, which is zero under a test clock that steps to the next event", "anchors": ["src/ldl_mac.c:processWait", "src/ldl_mac.c:LDL_MAC_timerAppend"]}
{"id": "C52", "title": "A receive delay of zero means one second", "statement": "As LoRaWAN specifies, a receive delay of zero received from the network is treated as one second, so that the first window is opened after every transmission.", "quantifier": "every way of receiving the delay, every latency", "why_tests_cant": "the setting arrives in a downlink and shows only after the next transmission", "anchors": ["src/ldl_mac.c:processCommands", "src/ldl_frame.c:LDL_Frame_decode", "src/ldl_mac.c:processTX"]}
{"id": "C53", "title": "No division by zero while computing windows", "statement": "For every tick rate LDL_MAC_init allows (1 kHz to 1 MHz) and every data rate, the symbol period by which the receive window computation divides is not zero.", "quantifier": "every tick rate, region and data rate", "why_tests_cant": "tests run at one tick rate; the fault needs a slow clock and a wide band", "anchors": ["src/ldl_mac.c:symbolPeriod", "src/ldl_mac.c:extraSymbols", "src/ldl_mac.c:processTX"]}
{"id": "C54", "title": "A LinkADRReq never leaves the device without a channel", "statement": "A block of LinkADRReq commands that would leave the device without any enabled channel is refused: the channel mask bit of the answer is cleared and the settings stay as they were.", "quantifier": "every block of commands, every region, every session", "why_tests_cant": "the check is written for the largest mask and goes wrong only where the region has fewer channels than the mask has bits", "anchors": ["src/ldl_mac.c:processCommands", "src/ldl_mac.c:allChannelsAreMasked", "src/ldl_region.c:LDL_Region_numChannels"]}
{"id": "C55", "title": "ChMaskCntl values have their regional meaning", "statement": "In the regions with 72 channels every ChMaskCntl value from 0 to 7 that the device acknowledges has the effect the regional parameters give it: 0 to 4 write one bank of sixteen, 5 writes banks of eight, 6 and 7 switch all 125 kHz channels on or off and write the 500 kHz channels from the mask.", "quantifier": "every mask, every ChMaskCntl, every previous mask", "why_tests_cant": "2^16 masks times 8 control values times the previous mask; networks use only a few", "anchors": ["src/ldl_mac.c:processCommands", "src/ldl_mac.c:unmaskChannel"]}
{"id": "C56", "title": "The MAC makes only calls the radio drivers accept", "statement": "Whatever the application, the radio and the network do, the sequence of mode changes, transmit and receive calls the MAC makes follows the protocol of the radio drivers: neither driver reaches LDL_ABORT or a failing check of its mode.", "quantifier": "every history of calls and radio events from every initial state", "why_tests_cant": "an abort needs a particular order of cancel, entropy, interrupt and time-out; tests use a mocked radio that accepts everything", "anchors": ["src/ldl_mac.c:inputSignal", "src/ldl_sx127x.c:LDL_SX127X_setMode", "src/ldl_sx126x.c:LDL_SX126X_setMode"]}
{"id": "C57", "title": "SX127x: what goes on the air is what was asked", "statement": "An SX1272 or SX1276 sends exactly the frames the MAC passes to transmit and listens exactly for what it passes to receive, in the same order, with the asked frequency (to one step of the synthesiser), bandwidth, spreading factor, coding rate, preamble, sync word, CRC, IQ inversion, low data rate optimisation, time-out and length.", "quantifier": "every history, both chips, every content of the unrelated registers", "why_tests_cant": "tests compare the bytes on the bus with recorded ones for a few settings; no test has a model of the chip", "anchors": ["src/ldl_sx127x.c:LDL_SX127X_transmit", "src/ldl_sx127x.c:LDL_SX127X_receive", "src/ldl_sx127x.c:setFreq", "src/ldl_sx127x.c:SX1272_setModemConfig1", "src/ldl_sx127x.c:SX1276_setModemConfig1"]}
{"id": "C58", "title": "SX126x: what goes on the air is what was asked", "statement": "An SX1261, SX1262 or WL55 sends and listens exactly as the MAC asked, in the same order and with the same settings as in C57, for frequencies its register can hold. A call in which the chip refuses a command has no effect on the air, a call in which it accepts all takes effect.", "quantifier": "every history, every pattern of refused commands", "why_tests_cant": "a chip that refuses commands cannot be provoked in a test", "anchors": ["src/ldl_sx126x.c:LDL_SX126X_transmit", "src/ldl_sx126x.c:LDL_SX126X_receive", "src/ldl_sx126x.c:SetRfFrequency", "src/ldl_sx126x.c:SetPacketParams"]}
{"id": "C59", "title": "SX127x: the power is not exceeded", "statement": "The output power of an SX1272 or SX1276 is not above the requested EIRP less the antenna gain, not more than 3 dB below it where the amplifier can give it, and the amplifier in use is the one the board was told of.", "quantifier": "every requested power, antenna gain, amplifier setting and chip", "why_tests_cant": "the steps of two amplifiers on two chips; needs a spectrum analyser", "anchors": ["src/ldl_sx127x.c:SX1272_setPower", "src/ldl_sx127x.c:SX1276_setPower"]}
{"id": "C60", "title": "SX126x: the power is not exceeded", "statement": "The level given to an SX1261, SX1262 or WL55 is in the range of its amplifier, not above the requested EIRP less the antenna gain and less than 1 dB below it where possible; the automatic choice of the WL55 uses the low power amplifier when it suffices.", "quantifier": "every requested power, antenna gain and chip", "why_tests_cant": "as for C59", "anchors": ["src/ldl_sx126x.c:SetPower"]}
{"id": "C61", "title": "Signal strength and signal to noise ratio are reported correctly", "statement": "The signal strength and the signal to noise ratio passed on with a frame are those of the chip's registers by their data sheets.", "quantifier": "every register value", "why_tests_cant": "tests use mocked values that are not negative", "anchors": ["src/ldl_sx127x.c:LDL_SX127X_readBuffer", "src/ldl_sx126x.c:LDL_SX126X_readBuffer", "src/ldl_sx126x.c:GetPacketStatus"]}
{"id": "C62", "title": "Received data, interrupt flags and entropy are read correctly", "statement": "The length returned by read_buffer is the number of bytes stored and not more than the buffer has room for; the interrupt flags are those of the data sheet; each reading of the noise gives one bit of the entropy.", "quantifier": "every length, flag and pattern of refused commands", "why_tests_cant": "a refused command in the middle of a reception cannot be provoked in a test", "anchors": ["src/ldl_sx127x.c:readFIFO", "src/ldl_sx126x.c:LDL_SX126X_readBuffer", "src/ldl_sx127x.c:LDL_SX127X_getStatus", "src/ldl_sx126x.c:LDL_SX126X_getStatus", "src/ldl_sx127x.c:LDL_SX127X_readEntropy"]}
{"id": "C63", "title": "SX126x: the image is calibrated", "statement": "After every cold start the image calibration is the first thing done before transmitting or receiving, is repeated until accepted, and covers the frequency of every channel of the four regions.", "quantifier": "every frequency of the regions, every cold start", "why_tests_cant": "shows only as a loss of sensitivity", "anchors": ["src/ldl_sx126x.c:CalibrateImage", "src/ldl_sx126x.c:LDL_SX126X_setMode"]}
{"id": "C64", "title": "Transmit power", "statement": "Every data frame is sent with the power the session had when it was requested, which is one of the steps of the region, and in AU 915-928 not above the limit given by TxParamSetupReq. Join requests are sent with the highest power of the region under the same limit.", "quantifier": "every history of calls and radio events, every region and power step", "why_tests_cant": "the power is set long before the frame is sent and shows only in the argument to the driver", "anchors": ["src/ldl_region.c:LDL_Region_getTXPower", "src/ldl_mac.c:processStartRadioForTX", "src/ldl_mac.c:LDL_MAC_otaa"]}
{"id": "C65", "title": "Uplink dwell time", "statement": "In US 902-928, and in AU 915-928 while the network limits the dwell time, no frame is on the air for more than 400 ms.", "quantifier": "every history, every frame size and rate", "why_tests_cant": "depends on the combination of rate, channel, size and pending answers", "anchors": ["src/ldl_region.c:LDL_Region_applyUplinkDwell", "src/ldl_mac.c:externalDataCommand", "src/ldl_mac.c:selectJoinChannelAndRate"]}
{"id": "C66", "title": "Join requests keep to the channel plan", "statement": "Every join request is sent on a channel of the region, at a rate that channel allows.", "quantifier": "every history, every region, random number and number of trials", "why_tests_cant": "the channel depends on random numbers and on what was stored before", "anchors": ["src/ldl_mac.c:selectJoinChannelAndRate", "src/ldl_region.c:LDL_Region_getJoinIndex", "src/ldl_region.c:LDL_Region_getJoinRate"]}
{"id": "C67", "title": "Default settings", "statement": "After LDL_MAC_init without a stored session, and after LDL_MAC_forget, the session has the default channels, windows, counters and limits of its region.", "quantifier": "every region, every state before LDL_MAC_forget", "why_tests_cant": "the tests initialise every region but only check the channels they use", "anchors": ["src/ldl_mac.c:initSession", "src/ldl_mac.c:forgetNetwork", "src/ldl_region.c:LDL_Region_getDefaultChannels"]}
{"id": "C68", "title": "Commands have exactly their effect", "statement": "The commands of an accepted downlink change the duty cycle, receive windows, ADR limits, uplink limits and channels to what the last valid command of each kind says, queue the answers to the commands received and no others, and nothing but a downlink, a join, a reset of the session or the application changes those settings.", "quantifier": "every accepted data frame with any sequence of commands, every state, every call", "why_tests_cant": "sequences of commands and the states they meet are unbounded; the tests send one command at a time", "anchors": ["src/ldl_mac.c:processCommands", "src/ldl_region.c:LDL_Region_validateFreq", "src/ldl_mac.c:setChannel", "src/ldl_mac.c:getChannel"]}
{"id": "C69", "title": "Refused settings are not taken over", "statement": "A channel, data rate or frequency that the region does not allow is refused in the answer and not taken over.", "quantifier": "every accepted data frame with any sequence of commands, every region", "why_tests_cant": "the frequencies, rates and regions are too many to list", "anchors": ["src/ldl_mac.c:processCommands", "src/ldl_region.c:LDL_Region_validateFreq", "src/ldl_region.c:LDL_Region_validateRate"]}
{"id": "C70", "title": "Answers of the network reach the application", "statement": "LinkCheckAns and DeviceTimeAns are handed to the application in the order received, and the time handed over is that of the network plus the time since the uplink.", "quantifier": "every accepted data frame, every clock rate and value of the tick counter", "why_tests_cant": "the tick counter wraps after weeks", "anchors": ["src/ldl_mac.c:processCommands", "src/ldl_mac.c:timerDelta"]}
{"id": "C71", "title": "The device asks to be called when a sub-band is free", "statement": "After every LDL_MAC_process the timer of the sub-bands runs out less than a second after a channel may become available and not before, and is off when there is nothing to wait for.", "quantifier": "every history, every clock rate from 128 ticks per second, every set of off-times below the saturation value", "why_tests_cant": "off-times and clock rates are combined over histories of any length", "anchors": ["src/ldl_mac.c:setNextBandEvent", "src/ldl_mac.c:LDL_MAC_process"]}
{"id": "C72", "title": "Downlinks are decrypted as LoRaWAN says", "statement": "The payload handed to the application is that of a received frame, decrypted with the AppSKey of the session and the counter the integrity code was checked with; the commands of a frame are decrypted with the NwkSEncKey.", "quantifier": "every history, every session joined or restored, every frame and key", "why_tests_cant": "the counter has 32 bits and its high half is seldom tested; keys and payloads are arbitrary", "anchors": ["src/ldl_ops.c:LDL_OPS_receiveFrame", "src/ldl_sm.c:LDL_SM_ctr"]}
{"id": "C73", "title": "Genuine downlinks are delivered", "statement": "A data frame that the network encrypted and signed as LoRaWAN says is accepted in a receive window and its payload handed to the application once and unchanged.", "quantifier": "every history, every session without a high half of the counter, every payload, port and key", "why_tests_cant": "the histories, payloads and keys are arbitrary", "anchors": ["src/ldl_ops.c:LDL_OPS_receiveFrame", "src/ldl_mac.c:LDL_MAC_process"]}
{"id": "C74", "title": "Nothing is used twice after power cycles of an mbed device", "statement": "An mbed device whose store keeps what it is given, powered off at any moment and started again any number of times, never sends a join request with a devNonce used before, never accepts a join accept again and never uses a frame counter for two messages of a session.", "quantifier": "every number of power cycles, each ended after any output, every history in each of them, every region, build and security module", "why_tests_cant": "power can fail after any output, and the failure shows after 65536 joins", "anchors": ["wrappers/mbed/mac.cpp:MAC::app_handler", "wrappers/mbed/mac.cpp:MAC::start", "wrappers/mbed/store.h:Store::save_next_dev_nonce"]}
{"id": "C75", "title": "Blocking methods report how their operation ended", "statement": "A method of the mbed class Device that waits for an operation of the MAC returns exactly once the operation has ended, and returns what the event that ended it means, or the status with which the MAC refused it; entropy() returns the number the MAC delivered.", "quantifier": "every interleaving of the threads that call methods, the worker thread and radio interrupts, every history of the MAC, every build and region", "why_tests_cant": "the outcome depends on the interleaving of threads", "anchors": ["wrappers/mbed/device.cpp:Device::data_service", "wrappers/mbed/device.cpp:Device::otaa", "wrappers/mbed/device.cpp:Device::entropy", "wrappers/mbed/device.cpp:Device::handle_mac_event"]}
{"id": "C76", "title": "A message waits for a radio band and is then sent", "statement": "Device::unconfirmed and Device::confirmed block until a radio band is available and then send the message, as _device.h says.", "quantifier": "every interleaving of threads, every history", "why_tests_cant": "tests use a device that may send at once", "anchors": ["wrappers/mbed/device.cpp:Device::data_service", "wrappers/mbed/_device.h"]}
{"id": "C77", "title": "cancel() ends the operation and nothing else", "statement": "Device::cancel ends the operation in progress, the method waiting for it returns CANCELLED, and the device remains joined.", "quantifier": "every operation at any moment, every history", "why_tests_cant": "cancel can come at any moment of an operation", "anchors": ["wrappers/mbed/device.cpp:Device::do_cancel", "wrappers/mbed/_device.h"]}
{"id": "C78", "title": "The receive windows are tuned to the uplink before them", "statement": "Whenever the radio is told to listen, it is for one of the two windows after the last transmission: the first on the frequency that belongs to the uplink channel and at the rate of the uplink less the RX1 offset, the second on the frequency and rate set for it.", "quantifier": "every region, build, configuration and history of calls and radio answers", "why_tests_cant": "channel, rate, offset and second-window settings change by commands, join accepts and back-off between any two uplinks", "anchors": ["src/ldl_mac.c:LDL_MAC_process", "src/ldl_region.c:LDL_Region_getRX1Freq", "src/ldl_region.c:LDL_Region_getRX1DataRate"]}
{"id": "C79", "title": "An answer to the network is sent once, or until a downlink", "statement": "The answer to a command of the network is sent in the next uplink and not again, except that RXParamSetupAns, DlChannelAns and RXTimingSetupAns are repeated in every uplink until a downlink arrives.", "quantifier": "every kind of answer, build and history without a downlink", "why_tests_cant": "requests, retransmissions, cancellations, radio errors and settings can come in any order between two downlinks", "anchors": ["src/ldl_mac.c:externalDataCommand", "src/ldl_mac.c:clearPendingCommand"]}
{"id": "C80", "title": "Confirmed downlinks are acknowledged by the next uplink", "statement": "Every data frame sent for a message has the ACK bit set if and only if the last data frame accepted was a confirmed one and no transmission has ended since; it has the ADR bit set if and only if ADR is in use.", "quantifier": "every history since LDL_MAC_init, every message taken and every transmission of it", "why_tests_cant": "the acknowledgement must survive cancellations, errors and refused requests between the downlink and the next uplink, in any order", "anchors": ["src/ldl_mac.c:externalDataCommand", "src/ldl_mac.c:processRX", "src/ldl_mac.c:processTX"]}
{"id": "C81", "title": "The device asks for an answer when none has come for long", "statement": "After ADR_ACK_LIMIT uplinks without a downlink the next uplinks have the ADRACKReq bit set until a downlink arrives.", "quantifier": "every history without a downlink, every limit and delay", "why_tests_cant": "the count runs over hundreds of uplinks, each with its own requests, repetitions and errors", "anchors": ["src/ldl_mac.c:adaptRate", "src/ldl_mac.c:externalDataCommand"]}
{"id": "C82", "title": "The application is told about every change of the session", "statement": "After every call the session handed over last by LDL_MAC_SESSION_UPDATED is the session in use, so that a device restarted from it goes on where it was.", "quantifier": "every history of calls and radio events, every build and region", "why_tests_cant": "a change that is not told shows only if power fails before the next one that is", "anchors": ["src/ldl_mac.c:pushSessionUpdate", "src/ldl_mac.c:LDL_MAC_maskChannel", "src/ldl_mac.c:LDL_MAC_addChannel", "src/ldl_mac.c:LDL_MAC_abp"]}
{"id": "C83", "title": "Ready means that a message would be taken", "statement": "LDL_MAC_ready answers true exactly when a joined device would not refuse a data request because it is busy or has no channel.", "quantifier": "every history of calls and radio events, every build and region, every mask, set of channels and state of the off-time", "why_tests_cant": "the answer depends on the off-time of every band, on the mask and on the channels the network has defined, in every combination", "anchors": ["src/ldl_mac.c:LDL_MAC_ready", "src/ldl_mac.c:timeUntilNextChannel", "src/ldl_mac.c:timeUntilAvailable", "src/ldl_mac.c:externalDataCommand"]}
{"id": "C84", "title": "The size told to the application is the size that is taken", "statement": "When the device is ready, a message of at most LDL_MAC_mtu octets is taken whole and a longer one is not.", "quantifier": "every history, build and region, every set of answers waiting, every message and option", "why_tests_cant": "thirteen kinds of answers may wait in any combination at every data rate of four regions", "anchors": ["src/ldl_mac.c:LDL_MAC_mtu", "src/ldl_mac.c:externalDataCommand"]}
{"id": "C85", "title": "An interrupt during a call does no harm", "statement": "When the radio interrupt arrives while LDL_MAC_process is running, at whatever place, the outcome is that of an interrupt before or after the call, or the call resets an overdue radio and the interrupt leaves only a flag, which the next call takes away.", "quantifier": "every history of calls with interrupts within them, every build and region, every set of interrupts at every place of a call", "why_tests_cant": "the place at which an interrupt arrives cannot be chosen by a test, and the window for the overdue case is a few instructions wide", "anchors": ["src/ldl_mac.c:LDL_MAC_process", "src/ldl_mac.c:LDL_MAC_radioEvent", "src/ldl_mac.c:inputSignal", "src/ldl_mac.c:inputCheck", "src/ldl_mac.c:inputArm", "src/ldl_mac.c:inputDisarm", "src/ldl_mac.c:handleRadioError"]}
{"id": "C86", "title": "Operations end when the MAC is driven in time", "statement": "If nothing is cancelled and LDL_MAC_process is called in time for the receive windows, the timer or off-time that the MAC waits for is always running, a call made when it has come takes the next step, and every accepted operation ends after a bounded number of such steps.", "quantifier": "every timely history, every build and region, every kind of operation, every outcome of the radio", "why_tests_cant": "a test shows that some operations end; this bounds all of them, over every interleaving of calls, timers and radio outcomes", "anchors": ["src/ldl_mac.c:LDL_MAC_process", "src/ldl_mac.c:processWait", "src/ldl_mac.c:processTX", "src/ldl_mac.c:processRX", "src/ldl_mac.c:downlinkMissingHandler", "src/ldl_mac.c:handleRadioError", "src/ldl_mac.c:processBands"]}
{"id": "C87", "title": "A join accept is taken as it was sent", "statement": "A genuine join accept that arrives in a receive window is always taken, nothing else makes the device report that it joined, and the session that starts has the address, network, receive settings, channels and version the accept carries, zero counters, everything else as before, and takes nothing from reserved bits.", "quantifier": "every call history, every accept, every build version and region", "why_tests_cant": "all contents of the accept and all states in which it can arrive", "anchors": ["src/ldl_mac.c:processRX", "src/ldl_ops.c:LDL_OPS_receiveFrame", "src/ldl_frame.c:LDL_Frame_decode", "src/ldl_region.c:LDL_Region_processCFList"]}
{"id": "C88", "title": "An unanswered confirmed message is repeated after a doubling wait", "statement": "A confirmed message that has been transmitted n times without an answer is transmitted again 2^n seconds after its last receive window is done with, not earlier, and at the first call of LDL_MAC_process after that; an unconfirmed message is repeated without a wait.", "quantifier": "every history of requests and radio outcomes, every build, region and tick rate, every number of repetitions", "why_tests_cant": "the wait depends on the tick rate, the number of tries and where the tick counter wraps; a test runs a few of these, and no test shows that nothing is sent in between whatever is called", "anchors": ["src/ldl_mac.c:downlinkMissingHandler", "src/ldl_mac.c:LDL_MAC_timerSet", "src/ldl_mac.c:LDL_MAC_timerCheck", "src/ldl_mac.c:processWait", "src/ldl_mac.c:processRX2Lockout"]}
{"id": "C89", "title": "Join requests are spread over a random time", "statement": "Every transmission of a join request, the first and each later one, is held back by a random time drawn after its off-time is over: any number of ticks below otaaDither seconds and none when otaaDither is zero. Nothing is transmitted before it is over, and the first call of LDL_MAC_process after it starts the transmission.", "quantifier": "every history of requests and radio outcomes, every build, region, tick rate and otaaDither, every random number", "why_tests_cant": "the wait depends on a random number, the tick rate and the setting, whose product can wrap to zero; tests use one tick rate and a random source they choose, and cannot show that no path leaves the draw out", "anchors": ["src/ldl_mac.c:processWaitOTAA", "src/ldl_mac.c:processRadioBoot", "src/ldl_mac.c:downlinkMissingHandler", "src/ldl_mac.c:LDL_MAC_timerSet", "include/ldl_mac.h:ldl_mac_init_arg"]}
{"id": "C90", "title": "Receive windows open on time", "statement": "After a transmission the radio is told nothing until the first window is due. The first call of LDL_MAC_process from then on starts the oscillator, and if that call is on time, the first call at or after the nominal time of the window less the advance and the lead tells the radio to listen, for the planned number of symbols. If the first window closes empty, the same holds of the second window, one second later. The planned time takes in five symbols of every frame whose start is off by no more than half the clock error.", "quantifier": "every history before and every call made meanwhile other than one that stops the operation, every build, region, tick rate, clock error setting and lateness of calls, on a clock that wraps", "why_tests_cant": "the time to listen comes from three timers set at different times on a wrapping clock, with calls at arbitrary times and other requests in between; a simulated test drives the MAC at one rhythm", "anchors": ["src/ldl_mac.c:processTX", "src/ldl_mac.c:processWait", "src/ldl_mac.c:processStartRadioForRX1", "src/ldl_mac.c:processStartRadioForRX2", "src/ldl_mac.c:processRX", "src/ldl_mac.c:LDL_MAC_timerSet", "src/ldl_mac.c:LDL_MAC_timerCheck"]}
{"id": "C91", "title": "A packet meant for others does not cost the second window", "statement": "If a packet received in the first window is not a downlink the device accepts, the second window still opens; only a frame meant for the device, with the right integrity code, ends listening.", "quantifier": "every history, every packet received, every sequence of calls afterwards", "why_tests_cant": "needs foreign traffic in the window, and tests feed the MAC frames made for it; that no later call opens the window concerns every continuation", "anchors": ["src/ldl_mac.c:processRX", "src/ldl_mac.c:downlinkMissingHandler", "src/ldl_mac.c:LDL_MAC_process"]}
{"id": "C92", "title": "Join requests carry the right integrity code", "statement": "Every frame transmitted while joining, repetitions included, is a join request for the device's own identifiers whose integrity code is the CMAC of its header, identifiers and nonce under the root key: NwkKey in a 1.1 build and AppKey in older builds, also after an earlier session. A frame is transmitted only for a join or a data request.", "quantifier": "every root key pair, identifiers, region, version, history of calls and interrupts, time and call after it", "why_tests_cant": "a test checks the code of a few join requests, seldom that of a repeated one or of one made after an earlier session", "anchors": ["src/ldl_ops.c:LDL_OPS_prepareJoinRequest", "src/ldl_mac.c:fillJoinBuffer", "src/ldl_mac.c:downlinkMissingHandler", "src/ldl_sm.c:LDL_SM_mic", "src/ldl_frame.c:LDL_Frame_updateMIC"]}
