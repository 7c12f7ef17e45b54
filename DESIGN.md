# Formal model of lora_device_lib (LDL)

The C sources in /repo are modelled by hand as total Gallina functions, and the
properties of `properties.jsonl` are proved about them in Coq 8.16.1.

## Conventions

* C unsigned integers are `Z`, with every narrowing or wrap written explicitly
  (`u8`, `u16`, `u32`); signed integers are `Z` with `s8`, `s16` where the code
  narrows. Byte buffers are `list Z`; list indices and fuel are `nat`.
* A function that changes `*self` becomes a function from the record to the record.
* Loops are structural recursion, or recursion on fuel with a proof that the
  fuel is never used up.
* The environment (clock, random numbers, battery, radio status, received bytes)
  is an argument of each step. The security module is part of the configuration
  and any function; theorems that need more of it say so (`in_place`, `octets`,
  `fixed_root`) and ModuleP proves that the default module meets it.
* A history is a list of calls, each with its environment. `run` carries it out.
  What leaves the MAC (events, calls of the radio) is recorded in order in
  `m_log`; `items` lists requests with their results and outputs. The properties
  are stated over these lists wherever they can be observed from outside.
* Build options that change behaviour (LoRaWAN version, region, SF12, errata,
  TX_PARAM_SETUP) are parameters, so the theorems hold for each build.
* Undefined behaviour and division by zero are outcomes of their own where the
  code can reach them (C43, C53), not values.

## Files

`*M.v` model the code and contain no proofs; each definition cites its lines in
/repo. `Spec*.v` say what is expected, from the LoRaWAN, NIST, IETF and Semtech
documents, independently of the model. `*P.v` contain the proofs.
`Properties*.v` contain the final theorems with `Print Assumptions`, and beside
each an `Example` that meets its hypotheses. `Scenario.v` has the configurations
and histories of the examples.

## The properties

Status: *proved*, or *partial* when the full claim is false of the code (the theorems
named `_refuted` are witnesses) or not fully proved; the note of the property in
MANIFEST.json says what is missing.

| id | property | status | modelled | proof | in |
|----|----------|--------|----------|-------|----|
| C01 | Uplink frame counters never repeat within a session | partial | MAC, output log | invariant over histories that numbers the frames handed to the radio; refuted at the last counter | PropertiesCounter |
| C02 | Uplink counters survive a crash | proved | MAC, restarts from the session handed over last | invariant, induction over power cycles | PropertiesCounter |
| C03 | Join nonces are never reused | proved | join requests, restarts from the nonce announced last | invariant, induction over power cycles | PropertiesCounter |
| C04 | Join accept replay protection | proved | join accept handling, security module | invariant, induction over power cycles; the default module is shown to meet the assumptions made of a module | PropertiesRx |
| C05 | Downlink replay protection | partial | downlink counter, LDL_OPS_receiveFrame | witness of a replay; at most one delivery per request | PropertiesRx |
| C06 | Unauthenticated frames change nothing | proved | receive path | two histories that differ in a frame that is not genuine are compared step by step | PropertiesRx |
| C07 | Uplink keystream is never reused | partial | CTR blocks of uplinks | disjointness below 65535 requests, witness beyond | PropertiesUp |
| C08 | Message integrity code is AES-CMAC | partial | ldl_cmac.c, LDL_SM_* | equality with RFC 4493; witness at 256 bytes | PropertiesCrypto |
| C09 | CMAC does not depend on how the message is split | proved | CMAC context | invariant on buffer, chain value and size; induction on the pieces | PropertiesCrypto |
| C10 | AES block cipher conforms to FIPS-197 | proved | ldl_aes.c | equality with FIPS-197 round by round; S-box by sweep of 256 values | PropertiesCrypto |
| C11 | CTR encryption is an involution that preserves length | proved | ldl_ctr.c | induction on blocks | PropertiesCrypto |
| C12 | Data frame layout | proved | ldl_frame.c encoder | symbolic execution of streams | PropertiesFrame |
| C13 | Downlink decoder is total, in bounds and exact | partial | ldl_frame.c decoder | case analysis; witness for FOptsLen past the end | PropertiesFrame |
| C14 | Frame encode/decode round trip | proved | encoder and decoder | decoder applied to the grammar of SpecFrame; injectivity | PropertiesFrame |
| C15 | Join request and join accept formats | proved | join and rejoin frames | symbolic execution of streams | PropertiesFrame |
| C16 | MAC command parsing | partial | ldl_mac_commands.c | induction on the field against SpecCmd; witness for ForceRejoinReq | PropertiesCmd |
| C17 | MAC answers always fit | proved | answer queue | equality with the answers of SpecAnswer and a bound on their size | PropertiesCmd |
| C18 | Channel selection is sound and complete | partial | channel selection | loop invariants, completeness by counting; invariant over histories | PropertiesChan |
| C19 | Channel hopping | partial | channel selection | invariant linking the last channel and the next; witnesses | PropertiesChan |
| C20 | Timers never fire early | proved | timers | arithmetic modulo 2^32 with unbounded real time beside it | PropertiesTime |
| C21 | Sleeping until the next event never misses it | partial | timers | the same; witness for the tick lost | PropertiesTime |
| C22 | Duty-cycle clock is exact | partial | off-time clock | invariant linking remainder and total; witness for the tick lost | PropertiesTime |
| C23 | Duty-cycle limits are enforced | partial | off-time, whole histories | invariant between the end of a transmission and the next request; witnesses | PropertiesWait |
| C24 | Busy exclusion | proved | MAC | case analysis of every request in every busy state | PropertiesMac |
| C25 | Exactly one completion per operation | partial | MAC | invariant on (state, operation) and the log; witness that never ends | PropertiesMac |
| C26 | Cancel returns the MAC to service | partial | LDL_MAC_cancel | invariant of the dead state under every schedule | PropertiesMac |
| C27 | Retransmission bound | proved | repetitions | invariant counting frames since the request | PropertiesChan |
| C28 | Frame size respects the data rate | partial | frame sizes | invariant; witnesses | PropertiesChan |
| C29 | Refused requests leave no trace | proved | refused requests | case analysis | PropertiesMac |
| C30 | LinkADR is all or nothing | partial | LinkADRReq | induction on the field; witnesses | PropertiesAdr |
| C31 | ADR back-off reaches the most robust settings | partial | ADR back-off | induction over histories without downlinks; witness | PropertiesAdr |
| C32 | Session parameters stay valid | proved | session settings | invariant over histories | PropertiesChan |
| C33 | Session restore is guarded | proved | LDL_MAC_init | case analysis; invariant for the keys | PropertiesCounter, PropertiesKey |
| C34 | Air time arithmetic | partial | LDL_Radio_getAirTime | arithmetic against the data sheet formula | PropertiesRegion |
| C35 | Receive windows open at the right time | partial | processTX and the window timers | arithmetic with ranges | PropertiesWindow |
| C36 | RX1 data rate lookup | proved | regional tables | finite sweep | PropertiesRegion |
| C37 | Regional parameters are consistent | partial | regional tables | finite sweeps lifted by lemmas; witness | PropertiesRegion |
| C38 | Channel table integrity | partial | channel table | bit field lemmas; witnesses | PropertiesRegion |
| C39 | Second receive window is always used | partial | state machine | witness schedule; the mechanism proved for every state | PropertiesMac |
| C40 | Radio interrupts are delivered once and only when expected | partial | interrupts | invariant against an abstract mailbox | PropertiesRadio |
| C41 | Key hierarchy | proved | key derivation | equality with the blocks of SpecSm; invariant of the key store | PropertiesCrypto |
| C42 | Join back-off | partial | join back-off | interval arithmetic, invariant; witness | PropertiesTime |
| C43 | Stream cursor safety | partial | ldl_stream.c | invariant over any sequence of operations; witness | PropertiesFrame |
| C44 | Device status answer | proved | device status | finite sweep | PropertiesRegion |
| C45 | Layout of the cryptographic blocks | proved | A and B blocks | computation with symbolic bytes | PropertiesCrypto |
| C46 | Integrity code of an uplink | partial | LDL_OPS_micDataFrame | equality with SpecSm; witness for ConfFCnt | PropertiesCrypto, PropertiesUp |
| C47 | Session keys over time | partial | key store over histories | invariant; witness for ABP | PropertiesKey |
| C48 | Downlink counter in practice | proved | downlink counter over histories | invariant on the two halves | PropertiesEffect, PropertiesRx |
| C49 | Uplink payloads are encrypted as specified | partial | uplink payload over histories | invariant with the real module; witness beyond 65535 | PropertiesUp |
| C50 | Repetitions are alike | proved | repetitions | invariant on the transmit buffer | PropertiesChan |
| C51 | Listening starts at the planned time | partial | window timers | exact arithmetic; witness | PropertiesWindow |
| C52 | A receive delay of zero means one second | partial | RXTimingSetupReq | case analysis; witness | PropertiesWindow |
| C53 | No division by zero while computing windows | partial | processTX | exact condition; witness | PropertiesWindow |
| C54 | A LinkADRReq never leaves the device without a channel | partial | LinkADRReq | case analysis of masks; witness | PropertiesAdr |
| C55 | ChMaskCntl values have their regional meaning | partial | LinkADRReq | bit lemmas; witnesses | PropertiesAdr |
| C56 | The MAC makes only calls the radio drivers accept | proved | MAC on top of both drivers | invariant on the mode of the radio | PropertiesDriver |
| C57 | SX127x: what goes on the air is what was asked | partial | SX127x driver on a register model of the chip | induction over histories with driver and chip state; witness | PropertiesDriver |
| C58 | SX126x: what goes on the air is what was asked | proved | SX126x driver on a command model of the chip | the same, for every pattern of refused commands | PropertiesDriver |
| C59 | SX127x: the power is not exceeded | partial | SX127x power | linear arithmetic and sweeps; witnesses | PropertiesDriver |
| C60 | SX126x: the power is not exceeded | partial | SX126x power | the same | PropertiesDriver |
| C61 | Signal strength and signal to noise ratio are reported correctly | partial | signal reports | sweeps and arithmetic; witnesses | PropertiesDriver |
| C62 | Received data, interrupt flags and entropy are read correctly | partial | receive, status and entropy of the drivers | symbolic execution; witness | PropertiesDriver |
| C63 | SX126x: the image is calibrated | proved | image calibration | sweep of the bands | PropertiesDriver |
| C64 | Transmit power | proved | transmit power | invariant; table checked against the regional parameters | PropertiesPower |
| C65 | Uplink dwell time | partial | dwell time | invariant; witnesses | PropertiesPower |
| C66 | Join requests keep to the channel plan | partial | join channels | invariant; witness | PropertiesPower |
| C67 | Default settings | partial | default settings | computation per region; witnesses | PropertiesPower |
| C68 | Commands have exactly their effect | partial | commands of downlinks | induction on the field against SpecEffect; witness | PropertiesEffect |
| C69 | Refused settings are not taken over | partial | refused settings | the same; witnesses | PropertiesEffect |
| C70 | Answers of the network reach the application | partial | LinkCheckAns, DeviceTimeAns | the same; witness | PropertiesEffect |
| C71 | The device asks to be called when a sub-band is free | proved | band timer | invariant on timer and counters over histories | PropertiesWake |
| C72 | Downlinks are decrypted as LoRaWAN says | partial | decryption | invariant with any module; witness with a real key | PropertiesDown |
| C73 | Genuine downlinks are delivered | proved | delivery | composition of C14, C46 and C72 | PropertiesDown |
| C74 | Nothing is used twice after power cycles of an mbed device | partial | mbed MAC class and store | composition of C02, C03 and C04 over power cycles; witness | PropertiesMbed |
| C75 | Blocking methods report how their operation ended | partial | mbed Device class, threads as interleaved moves | invariant over interleavings; witnesses | PropertiesDevice |
| C76 | A message waits for a radio band and is then sent | partial | Device::data_service | case analysis of moves; witnesses | PropertiesDevice |
| C77 | cancel() ends the operation and nothing else | partial | Device::cancel | composition of C75 and LDL_MAC_forget; witness | PropertiesDevice |
| C78 | The receive windows are tuned to the uplink before them | proved | LDL_MAC_process (RX1/RX2 states), getRX1Freq, getRX1DataRate, convertRate | invariant over histories: while an operation waits, tx_rate, tx_chIndex and region are those of the last OTransmit of the log | PropertiesListen |
| C79 | An answer to the network is sent once, or until a downlink | partial | externalDataCommand, setPendingCommand, clearPendingCommand, LDL_MAC_process | induction over histories, case analysis of every step; witness | PropertiesOnce |
| C80 | Confirmed downlinks are acknowledged by the next uplink | proved | externalDataCommand, LDL_Frame_putData, LDL_MAC_process (TX, RX1, RX2), forgetNetwork | induction over histories with an exact account of pendingACK; layout of the frame; all transmissions of a message are alike (C50) | PropertiesAck |
| C81 | The device asks for an answer when none has come for long | partial | adaptRate, externalDataCommand, LDL_Frame_putData | induction over histories on the pair of the ADR settings and the bit; witness | PropertiesAck |
| C82 | The application is told about every change of the session | partial | LDL_MAC_init, pushSessionUpdate and all calls of the MAC | induction over histories: every step that changes the session tells it last; witness | PropertiesTold |
| C83 | Ready means that a message would be taken | partial | LDL_MAC_ready, timeUntilNextChannel, timeUntilAvailable, externalDataCommand | minimum over the channels, bands in range over histories, request unfolded once; witness | PropertiesPoll |
| C84 | The size told to the application is the size that is taken | partial | LDL_MAC_mtu, externalDataCommand | closed formula for the size in the length of the command string, compared with the verdict on a request; witnesses | PropertiesPoll |
| C85 | An interrupt during a call does no harm | proved | LDL_MAC_process again with a possible interrupt around every access to the inputs (MacIntM), each access being a critical section of the code | Every other step is shown to commute with the inputs (IntP.lets), so interrupts are moved to the front or the end of the call; the inputs are armed only while the radio is on (as in C40), which leaves three states to consider. | PropertiesInt |
| C86 | Operations end when the MAC is driven in time | proved | the whole MAC over histories: LDL_MAC_process with every state, and all requests | An invariant says for every state which timers run (EndsP.always_awaits); a measure of tries left and of states to pass falls with every step that acts (EndsP.dispatch_fewer), and no other call raises it (EndsP.api_counts). | PropertiesEnds |
| C87 | A join accept is taken as it was sent | partial | LDL_OPS_receiveFrame, LDL_Frame_decode, processRX, LDL_Region_processCFList, LDL_MAC_process | Decoding the opened frame inverts accept_bytes (FrameRtP.join_complete), so the integrity code compared is the one of the accept (JoinedP.accept_received); the session is computed field by field (JoinedP.joined_ctx); an invariant says that a session that is not joined is unused (JoinedP.unused_always). | PropertiesJoined |
| C88 | An unanswered confirmed message is repeated after a doubling wait | partial | downlinkMissingHandler, processRX, processRX2Lockout, processWait, the timers, over histories of all requests | The value of the timer is computed from downlinkMissing (RetryP.missing_again); an invariant shows that the second timer is off in the lock-out (RetryP.locked_always); while waiting only that timer can act, for any sequence of calls (RetryP.waits_until), with the arithmetic of timerDelta around the wrap of the counter; the number of transmissions is that of C27 (TriesP.tries_sent). | PropertiesRetry |
| C89 | Join requests are spread over a random time | partial | processWaitOTAA, processRadioBoot, downlinkMissingHandler, processWait, the timers, all requests | The outcome of the draw is computed (DitherP.wait_otaa) with an invariant that the second timer is off outside the receive windows (DitherP.closed_always) and that the setting never changes (DitherP.always_dither); that a join becomes due only there is by cases over every call (DitherP.act_only); the wait itself is that of C88 (RetryP.waits_until). | PropertiesDither |
| C90 | Receive windows open on time | proved | processTX, processWait, processStartRadioForRX1 and RX2, the timeout in processRX, the timers, all requests made meanwhile | The plan of C35 gives the timers; that nothing is told to the radio while a timer runs is by induction over the calls (OnTimeP.hold_until), each step of the window is computed (OnTimeP.fire_A, open_A, close_1, fire_B, open_B), and the coverage is arithmetic over ceil_div (OnTimeP.covers). | PropertiesOnTime |
| C91 | A packet meant for others does not cost the second window | partial | processRX, downlinkMissingHandler, every other call | The states after a packet are computed (ForeignP.packet_off); that they are left for a window only by a transmission is by cases over every call and induction over the history (ForeignP.act_off, off_run). | PropertiesForeign |
| C92 | Join requests carry the right integrity code | proved | prepareJoinRequest, fillJoinBuffer, every MAC call, the security module with AES and CMAC | The invariant that the buffer of a joining device holds such a request is kept by every call (JoinMicP.auth_act, auth_always); the root key is not changed by any key update (ModuleP.root_kept) and the module's MIC is the specified CMAC (SmP.SM_mic_spec). | PropertiesJoinMic |

## What is modelled

| code | model |
|------|-------|
| src/ldl_stream.c | StreamM |
| src/ldl_frame.c | FrameM |
| src/ldl_mac_commands.c | CommandsM |
| src/ldl_aes.c, ldl_cmac.c, ldl_ctr.c, ldl_sm.c | AesM, CmacM, CtrM, SmM |
| src/ldl_ops.c | OpsM |
| src/ldl_region.c | RegionM |
| src/ldl_radio.c | RadioM (arithmetic), DriverM (calls) |
| src/ldl_mac.c, include/ldl_mac.h, ldl_mac_internal.h | MacStateM, MacUtilM, MacCmdM, MacProcM, MacApiM |
| src/ldl_sx127x.c, ldl_sx126x.c, ldl_chip.h | SX127xM, SX126xM, ChipM; the chips themselves in SpecChip |
| wrappers/mbed/mac.cpp, store.h, default_store.h | MbedM |
| wrappers/mbed/device.cpp | DeviceM |

## What is not modelled

* Debug and trace output, assertions (LDL_PEDANTIC), AVR program memory access.
* Getters that return one field (LDL_MAC_joined, getRate, getPower, getADR,
  getMaxDCycle, getTicks, getFPending, getAckPending).
* The functions that write Class B commands (LDL_MAC_putPingSlotInfoReq and three
  others), which nothing calls; reading Class B commands is modelled.
* LDL_MAC_setUnlimitedDutyCycle, LDL_Radio_setEventCallback and
  handleInterrupt, commands of the SX126x the driver defines but never uses, the
  default functions for random numbers and battery level.
* The critical sections of the code are taken as atomic. Interrupts within a call
  are modelled for C85 only; there they are shown to be the same as interrupts
  between calls, which is what the other properties use.
* The mbed wrapper beyond MAC, Store and Device (SPI access, pins), the Ruby
  wrapper, the examples and the tests.
* Of Device: the semaphores that only order requests, the callbacks, deep sleep.
* Real time: the clock of a history may take any values; theorems about time
  say what they assume of it.
* Simplifications of single definitions are stated in their comments.

## Where the code differs from the property

These are recorded as theorems named `_refuted`; each contains a history or an
input that can be followed in the C code.

* C01 uplink counter wraps at 2^32 and is used again.
* C05, C48, C72 downlink counter: replays are accepted; the payload is decrypted
  with 16 bits of the counter, the integrity code checked with 32.
* C07, C49 uplink payloads are encrypted with 16 bits of the counter.
* C08 the integrity code of a 244 byte frame leaves out its last block.
* C13 FOptsLen past the end of the frame is read from the MIC.
* C16 fields of ForceRejoinReq; C55 ChMaskCntl 5, 6 and 7.
* C18, C19, C28 the channel chosen may lack the data rate, repetitions stay on
  one channel.
* C20, C21, C22, C40, C70 one tick is lost when the counter wraps.
* C23, C42 idle time counts as time waited before the first transmission.
* C25, C39 the RX2 timer is lost if it ends during RX1: the operation never ends.
* C26 LDL_MAC_cancel stops the MAC for good outside start-up.
* C30, C54 a LinkADRReq block cut short changes the mask; all channels off.
* C31 back-off stops before the lowest data rate.
* C34 air time of a packet without header; C53 division by zero.
* C37, C38, C66, C67, C69 channels and defaults of other regions; unchecked
  settings.
* C46 ConfFCnt of 1.1 uplinks is always 0; C47 keys of ABP sessions are replaced.
* C51, C52 listening starts early by the latency; a delay of 0 is taken literally.
* C57, C59 to C62 drivers: frequency register, powers below range, signs.
* C65 AU 915-928 dwell time; C68 DlChannelReq is acknowledged and ignored.
* C74 devNonce is stored with 16 bits; C75 stale and shared flags; C76 a message
  that waited is not sent; C77 cancel() forgets the network.
* C79 an answer is lost with the message that would have carried it.
* C81 ADRACKReq comes one uplink late and is given up after 255 uplinks.
* C82 channels added or masked by the application, and LDL_MAC_abp, are not told.
* C84: `LDL_MAC_mtu` carries the data rate through all channels, so where
  channels differ in their rates (US902-928, AU915-928) it answers for the rate
  of the last ones: 242 octets after a join at the lowest rate, where 12 are
  refused.  It does not count the answer to TXParamSetupReq.
* C83: while the radio is being reset after a cancel or an error
  `LDL_MAC_ready` is false although a request is taken.
* C85: an interrupt that arrives after `LDL_MAC_process` has looked at the
  inputs but before it resets an overdue radio leaves its flag behind. The next
  call takes the flag away in place of a timer, so the reset takes one call
  longer.
* C87: the reserved upper half of the RxDelay octet of a join accept is used as part of the delay (ldl_frame.c:159-165).
* C88: the back-off of confirmed messages wraps at 31 bits: with 1 MHz ticks the wait after the 12th transmission is 1949 s, not 4096 s.
* C89: otaaDither is documented in ticks but taken as seconds, and the divisor tps * otaaDither can wrap to zero.
* C91: any packet in the first window, also one for another device, ends listening; the second window does not open.

## Wrong programs

`seeded/LOG.jsonl` has 157 entries, one for each edit of the model that imitates a
bug: the definition, the edit, the claim it breaks, the theorems that failed, and
the theorems that were tightened when none failed. An edit counts as found when
the build stops in a proof file or a Properties file.

## Trusted base

* Coq 8.16.1: its kernel, and its virtual machine, used by `vm_compute`.
* That the model does what the C code does. It was translated by hand; each
  definition cites its lines.
* That the specifications in `Spec*.v` say what the documents say.
* `Print Assumptions` lists no axiom for any of the 322 theorems: each prints
  "Closed under the global context". vcheck lists seven axioms of the standard
  library (Coq.ssr.ssrunder.Under_rel and the like), which are loaded with it
  and used by none of the theorems. No axioms, no admitted proofs, no functors,
  no plugins other than those of the standard tactics.
