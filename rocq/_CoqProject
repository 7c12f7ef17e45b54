-Q theories Verif
theories/Words.v
theories/StreamM.v
theories/FrameM.v
theories/CommandsM.v
theories/RegionM.v
theories/AesM.v
theories/CmacM.v
theories/CtrM.v
theories/SmM.v
theories/RadioM.v
theories/MacStateM.v
theories/MacTac.v
theories/MacUtilM.v
theories/OpsM.v
theories/MacCmdM.v
theories/MacProcM.v
theories/MacApiM.v
theories/Scenario.v
theories/Lib.v
theories/SpecStream.v
theories/StreamP.v
theories/SpecFrame.v
theories/SpecDecode.v
theories/FrameP.v
theories/FrameDecP.v
theories/FrameRtP.v
theories/SpecCmd.v
theories/CmdP.v
theories/SpecAnswer.v
theories/AnswerP.v
theories/PropertiesFrame.v
theories/PropertiesCmd.v
theories/SpecAes.v
theories/AesP.v
theories/SpecCmac.v
theories/CmacP.v
theories/CtrP.v
theories/SpecSm.v
theories/SmP.v
theories/PropertiesCrypto.v
theories/MacRw.v
theories/SpecRadio.v
theories/AirP.v
theories/SpecRegion.v
theories/RegionP.v
theories/ChanP.v
theories/SpecExec.v
theories/ExecP.v
theories/SpecTime.v
theories/TimeP.v
theories/PropertiesRegion.v
theories/PropertiesTime.v
theories/CoreP.v
theories/CaseP.v
theories/RxP.v
theories/SpecHist.v
theories/HistP.v
theories/EndP.v
theories/TxP.v
theories/StuckP.v
theories/WindowP.v
theories/ReqP.v
theories/UplinkP.v
theories/ReadyP.v
theories/JoinP.v
theories/DataP.v
theories/SpecKey.v
theories/RestoreP.v
theories/SpecRx.v
theories/ModuleP.v
theories/AcceptP.v
theories/GenuineP.v
theories/CtxP.v
theories/DownP.v
theories/SpecUp.v
theories/CipherP.v
theories/MicP.v
theories/SpecChan.v
theories/SelectP.v
theories/SpecValid.v
theories/ValidP.v
theories/SpecSend.v
theories/SentP.v
theories/ChoiceP.v
theories/JoinChanP.v
theories/SpecSize.v
theories/SizeP.v
theories/TriesP.v
theories/SpecInput.v
theories/InputP.v
theories/SpecWindow.v
theories/OpenP.v
theories/SpecBack.v
theories/BackP.v
theories/SpecAdr.v
theories/AdrP.v
theories/SpecWait.v
theories/BandP.v
theories/PropertiesMac.v
theories/PropertiesCounter.v
theories/PropertiesKey.v
theories/PropertiesRx.v
theories/PropertiesUp.v
theories/PropertiesChan.v
theories/PropertiesRadio.v
theories/PropertiesWindow.v
theories/PropertiesAdr.v
theories/PropertiesWait.v
theories/ChipM.v
theories/SX127xM.v
theories/SX126xM.v
theories/DriverM.v
theories/SpecModes.v
theories/SpecChip.v
theories/SpecPower.v
theories/DriveP.v
theories/Chip7P.v
theories/Chip6P.v
theories/PowerP.v
theories/DriverP.v
theories/PropertiesDriver.v
theories/SpecEirp.v
theories/EirpP.v
theories/PropertiesPower.v
theories/SpecEffect.v
theories/EffectP.v
theories/PropertiesEffect.v
theories/SpecWake.v
theories/TimersP.v
theories/WakeP.v
theories/PropertiesWake.v
theories/SpecDown.v
theories/DecryptP.v
theories/PropertiesDown.v
theories/MbedM.v
theories/SpecMbed.v
theories/MbedP.v
theories/PropertiesMbed.v
theories/DeviceM.v
theories/SpecDevice.v
theories/DeviceP.v
theories/PropertiesDevice.v
theories/SpecListen.v
theories/ListenP.v
theories/PropertiesListen.v
theories/SpecOnce.v
theories/OnceP.v
theories/PropertiesOnce.v
theories/SpecAck.v
theories/AckP.v
theories/AckFrameP.v
theories/AskP.v
theories/PropertiesAck.v
theories/SpecTold.v
theories/ToldP.v
theories/PropertiesTold.v
theories/SpecPoll.v
theories/PollP.v
theories/PropertiesPoll.v
theories/MacIntM.v
theories/SpecInt.v
theories/IntP.v
theories/PropertiesInt.v
theories/SpecEnds.v
theories/EndsP.v
theories/PropertiesEnds.v
theories/SpecJoined.v
theories/JoinedP.v
theories/PropertiesJoined.v
theories/SpecRetry.v
theories/RetryP.v
theories/PropertiesRetry.v
theories/SpecDither.v
theories/DitherP.v
theories/PropertiesDither.v
theories/SpecOnTime.v
theories/OnTimeP.v
theories/PropertiesOnTime.v
theories/SpecForeign.v
theories/ForeignP.v
theories/PropertiesForeign.v
theories/SpecJoinMic.v
theories/JoinMicP.v
theories/PropertiesJoinMic.v
