-Q theories Verif
theories/GoBase.v
theories/Proto.v
theories/Scanner.v
theories/Conn.v
theories/GoStrings.v
theories/Proc.v
theories/Lib.v
theories/Server.v
theories/ProofBase.v
theories/SpecProto.v
theories/ProtoProofs.v
theories/SpecFrame.v
theories/SpecConn.v
theories/FrameProofs.v
theories/ReplyProofs.v
theories/ReadProofs.v
theories/QueryProofs.v
theories/CodecLemmas.v
theories/PropertiesCodec.v
theories/SpecOps.v
theories/Samples.v
theories/SpecLayout.v
theories/FrameLemmas.v
theories/FrameExamples.v
theories/LayoutProofs.v
theories/TrimProofs.v
theories/PropertiesFrame.v
theories/OpLemmas.v
theories/PropertiesQuery.v
theories/PropertiesLayout.v
theories/SpecServer.v
theories/ServerProofs.v
theories/ServerLemmas.v
theories/ServerOps.v
theories/SamplesServer.v
theories/ServerTimes.v
theories/ServerClaims.v
theories/PropertiesServer.v
theories/SpecUnit.v
theories/UnitProofs.v
theories/UnitServer.v
theories/SamplesUnit.v
theories/UnitClaims.v
theories/PropertiesUnit.v
theories/Leftover.v
theories/PropertiesLine.v
theories/Machine.v
theories/SpecMachine.v
theories/MachineBase.v
theories/ThreadLogic.v
theories/MachineInv.v
theories/MachineLive.v
theories/Atomic.v
theories/AtomicCalls.v
theories/MachineFlush.v
theories/MachineRace.v
theories/SamplesMachine.v
theories/MachineClaims.v
theories/PropertiesMachine.v
theories/Sections.v
theories/SpecMerge.v
theories/Merge.v
theories/MergeClaims.v
theories/PropertiesMerge.v
theories/Client.v
theories/SpecClient.v
theories/ClientProofs.v
theories/PropertiesClient.v
theories/Slices.v
theories/SpecSlices.v
theories/SlicesProofs.v
theories/PropertiesSlices.v
theories/Wire.v
theories/Twirp.v
theories/SpecWire.v
theories/WireProofs.v
theories/Utf8Proofs.v
theories/WireOut.v
theories/ClientHttp.v
theories/SpecTwirp.v
theories/TwirpProofs.v
theories/TwirpReply.v
theories/TwirpServer.v
theories/PropertiesTwirp.v
theories/HttpMachine.v
theories/SpecHttp.v
theories/HttpProofs.v
theories/SamplesHttp.v
theories/PropertiesHttp.v
theories/SpecFresh.v
theories/SamplesFresh.v
theories/FreshLogic.v
theories/FreshInv.v
theories/OwnLogic.v
theories/OwnInv.v
theories/MomentLogic.v
theories/MomentInv.v
theories/FreshClaims.v
theories/PropertiesFresh.v
theories/SpecTrack.v
theories/TrackLogic.v
theories/TrackInv.v
theories/TrackClaims.v
theories/SamplesTrack.v
theories/StartClaims.v
theories/PropertiesTrack.v
theories/GoClient.v
theories/SpecGo.v
theories/GoUrl.v
theories/GoProofs.v
theories/PropertiesGo.v
theories/Main.v
theories/SpecMain.v
theories/MainProofs.v
theories/PropertiesMain.v
theories/JsonScan.v
theories/JsonRead.v
theories/SpecJson.v
theories/JsonScanProofs.v
theories/JsonReadProofs.v
theories/JsonTokenProofs.v
theories/JsonFieldProofs.v
theories/JsonUnique.v
theories/JsonClaims.v
theories/PropertiesJson.v
theories/JsonWrite.v
theories/SpecJsonReply.v
theories/JsonWriteProofs.v
theories/JsonReplyProofs.v
theories/JsonGoProofs.v
theories/PropertiesJsonReply.v
theories/HttpGoProofs.v
theories/PropertiesHttpGo.v
theories/Duration.v
theories/SpecDuration.v
theories/DurationProofs.v
theories/PropertiesDuration.v
theories/JsonError.v
theories/SpecJsonError.v
theories/JsonErrorStrings.v
theories/JsonErrorProofs.v
theories/PropertiesJsonError.v
theories/WireUnique.v
theories/Descriptor.v
theories/SpecDescriptor.v
theories/DescriptorProofs.v
theories/DescriptorClaims.v
theories/PropertiesDescriptor.v
theories/Fine.v
theories/SpecFine.v
theories/FineRead.v
theories/FineProofs.v
theories/FineClaims.v
theories/SamplesFine.v
theories/PropertiesFine.v
theories/ErrorText.v
theories/SpecErrorText.v
theories/ErrorTextProofs.v
theories/ErrorTextClaims.v
theories/PropertiesErrorText.v
theories/Failures.v
theories/SpecFailures.v
theories/FailuresProofs.v
theories/PropertiesFailures.v
theories/Log.v
theories/SpecLog.v
theories/LogProofs.v
theories/LogServer.v
theories/LogServerProofs.v
theories/LogMainProofs.v
theories/PropertiesLog.v
theories/SpecGzip.v
theories/GzipProofs.v
theories/GzipRead.v
theories/GzipClaims.v
theories/PacketText.v
theories/SpecPacketText.v
theories/PacketTextProofs.v
theories/PropertiesDebug.v
theories/SamplesWaiting.v
theories/SpecWaiting.v
theories/WaitingProofs.v
theories/PropertiesWaiting.v
theories/SamplesLost.v
theories/SpecLost.v
theories/LostProofs.v
theories/PropertiesLost.v
theories/SpecSpeed.v
theories/SpeedLogic.v
theories/SpeedInv.v
theories/SamplesSpeed.v
theories/SpeedProofs.v
theories/PropertiesSpeed.v
theories/SpecProfileTurns.v
theories/ProfileTurnLogic.v
theories/ProfileTurnInv.v
theories/SamplesProfileTurns.v
theories/ProfileTurnProofs.v
theories/PropertiesProfileTurns.v
theories/SpecComfortTurns.v
theories/ComfortTurnLogic.v
theories/ComfortTurnInv.v
theories/SamplesComfortTurns.v
theories/ComfortTurnProofs.v
theories/PropertiesComfortTurns.v
theories/LogMachine.v
theories/SpecLogMachine.v
theories/LogYields.v
theories/LogMachineProofs.v
theories/SamplesLogMachine.v
theories/PropertiesLogMachine.v
theories/SamplesTwice.v
theories/TwiceProofs.v
theories/PropertiesTwice.v
theories/RepoTests.v
theories/SpecBelief.v
theories/BeliefLogic.v
theories/BeliefInv.v
theories/SamplesBelief.v
theories/BeliefProofs.v
theories/PropertiesBelief.v
theories/SpecHeard.v
theories/HeardProofs.v
theories/PropertiesHeard.v
theories/SpecEnd.v
theories/HttpSplit.v
theories/EveryRet.v
theories/EndProofs.v
theories/SamplesEnd.v
theories/PropertiesEnd.v
theories/Hooks.v
theories/SpecHooks.v
theories/HooksProofs.v
theories/HooksClaims.v
theories/HooksMore.v
theories/SamplesHooks.v
theories/PropertiesHooks.v
theories/ClientHooks.v
theories/SpecClientHooks.v
theories/ClientHooksProofs.v
theories/ClientHooksMore.v
theories/SamplesClientHooks.v
theories/PropertiesClientHooks.v
theories/SpecAny.v
theories/AnyProofs.v
theories/SamplesAny.v
theories/PropertiesAny.v
theories/SpecNowhere.v
theories/NowhereProofs.v
theories/SamplesNowhere.v
theories/PropertiesNowhere.v
theories/SpecArgs.v
theories/Modulo.v
theories/PropertiesArgs.v
theories/Prefix.v
theories/SpecPrefix.v
theories/SamplesPrefix.v
theories/PrefixProofs.v
theories/PropertiesPrefix.v
theories/SpecJsonOrder.v
theories/JsonOrderProofs.v
theories/PropertiesJsonOrder.v
theories/JsonOptions.v
theories/SpecJsonOptions.v
theories/JsonOptionsProofs.v
theories/PropertiesJsonOptions.v
theories/Headers.v
theories/SpecHeaders.v
theories/SamplesHeaders.v
theories/HeadersProofs.v
theories/PropertiesHeaders.v
theories/HooksPanic.v
theories/SpecHooksPanic.v
theories/HooksPanicProofs.v
theories/SamplesHooksPanic.v
theories/PropertiesHooksPanic.v
theories/Program.v
theories/SpecProgram.v
theories/ProgramProofs.v
theories/PropertiesProgram.v
theories/ClientHooksPanic.v
theories/SpecClientHooksPanic.v
theories/ClientHooksPanicProofs.v
theories/SamplesClientHooksPanic.v
theories/PropertiesClientHooksPanic.v
theories/Across.v
theories/SpecAcross.v
theories/AcrossProofs.v
theories/SamplesAcross.v
theories/PropertiesAcross.v
