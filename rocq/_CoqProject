-Q theories Verif
theories/Base.v
theories/BaseFacts.v
theories/Packet.v
theories/SpecPacket.v
theories/PacketFacts.v
theories/ClientPacket.v
theories/PacketThms.v
theories/PropPacket.v
theories/GoTypes.v
theories/Types.v
theories/Payload.v
theories/Lingo.v
theories/Command.v
theories/GoTypesFacts.v
theories/SpecPayload.v
theories/PayloadFacts.v
theories/WireFacts.v
theories/TypedThms.v
theories/ReadFacts.v
theories/Util.v
theories/PayloadThms.v
theories/PropPayload.v
theories/SpecText.v
theories/TextFacts.v
theories/SpecCommand.v
theories/LingoFacts.v
theories/CommandFacts.v
theories/CommandThms.v
theories/ReadThms.v
theories/CommandProps.v
theories/PropCommand.v
theories/PropRead.v
theories/Text.v
theories/TextThms.v
theories/PropText.v
theories/Send.v
theories/SpecSend.v
theories/SendThms.v
theories/PropSend.v
theories/SendEndThms.v
theories/PropSendEnd.v
theories/SpecSession.v
theories/CrashThms.v
theories/RecordThms.v
theories/PropSession.v
theories/Handlers.v
theories/SpecHandlers.v
theories/HandlersFacts.v
theories/HandlersThms.v
theories/ReplyThms.v
theories/PropHandlers.v
theories/Hid.v
theories/SpecHid.v
theories/HidFacts.v
theories/HidThms.v
theories/HidPacketThms.v
theories/PropHid.v
theories/Trace.v
theories/SpecTrace.v
theories/TraceFacts.v
theories/TraceThms.v
theories/TraceSessions.v
theories/PropTrace.v
theories/Server.v
theories/SpecServer.v
theories/ServerFacts.v
theories/ServerThms.v
theories/SessionThms.v
theories/ServerProps.v
theories/Mem.v
theories/PropServer.v
theories/SpecView.v
theories/ViewThms.v
theories/PropView.v
theories/SpecMem.v
theories/MemFacts.v
theories/MemThms.v
theories/MemServer.v
theories/PropMem.v
theories/Log.v
theories/SpecLog.v
theories/LogThms.v
theories/AgreeThms.v
theories/SpecReadable.v
theories/ReadableThms.v
theories/ViewSafe.v
theories/PropLog.v
theories/Main.v
theories/SpecMain.v
theories/ToolThms.v
theories/MainThms.v
theories/PropMain.v
theories/SpecAnswers.v
theories/AnswerThms.v
theories/PropAnswers.v
theories/SpecProtocol.v
theories/ProtocolFacts.v
theories/ProtocolTokens.v
theories/ProtocolThms.v
theories/SpecWire.v
theories/ProtocolProps.v
theories/PropProtocol.v
theories/ProtocolMore.v
theories/PropMachine.v
theories/SpecRead.v
theories/ReadReplies.v
theories/PropAccessory.v
theories/LogKept.v
theories/SpecKept.v
theories/KeptThms.v
theories/PropKept.v
theories/SpecDialogue.v
theories/DialogueThms.v
theories/PropDialogue.v
theories/SpecDamage.v
theories/DamageThms.v
theories/PropDamage.v
theories/SpecLoss.v
theories/LossThms.v
theories/PropLoss.v
theories/MemView.v
theories/MemViewThms.v
theories/SpecMemView.v
theories/MemViewMore.v
theories/PropMemView.v
theories/SpecTwice.v
theories/PropTwice.v
theories/SpecRepeat.v
theories/RepeatThms.v
theories/PropRepeat.v
theories/SpecRetry.v
theories/RetryThms.v
theories/PropRetry.v
theories/SpecRelay.v
theories/RelayThms.v
theories/PropRelay.v
theories/SpecEdit.v
theories/EditThms.v
theories/PropEdit.v
theories/SpecOrder.v
theories/OrderThms.v
theories/PropOrder.v
theories/SpecIdentify.v
theories/IdentifyThms.v
theories/PropIdentify.v
theories/SpecRenew.v
theories/RenewThms.v
theories/PropRenew.v
theories/SpecJoin.v
theories/JoinThms.v
theories/PropJoin.v
theories/SpecDisturb.v
theories/DisturbThms.v
theories/PropDisturb.v
theories/SpecPlug.v
theories/PlugThms.v
theories/PropPlug.v
theories/Shared.v
theories/SpecShared.v
theories/SharedThms.v
theories/PropShared.v
theories/SpecHeld.v
theories/HeldThms.v
theories/PropHeld.v
theories/SpecVersions.v
theories/VersionThms.v
theories/PropVersions.v
theories/SpecTransport.v
theories/TransportThms.v
theories/PropTransport.v
theories/SpecRegistry.v
theories/RegistryThms.v
theories/PropRegistry.v
theories/SpecClock.v
theories/ClockThms.v
theories/PropClock.v
theories/SpecReact.v
theories/ReactThms.v
theories/PropReact.v
theories/SpecRefuse.v
theories/RefuseThms.v
theories/PropRefuse.v
theories/SpecRefuseTrace.v
theories/RefuseTraceThms.v
theories/PropRefuseTrace.v
theories/SpecCut.v
theories/CutThms.v
theories/PropCut.v
theories/SpecRecord.v
theories/RecordAnyThms.v
theories/PropRecording.v
theories/SpecHeldMem.v
theories/HeldMemThms.v
theories/PropCapacity.v
theories/SendTrace.v
theories/SpecSendTrace.v
theories/SendTraceThms.v
theories/PropSendTrace.v
theories/PropCrash.v
theories/SpecRealReplay.v
theories/RealReplayThms.v
theories/PropRealReplay.v
theories/PropEditReal.v
theories/PropGrowth.v
