-Q theories Verif
theories/Base.v
theories/ModuleId.v
theories/Tac.v
theories/ModuleIdProofs.v
theories/Spec.v
theories/ModuleIdProps.v
theories/PropsModuleId.v
theories/Mgmt.v
theories/Mac.v
theories/Message.v
theories/Codec.v
theories/Text.v
theories/StatusText.v
theories/Wf.v
theories/CodecProofs.v
theories/SpecMessages.v
theories/MessageProofs.v
theories/PropsMessages.v
theories/Enum.v
theories/Tables.v
theories/Types.v
theories/LargeAccess.v
theories/Results.v
theories/SpecResults.v
theories/AccessProofs.v
theories/ResultsProofs.v
theories/PropsResults.v
theories/CodeText.v
theories/SpecText.v
theories/CodeTextProofs.v
theories/PropsCodeText.v
theories/IoLoop.v
theories/SpecIo.v
theories/IoProofs.v
theories/IoProofs2.v
theories/IoProofs3.v
theories/PropsIo.v
theories/DecodePower.v
theories/Controller.v
theories/SpecController.v
theories/ControllerProofs.v
theories/ControllerProofs2.v
theories/ControllerProofs3.v
theories/ControllerProofs4.v
theories/ControllerProofs5.v
theories/ControllerProofs6.v
theories/ControllerProofs7.v
theories/ControllerProofs8.v
theories/ControllerSim.v
theories/ControllerProofs9.v
theories/PropsController.v
theories/Utf8.v
theories/DecodeVendor.v
theories/DecodeMemory.v
theories/DecodeMonitors.v
theories/DecodeDatapath.v
theories/SpecDecode.v
theories/DecodeProofs.v
theories/DecodeProofs2.v
theories/DecodeProofs3.v
theories/FloatProofs.v
theories/DecodeProofs4.v
theories/DecodeProofs7.v
theories/DecodeProofs8.v
theories/DecodeProofs9.v
theories/PropsDecode.v
theories/Config.v
theories/CliText.v
theories/SpecCli.v
theories/ConfigProofs.v
theories/CliProofs.v
theories/CliProofs2.v
theories/CliProofs3.v
theories/Cli.v
theories/SpecCmd.v
theories/CliProofs4.v
theories/CliProofs5.v
theories/CliProofs6.v
theories/PropsCli.v
theories/SpecNet.v
theories/NetProofs.v
theories/NetProofs2.v
theories/NetProofs3.v
theories/PropsNet.v
theories/SpecScope.v
theories/ScopeProofs.v
theories/ScopeProofs2.v
theories/PropsScope.v
theories/Queries.v
theories/SpecQuery.v
theories/QueryProofs.v
theories/PropsQuery.v
theories/CliTables.v
theories/SpecTable.v
theories/TableProofs.v
theories/TableProofs2.v
theories/TableProofs3.v
theories/PropsTable.v
theories/CliMonitors.v
theories/SpecMonitor.v
theories/MonitorProofs.v
theories/MonitorProofs2.v
theories/PropsMonitor.v
theories/CliDatapath.v
theories/SpecPath.v
theories/PathProofs.v
theories/PropsPath.v
theories/CliMain.v
theories/SpecMain.v
theories/MainProofs.v
theories/MainProofs2.v
theories/PropsMain.v
theories/ResultsProofs2.v
theories/SpecWire.v
theories/WireProofs.v
theories/PropsWire.v
theories/ErrorText.v
theories/SpecError.v
theories/ErrorProofs.v
theories/PropsError.v
theories/SpecLive.v
theories/LiveProofs.v
theories/LiveProofs2.v
theories/LiveProofs3.v
theories/PropsLive.v
theories/SpecCause.v
theories/CauseProofs.v
theories/PropsCause.v
theories/SpecConc.v
theories/ProgProofs.v
theories/ConcProofs.v
theories/PropsConc.v
theories/SpecSent.v
theories/SentProofs.v
theories/PropsSent.v
theories/SpecFair.v
theories/FairProofs.v
theories/FairProofs2.v
theories/PropsFair.v
theories/SpecCodes.v
theories/CodesProofs.v
theories/PropsCodes.v
theories/StatusSerde.v
theories/StatusSerdeProofs.v
theories/PropsStatus.v
theories/Json.v
theories/JsonProofs.v
theories/JsonProofs2.v
theories/JsonProofs3.v
theories/SpecJson.v
theories/JsonProofs4.v
theories/PropsJson.v
theories/SpecMore.v
theories/MoreProofs.v
theories/PropsMore.v
theories/TimedLoop.v
theories/SpecTime.v
theories/TimeProofs.v
theories/PropsTime.v
theories/SpecCost.v
theories/CostProofs.v
theories/PropsCost.v
theories/Setup.v
theories/SpecSetup.v
theories/SetupProofs.v
theories/PropsSetup.v
theories/Clap.v
theories/SpecClap.v
theories/ClapProofs.v
theories/PropsClap.v
theories/SpecFate.v
theories/FateProofs.v
theories/FateProofs2.v
theories/PropsFate.v
theories/SpecFlags.v
theories/FlagProofs.v
theories/FlagProofs2.v
theories/PropsFlags.v
theories/Duplex.v
theories/SpecDuplex.v
theories/DuplexProofs.v
theories/PropsDuplex.v
theories/TimedCall.v
theories/SpecDeadline.v
theories/DeadlineProofs.v
theories/PropsDeadline.v
theories/JsonPower.v
theories/JsonProofs5.v
theories/SpecExact.v
theories/ExactProofs.v
theories/ExactProofs2.v
theories/PropsExact.v
theories/OrderProofs.v
theories/PropsOrder.v
theories/SpecCrash.v
theories/CrashProofs.v
theories/PropsCrash.v
theories/TestsMessages.v
theories/TestsDecode.v
theories/TestsController.v
theories/TimedCalls.v
theories/SpecCrowd.v
theories/CrowdProofs.v
theories/CrowdProofs2.v
theories/CrowdProofs3.v
theories/CrowdProofs4.v
theories/PropsCrowd.v
theories/SpecGiveUp.v
theories/GiveUpProofs.v
theories/GiveUpProofs2.v
theories/GiveUpProofs3.v
theories/PropsGiveUp.v
theories/SpecXcvradm.v
theories/XcvradmProofs.v
theories/XcvradmProofs2.v
theories/PropsXcvradm.v
theories/Beside.v
theories/SpecBeside.v
theories/BesideProofs.v
theories/BesideProofs2.v
theories/BesideProofs3.v
theories/BesideProofs4.v
theories/BesideProofs5.v
theories/PropsBeside.v
theories/SpecOnce.v
theories/OnceProofs.v
theories/OnceProofs2.v
theories/OnceProofs3.v
theories/OnceProofs4.v
theories/PropsOnce.v
theories/SpecPins.v
theories/PinsProofs.v
theories/PinsProofs2.v
theories/PinsProofs3.v
theories/PropsPins.v
theories/CoverProofs.v
theories/CoverProofs2.v
theories/SpecTool.v
theories/ToolProofs.v
theories/ToolProofs2.v
theories/ToolProofs3.v
theories/PropsTool.v
theories/SpecApart.v
theories/ApartProofs.v
theories/ApartProofs2.v
theories/ApartProofs3.v
theories/ApartProofs4.v
theories/ApartProofs5.v
theories/PropsApart.v
theories/SpecDisjoint.v
theories/DisjointProofs.v
theories/DisjointProofs2.v
theories/DisjointProofs3.v
theories/DisjointProofs4.v
theories/DisjointProofs5.v
theories/PropsDisjoint.v
theories/OpenProofs.v
theories/ToolProofs4.v
theories/SpecSteady.v
theories/SteadyProofs.v
theories/PropsSteady.v
theories/JsonProofs6.v
theories/SpecRestore.v
theories/RestoreProofs.v
theories/RestoreProofs2.v
theories/PropsRestore.v
theories/SpecFollow.v
theories/FollowProofs.v
theories/PropsFollow.v
theories/IoProofs4.v
theories/CoverProofs3.v
theories/PageProofs.v
theories/SpecRows.v
theories/RowsProofs.v
theories/GateProofs.v
theories/PropsGate.v
