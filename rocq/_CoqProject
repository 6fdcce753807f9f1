-Q theories Verif
theories/Py.v
theories/View.v
theories/ViewProps.v
theories/PyStr.v
theories/Structlike.v
theories/StructlikeProps.v
theories/PyNum.v
theories/AmpRouter.v
theories/AmpRouterProps.v
theories/RouterUnbind.v
theories/RouterUnbindProps.v
theories/Utf8.v
theories/AmpAuth.v
theories/AmpAuthProps.v
theories/Expose.v
theories/ExposeProps.v
theories/PySearch.v
theories/Caseless.v
theories/CaselessProps.v
theories/CaselessDict.v
theories/CaselessDictProps.v
theories/CaselessMore.v
theories/CaselessMoreProps.v
theories/Modal.v
theories/ModalProps.v
theories/Small.v
theories/SmallProps.v
theories/Pending.v
theories/React.v
theories/EventProps.v
theories/Liner.v
theories/LinerProps.v
theories/PyInt.v
theories/JuiceCodec.v
theories/JuiceStream.v
theories/JuiceWireProps.v
theories/PySplit.v
theories/JuiceArgs.v
theories/JuiceArgsProps.v
theories/PyHex.v
theories/JuiceProto.v
theories/JuiceProtoProps.v
theories/JuiceSwitch.v
theories/JuiceSwitchProps.v
theories/JuiceDispatch.v
theories/JuiceDispatchProps.v
theories/Cal.v
theories/PyTime.v
theories/Extime.v
theories/ExtimeProps.v
theories/Regex.v
theories/PyFloat.v
theories/ExtimeIso.v
theories/ExtimeIsoVal.v
theories/ExtimeIsoFmt.v
theories/ExtimeIsoStart.v
theories/ExtimePosix.v
theories/ExtimeIsoAll.v
theories/ExtimeIsoProps.v
theories/ExtimePosixProps.v
theories/ExtimeRfc.v
theories/ExtimeRfcVal.v
theories/ExtimeRfcFmt.v
theories/ExtimeRfcFar.v
theories/ExtimeRfcProps.v
theories/ExtimeRepr.v
theories/ExtimeReprProps.v
theories/ExtimeHumanly.v
theories/ExtimeHumanlyVal.v
theories/ExtimeHumanlyAll.v
theories/ExtimeHumanlyFmt.v
theories/ExtimeHumanlyProps.v
theories/ExtimeZone.v
theories/ExtimeZoneProps.v
theories/ExtimeZoneMore.v
theories/ExtimeZoneMoreProps.v
theories/ExtimeZoneHuman.v
theories/ExtimeZoneHumanProps.v
theories/ExtimeDayWords.v
theories/ExtimeDayWordsProps.v
theories/Delayed.v
theories/DelayedClock.v
theories/DelayedProps.v
theories/FilePath.v
theories/FilePathProps.v
theories/FileTree.v
theories/FileTreeMore.v
theories/FileSelf.v
theories/FileTreeProps.v
theories/FileMake.v
theories/FileMakeProps.v
theories/FileGlob.v
theories/FileGlobProps.v
theories/FileLinks.v
theories/FileReach.v
theories/FileLinksCopy.v
theories/FileWalk.v
theories/FileLinksProps.v
theories/FileLinksCopyProps.v
theories/DeferGen.v
theories/DeferGenProps.v
theories/AssertWarns.v
theories/AssertWarnsProps.v
theories/Benchmark.v
theories/BenchmarkProps.v
theories/Spewer.v
theories/SpewerProps.v
theories/SpewerTrace.v
theories/SpewerTraceProps.v
theories/Process.v
theories/ProcessProps.v
theories/Setup.v
theories/SetupProps.v
theories/JuicePair.v
theories/JuicePairProps.v
theories/FileStat.v
theories/FileStatProps.v
theories/Descriptor.v
theories/DescriptorProps.v
theories/Loopback.v
theories/LoopbackProps.v
theories/IoSim.v
theories/IoSimProps.v
theories/JuiceClient.v
theories/JuiceClientProps.v
theories/BenchReport.v
theories/BenchReportProps.v
theories/JuiceCall.v
theories/JuiceCallProps.v
theories/Asplode.v
theories/AsplodeProps.v
theories/PluginPaths.v
theories/PluginPathsProps.v
theories/JuiceTime.v
theories/JuiceTimeProps.v
theories/BenchPair.v
theories/BenchPairProps.v
theories/PluginModules.v
theories/PluginModulesProps.v
theories/CertCreate.v
theories/CertCreateProps.v
theories/Install.v
theories/InstallProps.v
theories/Transact.v
theories/TransactProps.v
theories/BenchMain.v
theories/BenchMainProps.v
theories/BenchRun.v
theories/BenchRunProps.v
theories/BenchSize.v
theories/BenchSizeLinks.v
theories/BenchSizeProps.v
theories/FileCompare.v
theories/FileCompareProps.v
theories/Version.v
theories/VersionProps.v
theories/DelayedStr.v
theories/DelayedStrProps.v
theories/RouterReentry.v
theories/RouterReentryProps.v
theories/RouterBox.v
theories/RouterBoxProps.v
theories/AmpLogin.v
theories/AmpLoginProps.v
theories/AuthFaults.v
theories/AuthFaultsProps.v
theories/AuthCalls.v
theories/AuthCallsProps.v
theories/ModalAttrs.v
theories/ModalAttrsProps.v
theories/ModalMro.v
theories/ModalMroProps.v
theories/OtpLogin.v
theories/OtpLoginProps.v
theories/RouterWire.v
theories/RouterWireProps.v
theories/ClockCheck.v
theories/ClockCheckProps.v
theories/FileNest.v
theories/FileNestProps.v
theories/FileRace.v
theories/FileRaceProps.v
theories/JuiceExtra.v
theories/JuiceExtraProps.v
theories/JuiceHold.v
theories/JuiceHoldProps.v
theories/RememberRace.v
theories/RememberRaceProps.v
theories/DirRace.v
theories/DirRaceProps.v
theories/DirAlone.v
theories/DirAloneProps.v
