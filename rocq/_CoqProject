-Q theories Verif

theories/Base.v
theories/BaseFacts.v
theories/Dbl.v
theories/DblFacts.v
theories/DblOrder.v
theories/DblBound.v
theories/PidModel.v
theories/SpecPid.v
theories/PidProofs.v
theories/PropertiesPid.v
theories/SpecExact.v
theories/ExactProofs.v
theories/PropertiesExact.v
theories/ZoneModel.v
theories/LoopModel.v
theories/SpecZone.v
theories/ZoneFrame.v
theories/ZoneThermal.v
theories/ZoneFan.v
theories/ZoneProofs.v
theories/LoopProofs.v
theories/ReactionProofs.v
theories/CacheProofs.v
theories/LoopProofs2.v
theories/PropertiesZone.v
theories/SensorModel.v
theories/SpecSensor.v
theories/SensorProofs.v
theories/WriteModel.v
theories/SpecWrite.v
theories/PathProofs.v
theories/WriteProofs.v
theories/PropertiesSensor.v
theories/PropertiesWrite.v
theories/LogModel.v
theories/SpecLog.v
theories/LogProofs.v
theories/CoreLogProofs.v
theories/PropertiesLog.v
theories/ConfigModel.v
theories/SpecConfig.v
theories/IpmiModel.v
theories/ConfigProofs.v
theories/CycleProofs.v
theories/PropertiesConfig.v
theories/MainModel.v
theories/SpecMain.v
theories/MainProofs.v
theories/MainProofs2.v
theories/PropertiesMain.v
theories/BuilderModel.v
theories/SpecBuilder.v
theories/BuilderProofs.v
theories/BuilderRun.v
theories/PropertiesBuilder.v
theories/SystemModel.v
theories/SpecSystem.v
theories/SystemProofs.v
theories/SystemProofs2.v
theories/SystemProofs3.v
theories/SystemProofs4.v
theories/PropertiesSystem.v
theories/SpecAccum.v
theories/AccumProofs.v
theories/PropertiesAccum.v
theories/PathSystem.v
theories/PropertiesPath.v
theories/JsonModel.v
theories/SpecJson.v
theories/JsonProofs.v
theories/JsonProofs2.v
theories/JsonProofs3.v
theories/SpecJsonSystem.v
theories/JsonSystemProofs.v
theories/PropertiesJson.v
theories/DbusConfigModel.v
theories/SpecDbus.v
theories/DbusProofs.v
theories/DbusProofs2.v
theories/DbusProofs3.v
theories/DbusProofs4.v
theories/DbusProofs5.v
theories/DbusProofs6.v
theories/SpecDbusSystem.v
theories/DbusSystemProofs.v
theories/ExamplesDbus.v
theories/PropertiesDbus.v
theories/ReloadModel.v
theories/SpecReload.v
theories/ReloadProofs.v
theories/PropertiesReload.v
theories/SpecObserve.v
theories/ObserveProofs.v
theories/DebugProofs.v
theories/MessageProofs.v
theories/PropertiesObserve.v
theories/SpecRange.v
theories/RangeProofs.v
theories/RangeSystem.v
theories/RangeConfig.v
theories/PropertiesRange.v
theories/StartModel.v
theories/SpecStart.v
theories/StartProofs.v
theories/PropertiesStart.v
theories/DaemonModel.v
theories/SpecDaemon.v
theories/DaemonProofs.v
theories/DaemonProofs2.v
theories/DaemonProofs3.v
theories/DaemonProofs4.v
theories/DaemonProofs5.v
theories/PropertiesDaemon.v
theories/PropertiesOffline.v
theories/SpecStop.v
theories/StopProofs.v
theories/StopProofs2.v
theories/PropertiesStop.v
theories/SpecHeat.v
theories/HeatProofs.v
theories/HeatZone.v
theories/PropertiesHeat.v
theories/SpecLife.v
theories/LifeProofs.v
theories/LifeProofs2.v
theories/PropertiesLife.v
theories/RemoteModel.v
theories/SpecRemote.v
theories/RemoteProofs.v
theories/RemoteProofs2.v
theories/RemoteProofs3.v
theories/PropertiesRemote.v
theories/SpecWatch.v
theories/WatchProofs.v
theories/PropertiesWatch.v
theories/SpecCool.v
theories/CoolProofs.v
theories/PropertiesCool.v
theories/SpecRest.v
theories/RestProofs.v
theories/PropertiesRest.v
theories/SpecSettle.v
theories/SettleProofs.v
theories/SettleZone.v
theories/PropertiesSettle.v
theories/SpecLocal.v
theories/LocalProofs.v
theories/PropertiesLocal.v
theories/SpecApart.v
theories/ApartProofs.v
theories/PropertiesApart.v
theories/SpecClock.v
theories/ClockProofs.v
theories/ClockProofs2.v
theories/PropertiesClock.v
theories/NamesProofs.v
theories/PropertiesNames.v
theories/SpecObjectPath.v
theories/ObjectPathProofs.v
theories/PropertiesObjectPath.v
theories/SpecRetry.v
theories/RetryProofs.v
theories/PropertiesRetry.v
theories/InitialProofs.v
theories/PropertiesInitial.v
theories/ThrottleProofs.v
theories/PropertiesThrottle.v
theories/SpecQuiet.v
theories/QuietProofs.v
theories/PropertiesQuiet.v
theories/RawCellProofs.v
theories/PropertiesRawCell.v
theories/PollProofs.v
theories/PropertiesPoll.v
theories/SpecSetup.v
theories/SetupProofs.v
theories/PropertiesSetup.v
theories/PeriodProofs.v
theories/PropertiesPeriod.v
theories/ReasonProofs.v
theories/PropertiesReason.v
