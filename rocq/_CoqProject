-Q theories Verif

theories/Base.v
theories/State.v
theories/Moving.v
theories/Crawling.v
theories/Scoring.v
theories/Diagnostics.v
theories/Flee.v
theories/DataTable.v
theories/Spawning.v
theories/InputGeography.v
theories/Pflee.v
theories/Lemmas.v
theories/Api.v
theories/SpecAgents.v
theories/Inv.v
theories/InvMoves.v
theories/InvStruct.v
theories/Defaults.v
theories/SpecHistory.v
theories/Frames.v
theories/Traffic.v
theories/CoreProofs.v
theories/ExampleRun.v
theories/PropertiesCore.v
theories/SpecChoice.v
theories/ChoiceProofs.v
theories/PropertiesMoving.v
theories/SpecRoutes.v
theories/RouteProofs.v
theories/PropertiesRoutes.v
theories/SpecTravel.v
theories/ScoreFrames.v
theories/Travel.v
theories/Streams.v
theories/Terminate.v
theories/TravelRun.v
theories/Terminate2.v
theories/TravelProps.v
theories/StepRel.v
theories/Detached.v
theories/SpecDecide.v
theories/Decide.v
theories/Diverge.v
theories/DecideProps.v
theories/ExampleTravel.v
theories/TravelWitness.v
theories/PropertiesTravel.v
theories/SpecClosures.v
theories/Closures.v
theories/ClosureLoops.v
theories/ClosureEnd.v
theories/ClosurePlaces.v
theories/OffRoad.v
theories/ClosureProps.v
theories/ClosureWitness.v
theories/PropertiesClosures.v
theories/SpecZones.v
theories/Profile.v
theories/Zones.v
theories/ZoneProps.v
theories/ZoneWitness.v
theories/PropertiesZones.v
theories/SpecData.v
theories/DataProofs.v
theories/SpecSpawn.v
theories/SpawnProofs.v
theories/SpawnWitness.v
theories/PropertiesSpawning.v
theories/SpecArrivals.v
theories/ArrivalProofs.v
theories/SpecReports.v
theories/ReportProofs.v
theories/ReportWitness.v
theories/PropertiesReports.v
theories/ParApi.v
theories/Skeleton.v
theories/ParProofs.v
theories/ParInv.v
theories/ParSteps.v
theories/SpecParallel.v
theories/ParProps.v
theories/ParCounts.v
theories/ParTotals.v
theories/ParSync.v
theories/ParFinal.v
theories/ParallelWitness.v
theories/PropertiesParallel.v
theories/SpecSchedule.v
theories/Schedule.v
theories/ScheduleWitness.v
theories/PropertiesSchedule.v
theories/Coupling.v
theories/SpecCoupling.v
theories/CouplingText.v
theories/CouplingMean.v
theories/CouplingRun.v
theories/CouplingWitness.v
theories/PropertiesCoupling.v
theories/SpecCrawl.v
theories/CrawlProofs.v
theories/CrawlWitness.v
theories/PropertiesCrawl.v
theories/Settings.v
theories/SpecSettings.v
theories/SettingsProofs.v
theories/SettingsFacts.v
theories/SettingsMain.v
theories/SettingsMore.v
theories/SettingsRecord.v
theories/SettingsWitness.v
theories/PropertiesSettings.v
theories/SpecNetwork.v
theories/NetworkProofs.v
theories/SettlerProofs.v
theories/NetworkWitness.v
theories/PropertiesNetwork.v
theories/SpecWeights.v
theories/WeightProofs.v
theories/WeightFacts.v
theories/WeightWitness.v
theories/PropertiesWeights.v
theories/SpecCalls.v
theories/Naming.v
theories/Dates.v
theories/SpecDates.v
theories/DateProofs.v
theories/PeriodProofs.v
theories/DataFiles.v
theories/SpecFiles.v
theories/FileProofs.v
theories/AddProofs.v
theories/TableProofs.v
theories/DataWitness.v
theories/PropertiesData.v
theories/SpecFloods.v
theories/FloodProofs.v
theories/FloodWitness.v
theories/PropertiesFloods.v
theories/Analysis.v
theories/RunScript.v
theories/SpecRun.v
theories/AnalysisProofs.v
theories/RunProofs.v
theories/RunWitness.v
theories/PropertiesRun.v
theories/SerialRel.v
theories/SerialSteps.v
theories/SerialEvolve.v
theories/SpecSerial.v
theories/SerialRun.v
theories/SerialWitness.v
theories/PropertiesSerial.v
theories/RunPar.v
theories/DayChain.v
theories/RunParSetup.v
theories/RunParBuild.v
theories/SpecRunPar.v
theories/RunParProofs.v
theories/RunParLines.v
theories/RunParWitness.v
theories/PropertiesRunPar.v
theories/SpecTraffic.v
theories/TrafficProofs.v
theories/LinkLogProofs.v
theories/LinkLogWitness.v
theories/PropertiesLinkLog.v
theories/RunInputs.v
theories/RunInputsWitness.v
theories/Acled.v
theories/SpecAcled.v
theories/AcledProofs.v
theories/AcledWitness.v
theories/PropertiesAcled.v
theories/SpecColumns.v
theories/ColumnProofs.v
theories/DueProofs.v
theories/ColumnWitness.v
theories/PropertiesColumns.v
theories/PropertiesDue.v
theories/SpecExchange.v
theories/ExchangeProofs.v
theories/GhostProofs.v
theories/ExchangeWitness.v
theories/PropertiesExchange.v
theories/AgentLog.v
theories/SpecAgentLog.v
theories/LogFrame.v
theories/LogHistory.v
theories/LogTextProofs.v
theories/LogRun.v
theories/LogWitness.v
theories/PropertiesAgentLog.v
theories/SpecQuiet.v
theories/QuietReads.v
theories/QuietCalls.v
theories/QuietRun.v
theories/QuietBack.v
theories/QuietScript.v
theories/QuietWitness.v
theories/PropertiesQuiet.v
theories/CouplingFiles.v
theories/SpecTurns.v
theories/TurnsProofs.v
theories/TurnsWitness.v
theories/PropertiesTurns.v
theories/Demographics.v
theories/SpecDemographics.v
theories/DemoProofs.v
theories/DemoWitness.v
theories/PropertiesDemographics.v
theories/Muscle.v
theories/MuscleProofs.v
theories/MuscleWitness.v
theories/PropertiesMuscle.v
theories/ExchangeLog.v
theories/SpecExchangeLog.v
theories/XLogProofs.v
theories/XLogWitness.v
theories/PropertiesExchangeLog.v
theories/Validation.v
theories/SpecValidation.v
theories/ValidationProofs.v
theories/ValidationReport.v
theories/ValidationFacts.v
theories/ValidationWitness.v
theories/PropertiesValidation.v
theories/MicroGeography.v
theories/SpecMicro.v
theories/MicroProofs.v
theories/MicroWays.v
theories/PropertiesMicro.v
theories/SpecGraph.v
theories/GraphProofs.v
theories/PropertiesGraph.v
theories/LinkLogText.v
theories/SpecLinkText.v
theories/LinkTextProofs.v
theories/LinkTextWitness.v
theories/PropertiesLinkText.v
theories/SumProofs.v
theories/CombinedOutput.v
theories/SpecCombined.v
theories/CombinedProofs.v
theories/CombinedWitness.v
theories/PropertiesCombined.v
theories/MapLists.v
theories/SpecMap.v
theories/MapProofs.v
theories/MapWitness.v
theories/PropertiesMap.v
theories/ErrorCurves.v
theories/SpecCurves.v
theories/CurvesProofs.v
theories/CurvesWitness.v
theories/PropertiesCurves.v
theories/GraphPrint.v
theories/SpecPrint.v
theories/PrintProofs.v
theories/PropertiesPrint.v
theories/SpecJoint.v
theories/JointProofs.v
theories/JointWitness.v
theories/PropertiesJoint.v
