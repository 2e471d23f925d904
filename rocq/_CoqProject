-Q theories Verif
theories/Base.v
theories/Arith.v
theories/Util.v
theories/Device.v
theories/SpecUtil.v
theories/UtilProofs.v
theories/PropertiesUtil.v
theories/SpecDevice.v
theories/DeviceProofs.v
theories/RouteProofs.v
theories/MulticastProofs.v
theories/FactoryProofs.v
theories/PropertiesDevice.v
theories/Workload.v
theories/FloatProofs.v
theories/SpecWorkload.v
theories/WorkloadProofs.v
theories/ScheduleProofs.v
theories/WorkloadCases.v
theories/PropertiesWorkload.v
theories/DepTracker.v
theories/Rates.v
theories/Stats.v
theories/Engine.v
theories/Api.v
theories/SpecTracker.v
theories/TrackerProofs.v
theories/PropertiesTracker.v
theories/DepGenProofs.v
theories/SpecEngine.v
theories/StepProofs.v
theories/EngineProofs.v
theories/RunProofs.v
theories/DepFacts.v
theories/EngineFacts.v
theories/EngineFacts2.v
theories/EngineFacts3.v
theories/EngineFacts4.v
theories/EngineFacts5.v
theories/Cases.v
theories/EngineWitness.v
theories/PropertiesEngine.v
theories/FloatProofs2.v
theories/RateFacts.v
theories/RateFloat.v
theories/RateFloat2.v
theories/RateFloat3.v
theories/SpecRates.v
theories/RateFloat4.v
theories/RateRat.v
theories/EngineRates.v
theories/RatesWitness.v
theories/PropertiesRates.v
theories/SpecStats.v
theories/StatsFacts.v
theories/StatsAvg.v
theories/StatsRat.v
theories/StatsFloat.v
theories/StatsRun.v
theories/StatsWitness.v
theories/PropertiesStats.v
theories/Json.v
theories/Timeline.v
theories/SpecTimeline.v
theories/TimelineProofs.v
theories/TimelineSplit.v
theories/TimelineLive.v
theories/TimelineWitness.v
theories/PropertiesTimeline.v
theories/Ingest.v
theories/SpecIngest.v
theories/IngestProofs.v
theories/IngestTrace.v
theories/IngestTotal.v
theories/IngestWitness.v
theories/IngestFacts.v
theories/PropertiesIngest.v
theories/EndFloat.v
theories/EngineFloat.v
theories/FloatWitness.v
theories/PropertiesFloat.v
theories/SafeProofs.v
theories/SafeFloat.v
theories/SafeRun.v
theories/SpecApi.v
theories/ApiProofs.v
theories/ApiWitness.v
theories/PropertiesApi.v
theories/SpecOrder.v
theories/OrderProofs.v
theories/OrderInit.v
theories/OrderRun.v
theories/OrderWitness.v
theories/PropertiesOrder.v
theories/SpecProgress.v
theories/ProgressProofs.v
theories/CalmProofs.v
theories/SpecResult.v
theories/ResultProofs.v
theories/RateLow.v
theories/NiuProofs.v
theories/ProgressRun.v
theories/ResultWitness.v
theories/PropertiesResult.v
theories/SpecTrace.v
theories/TraceProofs.v
theories/TraceWitness.v
theories/PropertiesTrace.v
theories/SpecSummary.v
theories/SummaryProofs.v
theories/SummaryFloat.v
theories/SummaryRun.v
theories/MeanProofs.v
theories/SummaryWitness.v
theories/PropertiesSummary.v
theories/Bindings.v
theories/SpecBindings.v
theories/BindingsProofs.v
theories/BindingsWitness.v
theories/BindingsErrors.v
theories/PropertiesBindings.v
theories/SpecZones.v
theories/ZoneProofs.v
theories/ZoneWitness.v
theories/Files.v
theories/SpecFiles.v
theories/FilesProofs.v
theories/FilesWitness.v
theories/SpecGroups.v
theories/GroupProofs.v
theories/GroupSpan.v
theories/GroupWitness.v
theories/SpecDemands.v
theories/DemandProofs.v
theories/ChipProofs.v
theories/DemandWitness.v
theories/Report.v
theories/SpecReport.v
theories/ReportProofs.v
theories/ReportWitness.v
theories/PropertiesFiles.v
theories/Fabric.v
theories/SpecFabric.v
theories/FabricProofs.v
theories/FabricTopology.v
theories/FabricAccept.v
theories/FabricPaths.v
theories/FabricGrid.v
theories/FabricTraces.v
theories/FabricSends.v
theories/FabricWitness.v
theories/PropertiesFabric.v
theories/Analyze.v
theories/SpecAnalyze.v
theories/AnalyzeNames.v
theories/AnalyzeGroups.v
theories/AnalyzeStats.v
theories/AnalyzeProofs.v
theories/AnalyzeMain.v
theories/AnalyzeWitness.v
theories/PropertiesAnalyze.v
theories/SpecEmit.v
theories/EmitProofs.v
theories/EmitExact.v
theories/EmitWitness.v
theories/PropertiesEmit.v
theories/Cli.v
theories/SpecCli.v
theories/CliTrace.v
theories/CliFile.v
theories/NoGolden.v
theories/ExampleProofs.v
theories/CliProofs.v
theories/CliWitness.v
theories/CliFiles.v
theories/PropertiesCli.v
theories/Layout.v
theories/SpecLayout.v
theories/LayoutProofs.v
theories/LayoutWitness.v
theories/PropertiesLayout.v
theories/SpecFinite.v
theories/FiniteProofs.v
theories/FiniteStep.v
theories/FiniteRun.v
theories/FiniteFile.v
theories/FiniteWitness.v
theories/PropertiesFinite.v
theories/TestData.v
theories/RepoTests.v
theories/Compress.v
theories/SpecCompress.v
theories/CompressProofs.v
theories/PropertiesCompress.v
theories/Multichip.v
theories/SpecMultichip.v
theories/MultichipProofs.v
theories/MultichipSteps.v
theories/MultichipAverages.v
theories/MultichipWitness.v
theories/PropertiesMultichip.v
theories/CapacityFloat.v
theories/CapacityFloat2.v
theories/CapacityRun.v
theories/CapacityWitness.v
theories/CliArgs.v
theories/SpecArgs.v
theories/ArgsProofs.v
theories/ArgsLines.v
theories/ArgsWitness.v
theories/PropertiesArgs.v
theories/SpecLater.v
theories/LaterProofs.v
theories/LaterFloat.v
theories/LaterStep.v
theories/LaterRun.v
theories/LaterWitness.v
theories/PropertiesLater.v
theories/SpecAlone.v
theories/AloneProofs.v
theories/AloneWitness.v
theories/PropertiesAlone.v
theories/EndFloat2.v
theories/BehindProofs.v
theories/CongestProofs.v
theories/CongestWitness.v
theories/PropertiesCongest.v
theories/SpecShare.v
theories/ShareProofs.v
theories/ShareWitness.v
theories/PropertiesShare.v
theories/SpecLoad.v
theories/LoadProofs.v
theories/LoadRun.v
theories/LoadWitness.v
theories/PropertiesLoad.v
theories/GrowProofs.v
theories/GrowWitness.v
theories/PropertiesGrow.v
theories/SpecPace.v
theories/PaceProofs.v
theories/PaceWitness.v
theories/PropertiesPace.v
theories/DelayProofs.v
theories/DelayWitness.v
theories/PropertiesDelay.v
theories/Text.v
theories/SpecText.v
theories/TextProofs.v
theories/TextReport.v
theories/TextConfig.v
theories/TextWitness.v
theories/PropertiesText.v
theories/Grid.v
theories/SpecGrid.v
theories/GridProofs.v
theories/PropertiesGrid.v
theories/TextDest.v
theories/SpecDest.v
theories/DestProofs.v
theories/PropertiesDest.v
theories/SpecCheckpoint.v
theories/CheckpointProofs.v
theories/PropertiesCheckpoint.v
theories/SpecHash.v
theories/HashProofs.v
theories/PropertiesHash.v
