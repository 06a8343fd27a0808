-Q theories Verif
theories/Base.v
theories/ModelObservation.v
theories/ModelLabelFilter.v
theories/ModelSnapshot.v
theories/ModelCounter.v
theories/ModelBuckets.v
theories/ModelGauge.v
theories/ModelMeter.v
theories/ModelHistogram.v
theories/ModelSwitches.v
theories/SpecRun.v
theories/MonadFacts.v
theories/LabelFilterProofs.v
theories/PropLabelFilter.v
theories/SpecCounting.v
theories/CounterProofs.v
theories/PropCounter.v
theories/SpecObservation.v
theories/ObservationProofs.v
theories/FloatProofs.v
theories/PropObservation.v
theories/SpecGauge.v
theories/GaugeProofs.v
theories/GaugeAdapterProofs.v
theories/PropGauge.v
theories/SpecTracking.v
theories/BucketsProofs.v
theories/TrackingProofs.v
theories/StatsProofs.v
theories/WindowProofs.v
theories/PropTracking.v
theories/SpecMeter.v
theories/MeterProofs.v
theories/MeterHistoryProofs.v
theories/MeterRunsProofs.v
theories/FloatReal.v
theories/EwmaProofs.v
theories/MeterRateProofs.v
theories/ValueRateProofs.v
theories/PropMeter.v
theories/PropValueMeter.v
theories/SpecSwitches.v
theories/SwitchesProofs.v
theories/PropSwitches.v
theories/SpecHistogram.v
theories/HistogramProofs.v
theories/PropHistogram.v
theories/SpecSnapshot.v
theories/SnapshotProofs.v
theories/PropSnapshot.v
theories/ModelInstrument.v
theories/ModelTree.v
theories/ModelChannel.v
theories/ModelProcessor.v
theories/TreeInd.v
theories/SpecTree.v
theories/TreeProofs.v
theories/Toy.v
theories/PropTree.v
theories/SpecWriting.v
theories/WritingProofs.v
theories/TreeEqs.v
theories/AppendProofs.v
theories/PropWriting.v
theories/SpecClock.v
theories/ClockProofs.v
theories/SpecActivity.v
theories/ActivityProofs.v
theories/WorldClockProofs.v
theories/PropActivity.v
theories/SpecNames.v
theories/NamesProofs.v
theories/PropNames.v
theories/ModelTransmitter.v
theories/SpecQueue.v
theories/QueueProofs.v
theories/SpecCollect.v
theories/CollectProofs.v
theories/GroupProofs.v
theories/PropQueue.v
theories/PropCollect.v
theories/PropGroup.v
theories/TransmitterProofs.v
theories/PropTransmitter.v
theories/ModelDriver.v
theories/SpecDriver.v
theories/DriverProofs.v
theories/DriverLoopProofs.v
theories/DriverMetricsProofs.v
theories/DriverShapeProofs.v
theories/DriverAlarmProofs.v
theories/PropDriver.v
theories/SpecFollow.v
theories/FollowProofs.v
theories/PropFollow.v
theories/ModelNest.v
theories/SpecNest.v
theories/NestProofs.v
theories/PropNest.v
theories/SpecSafe.v
theories/SafeProofs.v
theories/SafeTreeProofs.v
theories/SafeWorldProofs.v
theories/SafeDriverProofs.v
theories/PropSafe.v
theories/SpecReads.v
theories/StaysProofs.v
theories/ReadsHistoryProofs.v
theories/ReadsLeafProofs.v
theories/ReadsTreeProofs.v
theories/ReadsWorldProofs.v
theories/ReadsDriverProofs.v
theories/PropReads.v
theories/ModelValues.v
theories/SpecValues.v
theories/ValuesProofs.v
theories/PropValues.v
theories/ModelConfig.v
theories/SpecConfig.v
theories/ConfigProofs.v
theories/ConfigTreeProofs.v
theories/SpecAttach.v
theories/AttachProofs.v
theories/SpecBuilder.v
theories/BuilderProofs.v
theories/SpecOrder.v
theories/OrderProofs.v
theories/PropConfig.v
theories/PropAttach.v
theories/PropBuilder.v
theories/PropOrder.v
theories/SpecChronicle.v
theories/ChronicleProofs.v
theories/ChronicleDriver.v
theories/PropChronicle.v
theories/SpecSite.v
theories/SiteProofs.v
theories/SpecLife.v
theories/LifeProofs.v
theories/SiteDriver.v
theories/PropSite.v
theories/SpecBuild.v
theories/BuildProofs.v
theories/PropBuild.v
theories/SpecLives.v
theories/LivesProofs.v
theories/LivesHistogram.v
theories/LivesDriver.v
theories/PropLives.v
theories/SpecShown.v
theories/ShownProofs.v
theories/PropShown.v
theories/ModelHandle.v
theories/SpecHandle.v
theories/HandleAway.v
theories/HandleProofs.v
theories/HandleDriver.v
theories/HandleArrives.v
theories/HandleGrows.v
theories/HandlePut.v
theories/PropHandle.v
theories/HandleAdds.v
theories/PropAdd.v
theories/SpecTotal.v
theories/TotalProofs.v
theories/PropTotal.v
theories/SpecMetrix.v
theories/MetrixProofs.v
theories/MetrixFigures.v
theories/PropMetrix.v
theories/SpecRatio.v
theories/RatioProofs.v
theories/RatioFigures.v
theories/PropRatio.v
theories/SpecAverage.v
theories/AverageProofs.v
theories/AverageShown.v
theories/PropAverage.v
theories/ModelAlpha.v
theories/SpecAlpha.v
theories/AlphaProofs.v
theories/AlphaCases.v
theories/PropAlpha.v
theories/SpecProfile.v
theories/ProfileProofs.v
theories/PropProfile.v
theories/SpecMount.v
theories/MountProofs.v
theories/PropMount.v
theories/SpecShorthand.v
theories/ShorthandProofs.v
theories/PropShorthand.v
theories/ModelText.v
theories/SpecText.v
theories/TextProofs.v
theories/PropText.v
theories/ModelJemalloc.v
theories/SpecJemalloc.v
theories/JemallocProofs.v
theories/PropJemalloc.v
theories/SpecRoom.v
theories/RoomProofs.v
theories/RoomTreeProofs.v
theories/PropRoom.v
theories/ModelBucketsAt.v
theories/SpecBucketsAt.v
theories/BucketsAtProofs.v
theories/PropBucketsAt.v
theories/SpecThreads.v
theories/ThreadsProofs.v
theories/PropThreads.v
theories/SpecRoomWorld.v
theories/RoomWorldProofs.v
theories/PropRoomWorld.v
theories/SpecRoomDriver.v
theories/RoomDriverProofs.v
theories/PropRoomDriver.v
theories/SpecLedger.v
theories/LedgerProofs.v
theories/PropLedger.v
theories/ModelGetters.v
theories/GettersProofs.v
theories/PropGetters.v
