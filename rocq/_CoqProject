-Q theories Verif
theories/Base/Base.v
theories/Base/Lemmas.v
theories/Model/Consts.v
theories/Model/Partitioner.v
theories/Spec/Grid.v
theories/Spec/Layouts.v
theories/Proofs/FloatExtent.v
theories/Proofs/Slices.v
theories/Proofs/Partition.v
theories/Proofs/Neighbors.v
theories/Spec/Cube.v
theories/Props/Partition.v
theories/Model/Cache.v
theories/Proofs/Geometry.v
theories/Proofs/Reciprocal.v
theories/Proofs/CacheProofs.v
theories/Proofs/Boundaries.v
theories/Props/Boundaries.v
theories/Model/Numpy.v
theories/Model/Quantity.v
theories/Model/Rotate.v
theories/Proofs/NumpyProofs.v
theories/Model/Network.v
theories/Model/Communicator.v
theories/Proofs/NetworkProofs.v
theories/Spec/Lockstep.v
theories/Proofs/Phases.v
theories/Proofs/Scripts.v
theories/Spec/Halo.v
theories/Proofs/Regions.v
theories/Proofs/Transfer.v
theories/Proofs/Delivery.v
theories/Spec/Sync.v
theories/Spec/Client.v
theories/Proofs/HaloOps.v
theories/Proofs/HaloResult.v
theories/Proofs/HaloEffect.v
theories/Proofs/SyncGeometry.v
theories/Proofs/SyncViews.v
theories/Proofs/SyncEffect.v
theories/Proofs/ClientProofs.v
theories/Spec/Updates.v
theories/Proofs/UpdateProofs.v
theories/Proofs/UpdateExamples.v
theories/Props/Updates.v
theories/Spec/Errors.v
theories/Proofs/HaloErrors.v
theories/Props/Errors.v
theories/Spec/Views.v
theories/Proofs/ViewProofs.v
theories/Proofs/CornerProofs.v
theories/Proofs/TransposeProofs.v
theories/Proofs/RotationProofs.v
theories/Proofs/RegionViews.v
theories/Props/Views.v
theories/Props/Rotation.v
theories/Model/Collective.v
theories/Model/ScatterGather.v
theories/Spec/Together.v
theories/Proofs/CollectiveProofs.v
theories/Spec/Distribute.v
theories/Proofs/Parts.v
theories/Proofs/ScatterProofs.v
theories/Proofs/GatherProofs.v
theories/Proofs/StateProofs.v
theories/Props/Distribution.v
theories/Model/Timer.v
theories/Spec/Intervals.v
theories/Proofs/TimerProofs.v
theories/Props/Timing.v
theories/Model/Units.v
theories/Spec/Trim.v
theories/Proofs/UnitsProofs.v
theories/Props/UnitStrings.v
theories/Model/DummyComm.v
theories/Spec/Fifo.v
theories/Proofs/DummyProofs.v
theories/Props/TestComm.v
theories/Model/Buffer.v
theories/Spec/Lending.v
theories/Proofs/BufferProofs.v
theories/Props/Buffers.v
theories/Model/Capture.v
theories/Spec/Descriptors.v
theories/Proofs/CaptureProofs.v
theories/Props/Streams.v
theories/Model/Sizer.v
theories/Spec/Sizing.v
theories/Proofs/SizerProofs.v
theories/Props/Allocation.v
theories/Model/Corners.v
theories/Spec/Corners.v
theories/Proofs/FillProofs.v
theories/Props/CornerFilling.v
theories/Model/Nudging.v
theories/Spec/Relaxation.v
theories/Proofs/NudgeProofs.v
theories/Props/Nudge.v
theories/Model/Properties.v
theories/Model/Restart.v
theories/Spec/Loading.v
theories/Proofs/RestartProofs.v
theories/Proofs/OpenRestartProofs.v
theories/Spec/Decimal.v
theories/Proofs/DecimalProofs.v
theories/Props/Restart.v
theories/Model/Shared.v
theories/Model/Zarr.v
theories/Spec/Storage.v
theories/Proofs/SharedProofs.v
theories/Proofs/ZarrGeometry.v
theories/Proofs/ZarrProofs.v
theories/Proofs/ZarrStores.v
theories/Proofs/ZarrErrors.v
theories/Proofs/ZarrExamples.v
theories/Props/Zarr.v
theories/Model/LateRead.v
theories/Spec/Late.v
theories/Proofs/LateSim.v
theories/Proofs/LateProofs.v
theories/Proofs/LateExamples.v
theories/Props/LateRead.v
theories/Spec/Orders.v
theories/Proofs/OrderScripts.v
theories/Proofs/OrderProofs.v
theories/Proofs/OrderExamples.v
theories/Props/Orders.v
theories/Proofs/VerticalFirst.v
theories/Model/StateIO.v
theories/Spec/Files.v
theories/Proofs/FileProofs.v
theories/Proofs/FileExamples.v
theories/Props/Files.v
theories/Model/Time.v
theories/Spec/Dates.v
theories/Proofs/TimeProofs.v
theories/Props/Dates.v
theories/Proofs/TileMapProofs.v
theories/Props/TileMaps.v
theories/Spec/Newaxis.v
theories/Proofs/NewaxisProofs.v
theories/Model/Values.v
theories/Proofs/ValuesProofs.v
theories/Props/Indices.v
theories/Spec/Steps.v
theories/Proofs/StepsProofs.v
theories/Spec/Whole.v
theories/Proofs/WholeProofs.v
theories/Proofs/StepsExamples.v
theories/Props/Whole.v
theories/Model/DummyNet.v
theories/Spec/OneThread.v
theories/Proofs/DummyNetProofs.v
theories/Proofs/OneThreadProofs.v
theories/Proofs/OneThreadExamples.v
theories/Props/OneThread.v
theories/Model/Cluster.v
theories/Model/TileComm.v
theories/Spec/Mixed.v
theories/Proofs/ClusterProofs.v
theories/Proofs/ClusterLift.v
theories/Proofs/MixedProofs.v
theories/Proofs/TileCommProofs.v
theories/Spec/OneProgram.v
theories/Proofs/OneProgramProofs.v
theories/Proofs/MixedExamples.v
theories/Props/OneProgram.v
theories/Model/Storage.v
theories/Spec/Sharing.v
theories/Proofs/SharingProofs.v
theories/Props/Sharing.v
theories/Model/ZarrOpen.v
theories/Spec/Opening.v
theories/Proofs/ZarrOpenProofs.v
theories/Props/ZarrOpening.v
theories/Spec/Unmatched.v
theories/Proofs/CountProofs.v
theories/Proofs/UnmatchedProofs.v
theories/Props/Unmatched.v
theories/Model/CommTimer.v
theories/Spec/CommTimes.v
theories/Proofs/CommTimerProofs.v
theories/Proofs/CommTimerErrors.v
theories/Props/CommTimes.v
theories/Spec/Prognostic.v
theories/Proofs/PrognosticProofs.v
theories/Proofs/PrognosticExamples.v
theories/Props/Prognostic.v
theories/Spec/TileRun.v
theories/Proofs/TileRunProofs.v
theories/Props/TileRun.v
theories/Spec/ModelRun.v
theories/Proofs/ModelRunProofs.v
theories/Proofs/ModelRunExamples.v
theories/Props/ModelRun.v
theories/Tests/Tables.v
theories/Tests/PartitionerTests.v
theories/Tests/ViewTests.v
theories/Tests/CornerTests.v
theories/Tests/RotateTests.v
theories/Tests/UpdateTests.v
theories/Tests/QuantityTests.v
theories/Tests/SizerTests.v
theories/Tests/ScatterTests.v
theories/Tests/OtherTests.v
theories/Tests/ZarrTests.v
theories/Spec/Types.v
theories/Proofs/TypeProofs.v
theories/Props/ElementTypes.v
theories/Model/Setup.v
theories/Spec/Setup.v
theories/Proofs/SetupProofs.v
theories/Props/Setup.v
theories/Spec/PropertiesFile.v
theories/Proofs/PropertiesFileProofs.v
theories/Props/PropertiesFile.v
theories/Spec/History.v
theories/Proofs/HistoryProofs.v
theories/Props/History.v
theories/Spec/Refused.v
theories/Proofs/RefusedProofs.v
theories/Props/Refused.v
theories/Spec/Repeated.v
theories/Proofs/RepeatedProofs.v
theories/Props/Repeated.v
theories/Spec/Spread.v
theories/Proofs/SpreadProofs.v
theories/Props/Spread.v
theories/Model/Joint.v
theories/Spec/Joint.v
theories/Proofs/JointProofs.v
theories/Proofs/StoringProofs.v
theories/Proofs/JointExamples.v
theories/Props/Joint.v
theories/Model/NudgingFloat.v
theories/Spec/Rounded.v
theories/Proofs/RoundedProofs.v
theories/Props/Rounded.v
theories/Spec/Shapes.v
theories/Proofs/ShapeProofs.v
theories/Props/Shapes.v
theories/Model/Strides.v
theories/Spec/Memory.v
theories/Proofs/StridesProofs.v
theories/Props/Memory.v
