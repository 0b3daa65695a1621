-Q theories Verif
theories/Model/Py.v
theories/Model/Dialect.v
theories/Model/ProtocolMeta.v
theories/Model/BitOps.v
theories/Model/MsgHeader.v
theories/Model/Struct.v
theories/Model/Crc.v
theories/Model/Mavlink.v
theories/Model/Segmentation.v
theories/Model/Parser.v
theories/Model/Signing.v
theories/Model/ApiTable.v
theories/Model/Wrappers.v
theories/Model/Message.v
theories/Model/MsgCreator.v
theories/Spec/Bytes.v
theories/Spec/Bits.v
theories/Spec/Header.v
theories/Proofs/Base.v
theories/Proofs/BitOpsP.v
theories/Proofs/DialectP.v
theories/Proofs/HeaderP.v
theories/Proofs/HeaderMore.v
theories/Props/HeaderProps.v
theories/Spec/CrcSpec.v
theories/Spec/Frame.v
theories/Spec/StreamSpec.v
theories/Spec/SignSpec.v
theories/Spec/ApiSpec.v
theories/Spec/MessageSpec.v
theories/Spec/TelemetrySpec.v
theories/Spec/Segment.v
theories/Spec/Describe.v
theories/Proofs/CrcP.v
theories/Proofs/StructP.v
theories/Proofs/MavlinkP.v
theories/Proofs/FieldsP.v
theories/Proofs/PackP.v
theories/Proofs/ErrP.v
theories/Proofs/SendP.v
theories/Proofs/MavlinkMore.v
theories/Proofs/StreamP.v
theories/Proofs/StreamMore.v
theories/Proofs/SignP.v
theories/Proofs/SignSend.v
theories/Proofs/ApiP.v
theories/Proofs/MessageP.v
theories/Proofs/TelemetryP.v
theories/Proofs/SegmentP.v
theories/Proofs/SegStream.v
theories/Proofs/SegMore.v
theories/Proofs/DescribeP.v
theories/Props/MavlinkProps.v
theories/Props/StreamProps.v
theories/Props/SigningProps.v
theories/Props/ApiProps.v
theories/Props/MessageProps.v
theories/Props/TelemetryProps.v
theories/Props/SegmentProps.v
theories/Model/Float.v
theories/Model/StatModels.v
theories/Spec/RealOps.v
theories/Spec/Stats.v
theories/Proofs/RealP.v
theories/Proofs/StatP.v
theories/Proofs/LayoutP.v
theories/Proofs/ValuesP.v
theories/Proofs/BufModelP.v
theories/Proofs/PredictP.v
theories/Proofs/MeanP.v
theories/Proofs/SaveP.v
theories/Proofs/StatReal.v
theories/Proofs/StatTop.v
theories/Props/StatProps.v
theories/Model/InfoTheory.v
theories/Model/Perf.v
theories/Model/Markov.v
theories/Spec/Info.v
theories/Proofs/InfoP.v
theories/Proofs/EntropyP.v
theories/Proofs/HellingerP.v
theories/Proofs/PerfP.v
theories/Proofs/MarkovP.v
theories/Props/InfoProps.v
theories/Model/Clustering.v
theories/Spec/Cluster.v
theories/Proofs/ClusterP.v
theories/Proofs/ClusterH.v
theories/Proofs/ClusterR.v
theories/Proofs/ClusterRun.v
theories/Props/ClusterProps.v
theories/Model/Dude.v
theories/Spec/DudeSpec.v
theories/Proofs/DudeP.v
theories/Proofs/DudeR.v
theories/Proofs/DudeB.v
theories/Proofs/DudeH.v
theories/Props/DudeProps.v
theories/Model/Emle.v
theories/Spec/EmleSpec.v
theories/Proofs/EmleP.v
theories/Props/EmleProps.v
theories/Model/Bmm.v
theories/Spec/BmmSpec.v
theories/Proofs/BmmP.v
theories/Proofs/BmmEm.v
theories/Props/BmmProps.v
theories/Model/Turbo.v
theories/Spec/TurboSpec.v
theories/Proofs/TurboP.v
theories/Props/TurboProps.v
theories/Model/DecoderBase.v
theories/Model/EntropyDecoder.v
theories/Spec/DecoderSpec.v
theories/Proofs/DecoderP.v
theories/Proofs/EntropyDecP.v
theories/Props/EntropyDecoderProps.v
theories/Model/WeightedDecoder.v
theories/Spec/WeightedSpec.v
theories/Proofs/WeightedP.v
theories/Props/WeightedProps.v
theories/Model/Relabel.v
theories/Spec/RelabelSpec.v
theories/Proofs/RelabelP.v
theories/Props/RelabelProps.v
theories/Model/ClassDecoder.v
theories/Spec/ClassSpec.v
theories/Proofs/ClassP.v
theories/Props/ClassProps.v
theories/Spec/FlipSpec.v
theories/Proofs/FlipP.v
theories/Props/FlipProps.v
theories/Model/DudeDecoder.v
theories/Spec/DudeDecSpec.v
theories/Proofs/DudeDecP.v
theories/Props/DudeDecProps.v
theories/Model/Rectify.v
theories/Model/MavlinkDecoder.v
theories/Model/CombinedDecoder.v
theories/Spec/RectifySpec.v
theories/Proofs/RectifyP.v
theories/Props/RectifyProps.v
theories/Spec/MavDecSpec.v
theories/Proofs/MavDecP.v
theories/Spec/DebugSpec.v
theories/Proofs/DebugP.v
theories/Props/MavDecProps.v
theories/Spec/CombinedSpec.v
theories/Proofs/CombinedP.v
theories/Proofs/UnifiedP.v
theories/Props/CombinedProps.v
theories/Model/Simulation.v
theories/Spec/SimulationSpec.v
theories/Proofs/SimulationP.v
theories/Proofs/ExperimentP.v
theories/Props/SimulationProps.v
theories/Props/ExperimentProps.v
theories/Model/Characterize.v
theories/Spec/CharacterizeSpec.v
theories/Proofs/CharacterizeP.v
theories/Props/CharacterizeProps.v
theories/Model/NoisyMle.v
theories/Spec/MleSpec.v
theories/Proofs/MleP.v
theories/Props/MleProps.v
theories/Model/ShipLog.v
theories/Spec/ShipLogSpec.v
theories/Proofs/ShipLogP.v
theories/Props/ShipLogProps.v
theories/Model/MinimalTable.v
theories/Model/MinimalDialect.v
theories/Props/MinimalProps.v
theories/Model/ClusterAnalysis.v
theories/Spec/ClusterAnalysisSpec.v
theories/Props/ClusterAnalysisProps.v
theories/Model/TrainModels.v
theories/Spec/TrainSpec.v
theories/Proofs/TrainP.v
theories/Proofs/TrainDistP.v
theories/Props/TrainProps.v
theories/Model/SimVariants.v
theories/Spec/SimVariantsSpec.v
theories/Proofs/SimVariantsP.v
theories/Props/SimVariantsProps.v
theories/Model/Workers.v
theories/Spec/WorkersSpec.v
theories/Proofs/WorkersP.v
theories/Props/WorkersProps.v
theories/Model/Informed.v
theories/Spec/InformedSpec.v
theories/Proofs/InformedP.v
theories/Props/InformedProps.v
theories/Model/Delivery.v
theories/Spec/DeliverySpec.v
theories/Proofs/DeliveryP.v
theories/Props/DeliveryProps.v
theories/Model/Capacity.v
theories/Spec/CapacitySpec.v
theories/Proofs/CapacityP.v
theories/Props/CapacityProps.v
theories/Spec/CountSpec.v
theories/Proofs/CountP.v
theories/Props/CountProps.v
theories/Model/Compare.v
theories/Spec/CompareSpec.v
theories/Proofs/CompareP.v
theories/Props/CompareProps.v
theories/Model/Cmd.v
theories/Model/Commands.v
theories/Spec/CmdSpec.v
theories/Proofs/CmdP.v
theories/Proofs/CmdQ.v
theories/Props/CmdProps.v
theories/Model/Unify.v
theories/Spec/UnifySpec.v
theories/Proofs/UnifyP.v
theories/Props/UnifyProps.v
theories/Model/Sweep.v
theories/Spec/IeeeOps.v
theories/Spec/IeeeStatSpec.v
theories/Proofs/IeeeP.v
theories/Proofs/IeeeInfoP.v
theories/Proofs/IeeeHellP.v
theories/Proofs/IeeeFitP.v
theories/Proofs/IeeeSweepP.v
theories/Proofs/IeeeFreqP.v
theories/Props/IeeeProps.v
theories/Spec/IeeeEmleSpec.v
theories/Proofs/IeeeEmleP.v
theories/Proofs/IeeeModelP.v
theories/Props/IeeeEmleProps.v
theories/Model/Legacy.v
theories/Spec/LegacySpec.v
theories/Proofs/LegacyP.v
theories/Props/LegacyProps.v
theories/Model/Trials.v
theories/Spec/TrialsSpec.v
theories/Proofs/TrialsP.v
theories/Props/TrialsProps.v
theories/Model/Logging.v
theories/Spec/LoggingSpec.v
theories/Proofs/LoggingP.v
theories/Props/LoggingProps.v
theories/Spec/IeeeCluster.v
theories/Proofs/IeeeClusterP.v
theories/Proofs/IeeeClusterR.v
theories/Proofs/IeeeClusterS.v
theories/Proofs/IeeeClusterT.v
theories/Props/IeeeClusterProps.v
theories/Model/ExampleScript.v
theories/Spec/ExampleSpec.v
theories/Proofs/ExampleP.v
theories/Props/ExampleProps.v
theories/Model/FieldMethods.v
theories/Spec/FieldSpec.v
theories/Proofs/FieldMethodsP.v
theories/Props/FieldProps.v
theories/Model/Mission.v
theories/Spec/MissionSpec.v
theories/Proofs/MissionP.v
theories/Props/MissionProps.v
theories/Spec/IeeeDudeSpec.v
theories/Proofs/IeeeDudeP.v
theories/Proofs/IeeeDudeQ.v
theories/Proofs/IeeeDudeS.v
theories/Props/IeeeDudeProps.v
theories/Spec/IeeeBmmSpec.v
theories/Proofs/IeeeBmmP.v
theories/Proofs/IeeeBmmQ.v
theories/Proofs/IeeeBmmS.v
theories/Proofs/IeeeBmmT.v
theories/Proofs/IeeeBmmU.v
theories/Proofs/IeeeBmmV.v
theories/Proofs/IeeeBmmW.v
theories/Props/IeeeBmmProps.v
theories/Spec/IeeeFieldSpec.v
theories/Proofs/IeeeFieldP.v
theories/Proofs/IeeeFieldQ.v
theories/Props/IeeeFieldProps.v
theories/Model/JsonText.v
theories/Spec/JsonSpec.v
theories/Proofs/JsonP.v
theories/Proofs/JsonQ.v
theories/Proofs/JsonR.v
theories/Props/JsonProps.v
theories/Model/FixResults.v
theories/Spec/FixSpec.v
theories/Proofs/FixP.v
theories/Props/FixProps.v
theories/Model/Saving.v
theories/Model/SaveTable.v
theories/Spec/SavingSpec.v
theories/Proofs/SavingNames.v
theories/Proofs/SavingWorld.v
theories/Proofs/SavingFrame.v
theories/Proofs/SavingResults.v
theories/Proofs/SavingFates.v
theories/Proofs/SavingLogs.v
theories/Proofs/SavingAlone.v
theories/Proofs/SavingOverlap.v
theories/Proofs/SavingSecond.v
theories/Props/Saving.v
theories/Model/Timestamp.v
theories/Spec/TimestampSpec.v
theories/Proofs/TimestampP.v
theories/Props/TimestampProps.v
theories/Spec/StepSpec.v
theories/Proofs/SavingSteps.v
theories/Props/StepProps.v
theories/Model/Names.v
theories/Model/NamesTable.v
theories/Spec/NamesSpec.v
theories/Proofs/NamesP.v
theories/Proofs/NamesQ.v
theories/Props/NamesProps.v
theories/Model/AttrsTable.v
theories/Spec/AttrsSpec.v
theories/Proofs/AttrsP.v
theories/Props/AttrsProps.v
theories/Model/Imports.v
theories/Model/ImportsTable.v
theories/Spec/ImportsSpec.v
theories/Proofs/ImportsP.v
theories/Props/ImportsProps.v
theories/Model/Wire2.v
theories/Spec/Wire2Spec.v
theories/Proofs/Wire2P.v
theories/Props/Wire2Props.v
theories/Model/Link.v
theories/Spec/LinkSpec.v
theories/Proofs/LinkP.v
theories/Props/LinkProps.v
theories/Model/XmlTable.v
theories/Spec/XmlSpec.v
theories/Proofs/XmlP.v
theories/Props/XmlProps.v
theories/Model/RepoTests.v
theories/Spec/RepoTestsSpec.v
theories/Proofs/RepoTestsP.v
theories/Proofs/RepoInfoP.v
theories/Props/RepoTestsProps.v
theories/Model/Threads.v
theories/Spec/ThreadsSpec.v
theories/Proofs/ThreadsP.v
theories/Props/ThreadsProps.v
theories/Model/EnumTable.v
theories/Model/Enums.v
theories/Spec/EnumSpec.v
theories/Proofs/EnumP.v
theories/Props/EnumProps.v
