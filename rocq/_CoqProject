-Q theories Verif
theories/Base.v
theories/State.v
theories/Env.v
theories/TeerdaysModel.v
theories/TeerexBase.v
theories/SgxVerifyModel.v
theories/CollateralModel.v
theories/TeerexModel.v
theories/EnclaveBridgeModel.v
theories/SidechainModel.v
theories/TeeracleModel.v
theories/ClaimsModel.v
theories/AssetRegistryModel.v
theories/XcmTransactorModel.v
theories/MigrationsModel.v
theories/Runtime.v
theories/WeightsModel.v
theories/Frame.v
theories/EnvFacts.v
theories/TeerdaysProofs.v
theories/Examples.v
theories/Panic.v
theories/TeerdaysProps.v
theories/BridgeProofs.v
theories/Ledger.v
theories/Erase.v
theories/BridgeProps.v
theories/Events.v
theories/SidechainProps.v
theories/TeeracleProps.v
theories/SgxProofs.v
theories/TeerexProofs.v
theories/SgxProps.v
theories/TeerexProps.v
theories/MigrationsProps.v
theories/ClaimsProofs.v
theories/ClaimsProps.v
theories/XcmProps.v
theories/RuntimeProps.v
theories/PemProps.v
theories/AttestationProps.v
theories/AcceptProps.v
theories/EffectProps.v
theories/VestingProps.v
theories/ErrorProps.v
theories/SgxErrorProps.v
theories/WeightProps.v
theories/HelperProps.v
theories/CollateralProps.v
theories/ProvenanceProps.v
theories/ExitProps.v
theories/BuildProps.v
theories/ScaleModel.v
theories/ScaleProofs.v
theories/StorageModel.v
theories/StorageProps.v
theories/EncodingProps.v
theories/TypingProps.v
theories/RawMigrationsModel.v
theories/RawMigrationsProps.v
theories/ExtrinsicModel.v
theories/ExtrinsicProps.v
theories/LayoutProps.v
theories/Footprint.v
theories/FootprintProps.v
theories/TextModel.v
theories/TestData.v
theories/SerialModel.v
theories/SerialProofs.v
theories/SerialProps.v
theories/Conformance.v
theories/ConformanceSgx.v
theories/ConformancePallets.v
theories/Keccak.v
theories/ConformanceClaims.v
theories/IssuanceProps.v
theories/RecoveryProps.v
theories/PowerProps.v
theories/ObserverProps.v
theories/BenchmarksModel.v
theories/BenchProps.v
theories/ClaimBenchProps.v
theories/BenchWriteProps.v
theories/FuzzModel.v
theories/FuzzProps.v
theories/ReadsProps.v
theories/EventModel.v
theories/EventProps.v
theories/ErrorModel.v
theories/ErrorWireProps.v
theories/ErrorWitnessProps.v
theories/SafetyProps.v
theories/OutsiderProps.v
theories/GriefProps.v
theories/LedgerProps.v
theories/HistoryProps.v
theories/AccessProps.v
theories/RetryProps.v
theories/GrowthProps.v
theories/GenesisModel.v
theories/GenesisProps.v
theories/StdTextModel.v
theories/StdTextProps.v
theories/TrancheProps.v
theories/WaitProps.v
theories/UpgradeProps.v
theories/SeniorityProps.v
theories/ProportionProps.v
theories/ShardBookProps.v
theories/SourceBookProps.v
theories/ClaimBookProps.v
