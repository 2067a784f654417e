-Q theories Verif
theories/Base.v
theories/SMap.v
theories/DataModel.v
theories/DataProps.v
theories/FilterModel.v
theories/FilterSpec.v
theories/FilterProofs.v
theories/FilterProps.v
theories/BincodeModel.v
theories/ByCommitModel.v
theories/ByCommitSpec.v
theories/ByCommitProofs.v
theories/ByCommitProps.v
theories/StoreModel.v
theories/StoreSpec.v
theories/StoreProofs.v
theories/StoreSlot.v
theories/StoreViews.v
theories/StoreHist.v
theories/StoreEffects.v
theories/StoreProps.v
theories/OwnerSpec.v
theories/OwnerProofs.v
theories/OwnerProps.v
theories/StoreLifeProps.v
theories/StoreExactProps.v
theories/BincodeProofs.v
theories/SnapshotProps.v
theories/StoreOrder.v
theories/LockModel.v
theories/LockProps.v
theories/ConcModel.v
theories/ConcProofs.v
theories/ConcReads.v
theories/ConcProps.v
theories/ConcQueryModel.v
theories/ConcQuerySpec.v
theories/ConcQueryProofs.v
theories/ConcQueryWalk.v
theories/ConcSolo.v
theories/ConcQueryProps.v
theories/TokenModel.v
theories/TokenProofs.v
theories/TokenProps.v
theories/SplModel.v
theories/SplProofs.v
theories/TokenUtilsModel.v
theories/TokenUtilsProofs.v
theories/TokenUtilsProps.v
theories/TokenPendModel.v
theories/TokenPendSpec.v
theories/TokenPendProofs.v
theories/TokenPendProps.v
theories/TokenStoreModel.v
theories/TokenStoreSpec.v
theories/TokenStoreProofs.v
theories/TokenStoreViews.v
theories/TokenStoreProps.v
theories/TokenStoreOrder.v
theories/TokenStoreQuery.v
theories/TokenStoreQueryProps.v
theories/Lz4Model.v
theories/TokenSnapSpec.v
theories/TokenSnapProofs.v
theories/TokenSnapLoad.v
theories/TokenSnapReads.v
theories/TokenSnapProps.v
theories/TokenStoreSafe.v
theories/TokenStoreServed.v
theories/DispatchModel.v
theories/DispatchSpec.v
theories/DispatchProps.v
theories/OnDemandModel.v
theories/OnDemandSpec.v
theories/OnDemandProofs.v
theories/OnDemandProps.v
theories/AvecModel.v
theories/AvecSpec.v
theories/AvecProofs.v
theories/AvecProps.v
theories/ManifestModel.v
theories/ManifestSpec.v
theories/ManifestProps.v
theories/UnpackedModel.v
theories/UnpackedSpec.v
theories/UnpackedProps.v
theories/ParallelModel.v
theories/ParallelSpec.v
theories/ParallelProps.v
theories/RpcModel.v
theories/RpcProps.v
theories/Base58Model.v
theories/Base58Proofs.v
theories/JsonModel.v
theories/JsonSpec.v
theories/JsonProofs.v
theories/FilterJsonModel.v
theories/FilterJsonSpec.v
theories/FilterJsonProofs.v
theories/FilterJsonProps.v
theories/StreamModel.v
theories/StreamSpec.v
theories/StreamProps.v
theories/TokenLockModel.v
theories/TokenLockProps.v
theories/TokenConcModel.v
theories/TokenConcSpec.v
theories/TokenConcProofs.v
theories/TokenConcSolo.v
theories/TokenConcProps.v
theories/TokenConcIndex.v
theories/TokenConcQueryProps.v
theories/TokenConcServe.v
theories/TokenConcStay.v
theories/TokenConcSlots.v
theories/TokenConcServeProps.v
theories/LedgerSpec.v
theories/LedgerProofs.v
theories/LedgerInv.v
theories/LedgerSteps.v
theories/LedgerSlots.v
theories/LedgerFin.v
theories/LedgerRun.v
theories/LateSpec.v
theories/LateProofs.v
theories/LedgerProps.v
theories/LedgerQueryProps.v
theories/TokenLedgerSpec.v
theories/TokenLedgerProofs.v
theories/TokenLedgerKey.v
theories/TokenLedgerProps.v
theories/TokenLedgerEdge.v
theories/TokenLedgerQueryProps.v
theories/TokenLedgerNotifyProps.v
theories/GaugeModel.v
theories/GaugeProps.v
theories/TokenGaugeProps.v
theories/RepoTests.v
theories/TokenLedgerSafeProps.v
theories/LedgerFilterSpec.v
theories/LedgerFilterProofs.v
theories/LedgerFilterProps.v
theories/ServerModel.v
theories/ServerSpec.v
theories/ServerProps.v
theories/TokenReadBack.v
theories/FilterListProps.v
theories/LateProps.v
theories/ReplicaSpec.v
theories/ReplicaProps.v
theories/OnDemandLoadProps.v
theories/RpcSnapshotProps.v
theories/StreamPayloadProps.v
theories/BootstrapProps.v
theories/StoreAnswerProps.v
theories/TokenAnswerProps.v
theories/RpcTotalProps.v
theories/FilterListedProps.v
theories/JsonGrammar.v
theories/JsonSound.v
theories/FilterJsonExactProps.v
theories/SplLayoutProps.v
theories/DispatchRunProps.v
theories/Base64Model.v
theories/EncodingSpec.v
theories/RpcTextModel.v
theories/EncodingProps.v
theories/RpcWireModel.v
theories/RpcWireSpec.v
theories/RpcWireProps.v
theories/RpcWireLedgerProps.v
theories/RedeliverProps.v
theories/ArrivalSpec.v
theories/AlikeProofs.v
theories/ArrivalProps.v
theories/OvertakeProps.v
theories/TokenArrivalProps.v
theories/TokenRenumberProps.v
theories/TokenRedeliverProps.v
theories/TokenOnceProps.v
theories/OnceProps.v
theories/ServerContextProps.v
