-Q theories Verif
theories/Base.v
theories/Dict.v
theories/ExecModel.v
theories/ExecSpec.v
theories/ExecProofs.v
theories/GraphModel.v
theories/GraphProofs.v
theories/ExecResults.v
theories/ExecProps.v
theories/GraphSpec.v
theories/GraphResults.v
theories/GraphProps.v
theories/TraverseModel.v
theories/TraverseProofs.v
theories/TraverseProps.v
theories/TopoModel.v
theories/TopoProofs.v
theories/TopoProps.v
theories/LifecycleModel.v
theories/LifecycleProofs.v
theories/LifecycleProps.v
theories/Strings.v
theories/GroupModel.v
theories/StateModel.v
theories/StateProofs.v
theories/StateLive.v
theories/PlanProofs.v
theories/PlanCheck.v
theories/StateResults.v
theories/PoolModel.v
theories/PoolProofs.v
theories/StateProps.v
theories/TaskSpec.v
theories/TaskLocal.v
theories/TaskProofs.v
theories/TaskModel.v
theories/TaskGroups.v
theories/TaskRun.v
theories/TaskProps.v
theories/CacheKeyModel.v
theories/CacheKeyProofs.v
theories/CacheToy.v
theories/CacheKeyProps.v
theories/FingerprintModel.v
theories/FingerprintSpec.v
theories/FingerprintProofs.v
theories/FingerprintProps.v
theories/ExecCong.v
theories/CacheModel.v
theories/CacheSpec.v
theories/CacheProofs.v
theories/CacheProps.v
theories/StoreModel.v
theories/StoreSpec.v
theories/StoreProofs.v
theories/StoreProps.v
theories/BehaviorModel.v
theories/BehaviorSpec.v
theories/BehaviorProofs.v
theories/BehaviorProps.v
theories/ConfigModel.v
theories/ConfigProofs.v
theories/ConfigProps.v
theories/NodeModel.v
theories/NodeSpec.v
theories/NodeProofs.v
theories/NodeProps.v
theories/PipeModel.v
theories/PipeSpec.v
theories/PipeProofs.v
theories/PipeProps.v
theories/ParamModel.v
theories/ParamSpec.v
theories/ParamProofs.v
theories/ParamProps.v
theories/CheckModel.v
theories/CheckProofs.v
theories/CheckProps.v
theories/ExtractModel.v
theories/ExtractProofs.v
theories/ExtractProps.v
theories/SubdagModel.v
theories/PruneProps.v
theories/SubdagSpec.v
theories/SubdagProofs.v
theories/SubdagProps.v
theories/TagModel.v
theories/TagProps.v
theories/BuilderModel.v
theories/BuilderProps.v
theories/AdapterModel.v
theories/AdapterSpec.v
theories/AdapterProofs.v
theories/AdapterProps.v
theories/TargetProps.v
theories/MaterializeModel.v
theories/MaterializeProps.v
theories/PipeNames.v
theories/LinkModel.v
theories/LinkProps.v
theories/BuilderCalls.v
theories/GracefulModel.v
theories/GracefulProps.v
theories/AsyncModel.v
theories/AsyncProofs.v
theories/AsyncProps.v
theories/StrategyModel.v
theories/StrategyProofs.v
theories/StrategyProps.v
theories/HCacheModel.v
theories/HCacheSpec.v
theories/HCacheProofs.v
theories/HCacheProps.v
theories/ShelfModel.v
theories/ShelfSpec.v
theories/ShelfProofs.v
theories/ShelfProps.v
theories/RelinkModel.v
theories/RelinkSpec.v
theories/RelinkProofs.v
theories/RelinkProps.v
theories/OrderProofs.v
theories/OrderProps.v
theories/LifecycleMore.v
theories/TypesModel.v
theories/TypesSpec.v
theories/TypesProofs.v
theories/TypesRun.v
theories/TypesProps.v
theories/MutateModel.v
theories/MutateSpec.v
theories/MutateProofs.v
theories/MutateProps.v
theories/RemoteModel.v
theories/RemoteProofs.v
theories/RemoteProps.v
theories/ColumnsModel.v
theories/ColumnsSpec.v
theories/ColumnsProofs.v
theories/ColumnsProps.v
theories/SparkModel.v
theories/SparkSpec.v
theories/SparkProofs.v
theories/SparkProps.v
theories/ValidatorModel.v
theories/ValidatorSpec.v
theories/ValidatorProofs.v
theories/ValidatorProps.v
theories/ExecMap.v
theories/UdfModel.v
theories/UdfSpec.v
theories/UdfProofs.v
theories/UdfProps.v
theories/DecorModel.v
theories/DecorSpec.v
theories/DecorProofs.v
theories/DecorProps.v
theories/ResultModel.v
theories/ResultSpec.v
theories/ResultProofs.v
theories/ResultProps.v
theories/ArrowModel.v
theories/ArrowSpec.v
theories/ArrowProofs.v
theories/ArrowProps.v
theories/DiskModel.v
theories/DiskSpec.v
theories/DiskProofs.v
theories/DiskProps.v
theories/DoesModel.v
theories/DoesSpec.v
theories/DoesProofs.v
theories/DoesProps.v
theories/VersionModel.v
theories/VersionSpec.v
theories/VersionProofs.v
theories/VersionProps.v
theories/TaggingModel.v
theories/TaggingSpec.v
theories/TaggingProofs.v
theories/TaggingProps.v
theories/SpanModel.v
theories/SpanSpec.v
theories/SpanProofs.v
theories/SpanProps.v
theories/DrawModel.v
theories/DrawSpec.v
theories/DrawProofs.v
theories/DrawProps.v
theories/TelemModel.v
theories/TelemSpec.v
theories/TelemProofs.v
theories/TelemProps.v
theories/HubModel.v
theories/HubSpec.v
theories/HubProofs.v
theories/HubProps.v
theories/RequestModel.v
theories/RequestSpec.v
theories/RequestProofs.v
theories/RequestProps.v
theories/RegistryModel.v
theories/RegistrySpec.v
theories/RegistryProofs.v
theories/RegistryProps.v
theories/DeprecateModel.v
theories/DeprecateSpec.v
theories/DeprecateProofs.v
theories/DeprecateProps.v
theories/WatchModel.v
theories/WatchSpec.v
theories/WatchProofs.v
theories/WatchProps.v
theories/LineageModel.v
theories/LineageSpec.v
theories/LineageProofs.v
theories/LineageProps.v
theories/TrackModel.v
theories/TrackSpec.v
theories/TrackProofs.v
theories/TrackProps.v
theories/MlflowModel.v
theories/MlflowSpec.v
theories/MlflowProofs.v
theories/MlflowProps.v
theories/KedroModel.v
theories/KedroSpec.v
theories/KedroProofs.v
theories/KedroProps.v
theories/AdhocModel.v
theories/AdhocProps.v
theories/FileIOModel.v
theories/FileIOSpec.v
theories/FileIOProps.v
theories/CommandModel.v
theories/CommandSpec.v
theories/CommandProps.v
theories/MaterializedModel.v
theories/MaterializedSpec.v
theories/MaterializedProps.v
theories/TableModel.v
theories/TableSpec.v
theories/TableProps.v
