-Q theories Verif
theories/PubSubModel.v
theories/PubSubSpec.v
theories/PubSubProofs.v
theories/PubSubPublish.v
theories/PubSubTop.v
theories/PubSubProps.v
theories/HashModel.v
theories/HashProofs.v
theories/HashTop.v
theories/HashProps.v
theories/SyscallTable.v
theories/SyscallModel.v
theories/SyscallSpec.v
theories/SyscallProofs.v
theories/SyscallProps.v
theories/FilterModel.v
theories/FilterSpec.v
theories/FilterProofs.v
theories/FilterProps.v
theories/HubModel.v
theories/HubSpec.v
theories/HubProofs.v
theories/HubKernel.v
theories/HubEvents.v
theories/HubHosts.v
theories/HubDeliver.v
theories/HubTop.v
theories/HubProps.v
theories/ThreadModel.v
theories/ThreadSpec.v
theories/ThreadProofs.v
theories/ThreadProps.v
theories/KernelModel.v
theories/KernelSpec.v
theories/KernelProofs.v
theories/KernelProps.v
theories/WalkModel.v
theories/WalkProofs.v
theories/WalkProps.v
theories/RawModel.v
theories/RawSpec.v
theories/RawProofs.v
theories/RawProps.v
theories/DecodeModel.v
theories/DecodeSpec.v
theories/DecodeProofs.v
theories/DecodeProps.v
theories/CaptureModel.v
theories/CaptureSpec.v
theories/CaptureProofs.v
theories/CaptureProps.v
theories/CodecTables.v
theories/CodecModel.v
theories/CodecSpec.v
theories/CodecProofs.v
theories/CodecNames.v
theories/CodecProps.v
theories/JsonModel.v
theories/JsonSpec.v
theories/JsonProofs.v
theories/JsonProps.v
theories/TopoModel.v
theories/TopoSpec.v
theories/TopoProofs.v
theories/TopoProps.v
theories/ObserveModel.v
theories/ObserveSpec.v
theories/ObserveProofs.v
theories/ObserveTop.v
theories/ObserveProps.v
theories/AlertModel.v
theories/AlertSpec.v
theories/AlertProofs.v
theories/AlertProps.v
theories/CtlModel.v
theories/CtlSpec.v
theories/CtlProofs.v
theories/CtlTop.v
theories/CtlProps.v
theories/ServerModel.v
theories/ServerSpec.v
theories/ServerProofs.v
theories/ServerTop.v
theories/ServerProps.v
theories/ChartModel.v
theories/ChartSpec.v
theories/ChartProofs.v
theories/ChartTop.v
theories/ChartProps.v
theories/OffsetModel.v
theories/OffsetSpec.v
theories/OffsetProofs.v
theories/OffsetTop.v
theories/OffsetProps.v
theories/ClientModel.v
theories/ClientSpec.v
theories/ClientProofs.v
theories/ClientTop.v
theories/ClientJobs.v
theories/ClientProps.v
theories/ProbeModel.v
theories/ProbeSpec.v
theories/ProbeProofs.v
theories/ProbeProps.v
theories/TopModel.v
theories/TopSpec.v
theories/TopProofs.v
theories/TopProps.v
theories/SelfModel.v
theories/SelfSpec.v
theories/SelfProofs.v
theories/SelfProps.v
theories/LockModel.v
theories/LockSpec.v
theories/LockProofs.v
theories/LockProps.v
theories/WatchModel.v
theories/WatchSpec.v
theories/WatchProofs.v
theories/WatchTop.v
theories/WatchProps.v
theories/AgentModel.v
theories/AgentSpec.v
theories/AgentProofs.v
theories/AgentTop.v
theories/AgentProps.v
theories/LineModel.v
theories/LineSpec.v
theories/LineProofs.v
theories/LineTop.v
theories/LineProps.v
theories/MsgModel.v
theories/MsgSpec.v
theories/MsgProofs.v
theories/MsgBound.v
theories/MsgRead.v
theories/MsgProps.v
theories/StreamModel.v
theories/StreamSpec.v
theories/StreamProofs.v
theories/StreamProps.v
theories/ReadSpec.v
theories/ReadProofs.v
theories/ReadTop.v
theories/ReadProps.v
theories/PlainModel.v
theories/PlainSpec.v
theories/PlainProofs.v
theories/PlainProps.v
theories/LiveModel.v
theories/LiveSpec.v
theories/LiveProofs.v
theories/LiveTop.v
theories/LiveProps.v
theories/SelectModel.v
theories/SelectSpec.v
theories/SelectProofs.v
theories/SelectTop.v
theories/SelectProps.v
theories/TextModel.v
theories/TextSpec.v
theories/TextProofs.v
theories/TextTop.v
theories/TextProps.v
theories/WholeSpec.v
theories/WholeProofs.v
theories/WholeProps.v
theories/ServeModel.v
theories/ServeSpec.v
theories/ServeFrame.v
theories/ServeProofs.v
theories/ServeWatch.v
theories/ServeText.v
theories/ServeTop.v
theories/ServeEnds.v
theories/ServeProps.v
theories/ScrapeModel.v
theories/ScrapeSpec.v
theories/ScrapeProofs.v
theories/ScrapeFit.v
theories/ScrapeTop.v
theories/ScrapeProps.v
theories/TopLiveModel.v
theories/TopLiveSpec.v
theories/TopLiveProofs.v
theories/TopLiveProps.v
theories/DeepModel.v
theories/DeepSpec.v
theories/DeepProofs.v
theories/DeepProps.v
theories/PrintModel.v
theories/PrintSpec.v
theories/PrintProofs.v
theories/PrintTop.v
theories/PrintProps.v
theories/UnmarshalModel.v
theories/UnmarshalSpec.v
theories/UnmarshalProofs.v
theories/UnmarshalTop.v
theories/UnmarshalProps.v
theories/ThroughSpec.v
theories/ThroughProofs.v
theories/ThroughProps.v
theories/LogModel.v
theories/LogSpec.v
theories/LogProofs.v
theories/LogTop.v
theories/LogSame.v
theories/LogPretty.v
theories/LogProps.v
theories/FleetModel.v
theories/FleetSpec.v
theories/FleetProofs.v
theories/FleetTop.v
theories/FleetEnd.v
theories/FleetProps.v
theories/RouteSpec.v
theories/RouteProofs.v
theories/RouteProps.v
theories/QueryModel.v
theories/QuerySpec.v
theories/QueryProofs.v
theories/QueryProps.v
theories/LifeModel.v
theories/LifeProps.v
theories/UnnamedProps.v
theories/LibModel.v
theories/LibProps.v
theories/AssetModel.v
theories/AssetProps.v
theories/RuleModel.v
theories/RuleProps.v
theories/DetailProps.v
theories/RuleTextProps.v
theories/SelectorProps.v
