-Q theories Verif
theories/Base.v
theories/MessageBufferModel.v
theories/MessageBufferSpec.v
theories/MessageBufferProofs.v
theories/MessageBufferProps.v
theories/SerdesModel.v
theories/SerdesSpec.v
theories/SerdesProofs.v
theories/SerdesFraming.v
theories/SerdesProps.v
theories/RingBufferModel.v
theories/RingBufferSpec.v
theories/RingBufferProofs.v
theories/RingBufferProps.v
theories/PeerRecvModel.v
theories/PeerRecvSpec.v
theories/PeerRecvProofs.v
theories/PeerRecvStall.v
theories/PeerSendModel.v
theories/PeerSendSpec.v
theories/PeerSendProofs.v
theories/ByteStreamModel.v
theories/ByteStreamProofs.v
theories/PeerE2E.v
theories/PeerProps.v
theories/DiscoveryModel.v
theories/DiscoverySpec.v
theories/DiscoveryProofs.v
theories/ServiceDiscoveryModel.v
theories/ServiceDiscoverySpec.v
theories/ServiceDiscoveryProofs.v
theories/HandlersModel.v
theories/HandlersSpec.v
theories/HandlersProofs.v
theories/DescriptorKey.v
theories/DiscoveryProps.v
theories/SystemStateModel.v
theories/SystemStateSpec.v
theories/SystemStateProofs.v
theories/SystemStateProps.v
theories/LifecycleModel.v
theories/LifecycleSpec.v
theories/LifecycleProofs.v
theories/LifecycleProps.v
theories/TimeSyncModel.v
theories/TimeSyncSpec.v
theories/TimeSyncProofs.v
theories/TimeSyncSim.v
theories/TimeSyncProps.v
theories/WatchDogModel.v
theories/WatchDogSpec.v
theories/WatchDogProofs.v
theories/WatchDogProps.v
theories/RequestReplyModel.v
theories/RequestReplySpec.v
theories/RequestReplyProofs.v
theories/RequestReplyProps.v
theories/RpcModel.v
theories/RpcSpec.v
theories/RpcProofs.v
theories/RpcServerProofs.v
theories/RpcProps.v
theories/TimeProviderModel.v
theories/TimeProviderProps.v
theories/NetModel.v
theories/NetSpec.v
theories/NetProofs.v
theories/NetOrder.v
theories/NetRecv.v
theories/NetReach.v
theories/NetFinal.v
theories/NetProps.v
theories/TextModel.v
theories/TextSpec.v
theories/TextProofs.v
theories/UriProofs.v
theories/TextProps.v
theories/AcceptorModel.v
theories/AcceptorProofs.v
theories/AcceptorProps.v
theories/FlexrayModel.v
theories/FlexrayProps.v
theories/ConfigModel.v
theories/ConfigProofs.v
theories/ConfigMerge.v
theories/ConfigProps.v
theories/TraceModel.v
theories/TraceProofs.v
theories/TraceProps.v
theories/DashboardModel.v
theories/DashboardProofs.v
theories/DashboardProps.v
theories/LinModel.v
theories/LinSpec.v
theories/LinProofs.v
theories/LinNet.v
theories/LinNetProofs.v
theories/LinDrain.v
theories/LinSleep.v
theories/LinProps.v
theories/BusModel.v
theories/BusProofs.v
theories/BusProps.v
theories/ConnectModel.v
theories/ConnectProofs.v
theories/ConnectProps.v
theories/RegistryModel.v
theories/RegistryProofs.v
theories/RegistryIso.v
theories/RegistryProps.v
theories/SubscribeModel.v
theories/SubscribeProofs.v
theories/SubscribeProps.v
theories/ConnectPeerModel.v
theories/ConnectPeerProofs.v
theories/ConnectPeerProps.v
theories/NetSimModel.v
theories/NetSimProofs.v
theories/NetSimProps.v
theories/LinConf.v
theories/LinConfProps.v
theories/ProxyModel.v
theories/ProxyProofs.v
theories/ProxyNet.v
theories/ProxySys.v
theories/ProxySteps.v
theories/ProxyEnd.v
theories/ProxyProps.v
theories/YamlModel.v
theories/YamlProofs.v
theories/YamlRound.v
theories/YamlWhole.v
theories/YamlCheckModel.v
theories/YamlCheckProofs.v
theories/YamlPrune.v
theories/YamlClean.v
theories/YamlMore.v
theories/YamlProps.v
theories/YamlDoc.v
theories/YamlDocProps.v
theories/MetricsModel.v
theories/MetricsProofs.v
theories/MetricsProcProofs.v
theories/MetricsText.v
theories/MetricsProps.v
theories/ParticipantModel.v
theories/ParticipantProofs.v
theories/ParticipantInv.v
theories/ParticipantMore.v
theories/ParticipantProps.v
theories/LoggerModel.v
theories/LoggerSpec.v
theories/LoggerProofs.v
theories/LoggerText.v
theories/LoggerProps.v
theories/CapiModel.v
theories/CapiSpec.v
theories/CapiTables.v
theories/CapiProofs.v
theories/CapiCallProofs.v
theories/CapiProps.v
theories/CliModel.v
theories/CliProofs.v
theories/CliToolProofs.v
theories/CliProps.v
theories/CliRegProps.v
theories/DashMapModel.v
theories/DashMapProofs.v
theories/DashMapProps.v
theories/ExtModel.v
theories/ExtProofs.v
theories/ExtProps.v
theories/ListenModel.v
theories/ListenProofs.v
theories/ListenProps.v
theories/ThreadsModel.v
theories/ThreadsProofs.v
theories/ThreadsProps.v
theories/ShowModel.v
theories/ShowProofs.v
theories/ShowProps.v
theories/ConnectorModel.v
theories/ConnectorProofs.v
theories/ConnectorProps.v
theories/RemoteModel.v
theories/RemoteProofs.v
theories/RemoteEnd.v
theories/RemoteLog.v
theories/RemoteOrder.v
theories/RemoteProps.v
theories/CapsModel.v
theories/CapsProofs.v
theories/CapsProps.v
theories/HandshakeModel.v
theories/HandshakeProofs.v
theories/HandshakeProps.v
theories/PeerMetricsModel.v
theories/PeerMetricsProofs.v
theories/PeerMetricsEnds.v
theories/PeerMetricsProps.v
