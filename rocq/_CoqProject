-Q theories Verif
theories/AliveModel.v
theories/AliveProofs.v
theories/AliveProps.v
theories/AnswerProofs.v
theories/AnswerProps.v
theories/AnswerSpec.v
theories/BodyModel.v
theories/BodyProofs.v
theories/BodyProps.v
theories/BodySpec.v
theories/BrokerModel.v
theories/BrokerProofs.v
theories/BrokerProps.v
theories/BrokerSpec.v
theories/BufioModel.v
theories/BufioProofs.v
theories/ClientAnswered.v
theories/ClientApiModel.v
theories/ClientApiProofs.v
theories/ClientApiProps.v
theories/ClientApiSpec.v
theories/ClientCalls.v
theories/ClientChannels.v
theories/ClientClosing.v
theories/ClientDelivery.v
theories/ClientDisconnect.v
theories/ClientEnd.v
theories/ClientFinal.v
theories/ClientLemmas.v
theories/ClientLive.v
theories/ClientMessages.v
theories/ClientModel.v
theories/ClientProofs.v
theories/ClientProps.v
theories/ClientReady.v
theories/ClientReceipts.v
theories/ClientRequests.v
theories/ClientRest.v
theories/ClientRestProps.v
theories/ClientRestSpec.v
theories/ClientRouting.v
theories/ClientSpec.v
theories/ClientUnsub.v
theories/CodecLemmas.v
theories/CodecProofs.v
theories/CodecProps.v
theories/DialModel.v
theories/DialProofs.v
theories/DialProps.v
theories/DialSpec.v
theories/EndingProofs.v
theories/EndingProps.v
theories/EndingSpec.v
theories/ErrorClient.v
theories/ErrorModel.v
theories/ErrorProofs.v
theories/ErrorProps.v
theories/ErrorSpec.v
theories/ExampleModel.v
theories/ExampleProofs.v
theories/ExampleProps.v
theories/FlowLists.v
theories/FlowProofs.v
theories/FlowProps.v
theories/FlowSpec.v
theories/FlowSubs.v
theories/FlowTopics.v
theories/FrameModel.v
theories/GoBase.v
theories/GoBaseProofs.v
theories/GraceModel.v
theories/GraceProofs.v
theories/GraceProps.v
theories/GraceSpec.v
theories/GrammarSpec.v
theories/HeaderModel.v
theories/HeaderProofs.v
theories/HeaderSpec.v
theories/HeapModel.v
theories/HeapProofs.v
theories/HeapProps.v
theories/HeapSpec.v
theories/KeepModel.v
theories/KeepProofs.v
theories/KeepProps.v
theories/KeepSpec.v
theories/LeakModel.v
theories/LeakProofs.v
theories/LeakProps.v
theories/LeakSpec.v
theories/LimitModel.v
theories/LimitProofs.v
theories/LimitProps.v
theories/LimitSpec.v
theories/MemModel.v
theories/MemProofs.v
theories/MemProps.v
theories/MemSpec.v
theories/NegotiationLemmas.v
theories/NegotiationModel.v
theories/NegotiationProofs.v
theories/NegotiationProps.v
theories/NegotiationSpec.v
theories/NetAnswered.v
theories/NetLinks.v
theories/NetModel.v
theories/NetOrderProps.v
theories/NetProofs.v
theories/NetProps.v
theories/NetQueue.v
theories/NetQueueProps.v
theories/NetQueueSpec.v
theories/NetRest.v
theories/NetRestProps.v
theories/NetRestSpec.v
theories/NetSettled.v
theories/NetSpec.v
theories/NetTopics.v
theories/NetUnsub.v
theories/NewProofs.v
theories/OnceProofs.v
theories/OnceProps.v
theories/OnceSpec.v
theories/OrderProofs.v
theories/OrderProps.v
theories/OrderSpec.v
theories/PeerModel.v
theories/PeerProofs.v
theories/PeerProps.v
theories/PeerSpec.v
theories/QueueOrderNet.v
theories/QueueOrderProps.v
theories/QueueOrderServer.v
theories/QueueOrderSpec.v
theories/QueueServer.v
theories/ReactProofs.v
theories/ReactProps.v
theories/ReactSpec.v
theories/ReadModel.v
theories/ReadProofs.v
theories/ReadProps.v
theories/ReadSpec.v
theories/RealtimeProofs.v
theories/RealtimeProps.v
theories/RealtimeServer.v
theories/RealtimeSpec.v
theories/RefusalProofs.v
theories/RefusalProps.v
theories/RefusalSpec.v
theories/RestProofs.v
theories/RestProps.v
theories/RestSpec.v
theories/ServerConnModel.v
theories/ServerConnProofs.v
theories/ServerConnProps.v
theories/ServerConnSpec.v
theories/SilentModel.v
theories/SilentProofs.v
theories/SilentProps.v
theories/SilentSpec.v
theories/StatsModel.v
theories/StatsProofs.v
theories/StatsProps.v
theories/StatsSpec.v
theories/SteadyServer.v
theories/SteadySpec.v
theories/StorageFaults.v
theories/StorageModel.v
theories/StorageProofs.v
theories/StorageProps.v
theories/StorageSpec.v
theories/SubEndProofs.v
theories/SubEndProps.v
theories/SubEndSpec.v
theories/SystemCleanup.v
theories/SystemHistory.v
theories/SystemLemmas.v
theories/SystemMessages.v
theories/SystemModel.v
theories/SystemPanics.v
theories/SystemProgress.v
theories/SystemProofs.v
theories/SystemProps.v
theories/SystemSpec.v
theories/SystemTokens.v
theories/SystemUids.v
theories/TimeoutProofs.v
theories/TimeoutSpec.v
theories/TimerModel.v
theories/TimerProofs.v
theories/TimerProps.v
theories/TimerSpec.v
theories/TransProofs.v
theories/TransProps.v
theories/TransSpec.v
theories/TurnProofs.v
theories/TurnProps.v
theories/TurnSpec.v
theories/TxModel.v
theories/TxProofs.v
theories/TxProps.v
theories/TxSpec.v
theories/VetoProofs.v
theories/VetoProps.v
theories/VetoSpec.v
