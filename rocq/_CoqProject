-Q theories Verif
theories/AccessProofs.v
theories/AccessProps.v
theories/AccessSpec.v
theories/ArgModel.v
theories/ArgProps.v
theories/ArgSpec.v
theories/AuthModel.v
theories/AuthProofs.v
theories/AuthProps.v
theories/AuthSpec.v
theories/BatchDropModel.v
theories/BatchDropProps.v
theories/BatchDropSpec.v
theories/BatchModel.v
theories/BatchProofs.v
theories/BatchProps.v
theories/BuiltinModel.v
theories/BuiltinProps.v
theories/BuiltinSpec.v
theories/CallDropModel.v
theories/CallDropProps.v
theories/CallDropSpec.v
theories/CapsModel.v
theories/CapsProps.v
theories/CapsSpec.v
theories/ClientModel.v
theories/ClientProofs.v
theories/ClientProps.v
theories/ClientSpec.v
theories/CloneModel.v
theories/CloneProps.v
theories/CloneSpec.v
theories/CompleteModel.v
theories/CompleteProofs.v
theories/CompleteProps.v
theories/CompleteSpec.v
theories/ContextModel.v
theories/ContextProofs.v
theories/ContextProofs2.v
theories/ContextProps.v
theories/ContextSpec.v
theories/CredsModel.v
theories/CredsProps.v
theories/CredsSpec.v
theories/DeliveryModel.v
theories/DeliveryProofs.v
theories/DeliveryProofs2.v
theories/DeliveryProps.v
theories/DeliverySpec.v
theories/DynModel.v
theories/DynProofs.v
theories/DynProps.v
theories/DynRaceModel.v
theories/DynRaceProps.v
theories/DynRaceSpec.v
theories/DynSpec.v
theories/ErrorsModel.v
theories/ErrorsProps.v
theories/ErrorsSpec.v
theories/EventStoreModel.v
theories/EventStoreProofs.v
theories/EventStoreProofs2.v
theories/EventStoreProps.v
theories/EventStoreSpec.v
theories/FlowModel.v
theories/FlowProps.v
theories/FlowSpec.v
theories/HttpClientModel.v
theories/HttpClientProofs.v
theories/HttpClientProofs2.v
theories/HttpClientProofs3.v
theories/HttpClientProofs4.v
theories/HttpClientProps.v
theories/HttpClientSpec.v
theories/HttpCloseModel.v
theories/HttpCloseProofs.v
theories/HttpCloseProofs2.v
theories/HttpCloseProps.v
theories/HttpCloudModel.v
theories/HttpCloudProofs.v
theories/HttpCloudProofs2.v
theories/HttpCloudProofs3.v
theories/HttpCloudProps.v
theories/HttpCloudSpec.v
theories/HttpDropModel.v
theories/HttpDropProps.v
theories/HttpDropSpec.v
theories/HttpModel.v
theories/HttpProofs.v
theories/HttpProofs2.v
theories/HttpProps.v
theories/HttpSignalProps.v
theories/HttpSpec.v
theories/HttpSseModel.v
theories/HttpSseProofs.v
theories/HttpSseProofs2.v
theories/HttpSseProofs3.v
theories/HttpSseProps.v
theories/HttpSseSpec.v
theories/HttpStackModel.v
theories/HttpStackProofs.v
theories/HttpStackProofs2.v
theories/HttpStackProofs3.v
theories/HttpStackProps.v
theories/HttpStackSpec.v
theories/HttpStatelessProps.v
theories/JsonFastModel.v
theories/JsonFastProofs.v
theories/JsonFastProofs2.v
theories/JsonFastProofs3.v
theories/JsonFastProps.v
theories/JsonFastSpec.v
theories/JsonLib.v
theories/ListLib.v
theories/LogModel.v
theories/LogProofs.v
theories/LogProps.v
theories/LogSpec.v
theories/MacrosModel.v
theories/MacrosProofs.v
theories/MacrosProps.v
theories/MacrosSpec.v
theories/ManagersModel.v
theories/ManagersProofs.v
theories/ManagersProps.v
theories/ManagersSpec.v
theories/MetricsModel.v
theories/MetricsProps.v
theories/MetricsSpec.v
theories/NotifDropModel.v
theories/NotifDropProps.v
theories/NotifDropSpec.v
theories/NotifModel.v
theories/NotifProofs.v
theories/NotifProps.v
theories/NotifSpec.v
theories/OAuthModel.v
theories/OAuthProofs.v
theories/OAuthProofs2.v
theories/OAuthProps.v
theories/OAuthSpec.v
theories/OidcModel.v
theories/OidcProofs.v
theories/OidcProps.v
theories/OidcSpec.v
theories/ProtocolModel.v
theories/ProtocolProofs.v
theories/ProtocolProps.v
theories/ProtocolSpec.v
theories/QueryModel.v
theories/QueryProps.v
theories/ReconDropModel.v
theories/ReconDropProps.v
theories/ReconDropSpec.v
theories/ReconnectModel.v
theories/ReconnectProofs.v
theories/ReconnectProps.v
theories/ReconnectSpec.v
theories/RecoveryModel.v
theories/RecoveryProofs.v
theories/RecoveryProps.v
theories/RecoverySpec.v
theories/RegModel.v
theories/RegProps.v
theories/RegSpec.v
theories/RpcModel.v
theories/RpcProofs.v
theories/RpcProps.v
theories/RpcSpec.v
theories/SerdeLib.v
theories/ServerModel.v
theories/ServerProofs.v
theories/ServerProps.v
theories/ServerSpec.v
theories/SessionCbModel.v
theories/SessionCbProps.v
theories/SessionCbSpec.v
theories/SessionModel.v
theories/SessionProofs.v
theories/SessionProps.v
theories/SessionSpec.v
theories/SharedModel.v
theories/SharedProps.v
theories/SharedSpec.v
theories/SimdModel.v
theories/SimdProofs.v
theories/SimdProofs2.v
theories/SimdProps.v
theories/SimdSpec.v
theories/SseModel.v
theories/SseProofs.v
theories/SseProofs2.v
theories/SseProps.v
theories/SseSpec.v
theories/SseSpec2.v
theories/StackModel.v
theories/StackProofs.v
theories/StackProofs2.v
theories/StackProps.v
theories/StackSpec.v
theories/StdioDropModel.v
theories/StdioDropProps.v
theories/StdioDropSpec.v
theories/StdioModel.v
theories/StdioProofs.v
theories/StdioProofs2.v
theories/StdioProps.v
theories/StdioServerModel.v
theories/StdioServerProofs.v
theories/StdioServerProps.v
theories/StdioServerSpec.v
theories/StdioSpec.v
theories/StreamModel.v
theories/StreamProps.v
theories/StreamSpec.v
theories/TextLib.v
theories/TypesModel.v
theories/UriJsonModel.v
theories/UriJsonProps.v
theories/UriModel.v
theories/UriProofs.v
theories/UriProofs2.v
theories/UriProps.v
theories/UriSpec.v
theories/Utf8Lib.v
theories/WasmModel.v
theories/WasmProofs.v
theories/WasmProps.v
theories/WasmSpec.v
theories/WatchBuildModel.v
theories/WatchBuildProps.v
theories/WatchBuildSpec.v
theories/WatchModel.v
theories/WatchProofs.v
theories/WatchProps.v
theories/WatchSpec.v
theories/WhiteSpec.v
theories/WsKeepModel.v
theories/WsKeepProps.v
theories/WsKeepSpec.v
theories/WsLimitModel.v
theories/WsLimitProps.v
theories/WsLimitSpec.v
theories/WsModel.v
theories/WsProofs.v
theories/WsProofs2.v
theories/WsProofs3.v
theories/WsProps.v
theories/WsServerModel.v
theories/WsServerProofs.v
theories/WsServerProps.v
theories/WsServerSpec.v
theories/WsSpec.v
