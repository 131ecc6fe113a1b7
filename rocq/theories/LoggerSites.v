(** Every log statement of src/app (the uses of the macro LM, common/logger/Logger.hpp:33-41), with its task, level, format, the
    strings its %s conversions print and the number of its arguments.  Transcribed from the source; four uses that are commented out are left out, and so are the unit tests. *)
From Coq Require Import String.
From Verif Require Import Base LoggerModel.
Local Open Scope string_scope.
Local Open Scope list_scope.
Local Open Scope Z_scope.
(** Reactor.cpp:26-28. *)
Definition names_pool : source := SName ["acceptor"; "link"; "timer"].
(** ua/securechannel/UaSecureChannel.cpp:9, ua/service/session/UaSessionService.cpp:11, ua/transport/server/UaTcpServer.cpp:10. *)
Definition names_uapool : source := SName ["UaServerSecureChannel"; "session"; "UaTcpConnection"].
(** The names given to FsmBase: UaServerSecureChannel.cpp:12, UaSession.cpp:13, UaTcpConnection.cpp:12, OpcUaServerSecureChannel.cpp:11,
    OpcUaClientSecureChannel.cpp:10, ServerConnection.cpp:13, ClientConnection.cpp:12, UaController.cpp:10. *)
Definition names_fsm : source := SName ["UaServerSecureChannel"; "UaSession"; "UaTcpConnection"; "OpcUaServerSecureChannel"; "OpcUaClientSecureChannel"; "ServerConnection"; "OpcUaClientConnection"; "UaController"].
(** name() of the state classes, line 13 of each header. *)
Definition names_state : source := SName ["ClientConnectionConnected"; "ClientConnectionConnecting"; "ClientConnectionInit"; "ClientConnectionReceiveAck"; "ServerConnectionConnected"; "ServerConnectionConnecting"; "ServerConnectionInit"; "ServerConnectionReceiveHello"; "OpcUaClientSecureChannelConnecting"; "OpcUaClientSecureChannelEstablished"; "OpcUaClientSecureChannelInit"; "OpcUaClientSecureChannelReceiveOpenRsp"; "OpcUaServerSecureChannelConnecting"; "OpcUaServerSecureChannelEstablished"; "OpcUaServerSecureChannelInit"; "OpcUaServerSecureChannelReceiveOpenReq"; "ModbusTestConfigure"; "ModbusTestInit"; "ModbusTestRun"; "ModbusTestSetup"; "UaControllerInit"; "UaControllerInited"; "ModbusClientBackoff"; "ModbusClientConnect"; "ModbusClientConnected"; "ModbusClientInit"; "ModbusClientReceive"; "ModbusClientSend"; "ModbusSessionConnected"; "ModbusSessionInit"; "ModbusSessionWaitModbusAduRsp"; "UaServerSecureChannelEstablished"; "UaServerSecureChannelInit"; "UaSessionActivated"; "UaSessionCreated"; "UaSessionInit"; "UaTcpConnectionConnected"; "UaTcpConnectionInit"; "UaTcpConnectionReceiveHello"].
(** common/msg/types/ModbusFunction.hpp:25-39. *)
Definition names_function : source := SName ["readCoilStatus"; "readDiscreteInputs"; "readHoldingRegisters"; "readInputRegisters"; "forceSingleCoil"; "presetSingleRegister"; "presetMultipleRegisters"; "modbusError"; "Unexpected"].
(** common/msg/types/ModbusError.hpp:42-60. *)
Definition names_error : source := SName ["noerror"; "illegalFunction"; "illegalDataAddress"; "illegalDataValue"; "serverDeviceFailure"; "acknowledge"; "serverDeviceBusy"; "negativeAcknowledge"; "memoryParityError"; "gatewayPathUnavailable"; "gatewayTargetDeviceFailed"; "unexpected"; "unexpected"].
(** common/msg/types/UaSecMsgType.hpp:16-26. *)
Definition names_sec : source := SName ["opn"; "clo"; "msg"; "invalid"].

(** Deployer.cpp. *)
Definition at_Deployer : list site := [
  mkSite "Deployer.cpp" 40 TGEN LE "Unexpected" [] 0%nat;
  mkSite "Deployer.cpp" 100 TGEN LE "Unexpected" [] 0%nat].
(** common/reactor/Acceptor.cpp. *)
Definition at_Acceptor : list site := [
  mkSite "common/reactor/Acceptor.cpp" 87 TGEN LD "Close" [] 0%nat;
  mkSite "common/reactor/Acceptor.cpp" 90 TGEN LE "fd del errno: %d" [] 1%nat;
  mkSite "common/reactor/Acceptor.cpp" 94 TGEN LE "close errno: %d" [] 1%nat;
  mkSite "common/reactor/Acceptor.cpp" 108 TGEN LW "Handler is undefined" [] 0%nat].
(** common/reactor/EntityPool.hpp. *)
Definition at_EntityPool_hpp : list site := [
  mkSite "common/reactor/EntityPool.hpp" 40 TGEN LD "Alloc %s uid=%u" [names_pool] 2%nat;
  mkSite "common/reactor/EntityPool.hpp" 46 TGEN LD "Release %s uid=%u" [names_pool] 2%nat].
(** common/reactor/Epoll.cpp. *)
Definition at_Epoll : list site := [
  mkSite "common/reactor/Epoll.cpp" 60 TGEN LE "epoll_wait errno: %d" [] 1%nat].
(** common/reactor/Event.cpp. *)
Definition at_Event : list site := [
  mkSite "common/reactor/Event.cpp" 36 TGEN LD "Close" [] 0%nat;
  mkSite "common/reactor/Event.cpp" 39 TGEN LE "fd del errno: %d" [] 1%nat;
  mkSite "common/reactor/Event.cpp" 43 TGEN LE "close errno: %d" [] 1%nat].
(** common/reactor/Link.cpp. *)
Definition at_Link : list site := [
  mkSite "common/reactor/Link.cpp" 80 TGEN LI "fd is closed" [] 0%nat;
  mkSite "common/reactor/Link.cpp" 83 TGEN LD "Close fd=%d" [] 1%nat;
  mkSite "common/reactor/Link.cpp" 86 TGEN LE "fd del errno: %d" [] 1%nat;
  mkSite "common/reactor/Link.cpp" 90 TGEN LE "close errno: %d" [] 1%nat;
  mkSite "common/reactor/Link.cpp" 109 TGEN LE "write errno: %d" [] 1%nat;
  mkSite "common/reactor/Link.cpp" 124 TGEN LI "Link(%d) read EAGAIN" [] 1%nat;
  mkSite "common/reactor/Link.cpp" 129 TGEN LI "Link(%d) read rc: %d errno: %d" [] 3%nat;
  mkSite "common/reactor/Link.cpp" 144 TGEN LE "Handler is undefined" [] 0%nat;
  mkSite "common/reactor/Link.cpp" 158 TGEN LE "fd mod" [] 0%nat].
(** common/reactor/Reactor.cpp. *)
Definition at_Reactor : list site := [
  mkSite "common/reactor/Reactor.cpp" 113 TCTRL LE "Can not push msg" [] 0%nat;
  mkSite "common/reactor/Reactor.cpp" 145 TGEN LE "Mem storage is empty" [] 0%nat;
  mkSite "common/reactor/Reactor.cpp" 160 TGEN LE "Can not find handler: msgId=%zu" [] 1%nat].
(** common/reactor/ReactorManager.cpp. *)
Definition at_ReactorManager : list site := [
  mkSite "common/reactor/ReactorManager.cpp" 28 TGEN LE "Can not find component, compId=%zu" [] 1%nat;
  mkSite "common/reactor/ReactorManager.cpp" 39 TGEN LE "Can not add component, because already exists, compId=%zu" [] 1%nat].
(** common/reactor/SenderBase.hpp. *)
Definition at_SenderBase_hpp : list site := [
  mkSite "common/reactor/SenderBase.hpp" 26 TGEN LE "Msg sender is undefined" [] 0%nat].
(** common/reactor/Thread.cpp. *)
Definition at_Thread : list site := [
  mkSite "common/reactor/Thread.cpp" 39 TGEN LE "pthread_attr_destroy" [] 0%nat;
  mkSite "common/reactor/Thread.cpp" 45 TGEN LE "pthread_join" [] 0%nat].
(** common/reactor/Timer.cpp. *)
Definition at_Timer : list site := [
  mkSite "common/reactor/Timer.cpp" 51 TGEN LW "fd is invalid" [] 0%nat;
  mkSite "common/reactor/Timer.cpp" 54 TGEN LD "Close" [] 0%nat;
  mkSite "common/reactor/Timer.cpp" 57 TGEN LE "fd del errno: %d" [] 1%nat;
  mkSite "common/reactor/Timer.cpp" 61 TGEN LE "close errno: %d" [] 1%nat;
  mkSite "common/reactor/Timer.cpp" 115 TGEN LE "Handler is undefined" [] 0%nat;
  mkSite "common/reactor/Timer.cpp" 121 TGEN LI "Timer(%d) EAGAIN" [] 1%nat;
  mkSite "common/reactor/Timer.cpp" 126 TGEN LE "Timer(%d) read rc: %d, errno: %d" [] 3%nat].
(** common/ua/common/OpcUaBinaryCodec.cpp. *)
Definition at_OpcUaBinaryCodec : list site := [
  mkSite "common/ua/common/OpcUaBinaryCodec.cpp" 364 TGEN LD "NodeId 2 bytes" [] 0%nat;
  mkSite "common/ua/common/OpcUaBinaryCodec.cpp" 637 TGEN LE "Unexpected, %u" [] 1%nat;
  mkSite "common/ua/common/OpcUaBinaryCodec.cpp" 658 TGEN LE "Unexpected" [] 0%nat;
  mkSite "common/ua/common/OpcUaBinaryCodec.cpp" 896 TGEN LE "Unexpected" [] 0%nat;
  mkSite "common/ua/common/OpcUaBinaryCodec.cpp" 1006 TUA LD "UaMessageHeader>>" [] 0%nat;
  mkSite "common/ua/common/OpcUaBinaryCodec.cpp" 1017 TUA LD "UaMessageHeader<<" [] 0%nat;
  mkSite "common/ua/common/OpcUaBinaryCodec.cpp" 1028 TUA LD "UaSecurityHeader>>" [] 0%nat;
  mkSite "common/ua/common/OpcUaBinaryCodec.cpp" 1038 TUA LD "UaSecurityHeader<<" [] 0%nat;
  mkSite "common/ua/common/OpcUaBinaryCodec.cpp" 1048 TUA LD "UaSecurityTokenHeader>>" [] 0%nat;
  mkSite "common/ua/common/OpcUaBinaryCodec.cpp" 1056 TUA LD "UaSecurityTokenHeader<<" [] 0%nat;
  mkSite "common/ua/common/OpcUaBinaryCodec.cpp" 1064 TUA LD "UaSequenceHeader>>" [] 0%nat;
  mkSite "common/ua/common/OpcUaBinaryCodec.cpp" 1073 TUA LD "UaSequenceHeader<<" [] 0%nat;
  mkSite "common/ua/common/OpcUaBinaryCodec.cpp" 1082 TUA LD "UaRequestHeader>>" [] 0%nat;
  mkSite "common/ua/common/OpcUaBinaryCodec.cpp" 1096 TUA LD "UaRequestHeader<<" [] 0%nat;
  mkSite "common/ua/common/OpcUaBinaryCodec.cpp" 1110 TUA LD "UaOpenSecureChannelReq>>" [] 0%nat;
  mkSite "common/ua/common/OpcUaBinaryCodec.cpp" 1123 TUA LD "UaOpenSecureChannelReq<<" [] 0%nat;
  mkSite "common/ua/common/OpcUaBinaryCodec.cpp" 1136 TUA LD "UaCloseSecureChannelReq>>" [] 0%nat;
  mkSite "common/ua/common/OpcUaBinaryCodec.cpp" 1144 TUA LD "UaCloseSecureChannelReq<<" [] 0%nat;
  mkSite "common/ua/common/OpcUaBinaryCodec.cpp" 1152 TUA LD "UaCloseSecureChannelRsp>>" [] 0%nat;
  mkSite "common/ua/common/OpcUaBinaryCodec.cpp" 1160 TUA LD "UaCloseSecureChannelRsp<<" [] 0%nat;
  mkSite "common/ua/common/OpcUaBinaryCodec.cpp" 1168 TUA LD "UaChannelSecurityToken>>" [] 0%nat;
  mkSite "common/ua/common/OpcUaBinaryCodec.cpp" 1179 TUA LD "UaChannelSecurityToken<<" [] 0%nat;
  mkSite "common/ua/common/OpcUaBinaryCodec.cpp" 1190 TUA LD "UaResponseHeader>>" [] 0%nat;
  mkSite "common/ua/common/OpcUaBinaryCodec.cpp" 1203 TUA LD "UaResponseHeader<<" [] 0%nat;
  mkSite "common/ua/common/OpcUaBinaryCodec.cpp" 1216 TUA LD "UaOpenSecureChannelRsp>>" [] 0%nat;
  mkSite "common/ua/common/OpcUaBinaryCodec.cpp" 1227 TUA LD "UaOpenSecureChannelRsp<<" [] 0%nat;
  mkSite "common/ua/common/OpcUaBinaryCodec.cpp" 1238 TUA LD "UaGetEndpointsReq>>" [] 0%nat;
  mkSite "common/ua/common/OpcUaBinaryCodec.cpp" 1248 TUA LD "UaGetEndpointsReq<<" [] 0%nat;
  mkSite "common/ua/common/OpcUaBinaryCodec.cpp" 1258 TUA LD "UaGetEndpointsRsp>>" [] 0%nat;
  mkSite "common/ua/common/OpcUaBinaryCodec.cpp" 1266 TUA LD "UaGetEndpointsRsp<<" [] 0%nat;
  mkSite "common/ua/common/OpcUaBinaryCodec.cpp" 1274 TUA LD "UaEndpointDescription>>" [] 0%nat;
  mkSite "common/ua/common/OpcUaBinaryCodec.cpp" 1288 TUA LD "UaEndpointDescription<<" [] 0%nat;
  mkSite "common/ua/common/OpcUaBinaryCodec.cpp" 1302 TUA LD "UaApplicationDescription>>" [] 0%nat;
  mkSite "common/ua/common/OpcUaBinaryCodec.cpp" 1315 TUA LD "UaApplicationDescription<<" [] 0%nat;
  mkSite "common/ua/common/OpcUaBinaryCodec.cpp" 1329 TUA LD "UaApplicationInstanceCertificate>>" [] 0%nat;
  mkSite "common/ua/common/OpcUaBinaryCodec.cpp" 1347 TUA LD "UaApplicationInstanceCertificate<<" [] 0%nat;
  mkSite "common/ua/common/OpcUaBinaryCodec.cpp" 1366 TUA LD "UaUserTokenPolicy>>" [] 0%nat;
  mkSite "common/ua/common/OpcUaBinaryCodec.cpp" 1377 TUA LD "UaUserTokenPolicy<<" [] 0%nat;
  mkSite "common/ua/common/OpcUaBinaryCodec.cpp" 1388 TUA LD "UaCreateSessionReq>>" [] 0%nat;
  mkSite "common/ua/common/OpcUaBinaryCodec.cpp" 1403 TUA LD "UaCreateSessionReq<<" [] 0%nat;
  mkSite "common/ua/common/OpcUaBinaryCodec.cpp" 1418 TUA LD "UaSignatureData>>" [] 0%nat;
  mkSite "common/ua/common/OpcUaBinaryCodec.cpp" 1426 TUA LD "UaSignatureData<<" [] 0%nat;
  mkSite "common/ua/common/OpcUaBinaryCodec.cpp" 1434 TUA LD "UaCreateSessionRsp>>" [] 0%nat;
  mkSite "common/ua/common/OpcUaBinaryCodec.cpp" 1450 TUA LD "UaCreateSessionRsp<<" [] 0%nat;
  mkSite "common/ua/common/OpcUaBinaryCodec.cpp" 1466 TUA LD "UaCloseSessionReq>>" [] 0%nat;
  mkSite "common/ua/common/OpcUaBinaryCodec.cpp" 1474 TUA LD "UaCloseSessionReq<<" [] 0%nat;
  mkSite "common/ua/common/OpcUaBinaryCodec.cpp" 1482 TUA LD "UaCloseSessionRsp>>" [] 0%nat;
  mkSite "common/ua/common/OpcUaBinaryCodec.cpp" 1489 TUA LD "UaCloseSessionRsp<<" [] 0%nat;
  mkSite "common/ua/common/OpcUaBinaryCodec.cpp" 1496 TUA LD "UaActivateSessionReq>>" [] 0%nat;
  mkSite "common/ua/common/OpcUaBinaryCodec.cpp" 1508 TUA LD "UaActivateSessionReq<<" [] 0%nat;
  mkSite "common/ua/common/OpcUaBinaryCodec.cpp" 1520 TUA LD "UaActivateSessionRsp>>" [] 0%nat;
  mkSite "common/ua/common/OpcUaBinaryCodec.cpp" 1530 TUA LD "UaActivateSessionRsp<<" [] 0%nat;
  mkSite "common/ua/common/OpcUaBinaryCodec.cpp" 1540 TUA LD "ReadeValueId>>" [] 0%nat;
  mkSite "common/ua/common/OpcUaBinaryCodec.cpp" 1550 TUA LD "ReadeValueId<<" [] 0%nat;
  mkSite "common/ua/common/OpcUaBinaryCodec.cpp" 1560 TUA LD "UaReadReq>>" [] 0%nat;
  mkSite "common/ua/common/OpcUaBinaryCodec.cpp" 1570 TUA LD "UaReadReq<<" [] 0%nat;
  mkSite "common/ua/common/OpcUaBinaryCodec.cpp" 1580 TUA LD "UaReadRsp>>" [] 0%nat;
  mkSite "common/ua/common/OpcUaBinaryCodec.cpp" 1589 TUA LD "UaReadRsp<<" [] 0%nat].
(** common/ua/common/UaEntityPool.hpp. *)
Definition at_UaEntityPool_hpp : list site := [
  mkSite "common/ua/common/UaEntityPool.hpp" 43 TUA LD "Alloc %s uid=%u" [names_uapool] 2%nat;
  mkSite "common/ua/common/UaEntityPool.hpp" 49 TUA LD "Release %s uid=%u" [names_uapool] 2%nat].
(** common/ua/protocols/connection/ClientConnection.cpp. *)
Definition at_ClientConnection : list site := [
  mkSite "common/ua/protocols/connection/ClientConnection.cpp" 72 TUA LW "ClientConnection-0, unexpected packet type" [] 0%nat;
  mkSite "common/ua/protocols/connection/ClientConnection.cpp" 83 TUA LD "ClientConnection-0, received AcknowledgeMessage" [] 0%nat;
  mkSite "common/ua/protocols/connection/ClientConnection.cpp" 110 TUA LD "ClientConnection-0, send HelloMessage, pkt size(%u)" [] 1%nat].
(** common/ua/protocols/connection/ClientConnectionConnecting.cpp. *)
Definition at_ClientConnectionConnecting : list site := [
  mkSite "common/ua/protocols/connection/ClientConnectionConnecting.cpp" 21 TUA LE "Unexpected" [] 0%nat;
  mkSite "common/ua/protocols/connection/ClientConnectionConnecting.cpp" 42 TUA LW "onError" [] 0%nat;
  mkSite "common/ua/protocols/connection/ClientConnectionConnecting.cpp" 49 TUA LW "onTimer" [] 0%nat].
(** common/ua/protocols/connection/ClientConnectionState.hpp. *)
Definition at_ClientConnectionState_hpp : list site := [
  mkSite "common/ua/protocols/connection/ClientConnectionState.hpp" 18 TUA LE "Unexpected" [] 0%nat;
  mkSite "common/ua/protocols/connection/ClientConnectionState.hpp" 20 TUA LE "Unexpected" [] 0%nat;
  mkSite "common/ua/protocols/connection/ClientConnectionState.hpp" 22 TUA LE "Unexpected" [] 0%nat;
  mkSite "common/ua/protocols/connection/ClientConnectionState.hpp" 24 TUA LE "Unexpected" [] 0%nat;
  mkSite "common/ua/protocols/connection/ClientConnectionState.hpp" 26 TUA LE "Unexpected" [] 0%nat;
  mkSite "common/ua/protocols/connection/ClientConnectionState.hpp" 28 TUA LE "Unexpected" [] 0%nat].
(** common/ua/protocols/connection/OpcUaConnection.cpp. *)
Definition at_OpcUaConnection : list site := [
  mkSite "common/ua/protocols/connection/OpcUaConnection.cpp" 60 TUA LI "send return: %d" [] 1%nat;
  mkSite "common/ua/protocols/connection/OpcUaConnection.cpp" 76 TUA LW "Received packet is invalid" [] 0%nat;
  mkSite "common/ua/protocols/connection/OpcUaConnection.cpp" 106 TUA LW "Packet has invalid size" [] 0%nat].
(** common/ua/protocols/connection/ServerConnection.cpp. *)
Definition at_ServerConnection : list site := [
  mkSite "common/ua/protocols/connection/ServerConnection.cpp" 73 TUA LD "ServerConnection-0, sendReverseHello, size(%u)" [] 1%nat;
  mkSite "common/ua/protocols/connection/ServerConnection.cpp" 98 TUA LW "ServerConnection-0, unexpected packet type" [] 0%nat;
  mkSite "common/ua/protocols/connection/ServerConnection.cpp" 134 TUA LD "ServerConnection-0, send AcknowledgeMessage, size(%u)" [] 1%nat].
(** common/ua/protocols/connection/ServerConnectionConnecting.cpp. *)
Definition at_ServerConnectionConnecting : list site := [
  mkSite "common/ua/protocols/connection/ServerConnectionConnecting.cpp" 21 TUA LE "Unexpected" [] 0%nat;
  mkSite "common/ua/protocols/connection/ServerConnectionConnecting.cpp" 41 TUA LW "onError" [] 0%nat;
  mkSite "common/ua/protocols/connection/ServerConnectionConnecting.cpp" 48 TUA LW "onTimer" [] 0%nat].
(** common/ua/protocols/connection/ServerConnectionReceiveHello.cpp. *)
Definition at_ServerConnectionReceiveHello : list site := [
  mkSite "common/ua/protocols/connection/ServerConnectionReceiveHello.cpp" 27 TUA LE "Unexpected" [] 0%nat;
  mkSite "common/ua/protocols/connection/ServerConnectionReceiveHello.cpp" 57 TUA LW "onTimer" [] 0%nat].
(** common/ua/protocols/connection/ServerConnectionState.hpp. *)
Definition at_ServerConnectionState_hpp : list site := [
  mkSite "common/ua/protocols/connection/ServerConnectionState.hpp" 19 TUA LE "Unexpected" [] 0%nat;
  mkSite "common/ua/protocols/connection/ServerConnectionState.hpp" 21 TUA LE "Unexpected" [] 0%nat;
  mkSite "common/ua/protocols/connection/ServerConnectionState.hpp" 23 TUA LE "Unexpected" [] 0%nat;
  mkSite "common/ua/protocols/connection/ServerConnectionState.hpp" 25 TUA LE "Unexpected" [] 0%nat;
  mkSite "common/ua/protocols/connection/ServerConnectionState.hpp" 27 TUA LE "Unexpected" [] 0%nat;
  mkSite "common/ua/protocols/connection/ServerConnectionState.hpp" 29 TUA LE "Unexpected" [] 0%nat;
  mkSite "common/ua/protocols/connection/ServerConnectionState.hpp" 31 TUA LE "Unexpected" [] 0%nat].
(** common/ua/protocols/secure/OpcUaClientSecureChannel.cpp. *)
Definition at_OpcUaClientSecureChannel : list site := [
  mkSite "common/ua/protocols/secure/OpcUaClientSecureChannel.cpp" 87 TUA LD "OpcUaClientSecureChannel-0, send UaOpenSecureChannelReq, pkt size(%u)" [] 1%nat;
  mkSite "common/ua/protocols/secure/OpcUaClientSecureChannel.cpp" 97 TUA LE "OpcUaClientSecureChannel-0, unexpected packet type" [] 0%nat].
(** common/ua/protocols/secure/OpcUaClientSecureChannelConnecting.cpp. *)
Definition at_OpcUaClientSecureChannelConnecting : list site := [
  mkSite "common/ua/protocols/secure/OpcUaClientSecureChannelConnecting.cpp" 15 TUA LE "Unexpected" [] 0%nat].
(** common/ua/protocols/secure/OpcUaClientSecureChannelState.hpp. *)
Definition at_OpcUaClientSecureChannelState_hpp : list site := [
  mkSite "common/ua/protocols/secure/OpcUaClientSecureChannelState.hpp" 18 TUA LE "Unexpected" [] 0%nat;
  mkSite "common/ua/protocols/secure/OpcUaClientSecureChannelState.hpp" 20 TUA LE "Unexpected" [] 0%nat;
  mkSite "common/ua/protocols/secure/OpcUaClientSecureChannelState.hpp" 22 TUA LE "Unexpected" [] 0%nat;
  mkSite "common/ua/protocols/secure/OpcUaClientSecureChannelState.hpp" 24 TUA LE "Unexpected" [] 0%nat;
  mkSite "common/ua/protocols/secure/OpcUaClientSecureChannelState.hpp" 26 TUA LE "Unexpected" [] 0%nat].
(** common/ua/protocols/secure/OpcUaServerSecureChannel.cpp. *)
Definition at_OpcUaServerSecureChannel : list site := [
  mkSite "common/ua/protocols/secure/OpcUaServerSecureChannel.cpp" 42 TUA LE "OpcUaServerSecureChannel-0, unexpected packet type" [] 0%nat;
  mkSite "common/ua/protocols/secure/OpcUaServerSecureChannel.cpp" 119 TUA LE "OpcUaServerSecureChannel-0, unexpected tokenId" [] 0%nat;
  mkSite "common/ua/protocols/secure/OpcUaServerSecureChannel.cpp" 128 TUA LE "OpcUaServerSecureChannel-0, unexpected sequenceNumber" [] 0%nat;
  mkSite "common/ua/protocols/secure/OpcUaServerSecureChannel.cpp" 147 TUA LE "OpcUaServerSecureChannel-0, unexpected tokenId" [] 0%nat;
  mkSite "common/ua/protocols/secure/OpcUaServerSecureChannel.cpp" 156 TUA LE "OpcUaServerSecureChannel-0, unexpected sequenceNumber" [] 0%nat;
  mkSite "common/ua/protocols/secure/OpcUaServerSecureChannel.cpp" 237 TUA LD "OpcUaServerSecureChannel-0, send UaOpenSecureChannelRsp, pkt size(%u)" [] 1%nat].
(** common/ua/protocols/secure/OpcUaServerSecureChannelState.hpp. *)
Definition at_OpcUaServerSecureChannelState_hpp : list site := [
  mkSite "common/ua/protocols/secure/OpcUaServerSecureChannelState.hpp" 18 TUA LE "Unexpected" [] 0%nat;
  mkSite "common/ua/protocols/secure/OpcUaServerSecureChannelState.hpp" 20 TUA LE "Unexpected" [] 0%nat;
  mkSite "common/ua/protocols/secure/OpcUaServerSecureChannelState.hpp" 22 TUA LE "Unexpected" [] 0%nat;
  mkSite "common/ua/protocols/secure/OpcUaServerSecureChannelState.hpp" 24 TUA LE "Unexpected" [] 0%nat;
  mkSite "common/ua/protocols/secure/OpcUaServerSecureChannelState.hpp" 26 TUA LE "Unexpected" [] 0%nat;
  mkSite "common/ua/protocols/secure/OpcUaServerSecureChannelState.hpp" 28 TUA LE "Unexpected" [] 0%nat;
  mkSite "common/ua/protocols/secure/OpcUaServerSecureChannelState.hpp" 30 TUA LE "Unexpected" [] 0%nat].
(** common/utils/FsmBase.hpp. *)
Definition at_FsmBase_hpp : list site := [
  mkSite "common/utils/FsmBase.hpp" 28 TGEN LE "FSM %s: invalid transition" [names_fsm] 1%nat;
  mkSite "common/utils/FsmBase.hpp" 31 TGEN LI "FSM %s: transit %s -> %s" [names_fsm; names_state; names_state] 3%nat].
(** controller/ControllerComponent.cpp. *)
Definition at_ControllerComponent : list site := [
  mkSite "controller/ControllerComponent.cpp" 40 TCTRL LD "ControllerStartReq received" [] 0%nat;
  mkSite "controller/ControllerComponent.cpp" 51 TCTRL LD "ControllerStopReq received" [] 0%nat;
  mkSite "controller/ControllerComponent.cpp" 60 TCTRL LD "ModbusInitRsp received" [] 0%nat;
  mkSite "controller/ControllerComponent.cpp" 67 TCTRL LD "ModbusReleaseRsp received" [] 0%nat;
  mkSite "controller/ControllerComponent.cpp" 74 TCTRL LD "ModbusConfigRsp received" [] 0%nat;
  mkSite "controller/ControllerComponent.cpp" 81 TCTRL LD "ModbusClientAduRsp received" [] 0%nat;
  mkSite "controller/ControllerComponent.cpp" 88 TCTRL LD "ModbusAduReq received" [] 0%nat;
  mkSite "controller/ControllerComponent.cpp" 95 TCTRL LD "UaSecureChannelInitRsp received" [] 0%nat;
  mkSite "controller/ControllerComponent.cpp" 103 TCTRL LD "UaSecureChannelConfigRsp received" [] 0%nat;
  mkSite "controller/ControllerComponent.cpp" 111 TCTRL LD "UaSecureChannelReleaseRsp received" [] 0%nat;
  mkSite "controller/ControllerComponent.cpp" 119 TCTRL LD "UaTransportInitRsp received" [] 0%nat;
  mkSite "controller/ControllerComponent.cpp" 127 TCTRL LD "UaTransportConfigRsp received" [] 0%nat;
  mkSite "controller/ControllerComponent.cpp" 135 TCTRL LD "UaTransportReleaseRsp received" [] 0%nat;
  mkSite "controller/ControllerComponent.cpp" 143 TCTRL LD "UaServiceInitRsp received" [] 0%nat;
  mkSite "controller/ControllerComponent.cpp" 151 TCTRL LD "UaServiceConfigRsp received" [] 0%nat;
  mkSite "controller/ControllerComponent.cpp" 159 TCTRL LD "UaServiceReleaseRsp received" [] 0%nat].
(** controller/modbus/ModbusTestController.cpp. *)
Definition at_ModbusTestController : list site := [
  mkSite "controller/modbus/ModbusTestController.cpp" 221 TCTRL LD "TEST CASE: %u, func-%s, startItem-%u, numItems-%u" [names_function] 4%nat;
  mkSite "controller/modbus/ModbusTestController.cpp" 250 TCTRL LE "TEST CASE: %u, INVALID clientId" [] 1%nat;
  mkSite "controller/modbus/ModbusTestController.cpp" 256 TCTRL LE "TEST CASE: %u, INVALID status" [] 1%nat;
  mkSite "controller/modbus/ModbusTestController.cpp" 262 TCTRL LE "TEST CASE: %u, INVALID modbus error" [] 1%nat;
  mkSite "controller/modbus/ModbusTestController.cpp" 275 TCTRL LE "TEST CASE: %u, INVALID numBytes" [] 1%nat;
  mkSite "controller/modbus/ModbusTestController.cpp" 280 TCTRL LE "TEST CASE: %u, INVALID data" [] 1%nat;
  mkSite "controller/modbus/ModbusTestController.cpp" 289 TCTRL LE "TEST CASE: %u, INVALID numBytes" [] 1%nat;
  mkSite "controller/modbus/ModbusTestController.cpp" 294 TCTRL LE "TEST CASE: %u, INVALID data" [] 1%nat;
  mkSite "controller/modbus/ModbusTestController.cpp" 303 TCTRL LE "TEST CASE: %u, INVALID numBytes" [] 1%nat;
  mkSite "controller/modbus/ModbusTestController.cpp" 308 TCTRL LE "TEST CASE: %u, INVALID data" [] 1%nat;
  mkSite "controller/modbus/ModbusTestController.cpp" 314 TCTRL LE "TEST CASE: %u, Unexpected" [] 1%nat].
(** controller/modbus/ModbusTestFsm.hpp. *)
Definition at_ModbusTestFsm_hpp : list site := [
  mkSite "controller/modbus/ModbusTestFsm.hpp" 35 TCTRL LE "Invalid transition" [] 0%nat;
  mkSite "controller/modbus/ModbusTestFsm.hpp" 38 TCTRL LD "Transit: %s -> %s" [names_state; names_state] 2%nat].
(** controller/modbus/ModbusTestState.hpp. *)
Definition at_ModbusTestState_hpp : list site := [
  mkSite "controller/modbus/ModbusTestState.hpp" 23 TCTRL LE "Unexpected call" [] 0%nat;
  mkSite "controller/modbus/ModbusTestState.hpp" 25 TCTRL LE "Unexpected call" [] 0%nat;
  mkSite "controller/modbus/ModbusTestState.hpp" 27 TCTRL LE "Unexpected call" [] 0%nat;
  mkSite "controller/modbus/ModbusTestState.hpp" 29 TCTRL LE "Unexpected call" [] 0%nat;
  mkSite "controller/modbus/ModbusTestState.hpp" 31 TCTRL LE "Unexpected call" [] 0%nat;
  mkSite "controller/modbus/ModbusTestState.hpp" 33 TCTRL LE "Unexpected call" [] 0%nat;
  mkSite "controller/modbus/ModbusTestState.hpp" 35 TCTRL LE "Unexpected call" [] 0%nat;
  mkSite "controller/modbus/ModbusTestState.hpp" 37 TCTRL LE "Unexpected call" [] 0%nat].
(** controller/ua/UaControllerState.hpp. *)
Definition at_UaControllerState_hpp : list site := [
  mkSite "controller/ua/UaControllerState.hpp" 29 TCTRL LE "Unexpected" [] 0%nat;
  mkSite "controller/ua/UaControllerState.hpp" 30 TCTRL LE "Unexpected" [] 0%nat;
  mkSite "controller/ua/UaControllerState.hpp" 31 TCTRL LE "Unexpected" [] 0%nat;
  mkSite "controller/ua/UaControllerState.hpp" 32 TCTRL LE "Unexpected" [] 0%nat;
  mkSite "controller/ua/UaControllerState.hpp" 33 TCTRL LE "Unexpected" [] 0%nat;
  mkSite "controller/ua/UaControllerState.hpp" 34 TCTRL LE "Unexpected" [] 0%nat;
  mkSite "controller/ua/UaControllerState.hpp" 35 TCTRL LE "Unexpected" [] 0%nat;
  mkSite "controller/ua/UaControllerState.hpp" 36 TCTRL LE "Unexpected" [] 0%nat;
  mkSite "controller/ua/UaControllerState.hpp" 37 TCTRL LE "Unexpected" [] 0%nat;
  mkSite "controller/ua/UaControllerState.hpp" 38 TCTRL LE "Unexpected" [] 0%nat;
  mkSite "controller/ua/UaControllerState.hpp" 39 TCTRL LE "Unexpected" [] 0%nat].
(** modbus/Modbus.cpp. *)
Definition at_Modbus : list site := [
  mkSite "modbus/Modbus.cpp" 13 TMODBUS LD "Init maxNumServers: %zu, maxNumClients: %zu" [] 2%nat;
  mkSite "modbus/Modbus.cpp" 31 TMODBUS LE "Invalid serverId, %u" [] 1%nat;
  mkSite "modbus/Modbus.cpp" 43 TMODBUS LE "Invalid clientId, %u" [] 1%nat;
  mkSite "modbus/Modbus.cpp" 73 TMODBUS LE "Invalid clientId, %u" [] 1%nat;
  mkSite "modbus/Modbus.cpp" 92 TMODBUS LE "Invalid serverId, %u" [] 1%nat].
(** modbus/ModbusCodec.cpp. *)
Definition at_ModbusCodec : list site := [
  mkSite "modbus/ModbusCodec.cpp" 41 TMODBUS LE "ADU encode, unsupported function (%s)" [names_function] 1%nat;
  mkSite "modbus/ModbusCodec.cpp" 71 TMODBUS LE "ADU encode, unexpected slave address(%u)" [] 1%nat;
  mkSite "modbus/ModbusCodec.cpp" 83 TMODBUS LE "ADU encode, unexpected number of items(%u) in request" [] 1%nat;
  mkSite "modbus/ModbusCodec.cpp" 100 TMODBUS LW "ADU encode, unexpected number items" [] 0%nat;
  mkSite "modbus/ModbusCodec.cpp" 105 TMODBUS LW "ADU encode, unexpected number of bytes" [] 0%nat;
  mkSite "modbus/ModbusCodec.cpp" 114 TMODBUS LW "ADU encode, expected value is 0xFF00 | 0x0000, but given %u" [] 1%nat;
  mkSite "modbus/ModbusCodec.cpp" 132 TMODBUS LE "ADU encode, unexpected number of bytes" [] 0%nat;
  mkSite "modbus/ModbusCodec.cpp" 152 TMODBUS LE "ADU encode, unsupported function (%s)" [names_function] 1%nat;
  mkSite "modbus/ModbusCodec.cpp" 158 TMODBUS LE "ADU encode, unexpected size of ADU(%u)" [] 1%nat;
  mkSite "modbus/ModbusCodec.cpp" 169 TMODBUS LW "ADU decode, unexpected protocol id" [] 0%nat;
  mkSite "modbus/ModbusCodec.cpp" 176 TMODBUS LE "ADU decode, unexpected slave address(%u)" [] 1%nat;
  mkSite "modbus/ModbusCodec.cpp" 189 TMODBUS LW "ADU decode, unexpected length of packet %u" [] 1%nat;
  mkSite "modbus/ModbusCodec.cpp" 196 TMODBUS LE "ADU decode, unexpected number of items(%u) in request" [] 1%nat;
  mkSite "modbus/ModbusCodec.cpp" 206 TMODBUS LW "ADU decode, unexpected length of packet %u" [] 1%nat;
  mkSite "modbus/ModbusCodec.cpp" 222 TMODBUS LW "ADU encode, unexpected number of bytes" [] 0%nat;
  mkSite "modbus/ModbusCodec.cpp" 227 TMODBUS LW "ADU decode, unexpected length of packet %u" [] 1%nat;
  mkSite "modbus/ModbusCodec.cpp" 239 TMODBUS LE "ADU decode, unsupported function (%s)" [names_function] 1%nat;
  mkSite "modbus/ModbusCodec.cpp" 272 TMODBUS LW "ADU encode, unexpected number of bytes: %u" [] 1%nat;
  mkSite "modbus/ModbusCodec.cpp" 287 TMODBUS LW "ADU encode, unexpected number of bytes" [] 0%nat;
  mkSite "modbus/ModbusCodec.cpp" 296 TMODBUS LW "ADU encode, expected value is 0xFF00 | 0x0000, but given %u" [] 1%nat;
  mkSite "modbus/ModbusCodec.cpp" 323 TMODBUS LE "ADU encode, unsupported function (%s)" [names_function] 1%nat;
  mkSite "modbus/ModbusCodec.cpp" 330 TMODBUS LE "ADU encode, unexpected size of ADU(%u)" [] 1%nat;
  mkSite "modbus/ModbusCodec.cpp" 341 TMODBUS LW "ADU decode, unexpected protocol id" [] 0%nat;
  mkSite "modbus/ModbusCodec.cpp" 361 TMODBUS LW "ADU decode, unexpected number of bytes: %u" [] 1%nat;
  mkSite "modbus/ModbusCodec.cpp" 366 TMODBUS LW "ADU decode, unexpected number of bytes: %u" [] 1%nat;
  mkSite "modbus/ModbusCodec.cpp" 381 TMODBUS LW "ADU decode, unexpected length of packet %u" [] 1%nat;
  mkSite "modbus/ModbusCodec.cpp" 394 TMODBUS LW "ADU decode, unexpected length of packet %u" [] 1%nat;
  mkSite "modbus/ModbusCodec.cpp" 403 TMODBUS LE "ADU decode, unsupported function (%s)" [names_function] 1%nat].
(** modbus/ModbusComponent.cpp. *)
Definition at_ModbusComponent : list site := [
  mkSite "modbus/ModbusComponent.cpp" 40 TMODBUS LD "ModbusInitReq received" [] 0%nat;
  mkSite "modbus/ModbusComponent.cpp" 51 TMODBUS LD "ModbusReleaseReq received" [] 0%nat;
  mkSite "modbus/ModbusComponent.cpp" 61 TMODBUS LD "ModbusConfigReq received" [] 0%nat;
  mkSite "modbus/ModbusComponent.cpp" 69 TMODBUS LD "ModbusClientAduReq received" [] 0%nat;
  mkSite "modbus/ModbusComponent.cpp" 77 TMODBUS LD "ModbusAduRsp received" [] 0%nat].
(** modbus/client/ModbusAduStorage.cpp. *)
Definition at_ModbusAduStorage : list site := [
  mkSite "modbus/client/ModbusAduStorage.cpp" 29 TMODBUS LE "Storage is full" [] 0%nat;
  mkSite "modbus/client/ModbusAduStorage.cpp" 36 TMODBUS LE "Invalid number of bytes, %u" [] 1%nat;
  mkSite "modbus/client/ModbusAduStorage.cpp" 57 TMODBUS LE "Storage is empty" [] 0%nat;
  mkSite "modbus/client/ModbusAduStorage.cpp" 66 TMODBUS LE "Storage is empty" [] 0%nat].
(** modbus/client/ModbusClient.cpp. *)
Definition at_ModbusClient : list site := [
  mkSite "modbus/client/ModbusClient.cpp" 26 TMODBUS LD "~ModbusClient" [] 0%nat;
  mkSite "modbus/client/ModbusClient.cpp" 60 TMODBUS LE "Client-%u, encode error" [] 1%nat;
  mkSite "modbus/client/ModbusClient.cpp" 66 TMODBUS LD "Client-%u, TX ADU %s" [SDump] 2%nat;
  mkSite "modbus/client/ModbusClient.cpp" 71 TMODBUS LI "Client-%u, send return: %d" [] 2%nat;
  mkSite "modbus/client/ModbusClient.cpp" 86 TMODBUS LW "Client-%u, received ADU is invalid" [] 1%nat;
  mkSite "modbus/client/ModbusClient.cpp" 104 TMODBUS LW "Client-%u, received ADU is unexpected" [] 1%nat;
  mkSite "modbus/client/ModbusClient.cpp" 119 TMODBUS LW "Client-%u, ADU data len is invalid" [] 1%nat;
  mkSite "modbus/client/ModbusClient.cpp" 132 TMODBUS LW "Client-%u, ADU is invalid" [] 1%nat;
  mkSite "modbus/client/ModbusClient.cpp" 137 TMODBUS LD "Client-%u, RX ADU %s" [SDump] 2%nat;
  mkSite "modbus/client/ModbusClient.cpp" 142 TMODBUS LW "Client-%u, ADU decode error" [] 1%nat;
  mkSite "modbus/client/ModbusClient.cpp" 148 TMODBUS LW "Client-%u, unexpected transaction %u vs %u" [] 3%nat;
  mkSite "modbus/client/ModbusClient.cpp" 155 TMODBUS LW "Client-%u, unexpected slave addr %u vs %u" [] 3%nat;
  mkSite "modbus/client/ModbusClient.cpp" 162 TMODBUS LW "Client-%u, modbus error code (%s)" [names_error] 2%nat;
  mkSite "modbus/client/ModbusClient.cpp" 169 TMODBUS LW "Client-%u, unexpected function %s vs %s" [names_function; names_function] 3%nat;
  mkSite "modbus/client/ModbusClient.cpp" 192 TMODBUS LI "Client-%u, ADU storage is empty" [] 1%nat;
  mkSite "modbus/client/ModbusClient.cpp" 214 TMODBUS LD "Client-%u, ADU storage is empty" [] 1%nat;
  mkSite "modbus/client/ModbusClient.cpp" 243 TMODBUS LD "Client-%u, start" [] 1%nat;
  mkSite "modbus/client/ModbusClient.cpp" 262 TMODBUS LE "Client-%u, can not store transaction" [] 1%nat].
(** modbus/client/ModbusClientConnected.cpp. *)
Definition at_ModbusClientConnected : list site := [
  mkSite "modbus/client/ModbusClientConnected.cpp" 29 TMODBUS LE "Unexpected" [] 0%nat].
(** modbus/client/ModbusClientFsm.hpp. *)
Definition at_ModbusClientFsm_hpp : list site := [
  mkSite "modbus/client/ModbusClientFsm.hpp" 35 TMODBUS LE "Invalid transition" [] 0%nat;
  mkSite "modbus/client/ModbusClientFsm.hpp" 38 TMODBUS LD "Transit: %s -> %s" [names_state; names_state] 2%nat].
(** modbus/client/ModbusClientReceive.cpp. *)
Definition at_ModbusClientReceive : list site := [
  mkSite "modbus/client/ModbusClientReceive.cpp" 38 TMODBUS LE "Unexpected" [] 0%nat;
  mkSite "modbus/client/ModbusClientReceive.cpp" 50 TMODBUS LI "onTimer" [] 0%nat].
(** modbus/client/ModbusClientSend.cpp. *)
Definition at_ModbusClientSend : list site := [
  mkSite "modbus/client/ModbusClientSend.cpp" 33 TMODBUS LE "Unexpected" [] 0%nat].
(** modbus/client/ModbusClientState.hpp. *)
Definition at_ModbusClientState_hpp : list site := [
  mkSite "modbus/client/ModbusClientState.hpp" 17 TMODBUS LE "Unexpected call" [] 0%nat;
  mkSite "modbus/client/ModbusClientState.hpp" 19 TMODBUS LE "Unexpected call" [] 0%nat;
  mkSite "modbus/client/ModbusClientState.hpp" 21 TMODBUS LE "Unexpected call" [] 0%nat;
  mkSite "modbus/client/ModbusClientState.hpp" 23 TMODBUS LE "Unexpected call" [] 0%nat;
  mkSite "modbus/client/ModbusClientState.hpp" 25 TMODBUS LE "Unexpected call" [] 0%nat;
  mkSite "modbus/client/ModbusClientState.hpp" 27 TMODBUS LE "Unexpected call" [] 0%nat].
(** modbus/server/ModbusServer.cpp. *)
Definition at_ModbusServer : list site := [
  mkSite "modbus/server/ModbusServer.cpp" 21 TMODBUS LD "~ModbusServer" [] 0%nat;
  mkSite "modbus/server/ModbusServer.cpp" 26 TMODBUS LD "Server-%u, start" [] 1%nat;
  mkSite "modbus/server/ModbusServer.cpp" 40 TMODBUS LD "Server-%u, ModbusAduRsp received" [] 1%nat;
  mkSite "modbus/server/ModbusServer.cpp" 50 TMODBUS LE "Server-%u, can not alloc session from pool" [] 1%nat;
  mkSite "modbus/server/ModbusServer.cpp" 62 TMODBUS LD "Server-%u, remove session-%u" [] 2%nat].
(** modbus/server/ModbusSessionPool.cpp. *)
Definition at_ModbusSessionPool : list site := [
  mkSite "modbus/server/ModbusSessionPool.cpp" 28 TMODBUS LD "Alloc session-%u" [] 1%nat;
  mkSite "modbus/server/ModbusSessionPool.cpp" 35 TMODBUS LD "Release session-%u" [] 1%nat].
(** modbus/server/session/ModbusSession.cpp. *)
Definition at_ModbusSession : list site := [
  mkSite "modbus/server/session/ModbusSession.cpp" 57 TMODBUS LE "Session-%u, unexpected" [] 1%nat;
  mkSite "modbus/server/session/ModbusSession.cpp" 88 TMODBUS LW "Client-%u, received ADU is invalid" [] 1%nat;
  mkSite "modbus/server/session/ModbusSession.cpp" 125 TMODBUS LW "Session-%u, PDU is invalid" [] 1%nat;
  mkSite "modbus/server/session/ModbusSession.cpp" 130 TMODBUS LD "Session-%u, RX PDU %s" [SDump] 2%nat;
  mkSite "modbus/server/session/ModbusSession.cpp" 134 TMODBUS LW "Session-%u, ADU decode error" [] 1%nat;
  mkSite "modbus/server/session/ModbusSession.cpp" 160 TMODBUS LE "Session-%u, transactId is unexpected %u vs %u" [] 3%nat;
  mkSite "modbus/server/session/ModbusSession.cpp" 167 TMODBUS LE "Session-%u, modbusAduRsp error status" [] 1%nat;
  mkSite "modbus/server/session/ModbusSession.cpp" 186 TMODBUS LE "Session-%u, ADU decode error" [] 1%nat;
  mkSite "modbus/server/session/ModbusSession.cpp" 193 TMODBUS LE "Session-%u, PDU is invalid" [] 1%nat;
  mkSite "modbus/server/session/ModbusSession.cpp" 198 TMODBUS LD "Session-%u, TX PDU %s" [SDump] 2%nat;
  mkSite "modbus/server/session/ModbusSession.cpp" 203 TMODBUS LI "Client-%u, send return: %d" [] 2%nat].
(** modbus/server/session/ModbusSessionConnected.cpp. *)
Definition at_ModbusSessionConnected : list site := [
  mkSite "modbus/server/session/ModbusSessionConnected.cpp" 37 TMODBUS LE "Unexpected" [] 0%nat].
(** modbus/server/session/ModbusSessionFsm.hpp. *)
Definition at_ModbusSessionFsm_hpp : list site := [
  mkSite "modbus/server/session/ModbusSessionFsm.hpp" 35 TMODBUS LE "Invalid transition" [] 0%nat;
  mkSite "modbus/server/session/ModbusSessionFsm.hpp" 38 TMODBUS LD "Transit: %s -> %s" [names_state; names_state] 2%nat].
(** modbus/server/session/ModbusSessionState.hpp. *)
Definition at_ModbusSessionState_hpp : list site := [
  mkSite "modbus/server/session/ModbusSessionState.hpp" 18 TMODBUS LE "Unexpected call" [] 0%nat;
  mkSite "modbus/server/session/ModbusSessionState.hpp" 20 TMODBUS LE "Unexpected call" [] 0%nat;
  mkSite "modbus/server/session/ModbusSessionState.hpp" 22 TMODBUS LE "Unexpected call" [] 0%nat;
  mkSite "modbus/server/session/ModbusSessionState.hpp" 24 TMODBUS LE "Unexpected call" [] 0%nat].
(** modbus/server/session/ModbusSessionWaitModbusAduRsp.cpp. *)
Definition at_ModbusSessionWaitModbusAduRsp : list site := [
  mkSite "modbus/server/session/ModbusSessionWaitModbusAduRsp.cpp" 26 TMODBUS LE "Unexpected" [] 0%nat;
  mkSite "modbus/server/session/ModbusSessionWaitModbusAduRsp.cpp" 48 TMODBUS LE "Unexpected" [] 0%nat;
  mkSite "modbus/server/session/ModbusSessionWaitModbusAduRsp.cpp" 56 TMODBUS LE "onTimer" [] 0%nat].
(** ua/securechannel/UaSecureChannel.cpp. *)
Definition at_UaSecureChannel : list site := [
  mkSite "ua/securechannel/UaSecureChannel.cpp" 31 TUASC LD "Can not alloc channel" [] 0%nat].
(** ua/securechannel/UaSecureChannelComponent.cpp. *)
Definition at_UaSecureChannelComponent : list site := [
  mkSite "ua/securechannel/UaSecureChannelComponent.cpp" 35 TUASC LD "UaSecureChannelInitReq received" [] 0%nat;
  mkSite "ua/securechannel/UaSecureChannelComponent.cpp" 45 TUASC LD "UaSecureChannelReleaseReq received" [] 0%nat;
  mkSite "ua/securechannel/UaSecureChannelComponent.cpp" 55 TUASC LD "UaSecureChannelConfigReq received" [] 0%nat;
  mkSite "ua/securechannel/UaSecureChannelComponent.cpp" 63 TUASC LD "UaOpenSecureChannelReq received" [] 0%nat;
  mkSite "ua/securechannel/UaSecureChannelComponent.cpp" 71 TUASC LD "UaCloseSecureChannelReq received" [] 0%nat;
  mkSite "ua/securechannel/UaSecureChannelComponent.cpp" 79 TUASC LD "UaAssociateSecureChannelReq received" [] 0%nat;
  mkSite "ua/securechannel/UaSecureChannelComponent.cpp" 87 TUASC LD "UaSecuredMessageReceiveInd received" [] 0%nat;
  mkSite "ua/securechannel/UaSecureChannelComponent.cpp" 95 TUASC LD "UaEncodedMessageSendReq received" [] 0%nat;
  mkSite "ua/securechannel/UaSecureChannelComponent.cpp" 103 TUASC LD "UaConnectionReleaseInd received" [] 0%nat].
(** ua/securechannel/channel/UaServerSecureChannel.cpp. *)
Definition at_UaServerSecureChannel : list site := [
  mkSite "ua/securechannel/channel/UaServerSecureChannel.cpp" 96 TUASC LE "Uid-%u, unexpected connectionId" [] 1%nat;
  mkSite "ua/securechannel/channel/UaServerSecureChannel.cpp" 111 TUASC LE "Uid-%u, unexpected tokenId" [] 1%nat;
  mkSite "ua/securechannel/channel/UaServerSecureChannel.cpp" 120 TUASC LE "Uid-%u, unexpected sequenceNumber" [] 1%nat;
  mkSite "ua/securechannel/channel/UaServerSecureChannel.cpp" 161 TUASC LE "Uid-%u, unexpected connectionId" [] 1%nat;
  mkSite "ua/securechannel/channel/UaServerSecureChannel.cpp" 173 TUASC LE "Uid-%u, unexpected connectionId" [] 1%nat;
  mkSite "ua/securechannel/channel/UaServerSecureChannel.cpp" 188 TUASC LE "Uid-%u, unexpected tokenId" [] 1%nat;
  mkSite "ua/securechannel/channel/UaServerSecureChannel.cpp" 197 TUASC LE "Uid-%u, unexpected sequenceNumber" [] 1%nat;
  mkSite "ua/securechannel/channel/UaServerSecureChannel.cpp" 219 TUASC LE "Uid-%u, unexpected connectionId" [] 1%nat;
  mkSite "ua/securechannel/channel/UaServerSecureChannel.cpp" 224 TUASC LE "Uid-%u, unexpected sessionId" [] 1%nat].
(** ua/securechannel/channel/UaServerSecureChannelState.hpp. *)
Definition at_UaServerSecureChannelState_hpp : list site := [
  mkSite "ua/securechannel/channel/UaServerSecureChannelState.hpp" 23 TUASC LE "Unexpected" [] 0%nat;
  mkSite "ua/securechannel/channel/UaServerSecureChannelState.hpp" 25 TUASC LE "Unexpected" [] 0%nat;
  mkSite "ua/securechannel/channel/UaServerSecureChannelState.hpp" 27 TUASC LE "Unexpected" [] 0%nat;
  mkSite "ua/securechannel/channel/UaServerSecureChannelState.hpp" 29 TUASC LE "Unexpected" [] 0%nat;
  mkSite "ua/securechannel/channel/UaServerSecureChannelState.hpp" 31 TUASC LE "Unexpected" [] 0%nat;
  mkSite "ua/securechannel/channel/UaServerSecureChannelState.hpp" 33 TUASC LE "Unexpected" [] 0%nat].
(** ua/service/UaService.cpp. *)
Definition at_UaService : list site := [
  mkSite "ua/service/UaService.cpp" 34 TUASRV LD "UaEncodedMessageReceiveInd, received" [] 0%nat;
  mkSite "ua/service/UaService.cpp" 46 TUASC LE "Unexpected eNodeId format" [] 0%nat;
  mkSite "ua/service/UaService.cpp" 55 TUASRV LE "Unexpected service id(%u)" [] 1%nat].
(** ua/service/UaServiceComponent.cpp. *)
Definition at_UaServiceComponent : list site := [
  mkSite "ua/service/UaServiceComponent.cpp" 30 TUASRV LD "UaServiceInitReq received" [] 0%nat;
  mkSite "ua/service/UaServiceComponent.cpp" 40 TUASRV LD "UaServiceReleaseReq received" [] 0%nat;
  mkSite "ua/service/UaServiceComponent.cpp" 50 TUASRV LD "UaServiceConfigReq received" [] 0%nat;
  mkSite "ua/service/UaServiceComponent.cpp" 58 TUASRV LD "UaEncodedMessageReceiveInd received" [] 0%nat].
(** ua/service/session/UaSession.cpp. *)
Definition at_UaSession : list site := [
  mkSite "ua/service/session/UaSession.cpp" 110 TUASRV LE "Uid=%u, unexpected secure channel Id" [] 1%nat].
(** ua/service/session/UaSessionService.cpp. *)
Definition at_UaSessionService : list site := [
  mkSite "ua/service/session/UaSessionService.cpp" 37 TUASRV LD "Can not alloc session" [] 0%nat;
  mkSite "ua/service/session/UaSessionService.cpp" 55 TUASRV LE "Unexpected nodeId format" [] 0%nat;
  mkSite "ua/service/session/UaSessionService.cpp" 70 TUASRV LE "Unexpected nodeId format" [] 0%nat;
  mkSite "ua/service/session/UaSessionService.cpp" 78 TUASRV LE "Unexpected sessionId" [] 0%nat].
(** ua/service/session/UaSessionState.hpp. *)
Definition at_UaSessionState_hpp : list site := [
  mkSite "ua/service/session/UaSessionState.hpp" 22 TUASRV LE "Unexpected" [] 0%nat;
  mkSite "ua/service/session/UaSessionState.hpp" 24 TUASRV LE "Unexpected" [] 0%nat;
  mkSite "ua/service/session/UaSessionState.hpp" 26 TUASRV LE "Unexpected" [] 0%nat;
  mkSite "ua/service/session/UaSessionState.hpp" 28 TUASRV LE "Unexpected" [] 0%nat].
(** ua/transport/UaTransportComponent.cpp. *)
Definition at_UaTransportComponent : list site := [
  mkSite "ua/transport/UaTransportComponent.cpp" 33 TUATL LD "UaTransportInitReq received" [] 0%nat;
  mkSite "ua/transport/UaTransportComponent.cpp" 43 TUATL LD "UaTransportReleaseReq received" [] 0%nat;
  mkSite "ua/transport/UaTransportComponent.cpp" 53 TUATL LD "UaTransportConfigReq received" [] 0%nat;
  mkSite "ua/transport/UaTransportComponent.cpp" 61 TUATL LD "UaOpenSecureChannelRsp received" [] 0%nat;
  mkSite "ua/transport/UaTransportComponent.cpp" 69 TUATL LD "UaCloseSecureChannelRsp received" [] 0%nat;
  mkSite "ua/transport/UaTransportComponent.cpp" 78 TUATL LD "UaSecuredMessageSendReq received" [] 0%nat;
  mkSite "ua/transport/UaTransportComponent.cpp" 86 TUATL LD "UaConnectionReleaseReq received" [] 0%nat].
(** ua/transport/server/UaTcpConnection.cpp. *)
Definition at_UaTcpConnection : list site := [
  mkSite "ua/transport/server/UaTcpConnection.cpp" 27 TUATL LE "Uid-%u, Can not send UaConnectionReleaseInd, secure channel id is undefined" [] 1%nat;
  mkSite "ua/transport/server/UaTcpConnection.cpp" 40 TUATL LE "Uid-%u, unexpected secureChannelId" [] 1%nat;
  mkSite "ua/transport/server/UaTcpConnection.cpp" 62 TUATL LE "Uid-%u, send return: %d" [] 2%nat;
  mkSite "ua/transport/server/UaTcpConnection.cpp" 90 TUATL LE "Uid-%u, send return: %d" [] 2%nat;
  mkSite "ua/transport/server/UaTcpConnection.cpp" 100 TUATL LE "Uid-%u, unexpected secureChannelId" [] 1%nat;
  mkSite "ua/transport/server/UaTcpConnection.cpp" 122 TUATL LE "Uid-%u, send return: %d" [] 2%nat;
  mkSite "ua/transport/server/UaTcpConnection.cpp" 181 TUATL LE "Uid-%u, received packet is invalid" [] 1%nat;
  mkSite "ua/transport/server/UaTcpConnection.cpp" 211 TUATL LE "Uid-%u, packet has invalid size" [] 1%nat;
  mkSite "ua/transport/server/UaTcpConnection.cpp" 233 TUATL LE "Uid-%u, unexpected packet type" [] 1%nat;
  mkSite "ua/transport/server/UaTcpConnection.cpp" 243 TUATL LD "Uid-%u, received HelloMessage" [] 1%nat;
  mkSite "ua/transport/server/UaTcpConnection.cpp" 270 TUATL LD "Uid-%u, send AcknowledgeMessage" [] 1%nat;
  mkSite "ua/transport/server/UaTcpConnection.cpp" 275 TUATL LI "Uid-%u, send return: %d" [] 2%nat;
  mkSite "ua/transport/server/UaTcpConnection.cpp" 298 TUATL LD "Uid-%u, receiveSecuredMessage: %s" [names_sec] 2%nat;
  mkSite "ua/transport/server/UaTcpConnection.cpp" 306 TUATL LE "Uid-%u, unexpected secureChannelId" [] 1%nat;
  mkSite "ua/transport/server/UaTcpConnection.cpp" 335 TUATL LE "Uid-%u, unexpected secureChannelId" [] 1%nat;
  mkSite "ua/transport/server/UaTcpConnection.cpp" 350 TUATL LE "Uid-%u, unexpected" [] 1%nat].
(** ua/transport/server/UaTcpConnectionState.hpp. *)
Definition at_UaTcpConnectionState_hpp : list site := [
  mkSite "ua/transport/server/UaTcpConnectionState.hpp" 22 TUA LE "Unexpected" [] 0%nat;
  mkSite "ua/transport/server/UaTcpConnectionState.hpp" 24 TUA LE "Unexpected" [] 0%nat;
  mkSite "ua/transport/server/UaTcpConnectionState.hpp" 26 TUA LE "Unexpected" [] 0%nat;
  mkSite "ua/transport/server/UaTcpConnectionState.hpp" 28 TUA LE "Unexpected" [] 0%nat;
  mkSite "ua/transport/server/UaTcpConnectionState.hpp" 30 TUA LE "Unexpected" [] 0%nat;
  mkSite "ua/transport/server/UaTcpConnectionState.hpp" 32 TUA LE "Unexpected" [] 0%nat;
  mkSite "ua/transport/server/UaTcpConnectionState.hpp" 34 TUA LE "Unexpected" [] 0%nat;
  mkSite "ua/transport/server/UaTcpConnectionState.hpp" 36 TUA LE "Unexpected" [] 0%nat;
  mkSite "ua/transport/server/UaTcpConnectionState.hpp" 38 TUA LE "Unexpected" [] 0%nat].
(** ua/transport/server/UaTcpServer.cpp. *)
Definition at_UaTcpServer : list site := [
  mkSite "ua/transport/server/UaTcpServer.cpp" 55 TUATL LD "Uid=%u, onAcceptEvent" [] 1%nat;
  mkSite "ua/transport/server/UaTcpServer.cpp" 63 TUATL LD "Uid=%u, Can not alloc tcp connection" [] 1%nat].

(** All of them. *)
Definition sites : list site := List.concat [at_Deployer;
  at_Acceptor;
  at_EntityPool_hpp;
  at_Epoll;
  at_Event;
  at_Link;
  at_Reactor;
  at_ReactorManager;
  at_SenderBase_hpp;
  at_Thread;
  at_Timer;
  at_OpcUaBinaryCodec;
  at_UaEntityPool_hpp;
  at_ClientConnection;
  at_ClientConnectionConnecting;
  at_ClientConnectionState_hpp;
  at_OpcUaConnection;
  at_ServerConnection;
  at_ServerConnectionConnecting;
  at_ServerConnectionReceiveHello;
  at_ServerConnectionState_hpp;
  at_OpcUaClientSecureChannel;
  at_OpcUaClientSecureChannelConnecting;
  at_OpcUaClientSecureChannelState_hpp;
  at_OpcUaServerSecureChannel;
  at_OpcUaServerSecureChannelState_hpp;
  at_FsmBase_hpp;
  at_ControllerComponent;
  at_ModbusTestController;
  at_ModbusTestFsm_hpp;
  at_ModbusTestState_hpp;
  at_UaControllerState_hpp;
  at_Modbus;
  at_ModbusCodec;
  at_ModbusComponent;
  at_ModbusAduStorage;
  at_ModbusClient;
  at_ModbusClientConnected;
  at_ModbusClientFsm_hpp;
  at_ModbusClientReceive;
  at_ModbusClientSend;
  at_ModbusClientState_hpp;
  at_ModbusServer;
  at_ModbusSessionPool;
  at_ModbusSession;
  at_ModbusSessionConnected;
  at_ModbusSessionFsm_hpp;
  at_ModbusSessionState_hpp;
  at_ModbusSessionWaitModbusAduRsp;
  at_UaSecureChannel;
  at_UaSecureChannelComponent;
  at_UaServerSecureChannel;
  at_UaServerSecureChannelState_hpp;
  at_UaService;
  at_UaServiceComponent;
  at_UaSession;
  at_UaSessionService;
  at_UaSessionState_hpp;
  at_UaTransportComponent;
  at_UaTcpConnection;
  at_UaTcpConnectionState_hpp;
  at_UaTcpServer].
