{"id": "C01", "title": "Fixed-capacity queue is a FIFO", "statement": "As long as no push is issued on a full queue and no pop/front on an empty one, the queue returns exactly the pushed values, in push order, and reports empty exactly when every pushed value has been popped.", "quantifier": "every capacity > 0, every element type, every finite sequence of push/pop/front/empty respecting capacity", "why_tests_cant": "the index wrap-around depends on the whole history of pushes and pops and on the capacity; tests visit a few wrap points", "anchors": ["common/utils/Queue.hpp: Queue::push, pop, front, empty"]}
{"id": "C02", "title": "Queue overflow keeps accepted values", "statement": "A push on a full queue keeps all previously accepted values retrievable in order.", "quantifier": "every capacity > 0 and every full queue", "why_tests_cant": "the effect of the overflow depends on the wrap position and every possible content", "anchors": ["common/utils/Queue.hpp: Queue::push", "common/utils/Queue.hpp: Queue::pop"]}
{"id": "C03", "title": "Resource pools never hand out an entity that is in use", "statement": "If callers release only handles they own, once each, then every handle returned by a timer/link/acceptor/channel/session/connection pool is inside the pool range, is not currently owned by another holder, and allocation fails exactly when every entity is owned.", "quantifier": "every pool capacity, every interleaved sequence of alloc and (well-behaved) release calls", "why_tests_cant": "uniqueness must survive arbitrary allocation/release histories and wrap-around of the free list", "anchors": ["common/reactor/EntityPool.hpp: alloc, release, get", "common/ua/common/UaEntityPool.hpp: alloc, release, get", "modbus/server/ModbusSessionPool.cpp"]}
{"id": "C04", "title": "A double release keeps pool exclusivity", "statement": "Releasing the same handle twice is detected or harmless.", "quantifier": "every pool capacity at least 1 and every reachable pool state with an owned handle", "why_tests_cant": "needs reasoning about all later allocations, not one call", "anchors": ["common/reactor/EntityPool.hpp: release", "common/ua/common/UaEntityPool.hpp: release"]}
{"id": "C05", "title": "Message storage delivers bytes intact, in order, exactly once", "statement": "Every message accepted by the inter-component message storage is later returned byte for byte, once, in acceptance order; storing fails exactly when all slots are occupied and then changes nothing; taking fails exactly when nothing is stored.", "quantifier": "every chunk size and number of chunks, every sequence of store/take calls (calls are serialised by a mutex, so every thread schedule is such a sequence), every message of at most chunk size minus 8 bytes", "why_tests_cant": "slot recycling order and byte-level placement depend on the whole history", "anchors": ["common/reactor/MsgMemStorage.cpp: push, pop, get"]}
{"id": "C06", "title": "Message storage never writes outside its slot", "statement": "Storing a message that respects the documented maximum message size (4096 bytes) never modifies bytes belonging to another stored message or outside the storage.", "quantifier": "every message length up to the maximum message size and every storage state", "why_tests_cant": "corruption only shows up for particular lengths combined with particular occupancy", "anchors": ["common/reactor/MsgMemStorage.cpp: push", "common/reactor/MsgStore.hpp", "common/reactor/types/MaxMsgSize.hpp"]}
{"id": "C07", "title": "Reactor delivers every accepted message exactly once, in order, with no lost wake-up", "statement": "Under every interleaving of any number of sending threads with the reactor thread (store, signal, wake, take, dispatch), if no handler throws, every accepted message is dispatched at most once, in acceptance order, and whenever the reactor is idle with no signal pending nothing is left in the storage.", "quantifier": "every number of senders, every interleaving of their atomic steps with the reactor's steps, every message content", "why_tests_cant": "interleavings of the signal counter with store/take are unbounded and timing dependent", "anchors": ["common/reactor/Reactor.cpp: send, onFdEvent", "common/reactor/Event.cpp: send, onFileDescriptorEvent"]}
{"id": "C08", "title": "A throwing handler does not strand messages", "statement": "If a message handler throws, messages already accepted are still delivered without needing further traffic.", "quantifier": "every batch length and every position of the throwing handler", "why_tests_cant": "depends on how many messages are pending when the exception is raised", "anchors": ["common/reactor/Reactor.cpp: onFdEvent, run", "common/reactor/Event.cpp: onFileDescriptorEvent"]}
{"id": "C09", "title": "Overload only drops the refused message", "statement": "When the reactor's storage is full a send is dropped silently to the caller, does not signal, and neither changes nor reorders any accepted message; at most 64 messages are ever pending.", "quantifier": "every interleaving and every backlog", "why_tests_cant": "requires an invariant over arbitrary histories", "anchors": ["common/reactor/Reactor.cpp: send", "common/reactor/MsgMemStorage.cpp: push"]}
{"id": "C10", "title": "Dispatch calls exactly the handler registered last for the message id", "statement": "Each dispatched message runs exactly one handler, the most recently registered one for its id, and messages with no registered handler run none and do not disturb later messages.", "quantifier": "every registration history and every message sequence", "why_tests_cant": "quantifies over all registration orders and ids", "anchors": ["common/reactor/Reactor.cpp: registerHandler, registerHandlers, onFdEvent"]}
{"id": "C11", "title": "Routing reaches the reactor that hosts the destination component", "statement": "A message sent through the manager is handed to exactly one reactor, the one hosting the first component registered under its destination id, and is dropped when no component has that id.", "quantifier": "every sequence of component registrations and every message destination", "why_tests_cant": "quantifies over all deployments and registration orders", "anchors": ["common/reactor/ReactorManager.cpp: send, addComponent", "Deployer.cpp: Deployer::apply"]}
{"id": "C12", "title": "Lifecycle replies reach the controller", "statement": "In the shipped deployment every *InitRsp/*ConfigRsp/*ReleaseRsp for which the controller registers a handler is routed to the controller.", "quantifier": "every lifecycle reply type in the shipped deployment", "why_tests_cant": "the failure is a silent drop in another component's reactor, invisible to unit tests of either side", "anchors": ["common/msg/MsgUaSecureChannelInitRsp.hpp", "common/msg/MsgUaServiceInitRsp.hpp", "controller/ControllerComponent.cpp: registerComponent", "Deployer.cpp: getDepl"]}
{"id": "C13", "title": "Timer deadline equals now plus interval", "statement": "Starting a timer arms an absolute deadline exactly interval microseconds after the sampled current time, with a nanosecond field in 0..999999999.", "quantifier": "every valid current time and every non-negative interval", "why_tests_cant": "carry arithmetic over all nanosecond/interval combinations", "anchors": ["common/reactor/Timer.cpp: start"]}
{"id": "C14", "title": "UA timestamps are exact 100 ns ticks since 1601 and monotone", "statement": "The date-time produced for wall-clock time t is the number of 100 ns ticks between 1601-01-01 and t (calendar-accurate, including leap years) and is strictly monotone in the wall clock.", "quantifier": "every wall-clock time not before 1970", "why_tests_cant": "calendar arithmetic over all dates", "anchors": ["common/utils/TimeUtils.hpp: getCurrentDateTime"]}
{"id": "C15", "title": "Configured link addresses decode to the configured IPv4 address and port", "statement": "The port and address used by connect/listen are the big-endian values of the configured octets.", "quantifier": "every 6-octet address", "why_tests_cant": "whole input space of 2^48 addresses", "anchors": ["common/reactor/types/LinkAddr.hpp: ipv4port, ipv4addr"]}
{"id": "C16", "title": "Links never leak or reuse a closed descriptor", "statement": "Over any sequence of connect/accept/close/release/send/receive calls and epoll events, each descriptor obtained by a link is closed at most once, is never used after close, and is closed by release; close is idempotent.", "quantifier": "every operation sequence and every result of the underlying system calls", "why_tests_cant": "depends on every ordering of failures, events and user calls", "anchors": ["common/reactor/Link.cpp: connect, close, release, send, receive, onFileDescriptorEvent"]}
{"id": "C17", "title": "Peer disconnect is reported as such", "statement": "When the peer closes the TCP connection the link reports closed/error to its user rather than a successful empty read.", "quantifier": "every end-of-stream read on an open link", "why_tests_cant": "needs a peer closing at each protocol state", "anchors": ["common/reactor/Link.cpp: receive", "modbus/client/ModbusClient.cpp: receive", "ua/transport/server/UaTcpConnection.cpp: receive"]}
{"id": "C18", "title": "Modbus request encode/decode round-trips", "statement": "Decoding the bytes produced for any accepted request yields the same transaction id (modulo 65536), unit address, function, start item and (function dependent) count or register data.", "quantifier": "every request the encoder accepts (all functions 1-6 and 16, all fields, all payload bytes)", "why_tests_cant": "payload/field space is astronomically large", "anchors": ["modbus/ModbusCodec.cpp: encode(AduRequest), decode(AduRequest)"]}
{"id": "C19", "title": "Modbus response encode/decode round-trips", "statement": "Decoding the bytes produced for any accepted response yields the same transaction id (mod 65536), unit address, function and payload / error code.", "quantifier": "every response the encoder accepts (functions 3,4,5,6,16 and error)", "why_tests_cant": "payload/field space is astronomically large", "anchors": ["modbus/ModbusCodec.cpp: encode(AduRespond), decode(AduRespond)"]}
{"id": "C20", "title": "Encoded Modbus frames are well formed and bounded", "statement": "Every successfully encoded frame is at most 260 bytes, has protocol id 0, a length field equal to the number of bytes following it, and stays inside the codec buffer.", "quantifier": "every request and response record", "why_tests_cant": "bounds depend on all field combinations", "anchors": ["modbus/ModbusCodec.cpp: encode, aduPktLen, pduLen", "modbus/PduBuffer.hpp"]}
{"id": "C21", "title": "Modbus decoding is memory safe on arbitrary input", "statement": "For any byte string received (up to the buffer limit) that passes the framing checks, decoding as request or response reads only received bytes, writes only inside the destination record and never yields a payload longer than the record holds.", "quantifier": "every received byte string", "why_tests_cant": "adversarial input space", "anchors": ["modbus/ModbusCodec.cpp: decode(AduRequest), decode(AduRespond)", "modbus/PduBuffer.hpp", "modbus/client/ModbusClient.cpp: receive", "modbus/server/session/ModbusSession.cpp: receive"]}
{"id": "C22", "title": "Modbus frames survive TCP segmentation", "statement": "A valid response delivered in several TCP segments is treated like the same response delivered in one segment.", "quantifier": "every valid frame and every way of cutting it into segments", "why_tests_cant": "all segmentations of all frames", "anchors": ["modbus/ModbusCodec.cpp: isAduHdrReceived, isAduReceived, isAduValid", "modbus/client/ModbusClient.cpp: receive"]}
{"id": "C23", "title": "Maximum-size Modbus frames are accepted", "statement": "Every frame the encoder can produce is accepted by the framing checks of the peer.", "quantifier": "every encodable frame", "why_tests_cant": "boundary depends on function and payload length", "anchors": ["modbus/ModbusCodec.cpp: isAduDataLenValid, isAduValid, encode"]}
{"id": "C24", "title": "Coil and transaction fields follow the Modbus wire format", "statement": "Force-single-coil ON is encoded as FF 00 and a request id is recoverable from the response id.", "quantifier": "every force-single-coil request and every transaction id", "why_tests_cant": "whole id range / wire compatibility not covered by self-round-trip tests", "anchors": ["modbus/ModbusCodec.cpp: encode(AduRequest)", "modbus/client/ModbusClient.cpp: receive"]}
{"id": "C25", "title": "The client keeps requests in submission order within a bound", "statement": "The client holds at most 64 pending requests, transmits them in submission order, and a request refused for capacity or size is answered with an error immediately without disturbing the pending ones.", "quantifier": "every sequence of requests, link events, timer events and received bytes", "why_tests_cant": "unbounded event histories", "anchors": ["modbus/client/ModbusAduStorage.cpp: push, pop, front", "modbus/client/ModbusClient.cpp: receive(MsgModbusClientAduReqItem), send"]}
{"id": "C26", "title": "Each client request gets exactly one response", "statement": "Every request handed to the Modbus client is eventually answered exactly once.", "quantifier": "every event history", "why_tests_cant": "needs particular orders of timeouts, late frames and queued requests", "anchors": ["modbus/client/ModbusClient.cpp: receive, provideRspError, provideRspTimeout", "modbus/client/ModbusClientReceive.cpp", "modbus/client/ModbusClientSend.cpp"]}
{"id": "C27", "title": "The client never invents responses", "statement": "Every response emitted by the client carries the client id and transaction id of a request that was submitted earlier; a success response with data is emitted only for a received frame whose transaction id, unit address and function equal those of the oldest pending request.", "quantifier": "every event history and every received byte string", "why_tests_cant": "adversarial bytes times event orders", "anchors": ["modbus/client/ModbusClient.cpp: receive, provideRsp*"]}
{"id": "C28", "title": "At most one client request is outstanding on the wire", "statement": "Between two transmissions the earlier request has been answered (reply, timeout or failure), or the peer has sent a frame header with an impossible length for it.", "quantifier": "every event history", "why_tests_cant": "unbounded event interleavings", "anchors": ["modbus/client/ModbusClientSend.cpp", "modbus/client/ModbusClientReceive.cpp", "modbus/client/ModbusClient.cpp: send"]}
{"id": "C29", "title": "The client never gets stuck", "statement": "In every reachable state in which requests are pending or the connection is not established, a timer is armed whose expiry makes progress (transmission, failure response or reconnect attempt); when idle it accepts requests immediately.", "quantifier": "every reachable client state", "why_tests_cant": "all event orders", "anchors": ["modbus/client/ModbusClient*.cpp"]}
{"id": "C30", "title": "Connection loss flushes all pending requests", "statement": "When a send or receive on the link fails, every pending request is answered with an error exactly once, in order, the link is closed and a reconnect is scheduled.", "quantifier": "every reachable state and number of pending requests", "why_tests_cant": "all queue contents and states", "anchors": ["modbus/client/ModbusClient.cpp: provideRspError", "modbus/client/ModbusClientSend.cpp", "modbus/client/ModbusClientReceive.cpp", "modbus/client/ModbusClientBackoff.cpp"]}
{"id": "C31", "title": "A server session answers only the request it is waiting for", "statement": "A Modbus server session transmits a reply only while waiting for one and only if the reply's transaction id equals that of the latest request it forwarded; the transmitted frame carries that id, the request's unit address and function.", "quantifier": "every history of received bytes, replies, timers on a session", "why_tests_cant": "event orders and adversarial bytes", "anchors": ["modbus/server/session/ModbusSession.cpp: receive, send", "modbus/server/session/ModbusSessionWaitModbusAduRsp.cpp"]}
{"id": "C32", "title": "A server session always terminates without traffic", "statement": "Every active session has a timer armed (30 s inactivity or 5 s reply timeout), whose expiry releases or re-arms it, so with no further input it is released after finitely many expiries.", "quantifier": "every reachable session state", "why_tests_cant": "all event orders", "anchors": ["modbus/server/session/ModbusSessionConnected.cpp", "modbus/server/session/ModbusSessionWaitModbusAduRsp.cpp", "modbus/server/session/ModbusSessionInit.cpp"]}
{"id": "C33", "title": "Server sessions are exclusive and returned exactly once", "statement": "Over any history of accepts, data, replies and timeouts a server never has two connections on one session id, a session id returns to the pool exactly once per connection, and link/timer are released with it.", "quantifier": "every event history over all 256 sessions", "why_tests_cant": "histories over many sessions", "anchors": ["modbus/server/ModbusServer.cpp", "modbus/server/ModbusSessionPool.cpp", "modbus/server/session/ModbusSession.cpp: releaseSession"]}
{"id": "C34", "title": "Replies cannot cross sessions", "statement": "A late application reply for a finished session is never sent to a different client that now uses the same session id.", "quantifier": "every history in which a session id is reused", "why_tests_cant": "needs id reuse plus matching transaction ids", "anchors": ["modbus/server/ModbusServer.cpp: receive", "modbus/server/session/ModbusSession.cpp: send"]}
{"id": "C35", "title": "OPC UA built-in types round-trip", "statement": "Decoding the encoding of any built-in value (booleans, all integers, floats and doubles bit-for-bit, strings, byte strings, GUIDs, node ids, status codes, diagnostic info, qualified names, localized text, extension objects, data values) yields the same value and consumes exactly the bytes produced.", "quantifier": "every value of every built-in type, nested to any depth, of any length that fits the buffer", "why_tests_cant": "infinite value space, recursive types", "anchors": ["common/ua/common/OpcUaBinaryCodec.cpp: operator<<, operator>>"]}
{"id": "C36", "title": "OPC UA service messages round-trip", "statement": "Decoding the encoding of any handshake, secure-channel, discovery, session or read message yields the same message.", "quantifier": "every field value of every message type", "why_tests_cant": "infinite value space", "anchors": ["common/ua/common/OpcUaBinaryCodec.cpp", "common/ua/common/OpcUaBinaryCodec.hpp: UaMsgCont, DynamicArray, tuple operators"]}
{"id": "C37", "title": "Expanded node ids round-trip anywhere in a message", "statement": "An expanded node id with a namespace URI or server index decodes to itself and leaves earlier bytes untouched wherever it is placed.", "quantifier": "every expanded node id and every preceding content", "why_tests_cant": "position dependent; tests encode at offset 0", "anchors": ["common/ua/common/OpcUaBinaryCodec.cpp: operator<<(ExpandedNodeId)"]}
{"id": "C38", "title": "Variants round-trip", "statement": "Every variant value the encoder accepts is decoded to the same value.", "quantifier": "every variant alternative and value", "why_tests_cant": "44 alternatives times infinite values", "anchors": ["common/ua/common/OpcUaBinaryCodec.cpp: operator<<(Variant), operator>>(Variant)", "common/ua/common/types/Variant.hpp"]}
{"id": "C39", "title": "Decoding received OPC UA bytes stays inside the received bytes", "statement": "For any received byte string, decoding never reads past the received length.", "quantifier": "every received byte string", "why_tests_cant": "adversarial input space", "anchors": ["common/ua/common/OpcUaSduBuffer.cpp: read", "common/ua/common/OpcUaBinaryCodec.cpp"]}
{"id": "C40", "title": "Malformed OPC UA input cannot terminate the process", "statement": "For any received byte string decoding returns or raises a catchable exception.", "quantifier": "every received byte string", "why_tests_cant": "adversarial input space", "anchors": ["common/ua/common/OpcUaBinaryCodec.cpp: operator>>(NodeId)", "common/ua/common/OpcUaBinaryCodec.hpp: operator>>(DynamicArray)"]}
{"id": "C41", "title": "Every OPC UA packet sent carries its exact length", "statement": "The size field of every packet put on the wire by the UA server equals the packet's byte count.", "quantifier": "every response/hello/ack content", "why_tests_cant": "all payload sizes", "anchors": ["common/ua/common/types/MessageHeader.hpp: setPayloadSizeToHdr", "ua/transport/server/UaTcpConnection.cpp"]}
{"id": "C42", "title": "OPC UA framing is segmentation independent", "statement": "A message of 12 to 1024 bytes split arbitrarily into segments is recognised exactly when its last byte arrives, with the same effects as if it had arrived in one read, and all its bytes after the 12-byte header are handed on in order; bytes after a complete message in the same read close the connection rather than be misparsed.", "quantifier": "every message and every segmentation", "why_tests_cant": "all segmentations", "anchors": ["ua/transport/server/UaTcpConnection.cpp: receive", "common/ua/protocols/connection/OpcUaConnection.cpp: receive"]}
{"id": "C43", "title": "No secured message is forwarded before the handshake or for a foreign channel", "statement": "The transport forwards secured messages only on connections that completed hello/acknowledge, and MSG/CLO messages only if their channel id is the one associated with that connection by an open-channel response.", "quantifier": "every history of connection events and received bytes", "why_tests_cant": "adversarial bytes times event orders", "anchors": ["ua/transport/server/UaTcpConnection.cpp: receiveSecuredMessage", "ua/transport/server/UaTcpConnectionReceiveHello.cpp", "ua/transport/server/UaTcpConnectionConnected.cpp"]}
{"id": "C44", "title": "UA transport connections are reclaimed", "statement": "Every accepted connection is returned to the pool exactly once, on error, timeout or release request; while it is live a timer is armed.", "quantifier": "every event history over all connections", "why_tests_cant": "event orders", "anchors": ["ua/transport/server/UaTcpConnection.cpp: release", "ua/transport/server/UaTcpServer.cpp", "ua/transport/server/UaTcpConnectionInit.cpp"]}
{"id": "C45", "title": "Secure channels accept only in-sequence messages with the current token", "statement": "A secured message is passed to the services only if the channel is established, it came from the channel's own connection, carries the channel's token and exactly the next sequence number; anything else closes the channel, so no message is accepted twice.", "quantifier": "every history of opens, messages, closes and releases on every channel", "why_tests_cant": "replay/reorder histories are unbounded; wrap at 2^32", "anchors": ["ua/securechannel/channel/UaServerSecureChannel.cpp: receive(MsgUaSecuredMessageReceiveInd)", "ua/securechannel/channel/UaServerSecureChannelEstablished.cpp"]}
{"id": "C46", "title": "Server sequence numbers are consecutive and start the same on every channel", "statement": "Response sequence numbers on a channel increase by one and every newly opened channel starts at the same number.", "quantifier": "every history of channel opens and responses", "why_tests_cant": "requires channel object reuse", "anchors": ["ua/securechannel/channel/UaServerSecureChannel.cpp: release", "ua/securechannel/channel/UaServerSecureChannel.hpp"]}
{"id": "C47", "title": "A connection's release only affects its own channel", "statement": "A connection-release indication closes a channel only if the channel belongs to that connection.", "quantifier": "every history with channel reuse", "why_tests_cant": "needs stale message after reuse", "anchors": ["ua/securechannel/channel/UaServerSecureChannelEstablished.cpp: onReceive(MsgUaConnectionReleaseInd)"]}
{"id": "C48", "title": "Responses leave on the connection and channel of their request", "statement": "Each service response is sent with the connection id, channel id, request id and request handle of the request that caused it, and the channel refuses responses whose connection or session does not match.", "quantifier": "every request content and history", "why_tests_cant": "all header values and histories", "anchors": ["ua/service/session/*.cpp", "ua/service/attribute/UaRead.cpp", "ua/service/discovery/UaGetEndpoints.cpp", "ua/securechannel/channel/UaServerSecureChannel.cpp: receive(MsgUaEncodedMessageSendReq)"]}
{"id": "C49", "title": "Reads are served only on an activated session over its own channel", "statement": "A read response is produced only if the request's session exists, is activated and is bound to the channel the request arrived on.", "quantifier": "every history of create/activate/close/read requests on all channels", "why_tests_cant": "histories over many sessions and channels", "anchors": ["ua/service/session/UaSessionService.cpp", "ua/service/session/UaSessionActivated.cpp", "ua/service/attribute/UaAttributeService.cpp"]}
{"id": "C50", "title": "Session ids are unique among live sessions", "statement": "CreateSession never returns the id of a session that has not been closed, fails only when 32 sessions are live, and closing returns the id exactly once.", "quantifier": "every history of create/activate/close", "why_tests_cant": "histories", "anchors": ["ua/service/session/UaSessionService.cpp", "common/ua/common/UaEntityPool.hpp"]}
{"id": "C51", "title": "Only the owner can activate or close a session", "statement": "Activating or closing a session succeeds only over the channel that created/activated it.", "quantifier": "every history with two channels", "why_tests_cant": "needs a second, malicious client", "anchors": ["ua/service/session/UaActivateSession.cpp", "ua/service/session/UaCloseSession.cpp", "ua/service/session/UaSession.cpp"]}
{"id": "C52", "title": "Out-of-range ids from the network are rejected", "statement": "Session tokens and channel ids taken from received messages never index outside the pools.", "quantifier": "every received id", "why_tests_cant": "adversarial input", "anchors": ["ua/service/session/UaSessionService.cpp", "common/ua/common/UaEntityPool.hpp: get"]}
{"id": "C53", "title": "Modbus component lifecycle", "statement": "Client ADU requests with an unknown client index are answered with an error echoing the ids; configuration replies mirror every item; everything before init or after release is ignored.", "quantifier": "every configuration and request list", "why_tests_cant": "all list lengths, ids, orders", "anchors": ["modbus/Modbus.cpp", "modbus/ModbusComponent.cpp", "common/msg/MsgModbusClientAduReq.hpp"]}
{"id": "C54", "title": "Multi-item client requests are walked exactly", "statement": "A batch request with any number of variable-length items is traversed item by item at offsets that are multiples of 16 from the first item; the i-th item read is the i-th item written and its total size is the sum of the aligned item sizes.", "quantifier": "every number of items and payload lengths", "why_tests_cant": "layout arithmetic over all lengths", "anchors": ["common/msg/MsgModbusClientAduReq.hpp: item, size", "common/utils/MemUtils.hpp: memAlign"]}
{"id": "C55", "title": "Protocol connection notifications are well ordered", "statement": "The UA client/server connection library notifies its user connected at most once per connection attempt, data only after connected, at most one closing notification (closed or error), and after it nothing until a new connect; links and timers are released on return to idle.", "quantifier": "every event history", "why_tests_cant": "event orders", "anchors": ["common/ua/protocols/connection/*.cpp"]}
{"id": "C56", "title": "Controller start/stop handling", "statement": "Start creates the sub-controllers once and drives the init/config handshake; stop before start has no effect.", "quantifier": "every sequence of start/stop/response messages", "why_tests_cant": "message orders", "anchors": ["controller/ControllerComponent.cpp", "controller/ua/UaController.cpp", "controller/modbus/*.cpp"]}
{"id": "C57", "title": "A link that is readable and writable at once stays usable", "statement": "When the kernel reports a healthy connecting or connected link as readable and writable in one report, the user is told connected/data and the link stays open.", "quantifier": "every combination of reported events", "why_tests_cant": "depends on kernel timing: both bits are set only when the peer speaks before the connect report is read", "anchors": ["common/reactor/Link.cpp: onFileDescriptorEvent"]}
{"id": "C58", "title": "A successful send transmitted the whole message", "statement": "If sending on a link reports success then every byte of the message was handed to the kernel, and failure is reported exactly when the link is closed or the write failed.", "quantifier": "every write result", "why_tests_cant": "short writes depend on socket buffer state", "anchors": ["common/reactor/Link.cpp: send"]}
{"id": "C59", "title": "Oversized application replies are refused safely", "statement": "An application reply whose payload does not fit a Modbus frame is refused without any memory access outside the session's buffers.", "quantifier": "every payload length an application can put in a reply", "why_tests_cant": "payload lengths are unbounded 16-bit values; overruns are silent", "anchors": ["modbus/ModbusCodec.cpp: encode(AduRespond)", "modbus/server/session/ModbusSession.cpp: send"]}
{"id": "C60", "title": "The client stays inside its receive buffer", "statement": "Whatever the peer sends and whenever it disconnects, processing link events never accesses memory outside the client's receive buffer and request storage.", "quantifier": "every event history, every received byte string, every disconnect point", "why_tests_cant": "needs all interleavings of disconnects with queued requests; out-of-bounds reads are silent", "anchors": ["modbus/client/ModbusClient.cpp: receive", "modbus/client/ModbusClientSend.cpp", "common/reactor/Link.cpp: receive"]}
{"id": "C61", "title": "Correct replies are delivered", "statement": "If the peer answers the transmitted request with a correct reply, the requester gets a success response with exactly the data of the reply, for every supported function and every transaction id.", "quantifier": "every reachable client state, request and reply", "why_tests_cant": "all functions, ids, payloads and prior histories", "anchors": ["modbus/client/ModbusClient.cpp: receive", "modbus/ModbusCodec.cpp: decode(AduRespond)"]}
{"id": "C62", "title": "Forwarded Modbus requests contain only what the client sent", "statement": "Every request a Modbus server forwards to the application stems from octets received on that session: its fields and payload are those of the Modbus frame just received.", "quantifier": "every history of received bytes, timers, replies, connections", "why_tests_cant": "stale buffer contents appear only after particular histories", "anchors": ["modbus/server/session/ModbusSession.cpp: receive", "modbus/ModbusCodec.cpp: decode(AduRequest)"]}
{"id": "C63", "title": "Replies naming an unknown or idle server session are ignored", "statement": "An application reply whose session id is out of range or names a session that is not waiting has no effect.", "quantifier": "every session id value and every history", "why_tests_cant": "a 32-bit id space and all histories", "anchors": ["modbus/server/ModbusServer.cpp: receive", "modbus/server/ModbusSessionPool.cpp: get"]}
{"id": "C64", "title": "A Modbus server stays inside its buffers", "statement": "No sequence of connections, received octets, timers and well-sized replies makes a server session access memory outside its receive buffer or its request payload array.", "quantifier": "every history with arbitrary octets", "why_tests_cant": "adversarial bytes over unbounded histories", "anchors": ["modbus/server/session/ModbusSession.cpp: receive, send", "modbus/ModbusCodec.cpp"]}
{"id": "C65", "title": "A segmented valid request is forwarded exactly once", "statement": "The octets of a valid request frame arriving at a ready session in any number of pieces lead to exactly one forwarded request, equal to the one the client encoded, after which the session waits for the answer.", "quantifier": "every valid request, every segmentation, every prior history", "why_tests_cant": "all segmentations and histories", "anchors": ["modbus/server/session/ModbusSession.cpp: receive", "modbus/ModbusCodec.cpp: decode(AduRequest)", "modbus/server/session/ModbusSessionConnected.cpp"]}
{"id": "C66", "title": "A timely reply reaches the Modbus client", "statement": "A successful application reply that arrives while the session waits, with the transaction id of the forwarded request, is transmitted to the client as a frame for that request.", "quantifier": "every history, every reply, every function code", "why_tests_cant": "all function codes and payload sizes after all histories", "anchors": ["modbus/server/session/ModbusSession.cpp: send", "modbus/ModbusCodec.cpp: encode(AduRespond)"]}
{"id": "C67", "title": "OPC UA octets are those of the standard", "statement": "Every built-in value and every message is encoded as exactly the octets prescribed by the OPC UA binary encoding (Part 6), appended at the end of the packet, and these octets are decoded to the value wherever they stand, so third-party peers understand the server and are understood.", "quantifier": "every well-formed value of every built-in type and message type, every buffer position", "why_tests_cant": "A round-trip test passes for any self-consistent encoding; conformance has to hold for all field values, optional fields and nested arrays.", "anchors": ["common/ua/common/OpcUaBinaryCodec.cpp", "common/ua/common/OpcUaBinaryCodec.hpp", "common/ua/common/types"]}
{"id": "C68", "title": "A message larger than the packet buffer is refused", "statement": "Encoding a message that does not fit the 4096-octet packet fails cleanly instead of writing outside the packet.", "quantifier": "every message of every size", "why_tests_cant": "Overruns depend on the exact total size; unit tests use small messages.", "anchors": ["common/ua/common/OpcUaSduBuffer.cpp", "common/ua/common/OpcUaBinaryCodec.cpp"]}
{"id": "C69", "title": "Decoding does not depend on the target's previous value", "statement": "Decoding a value into an object gives the same result whatever the object held before.", "quantifier": "every encoded value and every previous content", "why_tests_cant": "Tests decode into fresh objects.", "anchors": ["common/ua/common/OpcUaBinaryCodec.cpp"]}
{"id": "C70", "title": "Null arrays are accepted", "statement": "An array encoded with length -1, the standard's null array, is decoded as an empty array.", "quantifier": "every element type and message containing arrays", "why_tests_cant": "The library's own encoder never produces null arrays, so its round-trip tests cannot see it.", "anchors": ["common/ua/common/OpcUaBinaryCodec.hpp"]}
{"id": "C71", "title": "An acknowledge answers a hello", "statement": "The UA server sends an acknowledge only in answer to a hello message, and at most once to each client.", "quantifier": "every history of connection events and every received byte sequence", "why_tests_cant": "Depends on every byte sequence a client may send first and on the whole history of the connection.", "anchors": ["ua/transport/server/UaTcpConnection.cpp: receiveHello, sendAcknowledge", "ua/transport/server/UaTcpConnectionReceiveHello.cpp"]}
{"id": "C72", "title": "Forwarded secured messages carry exactly the received payload", "statement": "A secured message handed to the secure channel layer has the channel id received in its header and exactly the bytes received after the header; a message shorter than its header is not handed on.", "quantifier": "every message, every history", "why_tests_cant": "Needs every message length and every earlier contents of the receive buffer.", "anchors": ["ua/transport/server/UaTcpConnection.cpp: receiveSecuredMessage"]}
{"id": "C73", "title": "Channel responses reach only the client that asked", "statement": "A response of the secure channel layer is transmitted only to the client on whose connection the request was received.", "quantifier": "every history, including connections closed and their ids reused while a request is being processed", "why_tests_cant": "Requires interleavings of disconnects, id reuse and late responses.", "anchors": ["ua/transport/server/UaTcpConnection.cpp: receive(MsgUaOpenSecureChannelRsp)", "common/ua/common/UaEntityPool.hpp"]}
{"id": "C74", "title": "No received packet makes the transport leave its buffers", "statement": "Whatever bytes a connected client sends, processing them stays inside the receive buffer and the message they are forwarded in.", "quantifier": "every byte sequence and every segmentation", "why_tests_cant": "A memory-safety statement over all packet lengths and contents.", "anchors": ["ua/transport/server/UaTcpConnection.cpp: receive, receiveSecuredMessage", "common/reactor/MsgStore.hpp"]}
{"id": "C75", "title": "A connection has at most one secure channel", "statement": "At any time at most one open secure channel belongs to a given connection; opening again on the same connection renews the channel instead of taking another one.", "quantifier": "every history of open, close, message and release events", "why_tests_cant": "Needs every history of opens and closes.", "anchors": ["ua/securechannel/UaSecureChannel.cpp: receive(MsgUaOpenSecureChannelReceiveInd)", "ua/securechannel/channel/UaServerSecureChannel.cpp"]}
{"id": "C76", "title": "A failed open gives its channel back", "statement": "An open request that cannot be decoded leaves no channel occupied: with no channel open, a valid open request succeeds.", "quantifier": "every history, any number of failed opens", "why_tests_cant": "The leak only shows after as many bad requests as there are channels, for any interleaving.", "anchors": ["ua/securechannel/UaSecureChannel.cpp: receive(MsgUaOpenSecureChannelReceiveInd)", "common/ua/common/UaEntityPool.hpp"]}
{"id": "C77", "title": "Every open request is answered or its connection dropped", "statement": "For each open request received the client gets an open response on its connection or the connection is released.", "quantifier": "every open request and every history", "why_tests_cant": "Depends on the decoder's behaviour on every octet string and on pool occupancy.", "anchors": ["ua/securechannel/UaSecureChannel.cpp", "ua/securechannel/channel/UaServerSecureChannelInit.cpp"]}
{"id": "C78", "title": "Services receive exactly the message body", "statement": "The encoded message handed to the services is the received message without its 12 octets of security and sequence header, and nothing else.", "quantifier": "every message, every contents of uninitialised memory", "why_tests_cant": "Needs every length and every contents of the memory behind the message.", "anchors": ["ua/securechannel/channel/UaServerSecureChannel.cpp: receive(MsgUaSecuredMessageReceiveInd)"]}
{"id": "C79", "title": "No received message makes the channel layer leave its buffers", "statement": "Whatever octets arrive in open, close and secured messages, the channel layer stays inside its buffers and does not abort.", "quantifier": "every octet string, every history", "why_tests_cant": "A memory-safety statement over all inputs.", "anchors": ["ua/securechannel/channel/UaServerSecureChannel.cpp", "common/ua/common/*"]}
{"id": "C80", "title": "A close request always closes its channel", "statement": "After a close request for an open channel the channel is closed; if the request is valid it is answered exactly once before.", "quantifier": "every close request and every history", "why_tests_cant": "Depends on every octet string the decoder can be given.", "anchors": ["ua/securechannel/channel/UaServerSecureChannel.cpp: receive(MsgUaCloseSecureChannelReceiveInd)", "ua/securechannel/channel/UaServerSecureChannelEstablished.cpp"]}
{"id": "C81", "title": "Endpoint discovery needs no session", "statement": "Once the service component is initialised, every GetEndpoints request is answered, with the one endpoint of the server, without a session and without changing anything.", "quantifier": "every GetEndpoints request, every history", "why_tests_cant": "Must hold in every reachable state of the session table.", "anchors": ["ua/service/discovery/UaGetEndpoints.cpp: process", "ua/service/discovery/UaDiscoveryService.cpp"]}
{"id": "C82", "title": "Service component lifecycle", "statement": "Each initialise request gets one initialise response and each release request one release response; both forget all sessions; messages before initialisation or after release have no effect.", "quantifier": "every history of component messages", "why_tests_cant": "Quantifies over all interleavings of lifecycle and service messages.", "anchors": ["ua/service/UaServiceComponent.cpp"]}
{"id": "C83", "title": "A request is served only with its session's authentication token", "statement": "A session-bound request is answered only if its authentication token names the session it is served on.", "quantifier": "every request, every history", "why_tests_cant": "Needs all tokens and all session tables.", "anchors": ["ua/service/session/UaSessionService.cpp", "ua/service/session/UaSession.cpp"]}
{"id": "C84", "title": "A read is answered with one result per node", "statement": "The response to a read request carries as many results as the request asks for.", "quantifier": "every read request", "why_tests_cant": "Any number of nodes.", "anchors": ["ua/service/attribute/UaAttributeService.cpp"]}
{"id": "C85", "title": "Every service request gets exactly one response", "statement": "Each well-formed service request is answered by exactly one message: its response or a fault.", "quantifier": "every request, every history", "why_tests_cant": "Depends on session table occupancy and on all request types.", "anchors": ["ua/service/UaService.cpp", "ua/service/session/UaSessionService.cpp"]}
{"id": "C86", "title": "A session ends when its timeout passes without activity", "statement": "A session on which nothing happens for longer than its timeout is closed.", "quantifier": "every timeout, every idle period", "why_tests_cant": "Needs unbounded time.", "anchors": ["ua/service/session/UaSession.cpp"]}
{"id": "C87", "title": "Standard request encodings are recognised", "statement": "The standard binary encoding of each supported request is recognised as that request with all its fields, whatever the receive buffer contained before.", "quantifier": "every request value, every contents of uninitialised memory", "why_tests_cant": "Infinite value space.", "anchors": ["ua/service/UaService.cpp", "common/ua/common/OpcUaBinaryCodec.cpp"]}
{"id": "C88", "title": "A message that is not a valid request has no effect", "statement": "A message that is not the encoding of a supported request leaves sessions and process untouched and is not answered.", "quantifier": "every octet string", "why_tests_cant": "All octet strings.", "anchors": ["ua/service/UaService.cpp: receive"]}
{"id": "C89", "title": "Configuration replies are truthful", "statement": "A Modbus configuration reply reports success exactly for the items whose client or server exists afterwards.", "quantifier": "every history of the component and every configuration list", "why_tests_cant": "all histories, ids and list orders", "anchors": ["modbus/Modbus.cpp: receive(MsgModbusConfigReq)"]}
{"id": "C90", "title": "Requests to the Modbus component are answered", "statement": "Every item of every batch request handed to the Modbus component is answered exactly once, also across reconfiguration and release.", "quantifier": "every history of batches, configurations, releases, link and timer events", "why_tests_cant": "needs requests pending at arbitrary lifecycle points", "anchors": ["modbus/Modbus.cpp", "modbus/ModbusComponent.cpp", "modbus/client/ModbusClient.cpp"]}
{"id": "C91", "title": "Modbus clients and servers are independent", "statement": "Each configured Modbus client (server) behaves as one would alone: it sees only requests carrying its index, answers only those, and events of one never affect another.", "quantifier": "every history of the component and every index", "why_tests_cant": "all interleavings of several clients and servers", "anchors": ["modbus/Modbus.cpp", "modbus/client/ModbusClient.cpp", "modbus/server/ModbusServer.cpp"]}
{"id": "C92", "title": "A built batch stays inside its message store", "statement": "Whenever a batch request has been written within the message store, the size it reports (and is copied with) also lies within the store.", "quantifier": "every batch", "why_tests_cant": "layout arithmetic at the store's boundary", "anchors": ["common/msg/MsgModbusClientAduReq.hpp: size", "common/reactor/MsgStore.hpp"]}
{"id": "C93", "title": "Connection attempts always end", "statement": "After connect() or accept() on the OPC UA connection library the user is eventually notified: connected, closed or error within bounded time (timers of 3 s, 1 s and 10 s), and link and timer are given back.", "quantifier": "every history, including failures of the kernel to start a connection", "why_tests_cant": "needs every failure point", "anchors": ["common/ua/protocols/connection/ClientConnection*.cpp", "common/ua/protocols/connection/OpcUaConnection.cpp"]}
{"id": "C94", "title": "Link failures are reported by the connection library", "statement": "When the link of a connection attempt or of an established connection fails, or the peer closes it, the user is notified by closed or error.", "quantifier": "every point of the life of a connection at which the link may fail", "why_tests_cant": "failure at every point", "anchors": ["common/ua/protocols/connection/*Connected.cpp", "common/ua/protocols/connection/ClientConnectionReceiveAck.cpp"]}
{"id": "C95", "title": "An active connection is not closed for inactivity", "statement": "The 10 s timeout of an established connection is an inactivity timeout: a connection over which data arrives stays open.", "quantifier": "every history of an established connection", "why_tests_cant": "unbounded histories and time", "anchors": ["common/ua/protocols/connection/ClientConnectionConnected.cpp", "common/ua/protocols/connection/ServerConnectionConnected.cpp"]}
{"id": "C96", "title": "Handshake of the connection library", "statement": "The client class sends a hello (the server class a reverse hello) when the link is up; connected is announced only after one complete acknowledge (hello) frame; the server class acknowledges before it announces.", "quantifier": "every octet stream, segmentation and history", "why_tests_cant": "all octet streams and segmentations", "anchors": ["common/ua/protocols/connection/ClientConnection.cpp", "common/ua/protocols/connection/ServerConnection.cpp"]}
{"id": "C97", "title": "Framing of the connection library", "statement": "Every data notification announces exactly one frame as sent by the peer, and every frame the peer sends on an established connection is announced, however it is segmented.", "quantifier": "every frame, segmentation and history", "why_tests_cant": "all segmentations", "anchors": ["common/ua/protocols/connection/OpcUaConnection.cpp"]}
{"id": "C98", "title": "The connection library has no undefined behaviour", "statement": "No call of the user in any state, from inside a notification or outside, and no input from the peer makes the connection library read or write outside its buffers or use a link or timer it does not hold.", "quantifier": "every history, call position and octet stream", "why_tests_cant": "all histories and inputs", "anchors": ["common/ua/protocols/connection/*.cpp"]}
{"id": "C99", "title": "A stop releases what the start has set up", "statement": "When the controller is stopped, the Modbus component and all three OPC UA layers are told to release, and the controller's timer is given back.", "quantifier": "every history of start, stop, responses, requests and timer expiries", "why_tests_cant": "the stage in which the stop arrives is a matter of timing", "anchors": ["controller/ControllerComponent.cpp: receive(MsgControllerStopReq)", "controller/modbus/ModbusTest{Init,Configure,Run,Setup}.cpp", "controller/ua/UaController.cpp"]}
{"id": "C100", "title": "Messages cannot make the controller leave its tables", "statement": "Whatever Modbus request or response arrives, the controller reads and writes only inside its sixteen test cases, their 2048 octets of registers and the messages.", "quantifier": "every history and every request and response (transaction, function, register, count, data)", "why_tests_cant": "the request fields come from the network", "anchors": ["controller/modbus/ModbusTestController.cpp: process(MsgModbusAduReq), process(MsgModbusClientAduRsp)"]}
{"id": "C101", "title": "Registers read back what was written", "statement": "A register read through the controller's Modbus server yields the octets written last.", "quantifier": "every history of requests", "why_tests_cant": "unbounded histories of reads and writes", "anchors": ["controller/modbus/ModbusTestController.cpp: process(MsgModbusAduReq)"]}
{"id": "C102", "title": "Every request to the controller is answered once", "statement": "Each Modbus request handed to a started controller is answered exactly once, to the server, session and transaction it came from.", "quantifier": "every history and request", "why_tests_cant": "the stage in which a request arrives is a matter of timing", "anchors": ["controller/modbus/ModbusTestController.cpp: process(MsgModbusAduReq)", "controller/modbus/ModbusTestRun.cpp", "controller/modbus/ModbusTestState.hpp"]}
{"id": "C103", "title": "A round of requests is judged by its responses", "statement": "A round goes on to the pause exactly when all sixteen requests have got a response as they call for; a response that differs ends the round with a release; order is irrelevant.", "quantifier": "every history, every response, every order", "why_tests_cant": "orders and contents of responses", "anchors": ["controller/modbus/ModbusTestController.cpp: process(MsgModbusClientAduRsp)", "controller/modbus/ModbusTestRun.cpp", "controller/modbus/ModbusTestSetup.cpp"]}
{"id": "C104", "title": "No client can crash the OPC UA server", "statement": "Whatever clients send, in whatever order and pieces, and whatever messages the server's queue loses, no handler of the server has undefined behaviour (no read or write outside its buffers, no abort).", "quantifier": "every history of connections, packets, deliveries and lost messages; every content of uninitialised buffers; every clock and random value", "why_tests_cant": "the malformed packet, the length at the limit and the session id outside the table are single points in an unbounded space of histories", "anchors": ["ua/transport/server/UaTcpConnection.cpp", "ua/securechannel/UaSecureChannel.cpp", "ua/service/UaService.cpp", "common/reactor/Reactor.cpp: onFdEvent"]}
{"id": "C105", "title": "Answers are the accepted requests in order, each at most once", "statement": "The service answers written to clients carry, in order, the connection, channel and request id of requests the server accepted, with some left out; no request is answered twice, none is invented, and the accepted requests are in turn, in order, packets the connections received.", "quantifier": "every history of the assembled server, including interleaved clients and lost messages", "why_tests_cant": "interleavings of many clients over three layers and a queue", "anchors": ["ua/transport/server/UaTcpConnection.cpp: receiveSecuredMessage, sendMessage", "ua/securechannel/UaSecureChannel.cpp", "ua/service/UaService.cpp", "common/reactor/Reactor.cpp: send"]}
{"id": "C106", "title": "Channels are not lost to clients that leave", "statement": "When no client is connected and nothing is in progress, a client that connects and asks for a secure channel with a well-formed request gets one.", "quantifier": "every history of the assembled server", "why_tests_cant": "depends on where between request and response each earlier client left", "anchors": ["ua/transport/server/UaTcpConnectionConnected.cpp", "ua/securechannel/channel/UaServerSecureChannel.cpp", "ua/transport/server/UaTcpServer.cpp"]}
{"id": "C107", "title": "Sessions are not lost to clients that leave", "statement": "When no client is connected and nothing is in progress, a client that connects can create a session; a session ends no earlier than a close request that names it is served.", "quantifier": "every history of the assembled server", "why_tests_cant": "sessions accumulate over unbounded histories", "anchors": ["ua/service/UaService.cpp", "ua/service/UaServiceComponent.cpp", "ua/securechannel/UaSecureChannel.cpp"]}
{"id": "C108", "title": "The server's queue empties when clients are silent", "statement": "From every state, if nothing more comes from outside, the messages between the layers run out after at most six deliveries for each message in the queue; the layers never keep each other busy.", "quantifier": "every reachable state, every result of the handlers' system calls", "why_tests_cant": "termination over all states of three layers and their queue", "anchors": ["common/reactor/Reactor.cpp: onFdEvent, send", "ua/transport/UaTransportComponent.cpp", "ua/securechannel/UaSecureChannelComponent.cpp", "ua/service/UaServiceComponent.cpp"]}
{"id": "C109", "title": "A client only gets answers to its own requests", "statement": "What the server writes to a client answers a request that this client sent over this connection, never one of an earlier client that had the same connection id.", "quantifier": "every history of the assembled server, including reuse of connection and channel ids", "why_tests_cant": "needs a client leaving and another arriving while messages of the first are in the queue", "anchors": ["ua/transport/server/UaTcpServer.cpp", "ua/transport/server/UaTcpConnectionConnected.cpp", "ua/securechannel/UaSecureChannel.cpp: onReceive(MsgUaEncodedMessageSendReq)"]}
{"id": "C110", "title": "Every request over an open channel is answered", "statement": "Assemble the server from transport, secure channel and services. A client has an open secure channel and the server has nothing else to do. When the client sends a well-formed endpoints, create-session, activate-session, close-session or read request of at most 4040 octets in one piece, with the channel's id and token, the next sequence number, any request id, and no session number outside the session table, and the socket takes what the server writes: the server handles it without undefined behaviour and becomes idle again; the outcome is the one the service rules prescribe for the history of sessions; the response (if the rules give one) is written completely, exactly once, to that client only, and carries the channel's id, its token, the next sequence number of the server and the request's id; nothing else is written to anybody; and the channel remains ready for the next request.", "quantifier": "every history of the server, every such client, request, request id, clock and random values, and any socket behaviour on reading", "why_tests_cant": "the claim is about the composition of three servers and their message queue after every possible history; tests drive one component with mocked neighbours", "anchors": ["ua/transport/server/UaTcpServer.cpp", "ua/transport/server/UaTcpConnectionConnected.cpp", "ua/securechannel/UaSecureChannel.cpp", "ua/service/UaService.cpp"]}
{"id": "C111", "title": "Newcomers get a connection and a channel", "statement": "When the assembled OPC UA server is idle and has a free connection slot and a free channel, a client that connects, sends a hello of at most 4096 octets and an open-secure-channel request with a packet of at most 4072 octets receives exactly the acknowledge and the open response - naming a channel nobody else has open, a fresh random token, the requested lifetime, and its request's handle and id - and afterwards its channel is ready for requests; sessions and other clients are not affected.", "quantifier": "every history that leaves the server idle with free slots, every well-formed hello and open request in the limits, and every clock and random value", "why_tests_cant": "whether a new client is served depends on everything earlier clients did, over three components; tests start from a fresh server", "anchors": ["ua/transport/server/UaTcpServer.cpp", "ua/transport/server/UaTcpConnectionConnected.cpp", "ua/securechannel/UaSecureChannel.cpp"]}
{"id": "C112", "title": "A session works from create to close", "statement": "Over an open channel of an otherwise idle OPC UA server: create-session with fewer than 32 sessions in existence yields a session that did not exist before, named in the response; activating an existing session attaches it to the channel; from then on every one of any number of reads is answered; closing the session is acknowledged and ends it, without affecting other sessions; after that, reads over the channel are not answered.", "quantifier": "every history that leads to such a state, every well-formed request in the size limit, and every number of reads", "why_tests_cant": "holds after any history and for any number of reads; a test fixes one short dialogue", "anchors": ["ua/service/UaService.cpp", "ua/securechannel/UaSecureChannel.cpp"]}
{"id": "C113", "title": "End to end, requests and answers keep step", "statement": "Over an established connection without failures, timeouts at either end or unsolicited answers, and with the last octets of an answer not torn apart: the connection stays up; the requests put on the wire are, in order, ones submitted to the client; the i-th is the i-th that the server hands to its application, with the same transaction, unit, function, address, count and data; and the i-th answer the server sends is exactly what the i-th requester is told (data or exception code). At most one exchange is open.", "quantifier": "every past of client and server, every interleaving of requests, send delays, arbitrarily cut deliveries, replies, and events of other connections", "why_tests_cant": "the interleavings, cuts and contents are unbounded", "anchors": ["modbus/client/ModbusClient.cpp", "modbus/server/ModbusServer.cpp", "modbus/server/session/ModbusSession.cpp", "modbus/server/session/ModbusSessionConnected.cpp"]}
{"id": "C114", "title": "Every dialogue is served end to end", "statement": "Whenever such a connection has come to rest, any list of requests the protocol can carry, with replies it can carry back, is served in turn without failure: the application gets each request unchanged, each requester is told the reply, and the connection is at rest again.", "quantifier": "every history that leads to rest and every list of requests and replies", "why_tests_cant": "holds after any history and for lists of any length", "anchors": ["modbus/client/ModbusClient.cpp", "modbus/server/session/ModbusSession.cpp"]}
{"id": "C115", "title": "A requester gets the answer to its own request", "statement": "If the application answers in the order in which it is asked, what a requester is told as a response from the server is the application's answer to that requester's request - also when timeouts occur.", "quantifier": "every history of a connected client and server", "why_tests_cant": "depends on late answers, timeouts and reused transaction ids", "anchors": ["modbus/client/ModbusClientReceive.cpp", "modbus/server/session/ModbusSessionWaitModbusAduRsp.cpp"]}
{"id": "C116", "title": "A port in use does not bring the process down", "statement": "After a server could not listen on its configured address, the Modbus component can be configured again, initialised again or released like any other time.", "quantifier": "every history of a Modbus component in which listening fails at some point", "why_tests_cant": "depends on a failed system call in the past and on what is destroyed later", "anchors": ["modbus/Modbus.cpp", "modbus/server/ModbusServer.cpp", "common/reactor/Acceptor.cpp"]}
{"id": "C117", "title": "A timer's handler is called once per start, and only then", "statement": "Whatever handlers do to each other's timers while a batch of events is being dispatched, a timer's handler is called only for an expiry of its current start - never after a stop, restart or release, never twice - and an expiry that still stands when the loop comes to it is delivered at once.", "quantifier": "every history of creations, starts, stops, releases and event batches, with arbitrary handlers", "why_tests_cant": "stale events of a batch depend on what earlier handlers did", "anchors": ["common/reactor/Timer.cpp", "common/reactor/Epoll.cpp", "common/reactor/Reactor.cpp"]}
{"id": "C118", "title": "A link event reaches the owner it was reported for", "statement": "A connection's event is delivered to the owner of that connection, about that connection, even if links are closed, released and created while the batch is being dispatched.", "quantifier": "every history of links and event batches, with arbitrary handlers", "why_tests_cant": "depends on object reuse inside a batch of events", "anchors": ["common/reactor/Link.cpp", "common/reactor/EntityPool.hpp", "common/reactor/Epoll.cpp"]}
{"id": "C119", "title": "Every reported event is handled", "statement": "If no handler throws, each event reported by the system is dispatched exactly once, in order.", "quantifier": "every history and every batch of events", "why_tests_cant": "events are edge-triggered, a dropped one does not come again; dropping depends on what handlers released", "anchors": ["common/reactor/Epoll.cpp", "common/reactor/Timer.cpp", "common/reactor/Reactor.cpp"]}
{"id": "C120", "title": "Links and acceptors can be created as long as fewer than 32 are in use", "statement": "Creating a link (an acceptor) fails exactly when 32 of them are in use, after any history of creations, failures and releases.", "quantifier": "every history", "why_tests_cant": "a leak shows only after long histories", "anchors": ["common/reactor/Reactor.cpp", "common/reactor/EntityPool.hpp"]}
{"id": "C121", "title": "Timers can be created as long as fewer than 32 are in use", "statement": "Creating a timer fails only when 32 of them are in use or the system refuses, after any history of creations, failures and releases.", "quantifier": "every history", "why_tests_cant": "a leak shows only after a history of failures", "anchors": ["common/reactor/Reactor.cpp", "common/reactor/Timer.cpp", "common/reactor/EntityPool.hpp"]}
{"id": "C122", "title": "The secure channel library hands a request to its user exactly when token and sequence number fit", "statement": "While a server channel of the library is open, a message that arrives is handed to the user if it carries the token of the latest open response and the successor of the latest number taken; otherwise the channel ends with one error notification and gives back link and timer. Nothing else is ever handed over as a request.", "quantifier": "every history of events of a server channel, every memory content, every message", "why_tests_cant": "a replay or a gap can come after any history", "anchors": ["common/ua/protocols/secure/OpcUaServerSecureChannel.cpp", "common/ua/protocols/secure/OpcUaServerSecureChannelEstablished.cpp"]}
{"id": "C123", "title": "A request handed over by the secure channel library consists of octets of one received packet", "statement": "A request the library hands to its user is a packet that arrived from the peer since the last one, and has at least the 24 octets of its headers; nothing of it comes from earlier packets.", "quantifier": "every history and segmentation of the stream, both roles", "why_tests_cant": "stale buffer contents depend on the history", "anchors": ["common/ua/protocols/secure/OpcUaServerSecureChannel.cpp", "common/ua/protocols/connection/ServerConnection.cpp"]}
{"id": "C124", "title": "Packets of a library channel are numbered consecutively", "statement": "The packets a server channel hands to its connections, over all the connections of its life, are open responses and messages with sequence numbers 1, 2, 3, ... modulo 2^32.", "quantifier": "every history, any number of packets and reconnections", "why_tests_cant": "numbers drift only after long histories or after a failed connection", "anchors": ["common/ua/protocols/secure/OpcUaServerSecureChannel.cpp"]}
{"id": "C125", "title": "Responses of a library channel carry the id of the request they answer", "statement": "What the user sends in response to a request goes out with the request id of that request and with channel id and token of the open response, also if other requests arrived in between.", "quantifier": "every history, any number of pending requests", "why_tests_cant": "depends on how requests and responses interleave", "anchors": ["common/ua/protocols/secure/OpcUaServerSecureChannel.cpp"]}
{"id": "C126", "title": "A library server channel that was opened ends with exactly one notification and can be opened again", "statement": "Every opened server channel has a timer of at most ten seconds running, ends with exactly one notification of closing or error, gives back link and timer in the same step, and can then be opened again.", "quantifier": "every history, any number of reopenings", "why_tests_cant": "a missing or doubled end shows only on rare paths", "anchors": ["common/ua/protocols/secure/OpcUaServerSecureChannel.cpp", "common/ua/protocols/secure/OpcUaServerSecureChannelInit.cpp", "common/ua/protocols/secure/OpcUaServerSecureChannelReceiveOpenReq.cpp"]}
{"id": "C127", "title": "send() on a library channel that is not open has no effect", "statement": "send() on a server channel that is not open is refused without effect; on an open one it hands exactly one packet to the connection.", "quantifier": "every history and every state", "why_tests_cant": "the state in which a user sends is arbitrary", "anchors": ["common/ua/protocols/secure/OpcUaServerSecureChannel.cpp"]}
{"id": "C128", "title": "A library client channel that ended can be opened again", "statement": "After a client channel has ended, by whatever failure at whatever moment, open() starts a new attempt.", "quantifier": "every history", "why_tests_cant": "the moment of the failure matters", "anchors": ["common/ua/protocols/secure/OpcUaClientSecureChannel.cpp", "common/ua/protocols/secure/OpcUaClientSecureChannelReceiveOpenRsp.cpp"]}
{"id": "C129", "title": "The user of a library client channel is told what happens on it", "statement": "The user of a client channel is notified when the channel is established and when a message arrives on it.", "quantifier": "every history", "why_tests_cant": "absence of a notification must be shown for all histories", "anchors": ["common/ua/protocols/secure/OpcUaClientSecureChannelEstablished.cpp", "common/ua/protocols/secure/OpcUaSecureChannel.cpp"]}
{"id": "C130", "title": "A library client channel gets established with every server that answers correctly", "statement": "A client channel of the library whose open request is answered by a valid open response becomes established; in particular a client and a server channel of the library establish a channel with each other.", "quantifier": "every valid response (channel id, token, times, lifetime), every memory content, every value of rand() and the clock", "why_tests_cant": "the misreading of the response depends on the granted lifetime", "anchors": ["common/ua/protocols/secure/OpcUaClientSecureChannel.cpp", "common/ua/protocols/secure/OpcUaServerSecureChannel.cpp", "common/ua/protocols/connection/ClientConnection.cpp"]}
{"id": "C131", "title": "A start brings the OPC UA server up and a stop takes it down, whatever the interleaving", "statement": "Given free queue entries, a free timer and acceptor and a free port: when everything sent because of start and stop requests has been handled, the OPC UA server listens on 127.0.0.1:4369 with its channel and service layers present if the last request was a start, and nothing of it exists if it was a stop; and provided every reactor keeps working, that moment comes and the state then lasts.", "quantifier": "every sequence of start and stop requests, every interleaving of the three reactors, all Modbus traffic in between, infinite executions", "why_tests_cant": "the interleavings of three reactors exchanging messages cannot be enumerated, and 'eventually' cannot be observed by a test", "anchors": ["Deployer.cpp", "controller/ControllerComponent.cpp", "controller/ua/UaController.cpp", "ua/transport/UaTransportComponent.cpp", "ua/transport/server/UaTcpServer.cpp", "common/reactor/ReactorManager.cpp"]}
{"id": "C132", "title": "Start-up and shut-down come to an end", "statement": "A start request causes at most 31 and a stop request at most 17 messages about start-up or shut-down to be handed over or handled, whatever fails on the way; as long as a message is in flight some reactor can go on; and provided every reactor keeps working, after the last request there is always a later moment at which nothing about start-up or shut-down is in flight.", "quantifier": "every sequence of requests, every interleaving, every failure of queues, pools and sockets", "why_tests_cant": "absence of endless message exchange and of deadlock concerns all executions", "anchors": ["Deployer.cpp", "controller/ControllerComponent.cpp", "controller/modbus/ModbusTestController.cpp", "modbus/ModbusComponent.cpp", "common/reactor/ReactorManager.cpp"]}
{"id": "C133", "title": "The application survives a port that cannot be opened", "statement": "If the OPC UA port cannot be opened at a start, the application keeps running, and a later stop and start work.", "quantifier": "every history, every failure of sockets and pools", "why_tests_cant": "the failing system call and the later request are far apart", "anchors": ["ua/transport/server/UaTcpServer.cpp", "common/reactor/Acceptor.cpp", "controller/ua/UaController.cpp"]}
{"id": "C134", "title": "A stop takes the Modbus client and server down", "statement": "When everything sent because of a stop request has been handled, the Modbus component holds no client and no server any more.", "quantifier": "every history in which queues, timers, acceptors and ports are available, every interleaving", "why_tests_cant": "depends on the moment at which the stop meets the start-up", "anchors": ["controller/ControllerComponent.cpp", "controller/modbus/ModbusTestConfigure.cpp", "controller/modbus/ModbusTestController.cpp", "modbus/ModbusComponent.cpp"]}
{"id": "C135", "title": "No handler runs on destroyed objects when the process ends", "statement": "After ReactorManager::stop() has returned and the manager is destroyed, no reactor thread executes a component's code or uses a timer, link or acceptor that is already destroyed.", "quantifier": "any number of reactors, every interleaving of the main thread with the reactors' threads, every event", "why_tests_cant": "a race between a 100 ms sleep, a one second timeout and network events", "anchors": ["main.cpp", "common/reactor/ReactorManager.cpp", "common/reactor/Reactor.cpp", "common/reactor/Reactor.hpp", "common/reactor/Epoll.cpp"]}
{"id": "C136", "title": "After stop() the process ends", "statement": "After ReactorManager::stop() every thread leaves its loop and main returns: the number of steps still to be made is bounded (33 for a waiting thread, plus the messages of the burst being handled), and until main has returned some thread can always make one.", "quantifier": "any number of reactors, every interleaving, every event", "why_tests_cant": "absence of deadlock and of endless work concerns all schedules", "anchors": ["main.cpp", "common/reactor/ReactorManager.cpp", "common/reactor/Reactor.cpp", "common/reactor/Thread.cpp"]}
{"id": "C137", "title": "A failure during start ends the process with an error message", "statement": "If a thread cannot be created or bound to its CPU, or a message cannot be sent by main, the process prints the reason and ends.", "quantifier": "any number of reactors, every failing step, every interleaving", "why_tests_cant": "needs a failing system call and the waiting of destructors for threads", "anchors": ["main.cpp", "common/reactor/ReactorManager.cpp", "common/reactor/Reactor.cpp", "common/reactor/Thread.cpp"]}
{"id": "C138", "title": "Everything a connected OPC UA client sends is read", "statement": "The octets the server reads of a connection are those its peer sent, from the start and in order, however they arrive between and during the rounds of the event loop; once the loop has nothing left to report about an open connection, all of them have been read.", "quantifier": "every history of arrivals, epoll_wait results and handlers; any octets", "why_tests_cant": "depends on the timing of arrivals relative to every read, with edge-triggered readiness", "anchors": ["common/reactor/Link.cpp", "common/reactor/Epoll.cpp", "ua/transport/server/UaTcpServer.cpp", "ua/transport/server/UaTcpConnection.cpp"]}
{"id": "C139", "title": "A served client is not disturbed by other clients", "statement": "What other clients do, including clients that cannot be served, does not keep the server from handling a message of a connected client.", "quantifier": "every history; every order of events in a batch", "why_tests_cant": "needs the table of links full and events of several connections in one batch", "anchors": ["common/reactor/Epoll.cpp", "common/reactor/Acceptor.cpp", "ua/transport/server/UaTcpServer.cpp", "ua/transport/server/UaTcpConnection.cpp"]}
{"id": "C140", "title": "Idle connections are reclaimed", "statement": "A connection whose peer stays silent is closed when its time is over, and its place is given to the next client.", "quantifier": "every history; every order of expiries and other events", "why_tests_cant": "needs expiries dropped with the rest of a batch, and then an unbounded wait", "anchors": ["common/reactor/Timer.cpp", "common/reactor/Epoll.cpp", "ua/transport/server/UaTcpServer.cpp", "ua/transport/server/UaTcpConnection.cpp"]}
{"id": "C141", "title": "A waiting client is accepted when a place is free", "statement": "A client waiting to be accepted is accepted as soon as fewer than 32 connections are in use, and while none is free the loop waits without using the processor.", "quantifier": "every history of connects, batches and handlers", "why_tests_cant": "needs the limit of connections and the level-triggered acceptor over any number of rounds", "anchors": ["common/reactor/Acceptor.cpp", "common/reactor/Epoll.cpp", "ua/transport/server/UaTcpServer.cpp", "ua/transport/server/UaTcpConnection.cpp"]}
{"id": "C142", "title": "A Modbus server that was full accepts clients again", "statement": "However long clients were waiting while no session could be created, a waiting client gets a session as soon as one has ended.", "quantifier": "every history of a started server, any number of refused rounds, any number of other users of the reactor", "why_tests_cant": "a session id is lost in every refused round: the question is what remains after any number of them", "anchors": ["modbus/server/ModbusServer.cpp", "common/reactor/Acceptor.cpp"]}
{"id": "C143", "title": "Log statements stay inside their buffer", "statement": "No log statement of the application writes outside the buffer it formats its message into or lacks an argument its format needs, whatever values it prints and whatever log levels are set.", "quantifier": "every log statement in the source, every level setting, all values of its arguments", "why_tests_cant": "statements switched off by default are never exercised; the bound depends on the largest frame that reaches them", "anchors": ["common/logger/Logger.hpp", "modbus/PduBuffer.hpp", "modbus/client/ModbusClient.cpp", "modbus/server/session/ModbusSession.cpp"]}
{"id": "C144", "title": "The log has one line for each statement", "statement": "Every log statement that is shown prints exactly one line, with its time, level, task, file, line number and message; no value printed can add or split lines, and lines are in the order in which the statements got hold of the log.", "quantifier": "every sequence of log statements, all argument values", "why_tests_cant": "quantifies over all values and over every statement in the source", "anchors": ["common/logger/Logger.cpp", "common/logger/Logger.hpp"]}
{"id": "C145", "title": "Log levels select statements by task", "statement": "Setting the level of a task decides which statements of that task are shown and of no other; as delivered, exactly the Modbus and controller parts are silent.", "quantifier": "every setting of levels, every log statement in the source", "why_tests_cant": "a statement about all log statements of the program", "anchors": ["common/logger/Logger.cpp", "common/logger/Logger.hpp"]}
{"id": "C146", "title": "The library's client and the deployed server agree", "statement": "A client of the secure channel library that connects to the deployed OPC UA server ends up established, whatever happened on the server before, provided the server is idle, has a connection and a channel to spare, and the packets are taken and delivered whole: each side reads exactly the packets the other wrote, and the server is then ready for requests on a channel nobody else has open.", "quantifier": "every reachable idle state of the server with room, all initial memory contents, random numbers and clock values on both sides", "why_tests_cant": "two independent implementations of the same protocol; agreement must hold for every history of the server and every value of uninitialised memory", "anchors": ["common/ua/protocols/secure/OpcUaClientSecureChannel.cpp", "ua/transport/server/UaTcpServer.cpp", "ua/securechannel/UaSecureChannel.cpp"]}
{"id": "C147", "title": "A client that leaves gives back what it used", "statement": "When a client with an open channel and no request in progress closes its socket, the server frees its connection and its channel, writes nothing to anybody and leaves the sessions alone; hence any number of clients that come and go one after the other are all served.", "quantifier": "every reachable state with a client ready, every finite sequence of visits by clients of the library", "why_tests_cant": "a leak of one connection or channel in a rare history shows only after 32 visits; the claim is about all histories and any number of visits", "anchors": ["ua/transport/server/UaTcpConnectionConnected.cpp", "ua/securechannel/channel/UaServerSecureChannelEstablished.cpp", "common/ua/protocols/connection/ClientConnectionConnected.cpp"]}
{"id": "C148", "title": "Reading and patching a packet header in place agrees with the codec", "statement": "Parts of the code read the size and the secure channel id of an OPC UA packet directly from its octets and overwrite the size after encoding. For every header the codec can write, at the start of an array of any content, the direct readers return the size and channel that were written; after the size was overwritten, the codec decodes the same header with the new size only, and no octet behind the header has changed. With fewer than 8 (size) or 12 (channel) octets the direct readers leave the array, and only then.", "quantifier": "every message header, every new size, every array content and length", "why_tests_cant": "2^32 sizes times 2^32 channel ids times arbitrary neighbouring octets; a unit test compares a few", "anchors": ["common/ua/common/types/MessageHeader.hpp", "common/ua/common/types/UaMessageHeader.hpp", "common/ua/common/OpcUaBinaryCodec.cpp"]}
{"id": "C149", "title": "The deployed application's Modbus self-test runs for ever when the environment is healthy", "statement": "The deployed application starts a Modbus client and a Modbus server configured with the same address and keeps running rounds of sixteen requests between them. Provided the first connection attempt is at most once refused and then stays up, pools, queues and sockets have room, reads do not end within the last six octets of a frame and the five-second response timeout passes only when nothing is in flight: (a) no schedule of the three reactors, no fragmentation of the octets and no timing makes the process end or reach undefined behaviour; (b) the controller never sees a response other than the expected one, i.e. never sends the request to release the Modbus component; (c) in every reachable state some event is possible; (d) every history of n events contains at least (n - 120) / 17011 rounds, so rounds follow one another without end.", "quantifier": "all octets rand() yields, all interleavings of the reactors' queues, all cuts of the TCP streams in both directions, all moments of timer expiry and connection set-up, histories of any length", "why_tests_cant": "One process combines three threads, two TCP streams and five timers; a test run sees one interleaving and a few rounds, and whether a round may get stuck or see a wrong response under another schedule, or after any number of rounds, needs an invariant over all of them.", "anchors": ["controller/modbus/ModbusTestController.cpp: process", "controller/modbus/ModbusTestRun.cpp: ModbusTestRun", "controller/modbus/ModbusTestSetup.cpp: ModbusTestSetup", "modbus/client/ModbusClient.cpp: ModbusClient", "modbus/server/session/ModbusSession.cpp: ModbusSession", "modbus/Modbus.cpp: Modbus", "common/reactor/Reactor.cpp: Reactor"]}
{"id": "C150", "title": "Each request of the self-test is answered once, in the same order, with the same result in every round", "statement": "While the environment is healthy, the responses the controller receives are, whatever the schedule, those of complete rounds one after the other followed by the first ones of the round under way. In each round every one of the sixteen requests is answered exactly once: the request to a client that does not exist first, the others in the order of the batch, each with the status and exception code of the controller's table and the octets of the registers read. No response of a round comes before its batch or after the next one.", "quantifier": "all octets rand() yields, all interleavings of the reactors' queues, all cuts of the TCP streams, all moments of timer expiry, histories of any length and any number of rounds", "why_tests_cant": "A lost, doubled or reordered response may depend on the interleaving of three threads and the cuts of two streams; a test sees a few of them.", "anchors": ["controller/modbus/ModbusTestController.cpp: process", "modbus/Modbus.cpp: Modbus", "modbus/client/ModbusClient.cpp: ModbusClient", "modbus/server/session/ModbusSession.cpp: ModbusSession"]}
{"id": "C151", "title": "Requests are told apart by their type id", "statement": "The services treat a message as a request only if its type id is that request's number in the standard namespace; any other type id is no request.", "quantifier": "every type id (namespace and number), every request body, every history", "why_tests_cant": "2^48 type ids; tests use the standard ones and a few unknown ones.", "anchors": ["ua/service/UaService.cpp: receive", "common/ua/common/types/DataType.hpp: DataTypeId", "ua/service/UaService.hpp: services"]}
{"id": "C152", "title": "Requests for unknown services leave no trace", "statement": "A request whose number belongs to no service changes nothing the services keep: later requests find the same services, and no memory is held on to.", "quantifier": "every sequence of request numbers", "why_tests_cant": "All sequences; tests send one unknown number and look at the reply only.", "anchors": ["ua/service/UaService.cpp: receive", "ua/service/UaService.cpp: subscribeService", "ua/service/UaService.hpp: services"]}
{"id": "C153", "title": "Comparing OPC UA values tells whether they are the same", "statement": "Comparing two strings, GUIDs, node ids, expanded node ids, qualified names, extension objects or diagnostic infos yields true exactly if they are the same value; two localized texts are equal exactly if locale and text read the same, a missing one counting as empty.", "quantifier": "all pairs of values of these types, diagnostic infos of any depth", "why_tests_cant": "pairs of values are unbounded, diagnostic infos nest without limit", "anchors": ["src/app/common/ua/common/types/NodeId.hpp:NodeId::operator==", "src/app/common/ua/common/types/DiagnosticInfo.hpp:DiagnosticInfo::operator==", "src/app/common/ua/common/types/StructType.hpp:compare"]}
{"id": "C154", "title": "Any two variants and data values can be compared", "statement": "Comparing two variants or two data values has a defined result, true exactly if they hold the same content.", "quantifier": "all pairs of variants and data values, decoded from any bytes or built by hand", "why_tests_cant": "the comparison reads optional parts that are almost never present; a test that happens to read zeroed memory passes", "anchors": ["src/app/common/ua/common/types/Variant.hpp:Variant::operator==", "src/app/common/ua/common/types/DataValue.hpp:DataValue::operator=="]}
{"id": "C155", "title": "A value sent and received compares equal to the original", "statement": "Whatever built-in value is encoded, the decoded value compares equal to it.", "quantifier": "all values of the built-in types, at any place of a packet", "why_tests_cant": "values are unbounded; forms that differ in memory but not on the wire are easily missed", "anchors": ["src/app/common/ua/common/OpcUaBinaryCodec.cpp:operator<<", "src/app/common/ua/common/OpcUaBinaryCodec.cpp:operator>>", "src/app/common/ua/common/types/ExtensionObject.hpp:ExtensionObject::operator=="]}
{"id": "C156", "title": "A state machine is in the state it entered last, and leaves every state it entered", "statement": "Whatever the owner and the entry actions of the states do, including further transitions and exceptions from inside them, the machine is in the state whose entry action was begun last, and entries and exits alternate: only the current state is left, once, before another is entered. A transition to the current state runs no action. (Exit actions themselves must not change the state or throw.)", "quantifier": "all sequences of calls, all entry actions with transitions nested to any depth, all exceptions outside exit actions", "why_tests_cant": "transitions nest inside entry actions without bound and depend on the whole history", "anchors": ["src/app/common/utils/FsmBase.hpp:FsmBase::transit", "src/app/common/utils/Singleton.hpp:getSingleton"]}
{"id": "C157", "title": "connect() and accept() of the connection library begin an attempt", "statement": "Once the user of the OPC UA connection library has been told that a connection is closed or has failed, a call to connect() (or accept()) begins a new attempt.", "quantifier": "every history of the library, every event, every call from inside or outside a notification", "why_tests_cant": "Whether the call works depends on where it is made: the same call behaves differently inside and after the notification; a test that reconnects from its main loop sees nothing of it.", "anchors": ["src/app/common/ua/protocols/connection/ClientConnectionConnected.cpp:ClientConnectionConnected::onTimer", "src/app/common/ua/protocols/connection/ClientConnectionInit.cpp:ClientConnectionInit::onConnect", "src/app/common/ua/protocols/connection/ClientConnectionState.hpp:ClientConnectionState::onConnect", "src/app/common/ua/protocols/connection/ServerConnectionInit.cpp:ServerConnectionInit::onAccept"]}
