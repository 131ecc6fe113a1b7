# Formal model of uscada in Rocq: design

Source under study: `/repo/src/app` (C++17).  Paths below are relative to that directory.

## 1. How the code is modelled

The model is a set of executable Gallina functions, one per C++ function, each with a comment that
cites the file and lines it models and says where it simplifies.  State is passed explicitly: a mutating method returns the new object
state.  Effects (messages to other components, octets written to a socket, timers, descriptors, notifications) are returned
as lists of output events.  Results of system calls, clock readings, random numbers and, where the code reads
them, indeterminate octets are inputs, so every theorem quantifies over them.

Undefined behaviour is a separate outcome, never a default value: accesses outside an object, null
dereference, a bare `throw;` (terminate) and reads beyond a buffer are `None` or have their own constructor in the
result type of the function concerned.  Wrap-around of the C++ integer types is explicit (`mod`), octets are `Z` with `is_byte`.

Each part has the same layout: `XModel.v` (definitions only, no proofs), `XSpec.v` (vocabulary of the properties: histories, what was
sent, who is alive, wire formats - written without the model's helpers), `XProofs.v`, `XFacts.v`, `XRuns.v` (invariants by induction over
histories, simulation, progress), `Props_X.v` (the property theorems `Cnn_...`, examples that meet their hypotheses, `Print Assumptions`).

| model | code | kind of model |
|---|---|---|
| `QueueModel` | `common/utils/Queue.hpp` | ring buffer with explicit indices; refinement to lists |
| `PoolModel` | `EntityPool.hpp`, `UaEntityPool.hpp`, `ModbusSessionPool` | free list over the ring buffer |
| `MsgStorageModel` | `common/reactor/MsgMemStorage` | flat octet memory and two rings of slot numbers |
| `ReactorModel` | `Reactor::send/onFdEvent/run`, `Event` | transition system over all interleavings of sender threads and the reactor thread |
| `EventLoopModel` | `Epoll::wait`, pools of timers, links and acceptors in `Reactor`, `onFileDescriptorEvent` of the objects | dispatch of event batches with arbitrary handlers, object reuse included |
| `OverloadModel` | the kernel's side of sockets, timers and the accept queue (epoll edge- and level-triggered), `Epoll::wait` batches, `Reactor`'s loop around the UA TCP transport; the Modbus server's accept queue | unread data, dropped events, the limits of 32 links and timers |
| `LoggerModel`, `LoggerSites` | the macro `LM`, `Logger`, `PduBuffer::toString`; the table of all log statements (transcribed by a script from the source) | formats, argument counts, sources of printed strings |
| `RoutingModel` | `ReactorManager`, `Deployer`, `MsgDefs`, destinations in `common/msg` | functions and tables |
| `TimeModel` | `Timer::start`, `TimeUtils.hpp`, `LinkAddr.hpp` | arithmetic in `Z` |
| `LinkModel` | `Link.cpp`, `Acceptor::accept` | descriptor traces, system-call results as inputs |
| `ModbusCodecModel` | `PduBuffer.hpp`, `ModbusCodec.cpp` | octet buffers with out-of-range outcome |
| `ModbusClientModel` | `modbus/client` | state machine over the storage operations; concrete storage refined to lists |
| `ModbusServerModel` | `modbus/server` | whole server: pool, 256 sessions, three session states |
| `ModbusNetModel` | a client and a server of `modbus` joined by a connection | the two models and two octet streams, delivered in arbitrary pieces |
| `ModbusCompModel` | `Modbus.cpp`, `ModbusComponent.cpp`, `MsgModbusClientAduReq.hpp` | component over clients and servers; octet layout of batches |
| `UaCodecModel` | `OpcUaSduBuffer`, `OpcUaBinaryCodec`, `common/ua/common/types`, `msg` | reader/writer with cursor and fill level |
| `UaTcpModel` | `ua/transport/server` | whole transport server: pool, 32 connections |
| `UaChanModel` | `ua/securechannel` | whole channel layer: pool, 32 channels |
| `UaServiceModel` | `ua/service` | sessions, endpoints, read, component life cycle |
| `UaTableModel` | `ua/service/UaService.*` | the table of services the requests are looked up in |
| `FsmModel` | `common/utils/FsmBase.hpp` and its copies in the Modbus and controller state machines | transitions with arbitrary entry and exit actions, nested transitions and exceptions; one object per state (`getSingleton` is a `static` template, so strictly there is one per translation unit: the test for a transition to the same state could then fail between files) |
| `UaEqModel` | `common/ua/common/types/*.hpp` | the comparisons (`operator==`) of OPC UA values; floating-point comparison is IEEE 754 on bit patterns |
| `UaSystemModel` | transport + channels + services on one reactor (`Deployer.cpp`) | the three models joined by the reactor's queue, which may lose messages |
| `ControllerModel` | `controller` | start/stop, layer initialisation, Modbus test machine |
| `AppModel` | `main.cpp`, `Deployer.cpp` joined with `ControllerModel`, `ModbusCompModel`, `RoutingModel` and the create/configure/release handlers of the three OPC UA layers | three reactors with their queues; handlers hand over what they send one message at a time; full queues, missing pool entries and failing listen() are choices of the environment |
| `SelfTestModel` | `AppModel` with the TCP connection between the application's own Modbus client and server (`ModbusTestController.cpp:177-407`) | the octets each side writes are kept and are what the other side reads; C149 and C150 are about a healthy environment, spelled out in `SelfTestSpec.v` (`fine`): at most one refused attempt before the connection is up, no full queue or pool, no read that ends within the last six octets of a frame (C22), response timeout only when nothing is in flight, the batch is handled only once the connection is up (the controller sleeps two seconds, `ModbusTestController.cpp:336-340`), session timers do not expire |
| `ShutdownModel` | `main.cpp`, `ReactorManager::start/stop`, destructors of `ReactorManager`, `Reactor`, `Thread`, against `Reactor::run`, `Epoll::wait`, `Reactor::onFdEvent` | any number of reactors with one thread each; time is not modelled, so the 100 ms may end at any moment; every step of a handler counts as a use of its component |
| `ProtoConnModel` | `common/ua/protocols/connection` | client and server class, one machine with a role; users' calls from inside notifications included |
| `SecLibModel` | `common/ua/protocols/secure` | client and server secure channel over `ProtoConnModel`, one machine with a role; indeterminate members, stale buffer octets and the user's sends from inside notifications included |

## 2. Properties

157 properties.  Status `proved`: the statement in `properties.jsonl` is proved of the model as it stands.
Status `partial`: it is not; nearly always because it is false of the code.  Then `..._refuted` theorems prove a
counterexample (a reachable state, a concrete input), and `..._partial` theorems (or ones without suffix, if they are exact) prove what is true instead,
where possible as an exact characterisation.

| id | property | status | theorems in | model, proof, what is missing |
|---|---|---|---|---|
| C01 | Fixed-capacity queue is a FIFO | proved | `Props_Queue.v` | Refinement of the ring buffer to a bounded FIFO for every call sequence and capacity. |
| C02 | Queue overflow keeps accepted values | partial | `Props_Queue.v` | False of the code: for every capacity a push on a full queue overwrites the oldest value without an error. C02_overflow_exact_partial says what every sequence of calls returns, pushes on a full queue included (QueueRing.ring_run); C02_kept_partial: a value is returned in its turn exactly if at most cap values, itself included, were pushed since. Without overflow: C01. |
| C03 | Resource pools never hand out an entity that is in use | proved | `Props_Pool.v` | Invariant over every history in which callers release only what they own; both id bases (0 and 1) covered. |
| C04 | A double release keeps pool exclusivity | partial | `Props_Pool.v` | False of the code: after a double release the same handle is handed out twice. C04_never_harmless: in every reachable state and for every handle in use, also when it is the only one. |
| C05 | Message storage delivers bytes intact, in order, exactly once | proved | `Props_MsgStorage.v` | Refinement of the byte-level storage (flat memory, two ring buffers of slot ids) to a bounded FIFO of byte strings, for every history of stores/takes with messages of at most chunk-8 bytes. |
| C06 | Message storage never writes outside its slot | partial | `Props_MsgStorage.v` | False for sizes chunk-7..chunk: the 8-byte header makes the copy spill into the next slot or past the storage. Proved: frame property for every size up to chunk-8; refuted with witnesses (spill, corrupted message, out of bounds). |
| C07 | Reactor delivers every accepted message exactly once, in order, with no lost wake-up | proved | `Props_Reactor.v` | Inductive invariant over all interleavings of any number of senders with the reactor thread; handlers that do not throw. |
| C08 | A throwing handler does not strand messages | partial | `Props_Reactor.v` | False of the code: an exception in a handler (or in the batch loop) leaves accepted messages stored with no pending signal. The exact number stranded is proved. |
| C09 | Overload only drops the refused message | proved | `Props_Reactor.v` | Over all interleavings; bound 64 and frame of the refused send. |
| C10 | Dispatch calls exactly the handler registered last for the message id | proved | `Props_Reactor.v` | Induction over registrations and over dispatch. |
| C11 | Routing reaches the reactor that hosts the destination component | proved | `Props_Routing.v` | Routing for every registration list, the shipped deployment (every message kind with a registered destination handler reaches the hosting reactor), and every placement of components on processors (C11_any_placement). |
| C12 | Lifecycle replies reach the controller | partial | `Props_Routing.v` | False of the code: some lifecycle replies are addressed to a component that is not the controller. The exact set that is delivered is proved. |
| C13 | Timer deadline equals now plus interval | proved | `Props_Time.v` | For every sampled time and interval within the 64-bit range of the C++ types. |
| C14 | UA timestamps are exact 100 ns ticks since 1601 and monotone | proved | `Props_Time.v` | Against an independent proleptic Gregorian calendar, all dates from 1970 representable in the result. |
| C15 | Configured link addresses decode to the configured IPv4 address and port | partial | `Props_Time.v` | False of the code (signed char shifts sign-extend). Exact iff characterisation of the inputs for which it holds, plus witnesses such as port 502 and 192.168.0.10. |
| C16 | Links never leak or reuse a closed descriptor | partial | `Props_Link.v` | Proved for every interleaving of calls/events on any number of links and all system-call results, except two accept paths that are refuted: epoll registration failing inside accept (double close) and accepting onto a link in use (leak). |
| C17 | Peer disconnect is reported as such | partial | `Props_Link.v` | False of the code: end of stream is reported as a successful read of 0 bytes on every connected link. Proved: error/hang-up events close the link and notify an error. |
| C18 | Modbus request encode/decode round-trips | proved | `Props_ModbusCodec.v` | Every encodable request with arbitrary trailing octets and arbitrary previous receiver record decodes to the same fields (transaction id modulo 65536, first numBytes octets of data). |
| C19 | Modbus response encode/decode round-trips | proved | `Props_ModbusCodec.v` | Same for responses including error responses. |
| C20 | Encoded Modbus frames are well formed and bounded | proved | `Props_ModbusCodec.v` | Every successfully encoded frame has exact length field, protocol id 0 and at most 259 octets; encoding never leaves the 512-octet buffer for payloads up to 260 octets. |
| C21 | Modbus decoding is memory safe on arbitrary input | partial | `Props_ModbusCodec.v` | No out-of-buffer access for any 512-octet content (requests and responses). 'Only received octets are read' is false: an 8-octet error frame is accepted with an error code taken from a stale octet (refuted, with exact consumption counts otherwise). |
| C22 | Modbus frames survive TCP segmentation | partial | `Props_ModbusCodec.v` | False of the code: any cut in the last six octets of a frame makes the receiver discard it. The exact set of harmless segmentations is proved (iff). |
| C23 | Maximum-size Modbus frames are accepted | proved | `Props_ModbusCodec.v` | Every frame the encoder produces (max 259 octets) passes the receiver's framing check, with any octets after it. |
| C24 | Coil and transaction fields follow the Modbus wire format | partial | `Props_ModbusCodec.v` | False of the code: force-coil ON (FF 00) is never produced and transaction ids are truncated to 16 bits. Ids below 65536 survive (partial). |
| C25 | The client keeps requests in submission order within a bound | proved | `Props_ModbusClient.v` | Proved for every history over the concrete storage: transmissions are wire forms of a subsequence of the submissions; at most 64 held; refusals answered once without effect. |
| C26 | Each client request gets exactly one response | partial | `Props_ModbusClient.v` | False in general (two refutations: bad length field loses the request; unsolicited frame answers it twice). Proved exactly-once and a 2n-expiry liveness bound for peers that speak only when asked with possible length fields. |
| C27 | The client never invents responses | partial | `Props_ModbusClient.v` | Id part proved for all histories; the backing of success responses proved under the peer condition and refuted without it (success before transmission). |
| C28 | At most one client request is outstanding on the wire | proved | `Props_ModbusClient.v` | Proved for all histories. |
| C29 | The client never gets stuck | partial | `Props_ModbusClient.v` | Progress proved whenever requests are pending or a connection is being set up; refuted for an idle connected client whose link reports an error (no reconnect until a request). |
| C30 | Connection loss flushes all pending requests | partial | `Props_ModbusClient.v` | Close always flushes in order and arms reconnect (all histories). That every failure closes the link is proved with the buffer at most 260 octets, and refuted otherwise: an oversized reply makes the client ignore its link. |
| C31 | A server session answers only the request it is waiting for | partial | `Props_ModbusServer.v` | Proved: a frame is sent only on a reply for a waiting session with the reply's transaction id, and answers the request forwarded by the data that made it wait. False in general: a malformed frame overwrites the remembered request, so a late reply goes out with another unit and function. |
| C32 | A server session always terminates without traffic | proved | `Props_ModbusServer.v` | Proved over all histories of the whole server: live iff a 30 s or 5 s timer is armed, what each expiry does, and release within two expiries. |
| C33 | Server sessions are exclusive and returned exactly once | partial | `Props_ModbusServer.v` | Exclusivity, single release and exact capacity proved over all histories on the concrete id pool; refuted: accepts that fail after the id was taken lose the id for good. |
| C34 | Replies cannot cross sessions | partial | `Props_ModbusServer.v` | Refuted by a full wrap of the 256-id pool: a reply for a finished connection is sent to the next client with that id and transaction id. Proved: dropped whenever the session is not waiting or waits for another transaction id. |
| C35 | OPC UA built-in types round-trip | partial | `Props_UaCodec.v` | C35_builtin_roundtrip_partial proves the round trip for every built-in type; missing: optional strings that are present but empty (localized text, extension object), which C35_empty_optional_refuted shows come back absent. |
| C36 | OPC UA service messages round-trip | proved | `Props_UaCodec.v` | All handshake, channel, discovery, session and read messages. Values are well-formed in the sense of UaCodecSpec (ranges of the C++ types, lengths below 2^31, optional strings absent or non-empty, recoverable variants). |
| C37 | Expanded node ids round-trip anywhere in a message | partial | `Props_UaCodec.v` | False of the code: C37_expanded_nodeid_refuted shows every id with URI or server index after other content is encoded wrongly. Proved part: decoding always, encoding without URI/index or at the read cursor. |
| C38 | Variants round-trip | partial | `Props_UaCodec.v` | Round trip for the recoverable variants; C38_variant_refuted characterises all others. |
| C39 | Decoding received OPC UA bytes stays inside the received bytes | partial | `Props_UaCodec.v` | False: C39_reads_received_octets_refuted. Proved part: when the cursor ends inside the received octets the result depends on these alone, for all messages. |
| C40 | Malformed OPC UA input cannot terminate the process | partial | `Props_UaCodec.v` | False: C40_nodeid_terminates_refuted characterises the terminating node ids, C40_oversized_length_refuted shows an out-of-array read. Proved part: handshake messages and headers never reach the bare throw. |
| C41 | Every OPC UA packet sent carries its exact length | partial | `Props_UaTcp.v` | Every packet handed to write(2) carries its exact length and is the acknowledge or the packet of the message sent. Refuted for what goes on the wire: a short write is treated as success, so a truncated packet is followed by further packets. |
| C42 | OPC UA framing is segmentation independent | proved | `Props_UaTcp.v` | Segments: same effects and state as one read, for any cut with at most 1024 octets before the last piece and messages up to 4096 octets. Backlog theorem: beyond 1024 pending octets the connection is closed. |
| C43 | No secured message is forwarded before the handshake or for a foreign channel | proved | `Props_UaTcp.v` | Forwarding needs a sent acknowledge; MSG/CLO need the associated channel. What counts as a hello is C71. |
| C44 | UA transport connections are reclaimed | partial | `Props_UaTcp.v` | Starts and releases alternate per connection, timer armed exactly while live, ends on timer, read error and release. Refuted: an accept that finds no timer loses its id for ever; link errors only take effect at the timeout. |
| C45 | Secure channels accept only in-sequence messages with the current token | partial | `Props_UaChan.v` | False of the model for messages shorter than 12 octets: the receive path completes them with indeterminate stack octets, so they can be taken without carrying token and number (C45_refuted). Proved for every reachable state: a message handed to the services comes on an open channel from its own connection and, if at least 12 octets long, carries the channel's token and the next number; anything else on an open channel closes it and asks for the connection's release; two messages taken in one opening have numbers differing by the count between, so no repeat within 2^32. |
| C46 | Server sequence numbers are consecutive and start the same on every channel | partial | `Props_UaChan.v` | Numbers are consecutive modulo 2^32 within an opening (proved). The second half is false: the first opening of an id starts at 1, a reused id at 0 (C46_refuted); C46_start_partial gives the exact start. |
| C47 | A connection's release only affects its own channel | partial | `Props_UaChan.v` | False: the release indication is not checked against the channel's connection (C47_refuted). Proved: it closes exactly the named channel if open and every other channel behaves as before. |
| C48 | Responses leave on the connection and channel of their request | proved | `Props_UaChan.v`, `Props_UaService.v` | C48_channel/C48_refused: the channel layer; C48_service: the service layer. Together they cover both halves of the statement. |
| C49 | Reads are served only on an activated session over its own channel | proved | `Props_UaChan.v`, `Props_UaService.v` | Guard and converse; C49_bound_means spells out what 'bound' means in terms of earlier messages. |
| C50 | Session ids are unique among live sessions | proved | `Props_UaService.v` | Create, account over the whole history, close. |
| C51 | Only the owner can activate or close a session | partial | `Props_UaService.v` | False: activation and closing do not look at the channel. Exact behaviour proved. |
| C52 | Out-of-range ids from the network are rejected | partial | `Props_UaService.v` | False for session tokens outside 1..32 (reads use the id supplied by the channel layer). Exact set of undefined requests proved. Channel ids are guarded by the transport's check (C43). |
| C53 | Modbus component lifecycle | partial | `Props_ModbusComp.v` | Lifecycle replies (as long as no server failed to listen, see C116), ignoring outside init..release, complete processing of every batch a sender can write (composed with the octet layout of C54), and the configuration reply when every connect/listen succeeds are proved. Refuted otherwise: when one connect or listen fails, the configuration is never answered and the remaining items are skipped (C53_config_lost_refuted). |
| C54 | Multi-item client requests are walked exactly | proved | `Props_ModbusComp.v` | For every buffer content, every number of items and every payload length that fits; includes reading from a copy of the reported size. |
| C55 | Protocol connection notifications are well ordered | partial | `Props_ProtoConn.v` | Full statement false (C55_refuted): a user who closes and then reconnects from inside the closed or error notification has the new attempt torn down without notification. C55_order_partial proves order, single closing notification and release for every history of a user who does not do that nor closes inside the connected notification (undefined behaviour unless they also start anew there, C98_close_refuted). |
| C56 | Controller start/stop handling | partial | `Props_Controller.v` | False as stated: a stop without controllers follows a null pointer (C56_stop_refuted, exactly characterised by C56_stop_undefined) and a second start initialises again without a release (C56_once_refuted). Proved: start sends the four initialisation requests, each init response is answered by the right configuration, the Modbus part steps init -> config -> round, rounds fit their message, progress counts, nothing happens without controllers. |
| C57 | A link that is readable and writable at once stays usable | partial | `Props_Link.v` | False of the code: events are compared for equality, so EPOLLIN/EPOLLOUT closes the link. Proved for single-bit reports. |
| C58 | A successful send transmitted the whole message | partial | `Props_Link.v` | False of the code: short writes are reported as success. Proved: failure is reported iff the link is closed or write failed. |
| C59 | Oversized application replies are refused safely | partial | `Props_ModbusCodec.v`, `Props_ModbusServer.v` | False of the code: a register reply with an even payload of 504 octets or more overruns the encode buffer before the size check; 252..503 octets are refused safely. At session level every reply above 260 octets overruns the payload array of the session first. |
| C60 | The client stays inside its receive buffer | partial | `Props_ModbusClient.v` | Refuted: an oversized reply, a 259-octet reply and one end-of-file with a queued request decode past the buffer. Proved for all histories without end-of-file. |
| C61 | Correct replies are delivered | partial | `Props_ModbusClient.v` | Proved for single-segment replies, 16-bit transaction ids, register and write functions; refuted for coils/discrete inputs and transaction ids >= 65536 (segmentation: C22). |
| C62 | Forwarded Modbus requests contain only what the client sent | partial | `Props_ModbusServer.v` | Proved when the arrival is not an end of file (fields; payload for functions that carry one). Refuted: read requests carry the payload of an earlier write, even another client's; an end of file forwards a phantom request from stale octets. |
| C63 | Replies naming an unknown or idle server session are ignored | partial | `Props_ModbusServer.v` | Ids below 256 that do not wait: no effect (proved). Ids of 256 and more: out-of-bounds access, always (refuted). |
| C64 | A Modbus server stays inside its buffers | partial | `Props_ModbusServer.v` | Proved for all histories and events except end-of-file, unknown ids and oversized replies; refuted for end-of-file after a spray of the buffer. |
| C65 | A segmented valid request is forwarded exactly once | proved | `Props_ModbusServer.v` | Proved for every valid request, every segmentation into non-empty pieces and every prior history. |
| C66 | A timely reply reaches the Modbus client | partial | `Props_ModbusServer.v` | Exact characterisation: sent iff the protocol can express it and the codec supports the function; refuted for reads of coils and discrete inputs, which are forwarded but never answered. |
| C67 | OPC UA octets are those of the standard | proved | `Props_UaCodec.v` | Octet specification s_* in UaCodecSpec is written from OPC UA Part 6; XML elements are empty on the wire (the code writes nothing). |
| C68 | A message larger than the packet buffer is refused | partial | `Props_UaCodec.v` | False: no bounds check. C68_encoder_bound_partial characterises exactly when an encoding stays inside the packet. |
| C69 | Decoding does not depend on the target's previous value | partial | `Props_UaCodec.v` | False: null strings and two-octet node ids keep parts of the old value. Byte strings are replaced. |
| C70 | Null arrays are accepted | partial | `Props_UaCodec.v` | False: C70_null_array_refuted shows every negative length raises an exception. C70_empty_array_partial: the empty array written with length 0 is accepted. |
| C71 | An acknowledge answers a hello | partial | `Props_UaTcp.v` | At most one acknowledge per client. Refuted: message type is not looked at. |
| C72 | Forwarded secured messages carry exactly the received payload | partial | `Props_UaTcp.v` | Payload starts with all received octets, right channel id. Refuted: 12 left-over octets are appended and counted; 8-octet messages are handed on with a left-over channel id. |
| C73 | Channel responses reach only the client that asked | partial | `Props_UaTcp.v` | MSG/CLO only on the associated connection. Refuted: a late open-channel response goes to the next client with the same connection id. |
| C74 | No received packet makes the transport leave its buffers | partial | `Props_UaTcp.v` | Defined up to 4072 octets (C74_bounded_partial). Refuted (C74_refuted) with the exact condition for every read past the handshake, however the octets are cut into segments: undefined iff at most 1024 octets were waiting, what has arrived is a packet of its announced size of 4073..4096 octets, and it is to be forwarded (C74_exact; C74_overflow is the one-segment case). |
| C75 | A connection has at most one secure channel | partial | `Props_UaChan.v` | False: every open request takes a fresh channel (C75_refuted). Proved: the channel taken was not open, gets the requesting connection, the token given out and the request's number, and no other channel changes. |
| C76 | A failed open gives its channel back | partial | `Props_UaChan.v` | False: 32 undecodable opens exhaust the pool with no channel open (C76_refuted). Proved: open channels plus channels lost to undecodable requests never exceed 32. |
| C77 | Every open request is answered or its connection dropped | partial | `Props_UaChan.v` | False (C77_refuted: an undecodable open gets neither response nor release). Proved: complete case analysis of the outcome by pool occupancy and decoder result. |
| C78 | Services receive exactly the message body | partial | `Props_UaChan.v` | False: the 12 header octets are skipped but the full length is copied (C78_refuted). Proved: the exact body followed by exactly 12 octets of the buffer behind the message. |
| C79 | No received message makes the channel layer leave its buffers | partial | `Props_UaChan.v` | False for open/close requests (C79_refuted: string longer than the buffer). Proved: exact condition under which each event is processed without leaving buffers or aborting. |
| C80 | A close request always closes its channel | partial | `Props_UaChan.v` | False for undecodable close requests (C80_refuted). Proved: decodable acceptable ones are answered once and close; unacceptable ones close without answer. |
| C81 | Endpoint discovery needs no session | proved | `Props_UaService.v` |  |
| C82 | Service component lifecycle | proved | `Props_UaService.v` |  |
| C83 | A request is served only with its session's authentication token | partial | `Props_UaService.v` | False for reads, which ignore the token; true for activate and close. |
| C84 | A read is answered with one result per node | partial | `Props_UaService.v` | False: results are never filled in; the exact response is proved. |
| C85 | Every service request gets exactly one response | partial | `Props_UaService.v` | False: no response for unknown services and when 32 sessions are live; exact condition proved. |
| C86 | A session ends when its timeout passes without activity | partial | `Props_UaService.v` | False: the timeout is echoed but never used; sessions stay live until closed. |
| C87 | Standard request encodings are recognised | proved | `Props_UaService.v` |  |
| C88 | A message that is not a valid request has no effect | partial | `Props_UaService.v` | False for octets on which the decoder aborts (e.g. node id form 6); otherwise proved. Which type ids count as served, with the cut to 16 bits, is C151. |
| C89 | Configuration replies are truthful | partial | `Props_ModbusComp.v` | Refuted: ids out of range are reported as success. Proved for places that exist. |
| C90 | Requests to the Modbus component are answered | partial | `Props_ModbusComp.v` | Refuted: a release or re-initialisation silently drops unanswered requests (no response afterwards in any continuation without new batches). Proved while the client is not replaced, under the peer condition of C26. |
| C91 | Modbus clients and servers are independent | proved | `Props_ModbusComp.v` | Every client's and server's part of a component history is a history of that object alone, so C25-C34 and C59-C66 carry over. |
| C92 | A built batch stays inside its message store | partial | `Props_ModbusComp.v` | Refuted by 128 items without data: written inside the 4096-octet store, reported size 4112. Proved when the rooms add up to at most 4080. |
| C93 | Connection attempts always end | partial | `Props_ProtoConn.v` | Full statement false (C93_refuted, C93_stuck): when Link::connect fails at once connect() throws, the object stays in its connecting state without a running timer and nothing ever changes. C93_ends_partial proves it for all other histories. |
| C94 | Link failures are reported by the connection library | partial | `Props_ProtoConn.v` | Full statement false (C94_refuted, C94_silent): once established, a link failure or end of stream is ignored until the 10 s timer. C94_reported_partial covers the time the kernel is connecting. |
| C95 | An active connection is not closed for inactivity | partial | `Props_ProtoConn.v` | False (C95_refuted): C95_lifetime proves that nothing ever restarts the timer of an established connection, so it lives ten seconds. |
| C96 | Handshake of the connection library | partial | `Props_ProtoConn.v` | C96_connected_partial excludes histories in which an exception was thrown before; C96_refuted shows that after a hello with a bad url length a frame with a wrong length is taken. C96_greeting proves the packets sent. |
| C97 | Framing of the connection library | partial | `Props_ProtoConn.v` | C97_data proves the first half for all histories. The second half is false (C97_refuted, C97_backlog: more than 1024 octets of an incomplete frame end the connection); C97_segments proves it for up to 1024 octets before the last segment and frames of up to 4096 octets. |
| C98 | The connection library has no undefined behaviour | partial | `Props_ProtoConn.v` | Full statement false (C98_close_refuted, C98_send_refuted, C98_hello_refuted). C98_defined_partial proves it for the client class and, except for octets that arrive during its handshake, for the server class, for users who do not close inside a notification and send only between connect and the closing notification. C98_hello gives the three outcomes of octets during the server class's handshake exactly: only a whole hello can go wrong, and one of 32 octets or more leaves the buffer iff it announces a url of more than 4064 octets and throws iff it announces a length below -1. Missing: hellos shorter than 32 octets, whose url length is what the buffer held before; histories after such an exception; closes inside a notification. |
| C99 | A stop releases what the start has set up | partial | `Props_Controller.v` | False while the configuration response is awaited: no release goes to the Modbus component (C99_refuted, for every continuation without a start). C99_stop_partial characterises exactly when it is released. |
| C100 | Messages cannot make the controller leave its tables | partial | `Props_Controller.v` | False: transaction numbers of 16 and more and registers beyond 1023 leave the tables (C100_refuted). C100_inside_partial is the exact condition; C100_own: the round's own requests are always inside. |
| C101 | Registers read back what was written | partial | `Props_Controller.v` | False across transaction numbers, every transaction has its own registers (C101_refuted). Proved per transaction number against a last-write specification. |
| C102 | Every request to the controller is answered once | partial | `Props_Controller.v` | False outside a round: requests are dropped silently (C102_refuted). Proved inside a round. |
| C103 | A round of requests is judged by its responses | partial | `Props_Controller.v` | False in one respect: responses are counted, not matched to requests (C103_distinct_refuted). Proved: the verdict on every response, completion by sixteen good responses in any order, and that what the controller serves for its own requests is judged good. |
| C104 | No client can crash the OPC UA server | partial | `Props_UaSystem.v` | False (C104_refuted: one client asking to activate session 0). Proved: exactly which deliveries have undefined behaviour (C104_deliver, both directions); for socket data a necessary condition over all histories (C104_net_partial) and the exact conditions in any number of pieces, past the handshake (C104_data) and before it, also after any number of exceptions (C104_handshake; C104_hello is the one-piece case), as long as the fields looked at are octets of the client. Otherwise what the memory held before decides (C104_short). |
| C105 | Answers are the accepted requests in order, each at most once | proved | `Props_UaSystem.v` | Proved for all histories, with any messages lost. |
| C106 | Channels are not lost to clients that leave | partial | `Props_UaSystem.v` | False (C106_refuted: 32 clients that leave between request and answer). Proved: lost channels stay lost, with all lost nobody gets one, and an exact list of steps that lose one: without such steps every open channel belongs to a connection or is being announced to one. |
| C107 | Sessions are not lost to clients that leave | partial | `Props_UaSystem.v` | False (C107_refuted: sessions outlive their clients). Proved: a session ends only by a served close request that names it. |
| C108 | The server's queue empties when clients are silent | proved | `Props_UaSystem.v` | Proved: at most six deliveries per message, or a message whose handling is undefined (C104). |
| C109 | A client only gets answers to its own requests | partial | `Props_UaSystem.v` | False (C109_open_refuted, C109_answer_refuted: reused connection id while messages of the client before are queued). Proved from any moment on at which nothing of the connection is in the queue (C109_partial). |
| C110 | Every request over an open channel is answered | proved | `Props_UaDialogue.v` | Assembled model of UaSystemModel.v. "Idle": the queue is empty. "Ready" is the record yready. Messages that no loss oracle drops (the queue is empty, so the ring cannot be full: at most one message is in it at a time). |
| C111 | Newcomers get a connection and a channel | proved | `Props_UaDialogue.v` | Free slots are counted over the history: connections started and not freed plus connection ids lost to accepts without timer < 32 (C44_bounds), channels opened and not closed plus channels lost < 32 (C76_account_partial). |
| C112 | A session works from create to close | proved | `Props_UaDialogue.v` | C112_create, C112_activate, C112_reads (induction over the list of reads), C112_close, C112_after_close. |
| C113 | End to end, requests and answers keep step | proved | `Props_ModbusNet.v` | ModbusNetModel (client and server models joined by two octet streams cut arbitrarily); invariant over every calm history, five phases of an exchange. |
| C114 | Every dialogue is served end to end | proved | `Props_ModbusNet.v` | From every calm history at rest, by induction over the list of exchanges; each exchange is exhibited event by event. |
| C115 | A requester gets the answer to its own request | partial | `Props_ModbusNet.v` | False: after both ends have given up waiting, the late answer to the abandoned request is delivered for a later request with the same transaction id (C115_refuted). Holds along calm histories (C115_own_answer_partial). |
| C116 | A port in use does not bring the process down | partial | `Props_EventLoop.v`, `Props_ModbusComp.v` | False of the code: destroying a server whose acceptor never listened closes descriptor -1, the exception leaves a destructor and the process terminates (C116_terminates_refuted, from every such state). C116_only_then_partial: in no other case does the component terminate. |
| C117 | A timer's handler is called once per start, and only then | proved | `Props_EventLoop.v` | EventLoopModel: timers follow their owners' view in every life, with arbitrary handlers and batches. Both directions: no undue call, every standing expiry delivered when the loop comes to it (that the loop comes to it is C119). |
| C118 | A link event reaches the owner it was reported for | partial | `Props_EventLoop.v` | C118_owner_partial characterises every call of a link's handler. False in two ways: after the pool's free ids are used up within one batch another owner gets the event (C118_other_owner_refuted), and an owner may be told of data on a link it closed earlier in the batch (C118_closed_refuted). |
| C119 | Every reported event is handled | partial | `Props_EventLoop.v` | False: a reported timer that a handler of the same batch released makes the loop throw and drop the rest, including the one announcing messages (C119_dropped_refuted). C119_all_partial: nothing is dropped if no handler throws and no timer is released in the batch; C119_causes_partial: these are the only causes; C119_accounted_partial: dropped and handled events are the reported ones, in order. |
| C120 | Links and acceptors can be created as long as fewer than 32 are in use | proved | `Props_EventLoop.v` | Counting invariant over every life (EventLoopModel). |
| C121 | Timers can be created as long as fewer than 32 are in use | partial | `Props_EventLoop.v` | False: an id taken for a timer the system refused is never given back; after 32 refusals no timer can ever be created (C121_leak_refuted). C121_exact_partial gives the exact condition. |
| C122 | The secure channel library hands a request to its user exactly when token and sequence number fit | proved | `Props_SecLib.v` | Admission is characterised by what was sent and received (view of the history), for all histories; if the latest open request could not be decoded completely the expected number is unknown to the specification, which the statement says. |
| C123 | A request handed over by the secure channel library consists of octets of one received packet | partial | `Props_SecLib.v` | False: a 20-octet packet is delivered, its request id taken from an earlier packet left in the buffer (_refuted). Proved for both roles: what is heard starts with exactly the packet received from the wire and the rest is the old buffer; histories without an exception thrown into the event loop. |
| C124 | Packets of a library channel are numbered consecutively | proved | `Props_SecLib.v` | Proved over all connections of the channel's life. |
| C125 | Responses of a library channel carry the id of the request they answer | partial | `Props_SecLib.v` | False when two requests are pending: the first can no longer be answered (_refuted). Proved: answers sent from inside the notification carry that request's id; outside, the id of the latest request. |
| C126 | A library server channel that was opened ends with exactly one notification and can be opened again | proved | `Props_SecLib.v` | Proved: life cycle as an automaton over the notifications and resources, reopening, and the running timer. |
| C127 | send() on a library channel that is not open has no effect | partial | `Props_SecLib.v` | False: before the first open() the link does not exist (undefined); during the handshake a message with indeterminate token and request id goes out (_refuted). Proved while the channel is open. |
| C128 | A library client channel that ended can be opened again | partial | `Props_SecLib.v` | False: if the connection ends while the open response is awaited the object stays in that state for ever (_stuck, _refuted). |
| C129 | The user of a library client channel is told what happens on it | partial | `Props_SecLib.v` | False: a client channel reports nothing but closing and error (_silent, _refuted). |
| C130 | A library client channel gets established with every server that answers correctly | partial | `Props_SecPair.v` | False: the client skips the type id of the response, takes the lifetime for the length of the nonce, and reads outside its buffer for every lifetime between 4097 and 2^31-1 ms (_undefined, _refuted). Proved: with the library's own server, which grants lifetime 0, both sides get established, for all memories, rand() and clocks, packets delivered whole. |
| C131 | A start brings the OPC UA server up and a stop takes it down, whatever the interleaving | proved | `Props_App.v` | Both the safety half (`C131_settled`: any finite history) and the liveness half (`C131_eventually`: any infinite fair execution, by a decreasing measure on messages in flight) are proved. The environment assumption is the one in the statement. |
| C132 | Start-up and shut-down come to an end | proved | `Props_App.v` | `C132_bound` holds in any environment (potential argument over messages in flight and the state of the Modbus self-test); `C132_progress`: no deadlock; `C132_settles`: infinite fair executions in any environment. |
| C133 | The application survives a port that cannot be opened | partial | `Props_App.v` | False: `C133_refuted` runs a start whose listen() fails and the stop after it, which ends the process. `C133_lost`, `C133_ends`: in general the port is never opened again, and the first release, initialisation or configuration of the transport ends the process. `C133_partial`: as long as no listen() fails, whatever else does, the OPC UA reactor carries out every request. |
| C134 | A stop takes the Modbus client and server down | partial | `Props_App.v` | False: `C134_refuted` stops the application while the controller waits for the Modbus configuration; client and listening server remain until the next command. `C134_partial`: in every history without such a stop they are gone. `C134_exact_partial`, `C134_stop_partial`: the exact condition (if and only if) over all histories. |
| C135 | No handler runs on destroyed objects when the process ends | partial | `Props_Shutdown.v` | False: in `C135_refuted` a connection becomes readable after the components were destroyed and before the waiting thread's timeout. `C135_partial`: it holds if the main thread sleeps until all threads have left their loops, whatever happens; `C135_messages`: messages are no problem beyond the burst being handled. |
| C136 | After stop() the process ends | proved | `Props_Shutdown.v` | `C136_bound` and `C136_progress`: every history after stop() is finite with an explicit bound and stops only when main has returned (or in the failure of C135). |
| C137 | A failure during start ends the process with an error message | partial | `Props_Shutdown.v` | False: `C137_refuted` (a CPU that does not exist): main waits for ever. `C137_never`: with any failure in any history the handler that prints the message is not reached; `C137_stuck`: the main thread blocks at the first reactor, or joins a thread that was never created. |
| C138 | Everything a connected OPC UA client sends is read | partial | `Props_Overload.v` | `C138_prefix`: what is read is a prefix of what was sent. `C138_all_partial`: at rest all of it has been read, unless a read filled the buffer or an event was dropped. Without these two exceptions it is false: `C138_refuted` (octets behind a hello of exactly 4096 octets stay unread, in every continuation without a new event from the peer); for dropped events see C139. |
| C139 | A served client is not disturbed by other clients | partial | `Props_Overload.v` | False: `C139_refuted` (32 connections and one more client: a hello is lost and stays unanswered). `C139_stuck`: after a dropped event a connection is not served before its peer sends again. `C139_causes_partial`: the only causes of dropped events. |
| C140 | Idle connections are reclaimed | partial | `Props_Overload.v` | False: `C140_refuted`: 32 idle connections, one waiting client, all expiries dropped: no continuation without new octets from a served peer reclaims or accepts anything. `C140_reported_partial`: an expired timer is being dealt with unless its event was dropped; `C140_reclaimed`: dealing with it ends the connection. |
| C141 | A waiting client is accepted when a place is free | partial | `Props_Overload.v` | `C141_reported`: every round reports the waiting client or ten other events; `C141_accepted_partial`: its event accepts it if a link is free and no timer was lost. The second part is false: `C141_refuted`, `C141_spins` (while no link is free no round is empty, and every round throws and changes nothing). |
| C142 | A Modbus server that was full accepts clients again | partial | `Props_Overload.v` | False if accept(2) fails often enough: `C142_refuted` (256 failures: nobody is served any more, in any continuation, although everything is free). `C142_recovers_partial`: true as long as accept(2) itself has not failed, after any number of refused rounds; `C142_costs`: each refused round takes an id until none is left. |
| C143 | Log statements stay inside their buffer | proved | `Props_Logger.v` | `C143_fits`, over a table of all 372 log statements of the source. `C143_dumps`: a dumped buffer has at most 260 octets; `C143_room`: from 342 on the statement would overrun its buffer. |
| C144 | The log has one line for each statement | proved | `Props_Logger.v` | `C144_lines`; `C144_numbers` and `C144_file` say what numbers and file names look like. |
| C145 | Log levels select statements by task | proved | `Props_Logger.v` | Stated for what the log macro does with every statement of the table and its arguments. |
| C146 | The library's client and the deployed server agree | proved | `Props_LibApp.v` | The client is the library model (SecLibModel), the server the assembled server (UaSystemModel); connection and packets of the two are linked by equality of what is written and read. Whole packets only. |
| C147 | A client that leaves gives back what it used | proved | `Props_LibApp.v` | C147_forever: induction over any list of clients of the library, each with its own memory, randomness and clocks. C147_leaves holds for any client that is ready. A session the client created is not closed (see the session claims). |
| C148 | Reading and patching a packet header in place agrees with the codec | proved | `Props_UaHeader.v` | C148_in_place for every header and array; C148_short gives the exact lengths for which the direct readers are defined. getSecureChannelIdFromHdr is not called by the application. |
| C149 | The deployed application's Modbus self-test runs for ever when the environment is healthy | proved | `Props_SelfTest.v` | proved for all schedules, cuts of the streams, timer moments and octets of rand() of the healthy environment defined in SelfTestSpec.v (fine); a round counts from the batch of requests the controller sends. No claim for environments that are not healthy: after a failed round the application releases the Modbus component (C131) and does not restart it. |
| C150 | Each request of the self-test is answered once, in the same order, with the same result in every round | proved | `Props_SelfTest.v` | Healthy environment as in C149 (SelfTestSpec.fine). The sixteen responses are written out in SelfTestSpec.round_of. Consequence: 16 responses for each batch. |
| C151 | Requests are told apart by their type id | partial | `Props_UaTypeId.v` | False: the number is cut to 16 bits and the namespace is not looked at, so a message numbered 65997, or 461 in namespace 3, creates a session (C151_refuted). Exactly: the number modulo 65536 in any namespace decides; with a request's number so reduced the message is that request and is served as it (C151_alias_partial, C151_served_partial), with any other nothing happens (C151_unknown_partial), and whatever is answered started with such a number (C151_only_partial). |
| C152 | Requests for unknown services leave no trace | partial | `Props_UaTypeId.v` | False: every number of no service, modulo 65536, leaves one entry in the service table for good (C152_refuted; exact count C152_grows_partial), never more than 65536 in all (C152_bounded_partial). The other half holds: whatever came before, each look-up finds the service its number stands for or none (C152_lookup), so the request handling of the model without the table is the one with it (C152_dispatch). |
| C153 | Comparing OPC UA values tells whether they are the same | proved | `Props_UaEq.v` | Proved for all built-in structures except variants and data values, which are C154. |
| C154 | Any two variants and data values can be compared | partial | `Props_UaEq.v` | False as stated: the comparison dereferences the array dimensions of both variants without checking (Variant.hpp 95), and neither the decoder nor any other code sets them, so comparing any decoded variant or data value is undefined behaviour (C154_refuted). Proved: the exact condition for a defined result, what it then means, and that it is an equivalence on contents without NaN. |
| C155 | A value sent and received compares equal to the original | partial | `Props_UaEq.v` | False for extension objects with an empty body, which come back without a body and compare unequal (C155_refuted), and for variants (C154). Proved for localized texts in every form, GUIDs, node ids, qualified names, diagnostic infos and other extension objects. Expanded node ids with a namespace URI or server index: see C37. |
| C156 | A state machine is in the state it entered last, and leaves every state it entered | proved | `Props_Fsm.v` | Induction on the nesting depth of an interpreter for arbitrary actions. C156_conditions_needed shows what goes wrong when an exit action throws or changes the state (in the latter case the machine recurses without end); no exit action in the code base changes the state, and they throw only if the system refuses to stop a timer. |
| C157 | connect() and accept() of the connection library begin an attempt | partial | `Props_Redial.v` | False: from inside the closed or error notification the call is ignored without a word, the connection is not idle yet (C157_refuted). Exactly: from inside any notification connect() and accept() change nothing (C157_inside_partial, every state); from outside connect() begins an attempt if and only if none is under way (C157_outside_partial), and so does accept() of the server class; the client class ignores it (C157_accept_partial). |

## 3. Not modelled, and simplifications

* The kernel: sockets, epoll, timerfd and eventfd appear only through the results they return, which are arbitrary inputs.  The reactor model
  assumes what eventfd guarantees (a write makes the descriptor readable until it is read).  In the server models data
  events come one at a time and each is followed by one read, as the code does; `OverloadModel` puts the UA transport on top of kernel sockets with edge-triggered
  reports, batches and dropped events, and its histories are histories of the server model, so the theorems about the latter hold of it.
* SIGPIPE: a write to a closed socket is an error result, as with the signal ignored.
* Threads are modelled where they share data (`ReactorModel`: senders and reactor).  Everything else runs on its reactor's thread, handlers are atomic.
  `Thread.cpp` (affinity, priorities) only as success or failure.  Log statements have no effect in the models of the code that contains them; what they print is modelled separately (`LoggerModel`),
  with the C library's sprintf restricted to the conversions used, and without the types of integer arguments.
* Real time: timers are armed and may expire at any later moment; only `Timer::start` and `TimeUtils.hpp` compute with time.
  The two second sleep of the controller is not modelled.
* Allocation never fails (including `maxNumServers` in `ModbusComponent` and the vectors the OPC UA decoder sizes from received lengths).
* `Queue` reserves its vector and writes elements with `operator[]` beyond the vector's size (undefined in the strict sense of the standard);
  modelled as the array access every implementation performs.
* Floats and doubles are bit patterns: the code copies them, and compares them only in `operator==` of variants (`UaEqModel`: IEEE 754 comparison written out on the patterns).
* The null entries that look-ups of unknown numbers add to `UaService`'s table are in `UaTableModel` (C152) and left out of `UaServiceModel`, where they make no difference.
* Reads of indeterminate stack octets (channel layer) are modelled as arbitrary octets.
* `UaSystemModel`: the queue between the layers may lose any message (a full ring refuses), as an oracle; C110-C112 use the queue while it cannot be full.
* Not modelled at all: unused headers (`NodeClass*`, `Attribute.hpp`), `Detector`, `ConnectorSimple` (empty handlers), unit tests and mocks.

## 4. Trusted base

* The Coq 8.16.1 kernel, including `vm_compute` (used for witnesses, finite sweeps and examples).
* `Print Assumptions` at the end of each `Props_*.v` prints `Closed under the global context` for every property theorem: no axioms, neither our own nor the library's.
* Only Coq's standard library is imported (lists, `Z`, `lia`).
* No `Admitted`, no functors or module types, no plugins, no kernel switches.
* The reading of the C++ code recorded in the citations (file and lines) next to each definition.

## 5. Testing the theorems

`seeded/LOG.jsonl` lists faults put into copies of the model, one line per fault: what was edited, the claim it breaks, the theorems that no longer
check, and theorems that were tightened because they still did.

What the log shows and what it does not:

* `theorems_failed` are theorems whose own proof, or a lemma they use, no longer checks after the edit.  That is weaker than the statement having
  become false: a proof can also break on a harmless edit.  R4_023 and R8_014 were such cases and are marked
  `equivalent edit`.  In R5_015 to R5_026 the round-trip theorems are listed although they stay true; the notes there say so.  Others may remain
  unnoticed, so the number of `detected` entries is an upper bound.
* Each detected fault was checked for a necessary condition: the statement of some failing theorem of the property reaches the edited definition
  through definitions alone.  (Computed from the resolved references in Coq's glob files.)
* `AUTO_nnn` are edits generated by a script, without a claim named beforehand.  Their build stops at the first failing lemma, so they name no
  theorems; for them it was only checked that some property theorem's statement reaches the edited definition.
* `theorems_failed_after` is the result of running the fault again after tightening.
