{
 "claims": [
  {
   "property": "C01",
   "status": "proved",
   "theorems": [
    "C01_queue_is_fifo"
   ],
   "note": "Refinement of the ring buffer to a bounded FIFO for every call sequence and capacity."
  },
  {
   "property": "C02",
   "status": "partial",
   "theorems": [
    "C02_overflow_keeps_values_refuted",
    "C02_overflow_exact_partial",
    "C02_kept_partial"
   ],
   "note": "False of the code: for every capacity a push on a full queue overwrites the oldest value without an error. C02_overflow_exact_partial says what every sequence of calls returns, pushes on a full queue included (QueueRing.ring_run); C02_kept_partial: a value is returned in its turn exactly if at most cap values, itself included, were pushed since. Without overflow: C01."
  },
  {
   "property": "C03",
   "status": "proved",
   "theorems": [
    "C03_pool_alloc_exclusive",
    "C03_pool_release_defined",
    "C03_pool_get_distinct",
    "C03_pool_new_defined"
   ],
   "note": "Invariant over every history in which callers release only what they own; both id bases (0 and 1) covered."
  },
  {
   "property": "C04",
   "status": "partial",
   "theorems": [
    "C04_double_release_harmless_refuted",
    "C04_never_harmless"
   ],
   "note": "False of the code: after a double release the same handle is handed out twice. C04_never_harmless: in every reachable state and for every handle in use, also when it is the only one."
  },
  {
   "property": "C05",
   "status": "proved",
   "theorems": [
    "C05_storage_is_byte_fifo"
   ],
   "note": "Refinement of the byte-level storage (flat memory, two ring buffers of slot ids) to a bounded FIFO of byte strings, for every history of stores/takes with messages of at most chunk-8 bytes."
  },
  {
   "property": "C06",
   "status": "partial",
   "theorems": [
    "C06_store_stays_in_slot_partial",
    "C06_store_spills_refuted",
    "C06_corrupted_message_refuted",
    "C06_out_of_bounds_refuted"
   ],
   "note": "False for sizes chunk-7..chunk: the 8-byte header makes the copy spill into the next slot or past the storage. Proved: frame property for every size up to chunk-8; refuted with witnesses (spill, corrupted message, out of bounds)."
  },
  {
   "property": "C07",
   "status": "proved",
   "theorems": [
    "C07_in_order_at_most_once",
    "C07_no_lost_wakeup",
    "C07_everything_delivered"
   ],
   "note": "Inductive invariant over all interleavings of any number of senders with the reactor thread; handlers that do not throw."
  },
  {
   "property": "C08",
   "status": "partial",
   "theorems": [
    "C08_throwing_handler_strands_refuted",
    "C08_batch_exception_strands_refuted",
    "C08_stranded_count_partial"
   ],
   "note": "False of the code: an exception in a handler (or in the batch loop) leaves accepted messages stored with no pending signal. The exact number stranded is proved."
  },
  {
   "property": "C09",
   "status": "proved",
   "theorems": [
    "C09_overload_drops_only_refused"
   ],
   "note": "Over all interleavings; bound 64 and frame of the refused send."
  },
  {
   "property": "C10",
   "status": "proved",
   "theorems": [
    "C10_dispatch_runs_last_registered"
   ],
   "note": "Induction over registrations and over dispatch."
  },
  {
   "property": "C11",
   "status": "proved",
   "theorems": [
    "C11_routed_to_first_registered",
    "C11_deployed_messages_handled",
    "C11_every_message",
    "C11_any_placement"
   ],
   "note": "Routing for every registration list, the shipped deployment (every message kind with a registered destination handler reaches the hosting reactor), and every placement of components on processors (C11_any_placement)."
  },
  {
   "property": "C12",
   "status": "partial",
   "theorems": [
    "C12_lifecycle_replies_refuted",
    "C12_lifecycle_replies_partial",
    "C12_any_placement_partial"
   ],
   "note": "False of the code: some lifecycle replies are addressed to a component that is not the controller. The exact set that is delivered is proved."
  },
  {
   "property": "C13",
   "status": "proved",
   "theorems": [
    "C13_timer_deadline"
   ],
   "note": "For every sampled time and interval within the 64-bit range of the C++ types."
  },
  {
   "property": "C14",
   "status": "proved",
   "theorems": [
    "C14_timestamp_exact",
    "C14_timestamp_monotone"
   ],
   "note": "Against an independent proleptic Gregorian calendar, all dates from 1970 representable in the result."
  },
  {
   "property": "C15",
   "status": "partial",
   "theorems": [
    "C15_port_partial",
    "C15_addr_partial",
    "C15_addresses_refuted"
   ],
   "note": "False of the code (signed char shifts sign-extend). Exact iff characterisation of the inputs for which it holds, plus witnesses such as port 502 and 192.168.0.10."
  },
  {
   "property": "C16",
   "status": "partial",
   "theorems": [
    "C16_descriptor_discipline_partial",
    "C16_no_leak_partial",
    "C16_release_closes",
    "C16_accept_failure_refuted",
    "C16_accept_in_use_leaks_refuted"
   ],
   "note": "Proved for every interleaving of calls/events on any number of links and all system-call results, except two accept paths that are refuted: epoll registration failing inside accept (double close) and accepting onto a link in use (leak)."
  },
  {
   "property": "C17",
   "status": "partial",
   "theorems": [
    "C17_peer_disconnect_refuted",
    "C17_never_reports_closed_refuted",
    "C17_error_event_partial"
   ],
   "note": "False of the code: end of stream is reported as a successful read of 0 bytes on every connected link. Proved: error/hang-up events close the link and notify an error."
  },
  {
   "property": "C18",
   "status": "proved",
   "theorems": [
    "C18_request_roundtrip"
   ],
   "note": "Every encodable request with arbitrary trailing octets and arbitrary previous receiver record decodes to the same fields (transaction id modulo 65536, first numBytes octets of data)."
  },
  {
   "property": "C19",
   "status": "proved",
   "theorems": [
    "C19_response_roundtrip"
   ],
   "note": "Same for responses including error responses."
  },
  {
   "property": "C20",
   "status": "proved",
   "theorems": [
    "C20_request_frames_wf",
    "C20_response_frames_wf",
    "C20_request_encoding_in_bounds",
    "C20_response_encoding_in_bounds"
   ],
   "note": "Every successfully encoded frame has exact length field, protocol id 0 and at most 259 octets; encoding never leaves the 512-octet buffer for payloads up to 260 octets."
  },
  {
   "property": "C21",
   "status": "partial",
   "theorems": [
    "C21_decode_request_in_bounds",
    "C21_decode_response_in_bounds",
    "C21_accepted_request_reads_frame",
    "C21_accepted_response_reads_partial",
    "C21_reads_stale_octets_refuted"
   ],
   "note": "No out-of-buffer access for any 512-octet content (requests and responses). 'Only received octets are read' is false: an 8-octet error frame is accepted with an error code taken from a stale octet (refuted, with exact consumption counts otherwise)."
  },
  {
   "property": "C22",
   "status": "partial",
   "theorems": [
    "C22_segmentation_partial",
    "C22_segmentation_refuted"
   ],
   "note": "False of the code: any cut in the last six octets of a frame makes the receiver discard it. The exact set of harmless segmentations is proved (iff)."
  },
  {
   "property": "C23",
   "status": "proved",
   "theorems": [
    "C23_encoded_frames_accepted"
   ],
   "note": "Every frame the encoder produces (max 259 octets) passes the receiver's framing check, with any octets after it."
  },
  {
   "property": "C24",
   "status": "partial",
   "theorems": [
    "C24_coil_on_refuted",
    "C24_transaction_id_refuted",
    "C24_transaction_id_partial"
   ],
   "note": "False of the code: force-coil ON (FF 00) is never produced and transaction ids are truncated to 16 bits. Ids below 65536 survive (partial)."
  },
  {
   "property": "C25",
   "status": "proved",
   "theorems": [
    "C25_submission_order",
    "C25_bound_and_refusal"
   ],
   "note": "Proved for every history over the concrete storage: transmissions are wire forms of a subsequence of the submissions; at most 64 held; refusals answered once without effect."
  },
  {
   "property": "C26",
   "status": "partial",
   "theorems": [
    "C26_exactly_once_partial",
    "C26_eventually_partial",
    "C26_lost_request_refuted",
    "C26_answered_twice_refuted"
   ],
   "note": "False in general (two refutations: bad length field loses the request; unsolicited frame answers it twice). Proved exactly-once and a 2n-expiry liveness bound for peers that speak only when asked with possible length fields."
  },
  {
   "property": "C27",
   "status": "partial",
   "theorems": [
    "C27_names_a_request",
    "C27_success_is_backed_partial",
    "C27_success_before_transmission_refuted"
   ],
   "note": "Id part proved for all histories; the backing of success responses proved under the peer condition and refuted without it (success before transmission)."
  },
  {
   "property": "C28",
   "status": "proved",
   "theorems": [
    "C28_one_outstanding"
   ],
   "note": "Proved for all histories."
  },
  {
   "property": "C29",
   "status": "partial",
   "theorems": [
    "C29_progress_partial",
    "C29_idle_disconnect_refuted"
   ],
   "note": "Progress proved whenever requests are pending or a connection is being set up; refuted for an idle connected client whose link reports an error (no reconnect until a request)."
  },
  {
   "property": "C30",
   "status": "partial",
   "theorems": [
    "C30_close_flushes",
    "C30_failure_closes_partial",
    "C30_deaf_client_refuted"
   ],
   "note": "Close always flushes in order and arms reconnect (all histories). That every failure closes the link is proved with the buffer at most 260 octets, and refuted otherwise: an oversized reply makes the client ignore its link."
  },
  {
   "property": "C31",
   "status": "partial",
   "theorems": [
    "C31_answers_partial",
    "C31_refuted"
   ],
   "note": "Proved: a frame is sent only on a reply for a waiting session with the reply's transaction id, and answers the request forwarded by the data that made it wait. False in general: a malformed frame overwrites the remembered request, so a late reply goes out with another unit and function."
  },
  {
   "property": "C32",
   "status": "proved",
   "theorems": [
    "C32_timer_armed",
    "C32_expiry",
    "C32_terminates"
   ],
   "note": "Proved over all histories of the whole server: live iff a 30 s or 5 s timer is armed, what each expiry does, and release within two expiries."
  },
  {
   "property": "C33",
   "status": "partial",
   "theorems": [
    "C33_exclusive",
    "C33_idle_clean",
    "C33_capacity",
    "C33_leak_refuted"
   ],
   "note": "Exclusivity, single release and exact capacity proved over all histories on the concrete id pool; refuted: accepts that fail after the id was taken lose the id for good."
  },
  {
   "property": "C34",
   "status": "partial",
   "theorems": [
    "C34_refuted",
    "C34_late_reply_partial"
   ],
   "note": "Refuted by a full wrap of the 256-id pool: a reply for a finished connection is sent to the next client with that id and transaction id. Proved: dropped whenever the session is not waiting or waits for another transaction id."
  },
  {
   "property": "C35",
   "status": "partial",
   "theorems": [
    "C35_builtin_roundtrip_partial",
    "C35_empty_optional_refuted"
   ],
   "note": "C35_builtin_roundtrip_partial proves the round trip for every built-in type; missing: optional strings that are present but empty (localized text, extension object), which C35_empty_optional_refuted shows come back absent."
  },
  {
   "property": "C36",
   "status": "proved",
   "theorems": [
    "C36_message_roundtrip"
   ],
   "note": "All handshake, channel, discovery, session and read messages. Values are well-formed in the sense of UaCodecSpec (ranges of the C++ types, lengths below 2^31, optional strings absent or non-empty, recoverable variants)."
  },
  {
   "property": "C37",
   "status": "partial",
   "theorems": [
    "C37_expanded_nodeid_partial",
    "C37_expanded_nodeid_refuted"
   ],
   "note": "False of the code: C37_expanded_nodeid_refuted shows every id with URI or server index after other content is encoded wrongly. Proved part: decoding always, encoding without URI/index or at the read cursor."
  },
  {
   "property": "C38",
   "status": "partial",
   "theorems": [
    "C38_variant_roundtrip_partial",
    "C38_variant_refuted"
   ],
   "note": "Round trip for the recoverable variants; C38_variant_refuted characterises all others."
  },
  {
   "property": "C39",
   "status": "partial",
   "theorems": [
    "C39_reads_received_octets_partial",
    "C39_reads_received_octets_refuted"
   ],
   "note": "False: C39_reads_received_octets_refuted. Proved part: when the cursor ends inside the received octets the result depends on these alone, for all messages."
  },
  {
   "property": "C40",
   "status": "partial",
   "theorems": [
    "C40_handshake_cannot_terminate_partial",
    "C40_nodeid_terminates_refuted",
    "C40_oversized_length_refuted"
   ],
   "note": "False: C40_nodeid_terminates_refuted characterises the terminating node ids, C40_oversized_length_refuted shows an out-of-array read. Proved part: handshake messages and headers never reach the bare throw."
  },
  {
   "property": "C41",
   "status": "partial",
   "theorems": [
    "C41_sizes_partial",
    "C41_refuted"
   ],
   "note": "Every packet handed to write(2) carries its exact length and is the acknowledge or the packet of the message sent. Refuted for what goes on the wire: a short write is treated as success, so a truncated packet is followed by further packets."
  },
  {
   "property": "C42",
   "status": "proved",
   "theorems": [
    "C42_segments",
    "C42_delivered",
    "C42_trailing",
    "C42_backlog"
   ],
   "note": "Segments: same effects and state as one read, for any cut with at most 1024 octets before the last piece and messages up to 4096 octets. Backlog theorem: beyond 1024 pending octets the connection is closed."
  },
  {
   "property": "C43",
   "status": "proved",
   "theorems": [
    "C43_forward"
   ],
   "note": "Forwarding needs a sent acknowledge; MSG/CLO need the associated channel. What counts as a hello is C71."
  },
  {
   "property": "C44",
   "status": "partial",
   "theorems": [
    "C44_lifecycle_partial",
    "C44_ends",
    "C44_accept_partial",
    "C44_bounds",
    "C44_refuted"
   ],
   "note": "Starts and releases alternate per connection, timer armed exactly while live, ends on timer, read error and release. Refuted: an accept that finds no timer loses its id for ever; link errors only take effect at the timeout."
  },
  {
   "property": "C45",
   "status": "partial",
   "theorems": [
    "C45_accepted_partial",
    "C45_closes",
    "C45_once_partial",
    "C45_refuted"
   ],
   "note": "False of the model for messages shorter than 12 octets: the receive path completes them with indeterminate stack octets, so they can be taken without carrying token and number (C45_refuted). Proved for every reachable state: a message handed to the services comes on an open channel from its own connection and, if at least 12 octets long, carries the channel's token and the next number; anything else on an open channel closes it and asks for the connection's release; two messages taken in one opening have numbers differing by the count between, so no repeat within 2^32."
  },
  {
   "property": "C46",
   "status": "partial",
   "theorems": [
    "C46_numbers_partial",
    "C46_start_partial",
    "C46_refuted"
   ],
   "note": "Numbers are consecutive modulo 2^32 within an opening (proved). The second half is false: the first opening of an id starts at 1, a reused id at 0 (C46_refuted); C46_start_partial gives the exact start."
  },
  {
   "property": "C47",
   "status": "partial",
   "theorems": [
    "C47_named_partial",
    "C47_refuted"
   ],
   "note": "False: the release indication is not checked against the channel's connection (C47_refuted). Proved: it closes exactly the named channel if open and every other channel behaves as before."
  },
  {
   "property": "C48",
   "status": "proved",
   "theorems": [
    "C48_channel",
    "C48_refused",
    "C48_service"
   ],
   "note": "C48_channel/C48_refused: the channel layer; C48_service: the service layer. Together they cover both halves of the statement."
  },
  {
   "property": "C49",
   "status": "proved",
   "theorems": [
    "C49_attached",
    "C49_read_guarded",
    "C49_read_answered",
    "C49_bound_means"
   ],
   "note": "Guard and converse; C49_bound_means spells out what 'bound' means in terms of earlier messages."
  },
  {
   "property": "C50",
   "status": "proved",
   "theorems": [
    "C50_create",
    "C50_account",
    "C50_close"
   ],
   "note": "Create, account over the whole history, close."
  },
  {
   "property": "C51",
   "status": "partial",
   "theorems": [
    "C51_refuted",
    "C51_activate_partial",
    "C51_close_partial"
   ],
   "note": "False: activation and closing do not look at the channel. Exact behaviour proved."
  },
  {
   "property": "C52",
   "status": "partial",
   "theorems": [
    "C52_refuted",
    "C52_in_range_partial"
   ],
   "note": "False for session tokens outside 1..32 (reads use the id supplied by the channel layer). Exact set of undefined requests proved. Channel ids are guarded by the transport's check (C43)."
  },
  {
   "property": "C53",
   "status": "partial",
   "theorems": [
    "C53_ignored",
    "C53_lifecycle_partial",
    "C53_batch",
    "C53_config_partial",
    "C53_config_lost_refuted"
   ],
   "note": "Lifecycle replies (as long as no server failed to listen, see C116), ignoring outside init..release, complete processing of every batch a sender can write (composed with the octet layout of C54), and the configuration reply when every connect/listen succeeds are proved. Refuted otherwise: when one connect or listen fails, the configuration is never answered and the remaining items are skipped (C53_config_lost_refuted)."
  },
  {
   "property": "C54",
   "status": "proved",
   "theorems": [
    "C54_walk"
   ],
   "note": "For every buffer content, every number of items and every payload length that fits; includes reading from a copy of the reported size."
  },
  {
   "property": "C55",
   "status": "partial",
   "theorems": [
    "C55_order_partial",
    "C55_close",
    "C55_refuted"
   ],
   "note": "Full statement false (C55_refuted): a user who closes and then reconnects from inside the closed or error notification has the new attempt torn down without notification. C55_order_partial proves order, single closing notification and release for every history of a user who does not do that nor closes inside the connected notification (undefined behaviour unless they also start anew there, C98_close_refuted)."
  },
  {
   "property": "C56",
   "status": "partial",
   "theorems": [
    "C56_start",
    "C56_layers",
    "C56_modbus",
    "C56_round_fits",
    "C56_progress",
    "C56_ignored",
    "C56_stop_undefined",
    "C56_stop_refuted",
    "C56_once_refuted"
   ],
   "note": "False as stated: a stop without controllers follows a null pointer (C56_stop_refuted, exactly characterised by C56_stop_undefined) and a second start initialises again without a release (C56_once_refuted). Proved: start sends the four initialisation requests, each init response is answered by the right configuration, the Modbus part steps init -> config -> round, rounds fit their message, progress counts, nothing happens without controllers."
  },
  {
   "property": "C57",
   "status": "partial",
   "theorems": [
    "C57_readable_and_writable_refuted",
    "C57_single_event_partial"
   ],
   "note": "False of the code: events are compared for equality, so EPOLLIN|EPOLLOUT closes the link. Proved for single-bit reports."
  },
  {
   "property": "C58",
   "status": "partial",
   "theorems": [
    "C58_short_write_refuted",
    "C58_send_failure_partial"
   ],
   "note": "False of the code: short writes are reported as success. Proved: failure is reported iff the link is closed or write failed."
  },
  {
   "property": "C59",
   "status": "partial",
   "theorems": [
    "C59_oversized_reply_refuted",
    "C59_oversized_reply_partial",
    "C59_session_refuted"
   ],
   "note": "False of the code: a register reply with an even payload of 504 octets or more overruns the encode buffer before the size check; 252..503 octets are refused safely. At session level every reply above 260 octets overruns the payload array of the session first."
  },
  {
   "property": "C60",
   "status": "partial",
   "theorems": [
    "C60_in_bounds_partial",
    "C60_end_of_file_refuted"
   ],
   "note": "Refuted: an oversized reply, a 259-octet reply and one end-of-file with a queued request decode past the buffer. Proved for all histories without end-of-file."
  },
  {
   "property": "C61",
   "status": "partial",
   "theorems": [
    "C61_reply_delivered_partial",
    "C61_large_transaction_id_refuted",
    "C61_read_bits_refuted"
   ],
   "note": "Proved for single-segment replies, 16-bit transaction ids, register and write functions; refuted for coils/discrete inputs and transaction ids >= 65536 (segmentation: C22)."
  },
  {
   "property": "C62",
   "status": "partial",
   "theorems": [
    "C62_forwards_sent_partial",
    "C62_payload_refuted",
    "C62_phantom_refuted"
   ],
   "note": "Proved when the arrival is not an end of file (fields; payload for functions that carry one). Refuted: read requests carry the payload of an earlier write, even another client's; an end of file forwards a phantom request from stale octets."
  },
  {
   "property": "C63",
   "status": "partial",
   "theorems": [
    "C63_unknown_session_refuted",
    "C63_idle_session_partial"
   ],
   "note": "Ids below 256 that do not wait: no effect (proved). Ids of 256 and more: out-of-bounds access, always (refuted)."
  },
  {
   "property": "C64",
   "status": "partial",
   "theorems": [
    "C64_stays_inside_partial",
    "C64_eof_overrun_refuted"
   ],
   "note": "Proved for all histories and events except end-of-file, unknown ids and oversized replies; refuted for end-of-file after a spray of the buffer."
  },
  {
   "property": "C65",
   "status": "proved",
   "theorems": [
    "C65_segmented_request"
   ],
   "note": "Proved for every valid request, every segmentation into non-empty pieces and every prior history."
  },
  {
   "property": "C66",
   "status": "partial",
   "theorems": [
    "C66_reply_sent_partial",
    "C66_bits_refuted"
   ],
   "note": "Exact characterisation: sent iff the protocol can express it and the codec supports the function; refuted for reads of coils and discrete inputs, which are forwarded but never answered."
  },
  {
   "property": "C67",
   "status": "proved",
   "theorems": [
    "C67_wire_format"
   ],
   "note": "Octet specification s_* in UaCodecSpec is written from OPC UA Part 6; XML elements are empty on the wire (the code writes nothing)."
  },
  {
   "property": "C68",
   "status": "partial",
   "theorems": [
    "C68_encoder_bound_partial",
    "C68_encoder_bound_refuted"
   ],
   "note": "False: no bounds check. C68_encoder_bound_partial characterises exactly when an encoding stays inside the packet."
  },
  {
   "property": "C69",
   "status": "partial",
   "theorems": [
    "C69_decode_into_used_partial",
    "C69_decode_into_used_refuted"
   ],
   "note": "False: null strings and two-octet node ids keep parts of the old value. Byte strings are replaced."
  },
  {
   "property": "C70",
   "status": "partial",
   "theorems": [
    "C70_null_array_refuted",
    "C70_empty_array_partial"
   ],
   "note": "False: C70_null_array_refuted shows every negative length raises an exception. C70_empty_array_partial: the empty array written with length 0 is accepted."
  },
  {
   "property": "C71",
   "status": "partial",
   "theorems": [
    "C71_once_partial",
    "C71_refuted"
   ],
   "note": "At most one acknowledge per client. Refuted: message type is not looked at."
  },
  {
   "property": "C72",
   "status": "partial",
   "theorems": [
    "C72_payload_partial",
    "C72_refuted",
    "C72_short_refuted"
   ],
   "note": "Payload starts with all received octets, right channel id. Refuted: 12 left-over octets are appended and counted; 8-octet messages are handed on with a left-over channel id."
  },
  {
   "property": "C73",
   "status": "partial",
   "theorems": [
    "C73_sent_partial",
    "C73_refuted"
   ],
   "note": "MSG/CLO only on the associated connection. Refuted: a late open-channel response goes to the next client with the same connection id."
  },
  {
   "property": "C74",
   "status": "partial",
   "theorems": [
    "C74_bounded_partial",
    "C74_overflow",
    "C74_refuted",
    "C74_exact"
   ],
   "note": "Defined up to 4072 octets (C74_bounded_partial). Refuted (C74_refuted) with the exact condition for every read past the handshake, however the octets are cut into segments: undefined iff at most 1024 octets were waiting, what has arrived is a packet of its announced size of 4073..4096 octets, and it is to be forwarded (C74_exact; C74_overflow is the one-segment case)."
  },
  {
   "property": "C75",
   "status": "partial",
   "theorems": [
    "C75_fresh_partial",
    "C75_refuted"
   ],
   "note": "False: every open request takes a fresh channel (C75_refuted). Proved: the channel taken was not open, gets the requesting connection, the token given out and the request's number, and no other channel changes."
  },
  {
   "property": "C76",
   "status": "partial",
   "theorems": [
    "C76_account_partial",
    "C76_refuted"
   ],
   "note": "False: 32 undecodable opens exhaust the pool with no channel open (C76_refuted). Proved: open channels plus channels lost to undecodable requests never exceed 32."
  },
  {
   "property": "C77",
   "status": "partial",
   "theorems": [
    "C77_outcome_partial",
    "C77_refuted"
   ],
   "note": "False (C77_refuted: an undecodable open gets neither response nor release). Proved: complete case analysis of the outcome by pool occupancy and decoder result."
  },
  {
   "property": "C78",
   "status": "partial",
   "theorems": [
    "C78_body_partial",
    "C78_refuted"
   ],
   "note": "False: the 12 header octets are skipped but the full length is copied (C78_refuted). Proved: the exact body followed by exactly 12 octets of the buffer behind the message."
  },
  {
   "property": "C79",
   "status": "partial",
   "theorems": [
    "C79_defined_partial",
    "C79_refuted"
   ],
   "note": "False for open/close requests (C79_refuted: string longer than the buffer). Proved: exact condition under which each event is processed without leaving buffers or aborting."
  },
  {
   "property": "C80",
   "status": "partial",
   "theorems": [
    "C80_close_partial",
    "C80_reject",
    "C80_refuted"
   ],
   "note": "False for undecodable close requests (C80_refuted). Proved: decodable acceptable ones are answered once and close; unacceptable ones close without answer."
  },
  {
   "property": "C81",
   "status": "proved",
   "theorems": [
    "C81_endpoints"
   ],
   "note": ""
  },
  {
   "property": "C82",
   "status": "proved",
   "theorems": [
    "C82_lifecycle",
    "C82_always"
   ],
   "note": ""
  },
  {
   "property": "C83",
   "status": "partial",
   "theorems": [
    "C83_refuted",
    "C83_token_partial"
   ],
   "note": "False for reads, which ignore the token; true for activate and close."
  },
  {
   "property": "C84",
   "status": "partial",
   "theorems": [
    "C84_refuted",
    "C84_empty_partial"
   ],
   "note": "False: results are never filled in; the exact response is proved."
  },
  {
   "property": "C85",
   "status": "partial",
   "theorems": [
    "C85_refuted",
    "C85_unknown_refuted",
    "C85_answered_partial"
   ],
   "note": "False: no response for unknown services and when 32 sessions are live; exact condition proved."
  },
  {
   "property": "C86",
   "status": "partial",
   "theorems": [
    "C86_stays_partial",
    "C86_refuted"
   ],
   "note": "False: the timeout is echoed but never used; sessions stay live until closed."
  },
  {
   "property": "C87",
   "status": "proved",
   "theorems": [
    "C87_recognised",
    "C87_prefix",
    "C87_served"
   ],
   "note": ""
  },
  {
   "property": "C88",
   "status": "partial",
   "theorems": [
    "C88_other_partial",
    "C88_refuted"
   ],
   "note": "False for octets on which the decoder aborts (e.g. node id form 6); otherwise proved. Which type ids count as served, with the cut to 16 bits, is C151."
  },
  {
   "property": "C89",
   "status": "partial",
   "theorems": [
    "C89_refuted",
    "C89_in_range_partial"
   ],
   "note": "Refuted: ids out of range are reported as success. Proved for places that exist."
  },
  {
   "property": "C90",
   "status": "partial",
   "theorems": [
    "C90_exactly_once_partial",
    "C90_release_refuted"
   ],
   "note": "Refuted: a release or re-initialisation silently drops unanswered requests (no response afterwards in any continuation without new batches). Proved while the client is not replaced, under the peer condition of C26."
  },
  {
   "property": "C91",
   "status": "proved",
   "theorems": [
    "C91_client",
    "C91_server",
    "C91_isolated"
   ],
   "note": "Every client's and server's part of a component history is a history of that object alone, so C25-C34 and C59-C66 carry over."
  },
  {
   "property": "C92",
   "status": "partial",
   "theorems": [
    "C92_size_refuted",
    "C92_inside_partial"
   ],
   "note": "Refuted by 128 items without data: written inside the 4096-octet store, reported size 4112. Proved when the rooms add up to at most 4080."
  },
  {
   "property": "C93",
   "status": "partial",
   "theorems": [
    "C93_ends_partial",
    "C93_stuck",
    "C93_refuted"
   ],
   "note": "Full statement false (C93_refuted, C93_stuck): when Link::connect fails at once connect() throws, the object stays in its connecting state without a running timer and nothing ever changes. C93_ends_partial proves it for all other histories."
  },
  {
   "property": "C94",
   "status": "partial",
   "theorems": [
    "C94_reported_partial",
    "C94_silent",
    "C94_refuted"
   ],
   "note": "Full statement false (C94_refuted, C94_silent): once established, a link failure or end of stream is ignored until the 10 s timer. C94_reported_partial covers the time the kernel is connecting."
  },
  {
   "property": "C95",
   "status": "partial",
   "theorems": [
    "C95_lifetime",
    "C95_refuted"
   ],
   "note": "False (C95_refuted): C95_lifetime proves that nothing ever restarts the timer of an established connection, so it lives ten seconds."
  },
  {
   "property": "C96",
   "status": "partial",
   "theorems": [
    "C96_greeting",
    "C96_connected_partial",
    "C96_refuted"
   ],
   "note": "C96_connected_partial excludes histories in which an exception was thrown before; C96_refuted shows that after a hello with a bad url length a frame with a wrong length is taken. C96_greeting proves the packets sent."
  },
  {
   "property": "C97",
   "status": "partial",
   "theorems": [
    "C97_data",
    "C97_segments",
    "C97_backlog",
    "C97_refuted"
   ],
   "note": "C97_data proves the first half for all histories. The second half is false (C97_refuted, C97_backlog: more than 1024 octets of an incomplete frame end the connection); C97_segments proves it for up to 1024 octets before the last segment and frames of up to 4096 octets."
  },
  {
   "property": "C98",
   "status": "partial",
   "theorems": [
    "C98_defined_partial",
    "C98_close_refuted",
    "C98_send_refuted",
    "C98_hello_refuted",
    "C98_hello"
   ],
   "note": "Full statement false (C98_close_refuted, C98_send_refuted, C98_hello_refuted). C98_defined_partial proves it for the client class and, except for octets that arrive during its handshake, for the server class, for users who do not close inside a notification and send only between connect and the closing notification. C98_hello gives the three outcomes of octets during the server class's handshake exactly: only a whole hello can go wrong, and one of 32 octets or more leaves the buffer iff it announces a url of more than 4064 octets and throws iff it announces a length below -1. Missing: hellos shorter than 32 octets, whose url length is what the buffer held before; histories after such an exception; closes inside a notification."
  },
  {
   "property": "C99",
   "status": "partial",
   "theorems": [
    "C99_stop_partial",
    "C99_refuted"
   ],
   "note": "False while the configuration response is awaited: no release goes to the Modbus component (C99_refuted, for every continuation without a start). C99_stop_partial characterises exactly when it is released."
  },
  {
   "property": "C100",
   "status": "partial",
   "theorems": [
    "C100_inside_partial",
    "C100_refuted",
    "C100_own"
   ],
   "note": "False: transaction numbers of 16 and more and registers beyond 1023 leave the tables (C100_refuted). C100_inside_partial is the exact condition; C100_own: the round's own requests are always inside."
  },
  {
   "property": "C101",
   "status": "partial",
   "theorems": [
    "C101_registers_partial",
    "C101_refuted"
   ],
   "note": "False across transaction numbers, every transaction has its own registers (C101_refuted). Proved per transaction number against a last-write specification."
  },
  {
   "property": "C102",
   "status": "partial",
   "theorems": [
    "C102_answered_partial",
    "C102_refuted"
   ],
   "note": "False outside a round: requests are dropped silently (C102_refuted). Proved inside a round."
  },
  {
   "property": "C103",
   "status": "partial",
   "theorems": [
    "C103_verdict",
    "C103_complete",
    "C103_served",
    "C103_distinct_refuted"
   ],
   "note": "False in one respect: responses are counted, not matched to requests (C103_distinct_refuted). Proved: the verdict on every response, completion by sixteen good responses in any order, and that what the controller serves for its own requests is judged good."
  },
  {
   "property": "C104",
   "status": "partial",
   "theorems": [
    "C104_refuted",
    "C104_deliver",
    "C104_net_partial",
    "C104_hello",
    "C104_data",
    "C104_handshake",
    "C104_short"
   ],
   "note": "False (C104_refuted: one client asking to activate session 0). Proved: exactly which deliveries have undefined behaviour (C104_deliver, both directions); for socket data a necessary condition over all histories (C104_net_partial) and the exact conditions in any number of pieces, past the handshake (C104_data) and before it, also after any number of exceptions (C104_handshake; C104_hello is the one-piece case), as long as the fields looked at are octets of the client. Otherwise what the memory held before decides (C104_short)."
  },
  {
   "property": "C105",
   "status": "proved",
   "theorems": [
    "C105_answers",
    "C105_requests"
   ],
   "note": "Proved for all histories, with any messages lost."
  },
  {
   "property": "C106",
   "status": "partial",
   "theorems": [
    "C106_refuted",
    "C106_orphan",
    "C106_deaf",
    "C106_partial",
    "C106_quiet"
   ],
   "note": "False (C106_refuted: 32 clients that leave between request and answer). Proved: lost channels stay lost, with all lost nobody gets one, and an exact list of steps that lose one: without such steps every open channel belongs to a connection or is being announced to one."
  },
  {
   "property": "C107",
   "status": "partial",
   "theorems": [
    "C107_refuted",
    "C107_partial"
   ],
   "note": "False (C107_refuted: sessions outlive their clients). Proved: a session ends only by a served close request that names it."
  },
  {
   "property": "C108",
   "status": "proved",
   "theorems": [
    "C108_quiescence"
   ],
   "note": "Proved: at most six deliveries per message, or a message whose handling is undefined (C104)."
  },
  {
   "property": "C109",
   "status": "partial",
   "theorems": [
    "C109_open_refuted",
    "C109_answer_refuted",
    "C109_partial"
   ],
   "note": "False (C109_open_refuted, C109_answer_refuted: reused connection id while messages of the client before are queued). Proved from any moment on at which nothing of the connection is in the queue (C109_partial)."
  },
  {
   "property": "C110",
   "status": "proved",
   "theorems": [
    "C110_answered"
   ],
   "note": "Assembled model of UaSystemModel.v. \"Idle\": the queue is empty. \"Ready\" is the record yready. Messages that no loss oracle drops (the queue is empty, so the ring cannot be full: at most one message is in it at a time)."
  },
  {
   "property": "C111",
   "status": "proved",
   "theorems": [
    "C111_newcomer"
   ],
   "note": "Free slots are counted over the history: connections started and not freed plus connection ids lost to accepts without timer < 32 (C44_bounds), channels opened and not closed plus channels lost < 32 (C76_account_partial)."
  },
  {
   "property": "C112",
   "status": "proved",
   "theorems": [
    "C112_create",
    "C112_activate",
    "C112_reads",
    "C112_close",
    "C112_after_close"
   ],
   "note": "C112_create, C112_activate, C112_reads (induction over the list of reads), C112_close, C112_after_close."
  },
  {
   "property": "C113",
   "status": "proved",
   "theorems": [
    "C113_end_to_end"
   ],
   "note": "ModbusNetModel (client and server models joined by two octet streams cut arbitrarily); invariant over every calm history, five phases of an exchange."
  },
  {
   "property": "C114",
   "status": "proved",
   "theorems": [
    "C114_every_dialogue_served",
    "C114_one_exchange"
   ],
   "note": "From every calm history at rest, by induction over the list of exchanges; each exchange is exhibited event by event."
  },
  {
   "property": "C115",
   "status": "partial",
   "theorems": [
    "C115_own_answer_partial",
    "C115_refuted"
   ],
   "note": "False: after both ends have given up waiting, the late answer to the abandoned request is delivered for a later request with the same transaction id (C115_refuted). Holds along calm histories (C115_own_answer_partial)."
  },
  {
   "property": "C116",
   "status": "partial",
   "theorems": [
    "C116_destroyed_partial",
    "C116_terminates_refuted",
    "C116_only_then_partial"
   ],
   "note": "False of the code: destroying a server whose acceptor never listened closes descriptor -1, the exception leaves a destructor and the process terminates (C116_terminates_refuted, from every such state). C116_only_then_partial: in no other case does the component terminate."
  },
  {
   "property": "C117",
   "status": "proved",
   "theorems": [
    "C117_timely",
    "C117_delivered"
   ],
   "note": "EventLoopModel: timers follow their owners' view in every life, with arbitrary handlers and batches. Both directions: no undue call, every standing expiry delivered when the loop comes to it (that the loop comes to it is C119)."
  },
  {
   "property": "C118",
   "status": "partial",
   "theorems": [
    "C118_owner_partial",
    "C118_other_owner_refuted",
    "C118_closed_refuted"
   ],
   "note": "C118_owner_partial characterises every call of a link's handler. False in two ways: after the pool's free ids are used up within one batch another owner gets the event (C118_other_owner_refuted), and an owner may be told of data on a link it closed earlier in the batch (C118_closed_refuted)."
  },
  {
   "property": "C119",
   "status": "partial",
   "theorems": [
    "C119_accounted_partial",
    "C119_causes_partial",
    "C119_all_partial",
    "C119_dropped_refuted"
   ],
   "note": "False: a reported timer that a handler of the same batch released makes the loop throw and drop the rest, including the one announcing messages (C119_dropped_refuted). C119_all_partial: nothing is dropped if no handler throws and no timer is released in the batch; C119_causes_partial: these are the only causes; C119_accounted_partial: dropped and handled events are the reported ones, in order."
  },
  {
   "property": "C120",
   "status": "proved",
   "theorems": [
    "C120_links",
    "C120_acceptors",
    "C120_bounded"
   ],
   "note": "Counting invariant over every life (EventLoopModel)."
  },
  {
   "property": "C121",
   "status": "partial",
   "theorems": [
    "C121_exact_partial",
    "C121_leak_refuted"
   ],
   "note": "False: an id taken for a timer the system refused is never given back; after 32 refusals no timer can ever be created (C121_leak_refuted). C121_exact_partial gives the exact condition."
  },
  {
   "property": "C122",
   "status": "proved",
   "theorems": [
    "C122_admission",
    "C122_only"
   ],
   "note": "Admission is characterised by what was sent and received (view of the history), for all histories; if the latest open request could not be decoded completely the expected number is unknown to the specification, which the statement says."
  },
  {
   "property": "C123",
   "status": "partial",
   "theorems": [
    "C123_refuted",
    "C123_partial"
   ],
   "note": "False: a 20-octet packet is delivered, its request id taken from an earlier packet left in the buffer (_refuted). Proved for both roles: what is heard starts with exactly the packet received from the wire and the rest is the old buffer; histories without an exception thrown into the event loop."
  },
  {
   "property": "C124",
   "status": "proved",
   "theorems": [
    "C124_numbers"
   ],
   "note": "Proved over all connections of the channel's life."
  },
  {
   "property": "C125",
   "status": "partial",
   "theorems": [
    "C125_inside",
    "C125_outside",
    "C125_refuted"
   ],
   "note": "False when two requests are pending: the first can no longer be answered (_refuted). Proved: answers sent from inside the notification carry that request's id; outside, the id of the latest request."
  },
  {
   "property": "C126",
   "status": "proved",
   "theorems": [
    "C126_life",
    "C126_again",
    "C126_ends"
   ],
   "note": "Proved: life cycle as an automaton over the notifications and resources, reopening, and the running timer."
  },
  {
   "property": "C127",
   "status": "partial",
   "theorems": [
    "C127_undefined",
    "C127_refuted",
    "C127_partial"
   ],
   "note": "False: before the first open() the link does not exist (undefined); during the handshake a message with indeterminate token and request id goes out (_refuted). Proved while the channel is open."
  },
  {
   "property": "C128",
   "status": "partial",
   "theorems": [
    "C128_stuck",
    "C128_refuted"
   ],
   "note": "False: if the connection ends while the open response is awaited the object stays in that state for ever (_stuck, _refuted)."
  },
  {
   "property": "C129",
   "status": "partial",
   "theorems": [
    "C129_silent",
    "C129_refuted"
   ],
   "note": "False: a client channel reports nothing but closing and error (_silent, _refuted)."
  },
  {
   "property": "C130",
   "status": "partial",
   "theorems": [
    "C130_undefined",
    "C130_refuted",
    "C130_partial"
   ],
   "note": "False: the client skips the type id of the response, takes the lifetime for the length of the nonce, and reads outside its buffer for every lifetime between 4097 and 2^31-1 ms (_undefined, _refuted). Proved: with the library's own server, which grants lifetime 0, both sides get established, for all memories, rand() and clocks, packets delivered whole."
  },
  {
   "property": "C131",
   "status": "proved",
   "theorems": [
    "C131_routes",
    "C131_settled",
    "C131_eventually"
   ],
   "note": "Both the safety half (`C131_settled`: any finite history) and the liveness half (`C131_eventually`: any infinite fair execution, by a decreasing measure on messages in flight) are proved. The environment assumption is the one in the statement."
  },
  {
   "property": "C132",
   "status": "proved",
   "theorems": [
    "C132_bound",
    "C132_progress",
    "C132_settles"
   ],
   "note": "`C132_bound` holds in any environment (potential argument over messages in flight and the state of the Modbus self-test); `C132_progress`: no deadlock; `C132_settles`: infinite fair executions in any environment."
  },
  {
   "property": "C133",
   "status": "partial",
   "theorems": [
    "C133_refuted",
    "C133_lost",
    "C133_ends",
    "C133_partial"
   ],
   "note": "False: `C133_refuted` runs a start whose listen() fails and the stop after it, which ends the process. `C133_lost`, `C133_ends`: in general the port is never opened again, and the first release, initialisation or configuration of the transport ends the process. `C133_partial`: as long as no listen() fails, whatever else does, the OPC UA reactor carries out every request."
  },
  {
   "property": "C134",
   "status": "partial",
   "theorems": [
    "C134_refuted",
    "C134_partial",
    "C134_exact_partial",
    "C134_stop_partial"
   ],
   "note": "False: `C134_refuted` stops the application while the controller waits for the Modbus configuration; client and listening server remain until the next command. `C134_partial`: in every history without such a stop they are gone. `C134_exact_partial`, `C134_stop_partial`: the exact condition (if and only if) over all histories."
  },
  {
   "property": "C135",
   "status": "partial",
   "theorems": [
    "C135_refuted",
    "C135_partial",
    "C135_messages"
   ],
   "note": "False: in `C135_refuted` a connection becomes readable after the components were destroyed and before the waiting thread's timeout. `C135_partial`: it holds if the main thread sleeps until all threads have left their loops, whatever happens; `C135_messages`: messages are no problem beyond the burst being handled."
  },
  {
   "property": "C136",
   "status": "proved",
   "theorems": [
    "C136_bound",
    "C136_progress"
   ],
   "note": "`C136_bound` and `C136_progress`: every history after stop() is finite with an explicit bound and stops only when main has returned (or in the failure of C135)."
  },
  {
   "property": "C137",
   "status": "partial",
   "theorems": [
    "C137_refuted",
    "C137_never",
    "C137_stuck"
   ],
   "note": "False: `C137_refuted` (a CPU that does not exist): main waits for ever. `C137_never`: with any failure in any history the handler that prints the message is not reached; `C137_stuck`: the main thread blocks at the first reactor, or joins a thread that was never created."
  },
  {
   "property": "C138",
   "status": "partial",
   "theorems": [
    "C138_prefix",
    "C138_all_partial",
    "C138_refuted"
   ],
   "note": "`C138_prefix`: what is read is a prefix of what was sent. `C138_all_partial`: at rest all of it has been read, unless a read filled the buffer or an event was dropped. Without these two exceptions it is false: `C138_refuted` (octets behind a hello of exactly 4096 octets stay unread, in every continuation without a new event from the peer); for dropped events see C139."
  },
  {
   "property": "C139",
   "status": "partial",
   "theorems": [
    "C139_causes_partial",
    "C139_stuck",
    "C139_refuted"
   ],
   "note": "False: `C139_refuted` (32 connections and one more client: a hello is lost and stays unanswered). `C139_stuck`: after a dropped event a connection is not served before its peer sends again. `C139_causes_partial`: the only causes of dropped events."
  },
  {
   "property": "C140",
   "status": "partial",
   "theorems": [
    "C140_reported_partial",
    "C140_reclaimed",
    "C140_refuted"
   ],
   "note": "False: `C140_refuted`: 32 idle connections, one waiting client, all expiries dropped: no continuation without new octets from a served peer reclaims or accepts anything. `C140_reported_partial`: an expired timer is being dealt with unless its event was dropped; `C140_reclaimed`: dealing with it ends the connection."
  },
  {
   "property": "C141",
   "status": "partial",
   "theorems": [
    "C141_reported",
    "C141_accepted_partial",
    "C141_spins",
    "C141_refuted"
   ],
   "note": "`C141_reported`: every round reports the waiting client or ten other events; `C141_accepted_partial`: its event accepts it if a link is free and no timer was lost. The second part is false: `C141_refuted`, `C141_spins` (while no link is free no round is empty, and every round throws and changes nothing)."
  },
  {
   "property": "C142",
   "status": "partial",
   "theorems": [
    "C142_recovers_partial",
    "C142_costs",
    "C142_refuted"
   ],
   "note": "False if accept(2) fails often enough: `C142_refuted` (256 failures: nobody is served any more, in any continuation, although everything is free). `C142_recovers_partial`: true as long as accept(2) itself has not failed, after any number of refused rounds; `C142_costs`: each refused round takes an id until none is left."
  },
  {
   "property": "C143",
   "status": "proved",
   "theorems": [
    "C143_fits",
    "C143_dumps",
    "C143_room"
   ],
   "note": "`C143_fits`, over a table of all 372 log statements of the source. `C143_dumps`: a dumped buffer has at most 260 octets; `C143_room`: from 342 on the statement would overrun its buffer."
  },
  {
   "property": "C144",
   "status": "proved",
   "theorems": [
    "C144_lines",
    "C144_numbers",
    "C144_fields",
    "C144_file"
   ],
   "note": "`C144_lines`; `C144_numbers` and `C144_file` say what numbers and file names look like."
  },
  {
   "property": "C145",
   "status": "proved",
   "theorems": [
    "C145_set",
    "C145_shipped"
   ],
   "note": "Stated for what the log macro does with every statement of the table and its arguments."
  },
  {
   "property": "C146",
   "status": "proved",
   "theorems": [
    "C146_opens"
   ],
   "note": "The client is the library model (SecLibModel), the server the assembled server (UaSystemModel); connection and packets of the two are linked by equality of what is written and read. Whole packets only."
  },
  {
   "property": "C147",
   "status": "proved",
   "theorems": [
    "C147_forever",
    "C147_leaves"
   ],
   "note": "C147_forever: induction over any list of clients of the library, each with its own memory, randomness and clocks. C147_leaves holds for any client that is ready. A session the client created is not closed (see the session claims)."
  },
  {
   "property": "C148",
   "status": "proved",
   "theorems": [
    "C148_in_place",
    "C148_short"
   ],
   "note": "C148_in_place for every header and array; C148_short gives the exact lengths for which the direct readers are defined. getSecureChannelIdFromHdr is not called by the application."
  },
  {
   "property": "C149",
   "status": "proved",
   "theorems": [
    "C149_self_test_never_fails",
    "C149_self_test_goes_on",
    "C149_rounds_are_finite",
    "C149_rounds_without_end"
   ],
   "note": "proved for all schedules, cuts of the streams, timer moments and octets of rand() of the healthy environment defined in SelfTestSpec.v (fine); a round counts from the batch of requests the controller sends. No claim for environments that are not healthy: after a failed round the application releases the Modbus component (C131) and does not restart it."
  },
  {
   "property": "C150",
   "status": "proved",
   "theorems": [
    "C150_answered_once_in_order",
    "C150_sixteen_for_each_batch"
   ],
   "note": "Healthy environment as in C149 (SelfTestSpec.fine). The sixteen responses are written out in SelfTestSpec.round_of. Consequence: 16 responses for each batch."
  },
  {
   "property": "C151",
   "status": "partial",
   "theorems": [
    "C151_refuted",
    "C151_alias_partial",
    "C151_served_partial",
    "C151_unknown_partial",
    "C151_only_partial"
   ],
   "note": "False: the number is cut to 16 bits and the namespace is not looked at, so a message numbered 65997, or 461 in namespace 3, creates a session (C151_refuted). Exactly: the number modulo 65536 in any namespace decides; with a request's number so reduced the message is that request and is served as it (C151_alias_partial, C151_served_partial), with any other nothing happens (C151_unknown_partial), and whatever is answered started with such a number (C151_only_partial)."
  },
  {
   "property": "C152",
   "status": "partial",
   "theorems": [
    "C152_lookup",
    "C152_dispatch",
    "C152_grows_partial",
    "C152_refuted",
    "C152_bounded_partial"
   ],
   "note": "False: every number of no service, modulo 65536, leaves one entry in the service table for good (C152_refuted; exact count C152_grows_partial), never more than 65536 in all (C152_bounded_partial). The other half holds: whatever came before, each look-up finds the service its number stands for or none (C152_lookup), so the request handling of the model without the table is the one with it (C152_dispatch)."
  },
  {
   "property": "C153",
   "status": "proved",
   "theorems": [
    "C153_compare"
   ],
   "note": "Proved for all built-in structures except variants and data values, which are C154."
  },
  {
   "property": "C154",
   "status": "partial",
   "theorems": [
    "C154_refuted",
    "C154_defined_partial",
    "C154_equivalence_partial"
   ],
   "note": "False as stated: the comparison dereferences the array dimensions of both variants without checking (Variant.hpp 95), and neither the decoder nor any other code sets them, so comparing any decoded variant or data value is undefined behaviour (C154_refuted). Proved: the exact condition for a defined result, what it then means, and that it is an equivalence on contents without NaN."
  },
  {
   "property": "C155",
   "status": "partial",
   "theorems": [
    "C155_roundtrip_equal_partial",
    "C155_refuted"
   ],
   "note": "False for extension objects with an empty body, which come back without a body and compare unequal (C155_refuted), and for variants (C154). Proved for localized texts in every form, GUIDs, node ids, qualified names, diagnostic infos and other extension objects. Expanded node ids with a namespace URI or server index: see C37."
  },
  {
   "property": "C156",
   "status": "proved",
   "theorems": [
    "C156_current",
    "C156_walk",
    "C156_self",
    "C156_transit",
    "C156_one_outcome",
    "C156_actions",
    "C156_history",
    "C156_conditions_needed"
   ],
   "note": "Induction on the nesting depth of an interpreter for arbitrary actions. C156_conditions_needed shows what goes wrong when an exit action throws or changes the state (in the latter case the machine recurses without end); no exit action in the code base changes the state, and they throw only if the system refuses to stop a timer."
  },
  {
   "property": "C157",
   "status": "partial",
   "theorems": [
    "C157_inside_partial",
    "C157_outside_partial",
    "C157_accept_partial",
    "C157_refuted"
   ],
   "note": "False: from inside the closed or error notification the call is ignored without a word, the connection is not idle yet (C157_refuted). Exactly: from inside any notification connect() and accept() change nothing (C157_inside_partial, every state); from outside connect() begins an attempt if and only if none is under way (C157_outside_partial), and so does accept() of the server class; the client class ignores it (C157_accept_partial)."
  }
 ]
}