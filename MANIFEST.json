{
 "claims": [
  {
   "property": "C01",
   "status": "proved",
   "theorems": [
    "C01_fixed_width_integers"
   ],
   "note": "(PropsStream.v)"
  },
  {
   "property": "C02",
   "status": "proved",
   "theorems": [
    "C02_v_int"
   ],
   "note": "(PropsStream.v)"
  },
  {
   "property": "C03",
   "status": "proved",
   "theorems": [
    "C03_v_int_size"
   ],
   "note": "(PropsStream.v)"
  },
  {
   "property": "C04",
   "status": "proved",
   "theorems": [
    "C04_v_long"
   ],
   "note": "(PropsStream.v)"
  },
  {
   "property": "C05",
   "status": "proved",
   "theorems": [
    "C05_z_long"
   ],
   "note": "(PropsStream.v)"
  },
  {
   "property": "C06",
   "status": "partial",
   "theorems": [
    "C06_zig_zag_refuted",
    "C06_zig_zag_partial"
   ],
   "note": "False of the code: negative numbers use sign-magnitude. Refuted, with the part that holds and the exact deviation. (PropsStream.v)"
  },
  {
   "property": "C07",
   "status": "proved",
   "theorems": [
    "C07_strings"
   ],
   "note": "(PropsStream.v)"
  },
  {
   "property": "C08",
   "status": "proved",
   "theorems": [
    "C08_ill_formed_utf8"
   ],
   "note": "(PropsStream.v)"
  },
  {
   "property": "C09",
   "status": "proved",
   "theorems": [
    "C09_collections"
   ],
   "note": "(PropsStream.v)"
  },
  {
   "property": "C10",
   "status": "proved",
   "theorems": [
    "C10_generic_values"
   ],
   "note": "(PropsStream.v)"
  },
  {
   "property": "C11",
   "status": "partial",
   "theorems": [
    "C11_unsupported_rejected_refuted",
    "C11_unsupported_rejected_partial"
   ],
   "note": "False of the code: floats, dicts, ... are silently written as nothing. Refuted; holds for the representable types. (PropsStream.v)"
  },
  {
   "property": "C12",
   "status": "partial",
   "theorems": [
    "C12_messages_partial",
    "C12_truncation_refuted",
    "C12_truncation_partial"
   ],
   "note": "False of the code: BytesIO short reads are not detected. Refuted; what holds is proved. (PropsReaders.v, PropsStream.v)"
  },
  {
   "property": "C13",
   "status": "proved",
   "theorems": [
    "C13_messages",
    "C13_readers_move_forward"
   ],
   "note": "(PropsReaders.v, PropsStream.v)"
  },
  {
   "property": "C14",
   "status": "proved",
   "theorems": [
    "C14_recursion"
   ],
   "note": "(PropsStream.v)"
  },
  {
   "property": "C15",
   "status": "proved",
   "theorems": [
    "C15_text",
    "C15_version_components",
    "C15_division_is_correctly_rounded"
   ],
   "note": "(PropsText.v, PropsVersion.v)"
  },
  {
   "property": "C16",
   "status": "proved",
   "theorems": [
    "C16_versions_survive"
   ],
   "note": "(PropsVersion.v)"
  },
  {
   "property": "C17",
   "status": "partial",
   "theorems": [
    "C17_version_size_refuted",
    "C17_version_size_partial"
   ],
   "note": "False of the code for marked ids >= 2^28. Refuted; the exact condition is proved. (PropsVersion.v)"
  },
  {
   "property": "C18",
   "status": "proved",
   "theorems": [
    "C18_header"
   ],
   "note": "(PropsFrame.v)"
  },
  {
   "property": "C19",
   "status": "proved",
   "theorems": [
    "C19_status_flags",
    "C19_is_request",
    "C19_statuses"
   ],
   "note": "(PropsFrame.v)"
  },
  {
   "property": "C20",
   "status": "partial",
   "theorems": [
    "C20_request_id_refuted",
    "C20_request_id_partial"
   ],
   "note": "False of the code for id 0 (falsy). Refuted; holds for every other id. (PropsFrame.v)"
  },
  {
   "property": "C21",
   "status": "proved",
   "theorems": [
    "C21_generated_ids"
   ],
   "note": "(PropsFrame.v)"
  },
  {
   "property": "C22",
   "status": "partial",
   "theorems": [
    "C22_frame_lengths_refuted",
    "C22_frame_lengths_partial"
   ],
   "note": "False of the code for non-ASCII thread-context strings (length prefix sized by characters). Refuted; exact condition (iff) proved. (PropsFrame.v)"
  },
  {
   "property": "C23",
   "status": "proved",
   "theorems": [
    "C23_edits_keep_lengths"
   ],
   "note": "Stated as: after any edits the length fields are right exactly if they were right at construction (condition of C22). (PropsFrame.v)"
  },
  {
   "property": "C24",
   "status": "proved",
   "theorems": [
    "C24_request_round_trip"
   ],
   "note": "(PropsFrame.v)"
  },
  {
   "property": "C25",
   "status": "proved",
   "theorems": [
    "C25_response_round_trip"
   ],
   "note": "(PropsFrame.v)"
  },
  {
   "property": "C26",
   "status": "proved",
   "theorems": [
    "C26_thread_context"
   ],
   "note": "(PropsFrame.v)"
  },
  {
   "property": "C27",
   "status": "proved",
   "theorems": [
    "C27_task_ids"
   ],
   "note": "(PropsMessages.v)"
  },
  {
   "property": "C28",
   "status": "partial",
   "theorems": [
    "C28_addresses_refuted",
    "C28_addresses_partial"
   ],
   "note": "False of the code: write_int of an address >= 2^31 raises OverflowError. Refuted; holds below 128.0.0.0 and the rest is refused. (PropsMessages.v)"
  },
  {
   "property": "C29",
   "status": "partial",
   "theorems": [
    "C29_nodes_refuted",
    "C29_nodes_partial"
   ],
   "note": "Refuted only because of C28; every node below 128.0.0.0 survives, the others are refused by write_to. (PropsMessages.v)"
  },
  {
   "property": "C30",
   "status": "partial",
   "theorems": [
    "C30_handshakes_refuted",
    "C30_handshakes_partial"
   ],
   "note": "False of the code for a tcp handshake request without a version (reads back version 0) and for high addresses; all the rest proved. (PropsMessages.v)"
  },
  {
   "property": "C31",
   "status": "proved",
   "theorems": [
    "C31_protobuf_requests"
   ],
   "note": "(PropsMessages.v)"
  },
  {
   "property": "C32",
   "status": "proved",
   "theorems": [
    "C32_rest_messages"
   ],
   "note": "(PropsRest.v)"
  },
  {
   "property": "C33",
   "status": "proved",
   "theorems": [
    "C33_response_bytes"
   ],
   "note": "(PropsRest.v)"
  },
  {
   "property": "C34",
   "status": "proved",
   "theorems": [
    "C34_consumption",
    "C34_answers",
    "C34_response"
   ],
   "note": "(PropsRest.v)"
  },
  {
   "property": "C35",
   "status": "proved",
   "theorems": [
    "C35_announced",
    "C35_buildable",
    "C35_registration",
    "C35_no_overwriting",
    "C35_action_extension"
   ],
   "note": "(PropsDelivery.v, PropsRoutes.v)"
  },
  {
   "property": "C36",
   "status": "proved",
   "theorems": [
    "C36_wildcards"
   ],
   "note": "(PropsRoutes.v)"
  },
  {
   "property": "C37",
   "status": "proved",
   "theorems": [
    "C37_parameters_accepted"
   ],
   "note": "(PropsRoutes.v)"
  },
  {
   "property": "C38",
   "status": "proved",
   "theorems": [
    "C38_dispatch",
    "C38_fnmatch",
    "C38_refused"
   ],
   "note": "(PropsRoutes.v)"
  },
  {
   "property": "C39",
   "status": "partial",
   "theorems": [
    "C39_segments_refuted",
    "C39_segments_partial"
   ],
   "note": "False of the code: fnmatch's * spans '/'. Refuted; the exact set of matched paths is proved (iff). (PropsRoutes.v)"
  },
  {
   "property": "C40",
   "status": "proved",
   "theorems": [
    "C40_replies_echo",
    "C40_frames_read"
   ],
   "note": "For bytes read as a request with non-zero id; C40_frames_read shows every written frame is read so. The reply is described by what any reader finds in it (carries, HostSpec.v). (PropsHost.v)"
  },
  {
   "property": "C41",
   "status": "proved",
   "theorems": [
    "C41_unknown_action"
   ],
   "note": "Frames up to 2^29 bytes (the reply's size field is 32 bits). (PropsHost.v)"
  },
  {
   "property": "C42",
   "status": "proved",
   "theorems": [
    "C42_delivered",
    "C42_one_handler",
    "C42_rest",
    "C42_handler_raises"
   ],
   "note": "Request as received (consumed parameters start empty); reply shorter than 2^31. (PropsDelivery.v, PropsHost.v)"
  },
  {
   "property": "C43",
   "status": "partial",
   "theorems": [
    "C43_rest_exact_partial",
    "C43_no_route_refuted",
    "C43_handler_raises_refuted",
    "C43_answered_partial",
    "C43_silence_is_harmless_partial"
   ],
   "note": "Refuted: no reply when no route matches or the handler raises. Proved: exactly when a REST request is answered (route found, handler returns, response encodable); the other requests are always answered; an unanswered request changes no registration, settings or pending initialization. (PropsAnswer.v, PropsHost.v)"
  },
  {
   "property": "C44",
   "status": "proved",
   "theorems": [
    "C44_initialization",
    "C44_wire"
   ],
   "note": "Any running host, any unrelated traffic between the steps; node addresses below 128.0.0.0 (others cannot be written, C28). (PropsHistory.v, PropsSession.v)"
  },
  {
   "property": "C45",
   "status": "partial",
   "theorems": [
    "C45_two_inits_refuted",
    "C45_latest_init_partial"
   ],
   "note": "Refuted: two initializations in flight, the first is never answered, the second twice. Proved: every output on a response belongs to a received initialization, the final answer to the latest. (PropsHistory.v)"
  },
  {
   "property": "C46",
   "status": "proved",
   "theorems": [
    "C46_not_awaited",
    "C46_once"
   ],
   "note": "Histories of arbitrary chunks, well-formed or not. (PropsHistory.v)"
  },
  {
   "property": "C47",
   "status": "proved",
   "theorems": [
    "C47_no_collision"
   ],
   "note": "Invariant over all histories of arbitrary chunks. (PropsHistory.v)"
  },
  {
   "property": "C48",
   "status": "proved",
   "theorems": [
    "C48_stateless_replies",
    "C48_any_interleaving",
    "C48_exceptions",
    "C48_other_connections"
   ],
   "note": "All runs of the server: any connections, chunks, failures, cancellations, interleavings. (PropsHistory.v)"
  },
  {
   "property": "C49",
   "status": "partial",
   "theorems": [
    "C49_split_frame_refuted",
    "C49_joined_frames_refuted",
    "C49_trailing_bytes_partial",
    "C49_init_trailing_bytes_partial",
    "C49_conversation_partial"
   ],
   "note": "Refuted: a frame split over two chunks, or two frames in one chunk. Proved: what follows a whole well-formed frame in its chunk has no effect. (PropsHistory.v, PropsTail.v)"
  },
  {
   "property": "C50",
   "status": "proved",
   "theorems": [
    "C50_replies_in_order",
    "C50_closing",
    "C50_termination",
    "C50_one_history"
   ],
   "note": "Runs with failures, cancellation and termination; a reply can only be lost by a failed send or a cancelled task. (PropsHistory.v, PropsSession.v)"
  },
  {
   "property": "C51",
   "status": "proved",
   "theorems": [
    "C51_int_bounds"
   ],
   "note": "IntegerSetting and LongSetting constructors and get, for all settings contents; int() restricted to ASCII digits/white space. (PropsSettings.v)"
  },
  {
   "property": "C52",
   "status": "partial",
   "theorems": [
    "C52_defaults_refuted",
    "C52_defaults_partial",
    "C52_negative_partial"
   ],
   "note": "Refuted for negative byte sizes and durations (e.g. the default -1): str() writes a sign the parser's regex does not accept, so get raises ValueError (C52_negative_partial). Proved for the other five classes and for non-negative quantities. Numbers of at most 640 digits where not bounded otherwise (CPython limits int()). (PropsSettings.v)"
  },
  {
   "property": "C53",
   "status": "partial",
   "theorems": [
    "C53_explicit_refuted",
    "C53_explicit_partial",
    "C53_values_partial",
    "C53_text_partial"
   ],
   "note": "Refuted: Settings.get tests the value's truth, so a stored False, 0, empty string or list is ignored and the default returned. Proved for all other stored values, in general and for each class of setting. (PropsSettings.v)"
  },
  {
   "property": "C54",
   "status": "proved",
   "theorems": [
    "C54_units",
    "C54_text"
   ],
   "note": "parse(str(v)) = v and the shape of the text; factors stated as 1024^k and as a table of nanoseconds. For numbers of at most 640 digits (CPython limits int()). (PropsSettings.v)"
  },
  {
   "property": "C55",
   "status": "proved",
   "theorems": [
    "C55_quantity_bounds",
    "C55_only_bounds"
   ],
   "note": "Both directions: values returned are within the bounds, and nothing within the bounds is rejected. (PropsSettings.v)"
  },
  {
   "property": "C56",
   "status": "proved",
   "theorems": [
    "C56_parsers"
   ],
   "note": "Undefined maximum durations are restored as undefined (-1), all others exactly. Sizes within 63 bits (what write_z_long accepts). (PropsSettings.v)"
  },
  {
   "property": "C57",
   "status": "partial",
   "theorems": [
    "C57_float_filtered_partial",
    "C57_filtered_refuted",
    "C57_filtered_partial"
   ],
   "note": "Refuted: subclasses pass the tuple of properties as one argument, so is_filtered is never true. Proved: the flag is right without FILTERED and for directly constructed Parsers. (PropsFloats.v, PropsSettings.v)"
  },
  {
   "property": "C58",
   "status": "proved",
   "theorems": [
    "C58_validator"
   ],
   "note": "re.match is an oracle, uninterpreted. (PropsSettings.v)"
  },
  {
   "property": "C59",
   "status": "partial",
   "theorems": [
    "C59_across_hosts_refuted",
    "C59_settings_refuted",
    "C59_settings_partial"
   ],
   "note": "Refuted: the default dict of Settings() is shared by all instances. Proved: exact in the first reading, a union afterwards; the same across hosts of one process. (PropsProcess.v, PropsSettings.v)"
  },
  {
   "property": "C60",
   "status": "proved",
   "theorems": [
    "C60_double",
    "C60_float",
    "C60_rounding"
   ],
   "note": "Doubles by their 64 bits; numbers, infinities and NaNs of both formats. The C casts are modelled with round-to-nearest-even (Floats.v). (PropsFloats.v)"
  },
  {
   "property": "C61",
   "status": "proved",
   "theorems": [
    "C61_ephemeral_ids",
    "C61_constructed"
   ],
   "note": "(PropsMessages.v, PropsNode.v)"
  },
  {
   "property": "C62",
   "status": "partial",
   "theorems": [
    "C62_negative_v_int_refuted",
    "C62_negative_v_int_partial"
   ],
   "note": "False of the code for -128..-1. Refuted; exact behaviour proved. (PropsStream.v)"
  },
  {
   "property": "C63",
   "status": "partial",
   "theorems": [
    "C63_amplification_refuted",
    "C63_amplification_partial"
   ],
   "note": "False of the code: five bytes decode to a list of 2^31 strings. (PropsStream.v)"
  },
  {
   "property": "C64",
   "status": "partial",
   "theorems": [
    "C64_float_type",
    "C64_type_refuted",
    "C64_type_partial"
   ],
   "note": "Refuted: LongSetting announces INTEGER and ByteSizeValueSetting TIME_VALUE. Proved for the other classes. (PropsFloats.v, PropsSettings.v)"
  },
  {
   "property": "C65",
   "status": "partial",
   "theorems": [
    "C65_default_version_refuted",
    "C65_default_version_partial",
    "C65_int_version_partial"
   ],
   "note": "False of the code: default version is an int, bytes(int) writes that many zero bytes. (PropsFrame.v)"
  },
  {
   "property": "C66",
   "status": "proved",
   "theorems": [
    "C66_float_bounds",
    "C66_float_parsers"
   ],
   "note": "float() and str(float) are oracles; that float(str(x)) = x is a hypothesis of the default clause. FloatSetting bounds survive the wire if representable as singles. (PropsFloats.v)"
  },
  {
   "property": "C67",
   "status": "proved",
   "theorems": [
    "C67_tcp_handshake",
    "C67_transport_handshake"
   ],
   "note": "The iteration order of the set of roles and the 16 random bytes are arbitrary. (PropsHost.v)"
  },
  {
   "property": "C68",
   "status": "partial",
   "theorems": [
    "C68_not_a_frame_refuted",
    "C68_stray_reply_refuted",
    "C68_unreadable_partial"
   ],
   "note": "Refuted: the prefix is never checked and missing bytes read as zeros, so one byte is answered with 404. Proved: unreadable bytes raise and change only the id counter. (PropsHistory.v)"
  },
  {
   "property": "C69",
   "status": "proved",
   "theorems": [
    "C69_integers",
    "C69_values",
    "C69_optional",
    "C69_generic",
    "C69_one_encoding"
   ],
   "note": "Against the independent format in Wire.v; reads_only excludes inputs that end inside the value (see C12); zLong is the SDK's own sign-magnitude form (see C06). (PropsWire.v)"
  },
  {
   "property": "C70",
   "status": "partial",
   "theorems": [
    "C70_writing_refuted",
    "C70_reading_refuted",
    "C70_writing_partial",
    "C70_reading_partial"
   ],
   "note": "Refuted for thread contexts with long non-ASCII strings, whose size is miscounted (C22). Proved: the written bytes are a frame of the format if and only if length_prefix_ok holds of every context string, and every frame with such a context is read back, with any flags and id. (PropsWire.v)"
  },
  {
   "property": "C71",
   "status": "proved",
   "theorems": [
    "C71_transport_messages",
    "C71_rest_messages",
    "C71_settings",
    "C71_protobuf_requests"
   ],
   "note": "Whole payloads, every field order and encoding, against Wire.v; messages with node addresses are C74. (PropsWire.v)"
  },
  {
   "property": "C72",
   "status": "proved",
   "theorems": [
    "C72_refusals"
   ],
   "note": "All malformed encodings of the listed kinds, any continuation. (PropsWire.v)"
  },
  {
   "property": "C73",
   "status": "partial",
   "theorems": [
    "C73_handshake_refuted",
    "C73_wire_frames_partial",
    "C73_replies_partial"
   ],
   "note": "Refuted for contexts with long non-ASCII strings (C22). Proved for every other frame and host state. (PropsWire.v)"
  },
  {
   "property": "C74",
   "status": "partial",
   "theorems": [
    "C74_high_address_refuted",
    "C74_high_address_unread_refuted",
    "C74_nodes_partial"
   ],
   "note": "Refuted for addresses from 128.0.0.0 up, which can neither be written nor read (C28). Proved for all others. (PropsWire.v)"
  },
  {
   "property": "C75",
   "status": "proved",
   "theorems": [
    "C75_hello"
   ],
   "note": "End to end over the modelled host and wire format; which paths are served follows fnmatch (everything below /hello/). (PropsSamples.v)"
  },
  {
   "property": "C76",
   "status": "proved",
   "theorems": [
    "C76_crud"
   ],
   "note": "The OpenSearch client with the cluster behind it is an arbitrary function; refresh=True and the query's constants are left out. (PropsSamples.v)"
  },
  {
   "property": "C77",
   "status": "proved",
   "theorems": [
    "C77_protobuf_readers"
   ],
   "note": "(PropsWire.v)"
  },
  {
   "property": "C78",
   "status": "proved",
   "theorems": [
    "C78_addresses"
   ],
   "note": "(PropsNode.v)"
  },
  {
   "property": "C79",
   "status": "proved",
   "theorems": [
    "C79_memory",
    "C79_kept"
   ],
   "note": "(PropsMemory.v)"
  },
  {
   "property": "C80",
   "status": "partial",
   "theorems": [
    "C80_accepting_refuted",
    "C80_accepting_partial"
   ],
   "note": "Refuted: an exception in sock_accept (too many open files, aborted connection) is not caught and ends async_run. Proved: nothing on a connection does, and after such an error no connection is accepted again. (PropsLife.v)"
  },
  {
   "property": "C81",
   "status": "partial",
   "theorems": [
    "C81_termination_refuted",
    "C81_termination_partial"
   ],
   "note": "Refuted: the flag is only looked at after the next connection or message. Proved: exactly which events then end the server, for good, and that without them it goes on accepting. (PropsLife.v)"
  },
  {
   "property": "C82",
   "status": "proved",
   "theorems": [
    "C82_statuses",
    "C82_replies"
   ],
   "note": "The table of codes is written from the RFCs, not from the source. (PropsStatus.v)"
  },
  {
   "property": "C83",
   "status": "partial",
   "theorems": [
    "C83_quantities_partial",
    "C83_quantities_refuted",
    "C83_settings_partial"
   ],
   "note": "Refuted: re.match is not anchored at the end, so '5m!' and '1h 30m' are accepted as 5m and 1h. Proved: exactly which texts are accepted, with which value, for every Python runtime; at the settings, those within the bounds. (PropsText.v)"
  },
  {
   "property": "C84",
   "status": "partial",
   "theorems": [
    "C84_integers_partial",
    "C84_integers_refuted"
   ],
   "note": "Refuted: int() also takes underscores, surrounding white space and other scripts' digits ('1_0'). Proved: exactly int()'s grammar (digit limit included) and the bounds. (PropsText.v)"
  },
  {
   "property": "C85",
   "status": "proved",
   "theorems": [
    "C85_booleans"
   ],
   "note": "For every Python runtime in which no other character has t, r, u or e in its lower case. (PropsText.v)"
  },
  {
   "property": "C86",
   "status": "partial",
   "theorems": [
    "C86_versions_partial",
    "C86_versions_refuted"
   ],
   "note": "Refuted: '3.0.0.99' is always refused. Proved: exactly the texts of int() are accepted, as the number of the version. (PropsText.v)"
  },
  {
   "property": "C87",
   "status": "proved",
   "theorems": [
    "C87_ids",
    "C87_others",
    "C87_replies",
    "C87_initialization",
    "C87_alone"
   ],
   "note": "Hosts sharing one event loop (threads are not modelled). The environment settings they read are shared, see C59. (PropsProcess.v)"
  },
  {
   "property": "C88",
   "status": "partial",
   "theorems": [
    "C88_restart_refuted",
    "C88_start_partial",
    "C88_second_run_partial"
   ],
   "note": "Refuted: the listening socket is left open when run() returns, and the second run binds the same port: OSError. Proved: exactly when run() gets a socket and what is left when it does not; closing host.server first makes it work. (PropsProcess.v)"
  },
  {
   "property": "C89",
   "status": "proved",
   "theorems": [
    "C89_ports",
    "C89_given_port"
   ],
   "note": "Published port: unless the program overwrites host.port. The operating system is modelled as the set of listening ports at one address. (PropsProcess.v)"
  },
  {
   "property": "C90",
   "status": "proved",
   "theorems": [
    "C90_connections",
    "C90_new_extension",
    "C90_old_answers"
   ],
   "note": "(PropsProcess.v)"
  },
  {
   "property": "C91",
   "status": "partial",
   "theorems": [
    "C91_delivery",
    "C91_framing_partial",
    "C91_failed_send_refuted",
    "C91_context_refuted"
   ],
   "note": "Refuted after a send that raised half-way (the exception is swallowed and the connection is used on) and for contexts affected by C22. Proved otherwise; what is handed over is described for every run. (PropsLink.v)"
  },
  {
   "property": "C92",
   "status": "proved",
   "theorems": [
    "C92_readers",
    "C92_messages",
    "C92_writers",
    "C92_missing",
    "C92_settings"
   ],
   "note": "(PropsErrors.v)"
  },
  {
   "property": "C93",
   "status": "proved",
   "theorems": [
    "C93_same_question"
   ],
   "note": "For requests answered at once (initialization is C44); encodings in the wire format, canonical or not, or written by the SDK; responses of at most 2^30 bytes. (PropsAnswer.v)"
  },
  {
   "property": "C94",
   "status": "partial",
   "theorems": [
    "C94_history_partial",
    "C94_own_partial",
    "C94_shared_default_refuted",
    "C94_wire_refuted",
    "C94_process_partial",
    "C94_replies_partial"
   ],
   "note": "Refuted: responses made without headers share one dict for the whole process, so a header set on one is on every later one, also on the wire. Proved: exactly what a response says after any history (headers of its dict with every write through any response with the same dict; parameters read before or after its construction; the content flag of the moment of construction), and that a response alone with its dict says only its own headers. Lifted to running hosts (PropsShared.v): the objects of any running extension are those of some history, and its replies say what the last response made says after it. (PropsObjects.v, PropsShared.v)"
  },
  {
   "property": "C95",
   "status": "partial",
   "theorems": [
    "C95_lines_partial",
    "C95_forged_refuted"
   ],
   "note": "Refuted: the action of a request is logged as it is at level INFO, so a peer writes any text it likes at the beginning of a line of the log. Proved: exactly when the records about a chunk are single lines (the strings shown as they are - action; uri and path; the node of a task; ids, names and addresses of nodes - have no line breaks); everything else goes through repr() or is made of fixed characters. (PropsLog.v)"
  },
  {
   "property": "C96",
   "status": "partial",
   "theorems": [
    "C96_chunk_refuted",
    "C96_described_partial",
    "C96_settings_partial"
   ],
   "note": "Refuted: on_connection logs the whole chunk at level INFO, so the log determines every byte received. Proved: but for the dumps of the bytes, the records of all levels depend only on the envelope and on HTTP version, method, uri, path and parameters of a REST request, and not on the values of cluster settings received. (PropsLog.v)"
  },
  {
   "property": "C97",
   "status": "partial",
   "theorems": [
    "C97_ignored_refuted",
    "C97_get_partial",
    "C97_by_default_partial",
    "C97_subclasses_partial"
   ],
   "note": "Refuted: get never uses the fallback. Proved for every Setting (any callable default, parser, validator, fallback): what get returns; that a default which asks the settings for the other key does fall back; that the subclasses are settings of this kind. (PropsFallback.v)"
  },
  {
   "property": "C98",
   "status": "proved",
   "theorems": [
    "C98_sent",
    "C98_recovered"
   ],
   "note": "For the host handling one chunk in any reachable state; the records exceptions cause (async_host.py:58) are not modelled. (PropsSent.v)"
  },
  {
   "property": "C99",
   "status": "proved",
   "theorems": [
    "C99_content",
    "C99_described"
   ],
   "note": "The extensions may be different programs whose states are related by any relation their handlers preserve; replies differ only in content of equal length. (PropsSent.v)"
  },
  {
   "property": "C100",
   "status": "proved",
   "theorems": [
    "C100_lines"
   ],
   "note": "The action of received requests is not shown in these records; features and contexts go through repr(). (PropsSent.v)"
  },
  {
   "property": "C101",
   "status": "proved",
   "theorems": [
    "C101_others",
    "C101_registered",
    "C101_declined"
   ],
   "note": "Handlers of the program are arbitrary functions on the state of the host and of the table. (PropsHandlers.v)"
  },
  {
   "property": "C102",
   "status": "proved",
   "theorems": [
    "C102_once",
    "C102_host"
   ],
   "note": "(PropsHandlers.v)"
  },
  {
   "property": "C103",
   "status": "partial",
   "theorems": [
    "C103_interfaces_refuted",
    "C103_interfaces_partial"
   ],
   "note": "Refuted: only the direct bases are announced, so a class Mine(Base) with Base(Extension, ActionExtension) announces [\"Base\"]. Proved: exactly the names of the direct bases, in order; that these reach the peer unchanged is C44. (PropsHandlers.v)"
  },
  {
   "property": "C104",
   "status": "partial",
   "theorems": [
    "C104_plain_refuted",
    "C104_unanswered_partial",
    "C104_rest_partial",
    "C104_left_partial"
   ],
   "note": "Refuted: named_routes raises AttributeError. Proved for such an extension: initialization and REST requests are never answered; all other traffic is as usual; each initialization leaves a response handler behind under an id the peer was not told. (PropsHandlers.v)"
  },
  {
   "property": "C105",
   "status": "partial",
   "theorems": [
    "C105_no_route_partial",
    "C105_lines_partial",
    "C105_forged_refuted"
   ],
   "note": "Refuted: the warning about a REST request without route shows its path as it is. Proved: the text of that warning for every such request; a warning is more than one line exactly if such a path is. The texts of all other exceptions are a parameter assumed to be one line. (PropsWarn.v)"
  },
  {
   "property": "C106",
   "status": "partial",
   "theorems": [
    "C106_rest_partial",
    "C106_rest_refuted",
    "C106_envelope_partial",
    "C106_envelope_refuted",
    "C106_others_partial",
    "C106_others_refuted"
   ],
   "note": "Refuted three times: a REST request keeps what was consumed and, if the new one has none, its media type; an envelope keeps its old message and writes it out under the new header; a thread context given to several messages is overwritten for all of them. Proved: exactly these remain. The read_from of all other classes assign every attribute (their models take no old object). (PropsReuse.v)"
  },
  {
   "property": "C107",
   "status": "partial",
   "theorems": [
    "C107_writers",
    "C107_refuted",
    "C107_values_partial",
    "C107_collections_partial"
   ],
   "note": "Refuted: a collection that fails has written its size and the elements in front of the first that cannot be written; a generic value its type byte. Proved: this exactly, and that writers of single numbers and strings leave nothing (C107_values_partial). C107_writers relates the tracked writers to those of the other theorems. (PropsTrack.v)"
  },
  {
   "property": "C108",
   "status": "proved",
   "theorems": [
    "C108_readers",
    "C108_errors"
   ],
   "note": "For all readers of the model, with the position after an exception (Track.v); C108_readers relates them to the readers of the other theorems. (PropsTrack.v)"
  },
  {
   "property": "C109",
   "status": "partial",
   "theorems": [
    "C109_values_partial",
    "C109_collections_partial",
    "C109_collections_refuted"
   ],
   "note": "Proved for single values; refuted for collections, which stop behind the malformed element (C109_collections_partial says where). (PropsTrack.v)"
  },
  {
   "property": "C110",
   "status": "proved",
   "theorems": [
    "C110_requests",
    "C110_responses",
    "C110_others",
    "C110_quotes"
   ],
   "note": "Requests, responses and malformed input; what is said about a REST request is C111. The display of characters from 128 up is a parameter. (PropsSeen.v)"
  },
  {
   "property": "C111",
   "status": "partial",
   "theorems": [
    "C111_rest_partial",
    "C111_rest_refuted"
   ],
   "note": "Refuted: the second line of the record lacks the f-prefix, so it shows the source text {self.headers} instead. The fields of the first line are proved to be there. (PropsSeen.v)"
  },
  {
   "property": "C112",
   "status": "proved",
   "theorems": [
    "C112_replies",
    "C112_initialization"
   ],
   "note": "The size in the record is the size in the header; it equals the number of bytes sent less 6 unless the strings of the context are affected by C22. (PropsTold.v)"
  },
  {
   "property": "C113",
   "status": "partial",
   "theorems": [
    "C113_as_asked_partial",
    "C113_replies_partial",
    "C113_zero_refuted",
    "C113_initialization_partial"
   ],
   "note": "Refuted for the id 0: TcpHeader takes a request_id of 0 for a missing one and draws a fresh id from the process-wide counter, so the response can carry the id of another request of the same node. Proved: with any other id it is echoed, with 0 the answer is the one to the same request asked with the drawn id (never 0). (PropsZero.v)"
  },
  {
   "property": "C114",
   "status": "proved",
   "theorems": [
    "C114_answered_or_warned"
   ],
   "note": "(PropsAlert.v)"
  },
  {
   "property": "C115",
   "status": "partial",
   "theorems": [
    "C115_what_partial",
    "C115_declined_refuted"
   ],
   "note": "Refuted: an awaited registration response that OpenSearch declined (status false) makes its handler return None, which the host reports as 'response id N not registered' although the id was. Proved: exactly when each kind of warning is logged. (PropsAlert.v)"
  },
  {
   "property": "C116",
   "status": "partial",
   "theorems": [
    "C116_cut_content_refuted",
    "C116_cut_path_refuted",
    "C116_refuted",
    "C116_whole_partial"
   ],
   "note": "Refuted for every REST request: a chunk that ends within the content or the path is handled as a complete request, with the content (or path) up to there, without token, and answered; a request longer than 10240 bytes always is. Proved: with every frame in a chunk of its own the handlers are given exactly the requests sent, in order. (PropsCut.v)"
  },
  {
   "property": "C117",
   "status": "partial",
   "theorems": [
    "C117_smuggled_refuted",
    "C117_refuted",
    "C117_whole_partial"
   ],
   "note": "Refuted for every answerable message: standing in the content of a request 10240 bytes from the beginning of its frame, it is handled and answered as a message of its own. Proved: with every frame in a chunk of its own, replies are to that frame's message only. (PropsCut.v)"
  },
  {
   "property": "C118",
   "status": "partial",
   "theorems": [
    "C118_cut_refuted",
    "C118_cut_text_refuted",
    "C118_refuted",
    "C118_whole_partial"
   ],
   "note": "Refuted for every settings response: cut before any of its settings, the host sends the deferred initialization response as after the whole one, knowing the settings before the cut and one named \"\"; cut within a text, it knows that setting with the text up to there. Proved: with every message in a chunk of its own, what it knows was sent to it. (PropsCutSettings.v)"
  },
  {
   "property": "C119",
   "status": "partial",
   "theorems": [
    "C119_values_partial",
    "C119_messages_partial",
    "C119_settings_partial",
    "C119_minus_zero_refuted",
    "C119_high_address_refuted",
    "C119_large_version_refuted",
    "C119_set_refuted"
   ],
   "note": "Proved for all values and messages except four groups, where the full statement is refuted by a theorem each: zLong 'minus zero' (comes out as zero; also zero byte sizes and durations), addresses from 128.0.0.0 on (not read), handshake versions from 2^28 on (wrong size in front), sets of two or more members (order of iteration). (PropsAgain.v)"
  },
  {
   "property": "C120",
   "status": "partial",
   "theorems": [
    "C120_determined_partial",
    "C120_space_refuted",
    "C120_names_refuted"
   ],
   "note": "Proved for paths without a space: the announced texts determine method, path and name of every route. Refuted otherwise: every route with a space in its path is announced like another one; and any extension can be built with one name for all its routes. (PropsAnnounce.v)"
  },
  {
   "property": "C121",
   "status": "partial",
   "theorems": [
    "C121_partial",
    "C121_refuted"
   ],
   "note": "Refuted for every handler whose first routes are new: they stay registered and announced, and registering them again raises. Proved: exactly the routes before the first taken one stay, nothing else changes. (PropsAnnounce.v)"
  },
  {
   "property": "C122",
   "status": "partial",
   "theorems": [
    "C122_partial",
    "C122_refuted"
   ],
   "note": "Proved for requests that name a route literally or that the routes of one handler only serve; refuted for all others: of two routes that serve a request the one listed first gets it. (PropsAnnounce.v)"
  },
  {
   "property": "C123",
   "status": "partial",
   "theorems": [
    "C123_exit_refuted",
    "C123_leave_refuted",
    "C123_exceptions_partial",
    "C123_same_partial",
    "C123_escapes_partial"
   ],
   "note": "Refuted: SystemExit and KeyboardInterrupt end the server, other BaseExceptions (and Exceptions whose text cannot be made) close the connection. Proved: with handlers that only return or raise Exceptions everything holds, and the run is that of the other theorems; exact effect of the two escapes. (PropsEscape.v)"
  },
  {
   "property": "C124",
   "status": "partial",
   "theorems": [
    "C124_half_refuted",
    "C124_parts_partial",
    "C124_whole_partial"
   ],
   "note": "Refuted: after a send that failed half-way the connection is kept and the next reply is sent behind the half one. Proved: every reply is received from its beginning, in order; whole if nothing more gets through after a failure (as with a reset connection) or no send fails. (PropsPeer.v)"
  },
  {
   "property": "C125",
   "status": "partial",
   "theorems": [
    "C125_stale_refuted",
    "C125_restart_partial"
   ],
   "note": "Refuted: ids start from 0 in every process, so a stale acknowledgement is taken for a fresh one. Proved: a late response is ignored unless the new process awaits the same id, in particular before it is initialized. (PropsRestart.v)"
  },
  {
   "property": "C126",
   "status": "partial",
   "theorems": [
    "C126_own",
    "C126_value",
    "C126_default_partial",
    "C126_classes",
    "C126_handshake",
    "C126_handshake_refuted",
    "C126_refuted"
   ],
   "note": "Refuted for arguments left out: the defaults are one dict, set, list or TaskId for the whole process, what is done to one object shows in all, and an attribute set on such a node is told to OpenSearch in handshakes. Proved: objects that were read or given containers of their own are written as if they were alone in the process, and then the handshake is as Host.v has it. The two classes do not share their default attributes, nor attributes of different kinds a default. (PropsHeld.v)"
  },
  {
   "property": "C127",
   "status": "proved",
   "theorems": [
    "C127_reply",
    "C127_history",
    "C127_run"
   ],
   "note": "Proved for the reply to a request in any state of the host, for any history of chunks, and for everything sent in any run of the server. Needs that the iteration order of sets is some order of their members and that uuid4 gives 16 bytes. (PropsLength.v)"
  },
  {
   "property": "C128",
   "status": "partial",
   "theorems": [
    "C128_returns",
    "C128_leaves_partial",
    "C128_envelope_partial",
    "C128_node_partial",
    "C128_roles_partial",
    "C128_rest_partial",
    "C128_exec_partial",
    "C128_addr_partial",
    "C128_ext_partial",
    "C128_init_partial",
    "C128_refuted",
    "C128_media_refuted",
    "C128_others_refuted",
    "C128_kept_partial",
    "C128_others_leave_partial",
    "C128_others_return",
    "C128_others_partial",
    "C128_others_kept_partial",
    "C128_settings_return",
    "C128_bounds_partial",
    "C128_parse_partial",
    "C128_settings_leave_partial",
    "C128_settings_partial",
    "C128_settings_refuted"
   ],
   "note": "Refuted: attributes are assigned as they are read; a node gets the new name before its id is found to be malformed, the media type of a refused request shows in the next one read into the object, and a context is read in place, so that another message with it is written with a wrong length. Proved: for all bytes the object has the first attributes as read, the same whatever was there, and all others as before; on input that is well-formed up to some attribute exactly those before it; and what is returned or raised, and the object if nothing is raised, are as the readers have it. Task ids and headers are as they were if reading them raises (headers never do). The same of values with a unit, parsers of settings and validators: a read of the parser of an integer or long setting that raises has always replaced both bounds, so that the setting then takes the values between those of the input. (PropsHalf.v, PropsHalfMore.v, PropsHalfSettings.v)"
  }
 ]
}