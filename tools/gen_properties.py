import json
T="src/opensearch_sdk_py/transport/"; S="src/opensearch_sdk_py/settings/"; R="src/opensearch_sdk_py/rest/"; A="src/opensearch_sdk_py/actions/"; H="src/opensearch_sdk_py/server/"
P=[]
def p(title, statement, quantifier, why, anchors):
    P.append(dict(id="C%02d"%(len(P)+1), title=title, statement=statement, quantifier=quantifier, why_tests_cant=why, anchors=anchors))

p("Fixed-width integers survive the wire",
  "For every integer representable in 1, 4 or 8 bytes two's complement, write_byte/write_int/write_long emit exactly that many big-endian bytes, and read_byte/read_int/read_long on those bytes followed by any other bytes return the same integer and leave exactly the other bytes unread. Every integer outside the range makes the write raise OverflowError.",
  "all integers, all trailing byte strings", "2^64 values and all trailers", [T+"stream_output.py: write_byte, write_int, write_long", T+"stream_input.py: read_byte, read_int, read_long"])
p("vInt round trip and rejection",
  "For every integer 0 <= i < 2^35, write_v_int(i) followed by any bytes is read back by read_v_int as i, leaving exactly those bytes. For every i >= 2^35 what write_v_int emits makes read_v_int raise: it is never decoded to a different number.",
  "all non-negative integers, all trailing byte strings", "the domain is unbounded and the code is an unrolled loop with five shifts", [T+"stream_output.py: write_v_int", T+"stream_input.py: read_v_int"])
p("v_int_size predicts the encoded length",
  "For every integer that write_v_int accepts, v_int_size(i) equals the number of bytes write_v_int(i) emits; for i >= 0 that number is the least k >= 1 with i < 128^k.",
  "all integers", "unbounded domain; message length fields are computed from it", [T+"stream_output.py: v_int_size, write_v_int"])
p("vLong round trip and rejection",
  "For every 0 <= i < 2^64, write_v_long(i) followed by any bytes is read back by read_v_long as i, leaving exactly those bytes. For every i >= 2^64 the emitted bytes make read_v_long raise.",
  "all non-negative integers, all trailing byte strings", "2^64 values, ten-step unrolled reader", [T+"stream_output.py: write_v_long", T+"stream_input.py: read_v_long"])
p("zLong round trip and rejection",
  "For every integer i with |i| < 2^63, write_z_long(i) followed by any bytes is read back by read_z_long as i, leaving exactly those bytes; for every other integer write_z_long raises ValueError.",
  "all integers, all trailing byte strings", "unbounded domain", [T+"stream_output.py: write_z_long", T+"stream_input.py: read_z_long"])
p("zLong is the standard zig-zag format",
  "write_z_long(i) emits the vLong of the protocol-buffers zig-zag value of i (0,-1,1,-2,... -> 0,1,2,3,...), the format the comment cites and OpenSearch uses, for every 64-bit i; and read_z_long decodes that format.",
  "all 64-bit signed integers", "2^64 values; the unit tests pin the SDK's own bytes", [T+"stream_output.py: write_z_long", T+"stream_input.py: read_z_long"])
p("Strings survive the wire as UTF-8",
  "For every Python string that UTF-8 can encode (no lone surrogate) of at most 2^31 encoded bytes, write_string then read_string returns the same string and consumes exactly what was written; the bytes are the vInt of the UTF-8 length followed by the UTF-8 form as the Unicode standard tabulates it. A string with a lone surrogate makes write_string raise.",
  "all strings over all Unicode code points, all trailing byte strings", "infinitely many strings; multi-byte boundaries at 0x80, 0x800, 0xD800, 0x10000", [T+"stream_output.py: write_string", T+"stream_input.py: read_string, read_array_size"])
p("Ill-formed UTF-8 is never turned into text",
  "Whenever read_string returns a string, the bytes it consumed as content are exactly the UTF-8 encoding of that string: overlong forms, surrogates, stray or missing continuation bytes and values above 0x10FFFF all raise.",
  "all byte strings", "all byte sequences of every length", [T+"stream_input.py: read_string"])
p("String collections survive the wire",
  "write_string_array, write_string_set, write_string_to_string_dict, write_string_to_string_array_dict and write_string_to_string_set_dict are inverted by the matching readers for every list, set and dict of encodable strings: same elements, same order for lists and dict keys, same members for sets, and exactly the written bytes are consumed.",
  "all lists, sets and dicts of strings of every size, all set iteration orders, all trailing byte strings", "unbounded sizes and arbitrary set order", [T+"stream_output.py: write_string_array, write_string_to_string_dict, write_string_to_string_array_dict, write_string_to_string_set_dict", T+"stream_input.py: read_string_array, read_string_to_string_dict, read_string_to_string_array_dict, read_string_to_string_set_dict"])
p("Generic values survive the wire",
  "For every value built from None, bool, str, 64-bit int, bytes and lists of such values nested to any depth, write_generic_value then read_generic_value returns an equal value of the same type and consumes exactly the written bytes (as long as Python's recursion limit exceeds the nesting).",
  "all values of every nesting depth, all trailing byte strings", "recursive data of unbounded depth", [T+"stream_output.py: write_generic_value, write_array_list, write_byte_array", T+"stream_input.py: read_generic_value, read_array_list, read_byte_array"])
p("Unsupported generic values are rejected",
  "write_generic_value either writes a value that read_generic_value reads back, or raises; in particular it never silently writes nothing.",
  "all Python values including float and dict", "any type the if-chain does not name falls through", [T+"stream_output.py: write_generic_value"])
p("Truncated input is detected",
  "If a byte string is a proper prefix of what a writer emitted, the matching reader raises instead of returning a value.",
  "all values, all proper prefixes (crash points of the sender)", "every cut position of every message", [T+"stream_input.py: read_byte, read_bytes, read_int, read_string"])
p("Readers only move forward",
  "For every input, every StreamInput reader and every read_from method of messages, settings and parsers that returns leaves unread a suffix of its input; nothing is re-read, invented or reordered.",
  "all byte strings and all readers", "all inputs, including malformed ones", [T+"stream_input.py: StreamInput"])
p("Generic values cannot exhaust a large enough stack",
  "For every input, decoding a generic value of n bytes nests at most n+1 deep: with a recursion budget above that, no input makes read_generic_value fail by recursion.",
  "all byte strings", "adversarial nested input of any length", [T+"stream_input.py: read_generic_value, read_array_list"])
p("Version numbers decompose as MMmmrrbb",
  "For every major, minor, revision, build in 0..99, Version(major*10^6+minor*10^4+revision*100+build) has exactly those components, although they are computed with floating-point division; more generally for every id the components are the decimal digit pairs of the id with the OpenSearch marker bit removed.",
  "all version ids", "10^8 ids and floating-point rounding", [T+"version.py: Version.__init__, __build_string"])
p("Versions survive the wire",
  "For every version id in 0 <= id < 2^35, write_version then read_version gives the same id; bytes(v) then from_bytes gives the same id for 0 <= id < 2^32; a constructed Version(n) carries n xor the marker bit.",
  "all version ids", "unbounded id range and double xor", [T+"version.py: __bytes__, from_bytes", T+"stream_output.py: write_version", T+"stream_input.py: read_version"])
p("version_size predicts the encoded length",
  "version_size(v) equals the number of bytes write_version(v) emits.",
  "all version ids", "unbounded ids", [T+"stream_output.py: version_size, write_version"])
p("TCP header round trip",
  "For every header with a 2-byte prefix, 32-bit size, 64-bit request id, 8-bit status, 32-bit version and 32-bit variable header size, write_to emits exactly 23 bytes laid out as prefix, size, id, status, version, variable size, all big-endian, and read_from on them (with any bytes after) restores every field.",
  "all field values, all trailing byte strings", "2^184 headers", [T+"tcp_header.py: TcpHeader.read_from, write_to"])
p("Status flags are independent",
  "Setting any of is_request/is_response, is_error, is_compress, is_handshake to a value makes that property read that value and changes none of the others, after any sequence of assignments to any status byte. Each is its own bit of the byte (0 response, 1 error, 2 compressed, 3 handshake), and statuses lists exactly the names of the flags that are set.",
  "all status values, all sequences of assignments", "histories of assignments", [T+"tcp_header.py: is_response, is_request, is_error, is_compress, is_handshake, statuses"])
p("Request ids are kept when given",
  "A message constructed with a request id carries that request id.",
  "all integers as request id", "all 2^64 ids; 0 is falsy in Python", [T+"tcp_header.py: TcpHeader.__init__"])
p("Generated request ids never repeat",
  "In any sequence of header constructions in one process, two headers constructed without a request id never carry the same id, and ids are issued in increasing order from 0.",
  "all histories of constructions", "unbounded histories", [T+"tcp_header.py: id_iter, TcpHeader.__init__"])
p("Frame length fields are right",
  "For every request or response message, the size field of the header equals the total number of bytes emitted minus 6, and the variable header size equals the number of bytes of thread context plus features and action.",
  "all thread contexts, features, actions, payloads", "all strings including non-ASCII ones", [T+"outbound_message.py: OutboundMessage.__init__, write_to", T+"network_message.py", T+"thread_context_struct.py: size", T+"stream_output.py: string_to_string_dict_size, string_to_string_collection_dict_size"])
p("Replacing payload or variable bytes keeps the length fields right",
  "Whatever is assigned to message_bytes, variable_bytes and the flags of a message, in any order, the size and variable header size fields equal the lengths of what write_to then emits if and only if they did when the message was built (exactly when the thread context meets the condition of C22).",
  "all sequences of assignments", "unbounded histories of assignments", [T+"outbound_message.py: variable_bytes.setter, message_bytes.setter"])
p("Request envelopes round trip",
  "For every request message (context, features, action, version, id, flags, payload), reading its bytes with TcpHeader and OutboundMessageRequest yields the same context, features, action, id, version and flags, and leaves exactly the payload (and whatever follows it) unread.",
  "all envelopes, all payloads, all trailing bytes", "unbounded strings and nested sizes", [T+"outbound_message.py: read_from", T+"outbound_message_request.py: _read_variable_bytes, _write_variable_bytes"])
p("Response envelopes round trip",
  "For every response message, reading its bytes with TcpHeader and OutboundMessageResponse yields the same context, id, version and flags and leaves exactly the payload and what follows it unread.",
  "all envelopes, all payloads", "unbounded strings", [T+"outbound_message_response.py", T+"outbound_message.py: read_from"])
p("Thread context round trip",
  "For every thread context, write_to then read_from gives the same request headers (in order) and the same response header sets.",
  "all contexts, all set iteration orders", "unbounded maps and arbitrary set order", [T+"thread_context_struct.py: read_from, write_to"])
p("Task ids and plain requests round trip",
  "For every task id (empty node with no id, or non-empty node with a 64-bit id) write_to then read_from restores it; a non-empty node without an id raises on write.",
  "all task ids", "all strings and ids", [T+"task_id.py", T+"transport_request.py"])
p("Transport addresses round trip",
  "Every IPv4 address, host name and 32-bit port written by write_to is read back unchanged by read_from.",
  "all 2^32 addresses, ports, host names", "2^32 addresses; tests use 127.0.0.1", [T+"transport_address.py: read_from, write_to"])
p("Discovery nodes round trip",
  "Every discovery node (names, ids, address, attributes, roles, version) and every discovery extension node (plus minimum version and dependency list) written by write_to is read back unchanged by read_from, roles in the order written.",
  "all nodes, role sets of any order, dependency lists of any length", "unbounded nested structures", [T+"discovery_node.py", T+"discovery_extension_node.py", T+"extension_dependency.py"])
p("Handshake and initialization messages round trip",
  "The transport handshake request/response, tcp handshake request/response, InitializeExtensionRequest/Response and AcknowledgedResponse written by write_to are read back unchanged by read_from.",
  "all field values", "unbounded structures", [T+"transport_service_handshake_response.py", T+"transport_handshaker_handshake_request.py", T+"transport_handshaker_handshake_response.py", T+"initialize_extension_request.py", T+"initialize_extension_response.py", T+"acknowledged_response.py"])
p("Protobuf-carrying requests round trip",
  "For every request type and unique id, ExtensionTransportRequest written by write_to is read back with the same type and id; for every unique id and lists of actions, RegisterRestActionsRequest is read back with the same id and lists.",
  "all enum members, all strings and lists of strings", "unbounded lists", [T+"extension_transport_request.py", T+"register_rest_actions_request.py", "src/opensearch_sdk_py/protobuf/ExtensionRequestProto_pb2.py", "src/opensearch_sdk_py/protobuf/RegisterRestActionsProto_pb2.py", "src/opensearch_sdk_py/protobuf/ExtensionIdentityProto_pb2.py"])
p("REST messages round trip",
  "Every ExtensionRestRequest, ExtensionRestResponse and RestExecuteOnExtensionResponse with a valid method/status/HTTP version written by write_to is read back unchanged by read_from (consumed parameters as a set).",
  "all field values, all enum members, all set orders", "unbounded structures", [R+"extension_rest_request.py", R+"extension_rest_response.py", R+"rest_execute_on_extension_response.py", R+"rest_status.py", R+"rest_method.py"])
p("REST response bytes do not depend on set order",
  "An ExtensionRestResponse with given fields always serializes to the same bytes, whatever order Python iterates its consumed-parameter set in.",
  "all permutations of the consumed parameter set", "hash-seed dependent iteration order", [R+"extension_rest_response.py: write_to"])
p("Consumed parameters and content are tracked exactly",
  "After any sequence of param/has_param/content calls, consumed_params is exactly the set of keys passed to param (present or not), has_param consumes nothing, and content_consumed is true exactly if some content call asked to consume; a response built from the request reports the parameters consumed before it is sent.",
  "all call sequences", "unbounded histories", [R+"extension_rest_request.py: param, has_param, content", R+"extension_rest_response.py: __init__"])
p("Route registration is injective and never overwrites",
  "After any sequence of successful registrations every wildcard route key is held by exactly the handler that registered it first; registering a handler one of whose routes has an already registered key raises and replaces no handler; the announced named routes list every registered route in registration order.",
  "all sequences of registrations, all route strings", "unbounded histories", [R+"extension_rest_handlers.py: register", R+"named_route.py"])
p("Named wildcards are replaced one for one",
  "The key of a route is its method and path with every {name} (shortest match, at least one character, no newline) replaced by *; text outside braces is unchanged and a path without { is its own key.",
  "all paths", "all strings, including nested and unbalanced braces", [R+"extension_rest_handlers.py: register"])
p("Wildcard routes accept every value of their parameters",
  "For every registered route made of literal text (free of the pattern characters * ? [) and {name} placeholders, every request whose path is the literal text with the placeholders replaced by any strings is dispatched to a handler, and to that route's handler if no other key matches.",
  "all routes, all substitutions, all other registrations", "infinitely many substitutions", [R+"extension_rest_handlers.py: handle"])
p("Dispatch order",
  "handle(route) calls the handler registered under exactly that key if there is one, otherwise the first registered handler whose key matches as a glob, otherwise raises; it never calls two handlers.",
  "all registries, all request routes", "unbounded registries and strings", [R+"extension_rest_handlers.py: handle"])
p("A path parameter does not span path segments",
  "A route GET /a/{x} only matches requests whose x contains no '/'.",
  "all routes and requests", "glob semantics over all strings", [R+"extension_rest_handlers.py: handle"])
p("Every reply echoes the request",
  "Whatever request with a non-zero id the host answers at once (handshakes, REST, unknown action), the reply frame has the response bit set, the error bit clear, the same request id, the same handshake and compress bits, the same thread context headers and version MIN_COMPAT, and a size field equal to its length minus 6.",
  "all request frames, all extensions, all host histories", "all inputs and histories", [H+"async_extension_host.py: on_input", A+"request_handler.py: RequestHandler"]+[A+"internal/"+x for x in ["tcp_handshake_request_handler.py","transport_handshake_request_handler.py","extension_rest_request_handler.py","discovery_extensions_request_handler.py","action_not_found_request_error_handler.py"]])
p("Unknown actions are answered with 404",
  "For every well-formed request frame with a non-zero id (for the id 0 see C113) whose action is not one of the four registered ones, the host replies with a RestExecuteOnExtensionResponse of status NOT_FOUND whose content names the action, and changes no pending-response registration.",
  "all action names, payloads and histories", "all strings", [A+"internal/action_not_found_request_error_handler.py", A+"internal/request_error_handler.py", H+"async_extension_host.py: on_input"])
p("REST requests are delivered to the user's handler and its answer returned",
  "For every well-formed REST frame with a non-zero id whose route matches, the user's handler receives exactly the request that was sent, and the reply carries exactly the status, content, content type, headers, consumed parameters and content flag it returned.",
  "all REST requests, all handlers, all histories", "all inputs and handler behaviours", [A+"internal/extension_rest_request_handler.py", "src/opensearch_sdk_py/api/action_extension.py"])
p("Every request is answered",
  "Every request frame gets a reply, also when the user's handler raises or no route matches.",
  "all requests and handler behaviours", "all failure points", [H+"async_host.py: on_connection", A+"internal/extension_rest_request_handler.py"])
p("Initialization is a three-step exchange",
  "After an InitializeExtension request with a non-zero id the host sends a register-rest-actions request carrying the extension's name and routes; on its acknowledgement (status true) an environment-settings request; on that answer an InitializeExtensionResponse with the original request id, the extension's name and interfaces. If the acknowledgement is false or an error response arrives, nothing further is sent.",
  "all init frames, all histories, any unrelated traffic between the steps", "all interleavings with other messages", [A+"internal/discovery_extensions_request_handler.py", A+"internal/register_rest_actions_response_handler.py", A+"internal/environment_settings_response_handler.py"])
p("Concurrent initializations do not mix",
  "If two InitializeExtension requests are in progress at once, each is eventually answered with its own request id.",
  "all interleavings of two exchanges", "schedule-dependent", [A+"internal/discovery_extensions_request_handler.py: self.response"])
p("A response is consumed at most once",
  "In any history, each registered response handler runs at most once: a second response with the same id, or one with an id never issued, produces no output and leaves the registrations unchanged; an error response leaves them unchanged.",
  "all histories of frames", "unbounded histories", [A+"response_handlers.py: register, handle", H+"async_extension_host.py: on_input"])
p("Pending handlers never collide",
  "In any history, registering handlers for outgoing requests never overwrites a pending one: all pending ids are distinct, all were issued by the id generator and none is ever reissued.",
  "all histories of frames", "unbounded histories", [A+"response_handlers.py: register", T+"tcp_header.py: id_iter"])
p("Bad input cannot hurt other traffic",
  "For every history of frames, well-formed or not, on any connections in any interleaving, the reply to a stateless request (handshake, unknown action, REST with a pure handler; with a non-zero id, see C113) is the same as on a freshly started host; an exception while handling a frame sends nothing and the connection goes on.",
  "all histories, all interleavings of connections", "all schedules", [H+"async_host.py: on_connection", H+"async_extension_host.py: on_input"])
p("Message boundaries do not depend on TCP segmentation",
  "The replies depend only on the concatenation of the bytes received on a connection, not on how recv splits it.",
  "all byte streams and all segmentations", "all schedules of the network", [H+"async_host.py: on_connection"])
p("At most one reply per received chunk, in order",
  "On every connection the replies are sent in the order of the received chunks, at most one for each, and the connection is closed after end of input, or after the first chunk handled once termination was requested. The chunks of all connections, in whatever order they arrive, are handled one after the other by the one host, each continuing from the state the previous one left.",
  "all chunk sequences", "unbounded histories", [H+"async_host.py: on_connection"])
p("Integer and long settings respect their bounds",
  "Whatever the settings contain, IntegerSetting.get/LongSetting.get either raises or returns a number within the declared bounds (themselves within 32/64 bits); the constructor rejects defaults and bounds outside.",
  "all settings contents, bounds and defaults", "all inputs", [S+"integer_setting.py", S+"long_setting.py", S+"setting.py: get"])
p("Defaults are returned unchanged",
  "For every setting that could be constructed, get on settings without the key returns the default value (integers, longs, booleans, strings, versions, byte sizes and time values).",
  "all settings and defaults", "printing and re-parsing of all values", [S+"setting.py: get"]+[S+x for x in ["boolean_setting.py","byte_size_value_setting.py","double_setting.py","float_setting.py","integer_setting.py","long_setting.py","string_setting.py","time_value_setting.py","version_setting.py"]])
p("Explicit values take precedence",
  "If the settings hold a value for the key, get returns that value parsed, never the default.",
  "all settings contents", "all values, including falsy ones", [S+"settings.py: get", S+"setting.py: get"])
p("Byte sizes and durations print and parse consistently",
  "For every non-negative size/duration and every unit, parse(str(v)) is v; to_bytes/to_nanos are the size times the unit's factor, so comparisons across units are numeric comparisons.",
  "all sizes and units", "unbounded integers", [T+"byte_size_value.py", T+"time_value.py"])
p("Byte-size and time settings respect their bounds",
  "For every setting whose bounds are defined, every value returned by parse lies within them, compared in bytes/nanoseconds whatever the units; undefined bounds (-1) do not constrain.",
  "all bounds, units and inputs", "all unit combinations", [S+"byte_size_value_setting.py", S+"time_value_setting.py"])
p("Setting parsers round trip",
  "write_to then read_from of an Integer, Long, ByteSizeValue and TimeValue setting parser and of a regex validator restores bounds, key and filtered flag (an undefined maximum time value is restored as undefined).",
  "all bounds and keys", "all field values", [S+"integer_setting.py: Parser", S+"long_setting.py: Parser", S+"byte_size_value_setting.py: Parser", S+"time_value_setting.py: Parser", S+"regex_validator.py"])
p("The filtered property reaches the parser",
  "A setting constructed with Property.FILTERED has a parser whose filtered flag is set, and one constructed without it has not.",
  "all settings and property lists", "argument packing for any property list", [S+"integer_setting.py: __init__", S+"long_setting.py: __init__", S+"time_value_setting.py: __init__"])
p("String settings satisfy their validator",
  "Whatever the settings contain, StringSetting.get either raises or returns a string its regex validator accepts, where accepting means matching (or, if inverted, not matching) the regex at the start.",
  "all settings, regexes and values", "all inputs", [S+"string_setting.py", S+"regex_validator.py", S+"setting.py: get"])
p("Reading settings gives exactly what was sent",
  "Settings().read_from(input) contains exactly the settings in the input, independently of any settings read before in the process.",
  "all histories of reads", "depends on process history (shared default dict)", [S+"settings.py: __init__, read_from"])
p("Floating-point values survive the wire",
  "write_double then read_double returns the same double bit for bit; write_float then read_float returns the same number for every number representable in single precision; every other finite double is written as the nearest single (ties to even), and exactly those from half a unit above the largest single on raise OverflowError instead of becoming infinite.",
  "all 2^64 doubles, all 2^32 floats", "2^64 bit patterns", [T+"stream_output.py: write_double, write_float", T+"stream_input.py: read_double, read_float"])
p("Generated node identifiers are well formed and distinct",
  "The ephemeral id a DiscoveryNode generates is the 16 random bytes in URL-safe base64, 22 characters without padding, and distinct random 16-byte values give distinct ids. A constructed node keeps what it was given; an ephemeral id, host name, host address or version not given (or empty) is the generated id, the address's host name, its dotted decimal notation, the current version.",
  "all 2^128 random values", "2^128 values", [T+"discovery_node.py: __init__"])
p("Negative numbers are never written as vInts",
  "write_v_int(i) raises for every negative i: it never emits bytes for a number the vInt format cannot carry.",
  "all negative integers", "unbounded integers", [T+"stream_output.py: write_v_int, write_byte"])
p("Decoding is not an amplifier",
  "read_string_array returns at most as many strings as its input has bytes, so a peer cannot make the host allocate more than it sent.",
  "all inputs", "all inputs, including truncated ones with a large count", [T+"stream_input.py: read_string_array, read_array_size"])
p("A setting announces its own type",
  "The type a setting announces on the wire is the one its class stands for: BooleanSetting BOOLEAN, IntegerSetting INTEGER, LongSetting LONG, ByteSizeValueSetting BYTE_SIZE_VALUE, TimeValueSetting TIME_VALUE, and so on.",
  "all settings of every class", "all constructor arguments of all classes", [S+"long_setting.py", S+"byte_size_value_setting.py", S+"setting.py: Type"])
p("Headers built with defaults are well formed",
  "A TcpHeader constructed without a version writes a 23-byte header; a message constructed without a version can be written.",
  "all constructions without a version", "all argument combinations", [T+"tcp_header.py: __init__, write_to", T+"network_message.py: __init__"])
p("Float and double settings respect their bounds",
  "Whatever the settings contain, DoubleSetting.get/FloatSetting.get either raises or returns a number (never a NaN) within the declared bounds, infinite ones included; the constructor rejects defaults outside the bounds and NaN; the default is returned when the key is absent; parsers survive the wire.",
  "all settings contents, all bounds, all doubles", "2^64 bounds and defaults, NaN and signed zero comparisons", [S+"double_setting.py", S+"float_setting.py"])
p("Handshakes are answered with the extension's identity",
  "Every well-formed tcp handshake frame with a non-zero id is answered with the current version; every such transport handshake frame with a response any reader decodes to the node hello-world at 127.0.0.1:1234 with the four roles, a fresh ephemeral id and the current version; no other state changes.",
  "all handshake frames, all host states", "all inputs and histories", [A+"internal/tcp_handshake_request_handler.py: handle", A+"internal/transport_handshake_request_handler.py: handle"])
p("Only transport frames are answered",
  "A chunk that is not a transport message (no ES prefix, or shorter than a header) is never answered, and changes nothing.",
  "all byte strings", "all inputs", [H+"async_extension_host.py: on_input", T+"tcp_header.py: read_from"])
p("Primitive values follow the transport wire format",
  "Byte, short, int, long, vInt, vLong, zLong, boolean, byte array, string, string array, set, dict, optional and generic values are written in, read from, and only read from, the byte layout of an independently written wire format; the bytes are determined by the value.",
  "all values, all byte strings", "all values and all encodings, also ones this SDK never writes (padded vInts, repeated keys)", [T+"stream_output.py", T+"stream_input.py"])
p("Frames follow the transport wire format",
  "Every request or response that is written is a frame: marker, sizes, id, status bits, version, thread context, features, action, payload at their places; every such frame, with any flags and any id, is read back as that message.",
  "all messages and all frames", "all messages, contexts and flags", [T+"tcp_header.py", T+"outbound_message.py", T+"outbound_message_request.py", T+"outbound_message_response.py", T+"thread_context_struct.py"])
p("Message payloads follow the transport wire format",
  "Versions, tasks, roles, dependencies, handshakes, initialization responses, REST requests and responses, settings, setting parsers and the two protocol-buffer requests have exactly the field order and encodings of the independent format, and every payload in that format is read.",
  "all messages, all payload bytes", "all field values and all encodings", [T+"version.py", T+"task_id.py", T+"extension_dependency.py", T+"transport_handshaker_handshake_request.py", T+"initialize_extension_response.py", R+"extension_rest_request.py", R+"extension_rest_response.py", S+"settings.py", S+"setting.py", T+"register_rest_actions_request.py", T+"extension_transport_request.py"])
p("Readers refuse what the format does not allow",
  "Booleans other than 0/1, enum numbers out of range, sizes over 2^31, over-long vInts and vLongs, ill-formed UTF-8, unknown generic types and non-IPv4 addresses raise, whatever follows.",
  "all malformed encodings, all continuations", "all byte strings", [T+"stream_input.py", T+"transport_address.py"])
p("The host understands and speaks the wire format end to end",
  "Every request frame in the independent wire format is taken for the message it carries, every response frame for its id and payload, and every immediate reply is a response frame in that format with the request's id, flags and context.",
  "all frames, all host states", "all inputs and histories", [H+"async_extension_host.py: on_input", T+"outbound_message.py"])
p("Messages with node addresses follow the wire format",
  "Transport addresses, discovery nodes, extension descriptions, initialization requests and handshake responses are written in, and read from, the independent format, for every IPv4 address.",
  "all nodes and addresses", "2^32 addresses, all nodes", [T+"transport_address.py", T+"discovery_node.py", T+"discovery_extension_node.py", T+"initialize_extension_request.py", T+"transport_service_handshake_response.py"])
p("The hello sample greets",
  "The hello extension announces the two routes GET /hello and GET /hello/{name}. For every REST request frame with a non-zero id OpenSearch may send it, a GET of /hello or of anything below /hello/ is answered, in any state of the host, with status 200, content type text/plain and the UTF-8 greeting of the request's name parameter (or the general greeting without one), reporting exactly the parameter name as consumed; every other request gets no reply and changes nothing but the id counter.",
  "all request frames, all names, all host states, all trailing bytes", "all Unicode names, all thread contexts, ids, features and header dictionaries", ["samples/hello/hello_rest_handler.py: HelloRestHandler", "samples/hello/hello_extension.py: HelloExtension"])
p("The crud sample performs the matching operation",
  "The crud extension announces four routes on /crud. For every client and every REST request frame with a non-zero id: a POST, GET, PUT or DELETE of exactly /crud makes exactly one client call - index the content; search for parameter q; index the content under parameter id; delete parameter id - on test-index, and is answered with the JSON of the client's result (status 200), reporting exactly the parameters and content used; if the client raises, there is no reply and the host goes on. Every other request reaches no client call, so the handler's broken fallback (a response built with a status in place of the request) is unreachable.",
  "all clients (any function of call and state), all request frames, all host states", "the client is arbitrary user code; all methods, paths and parameters", ["samples/crud/crud_handler.py: CRUDRestHandler", "samples/crud/crud_extension.py: CRUDExtension"])
p("Protobuf requests are read however they are encoded",
  "Reading an extension request or a REST action registration succeeds exactly on proto3 messages, with fields in any order, unknown fields, padded varints, repeated and merged identities: the result is the one the encoding stands for (last identity and request type, all actions in order), and every other byte string - field number 0, cut-off fields, over-long numbers, text that is not UTF-8 - is refused.",
  "all byte strings", "all encodings other programs may produce and all malformed ones", [T+"extension_transport_request.py", T+"register_rest_actions_request.py", "src/opensearch_sdk_py/protobuf/ExtensionRequestProto.proto: ExtensionRequest", "src/opensearch_sdk_py/protobuf/RegisterRestActionsProto.proto: RegisterRestActions", "src/opensearch_sdk_py/protobuf/ExtensionIdentityProto.proto: ExtensionIdentity"])
p("Addresses are accepted and printed in dotted decimal",
  "TransportAddress(text, port, host) succeeds exactly for the dotted decimal notation of a 32-bit address (four numbers up to 255 without superfluous zeros), holds the number that notation means, and names the host by the given name or else by that notation; every other text raises ValueError. Every 32-bit address has exactly one notation, and the one printed is accepted again.",
  "all texts, all 2^32 addresses", "2^32 addresses, all texts", [T+"transport_address.py: __init__", T+"discovery_node.py: __init__"])
p("What the host remembers is bounded by what it was asked",
  "Whatever chunks arrive, in any order: the host waits for at most two responses per initialization request among them, it draws at most five request ids per chunk, an awaited id was drawn from its own counter; its settings change only when a response to an awaited id arrives, its stored init request only with an init request, and extension state only with a REST request. No other traffic makes it grow or forget.",
  "all sequences of chunks, all extensions, all host states", "all inputs and histories, unbounded in length", [H+"async_extension_host.py: on_input", A+"response_handlers.py: ResponseHandlers", T+"tcp_header.py: TcpHeader"])
p("The server accepts connections until it is told to stop",
  "As long as nobody sets host.terminating or cancels host.future, a client that connects to a running server is served, whatever else happened before on any connection or on the listening socket.",
  "all sequences of connections, messages, failures, cancellations and accept errors", "all schedules and failures", [H+"async_host.py: async_run, on_connection"])
p("Termination takes effect",
  "Once host.terminating is set the server accepts no more connections.",
  "all states of the server, all later events", "all schedules", [H+"async_host.py: async_run, on_connection"])
p("A status reaches OpenSearch as the HTTP status it is named after",
  "Each RestStatus name stands for the HTTP status of that name: its number on the wire is the position of its code among the codes in ascending order, all codes have a name and no two share a number, and the first byte of a handler's reply is that number.",
  "all statuses, all replies", "all replies with each of the 47 statuses", [R+"rest_status.py: RestStatus", R+"rest_execute_on_extension_response.py: write_to, read_from"])
p("Quantities are accepted exactly when they are a number and a unit",
  "A ByteSizeValue or TimeValue is parsed from a text exactly when it is digits, optional white space and a unit of the table in any case (b, kb or k, ...; nanos, ..., d) and nothing else; the result is that number and unit; any other text raises ValueError. Settings of these types accept exactly those texts whose value is within the bounds.",
  "all texts, all Unicode characters, all bounds", "all texts: prefixes, suffixes, other scripts' digits, case", [T+"byte_size_value.py: ByteSizeValue.parse", T+"time_value.py: TimeValue.parse", S+"byte_size_value_setting.py: Parser", S+"time_value_setting.py: Parser"])
p("Integer settings accept exactly decimal numerals",
  "IntegerSetting and LongSetting accept a text exactly when it is an optional sign and decimal digits of a number within the bounds, and return that number; any other text raises ValueError.",
  "all texts, all bounds", "all texts: underscores, spaces, other scripts' digits, over-long numerals", [S+"integer_setting.py: Parser.parse", S+"long_setting.py: Parser.parse"])
p("A boolean setting is true exactly for the word true",
  "BooleanSetting never raises on a text: it is true exactly when the text is the four letters of true in any case, and false for every other text.",
  "all texts", "all texts, characters whose lower case is several characters or ASCII", [S+"boolean_setting.py: BooleanSetting.Parser.parse"])
p("A version setting accepts the text of a version",
  "VersionSetting accepts the text str(version) and returns that version.",
  "all versions, all texts", "all versions", [S+"version_setting.py: VersionSetting.Parser.parse", T+"version.py: __str__"])
p("Extensions served in one process do not disturb each other",
  "Several hosts may serve extensions in one event loop. Whatever the program and the hosts do: no response id is awaited by two hosts; what happens to one host changes no connection, reply or awaited response of another; requests with a non-zero id get the reply the extension would give if served alone in a fresh process; an initialization runs to its end with the name and routes of the host's own extension.",
  "all numbers of hosts, all interleavings of their traffic with each other and with the program", "all schedules and histories", [H+"async_extension_host.py: serve, on_input", T+"tcp_header.py: TcpHeader", A+"response_handlers.py: ResponseHandlers", S+"settings.py: Settings"])
p("A host can be run again",
  "A host whose run() has returned can be run again, provided no other host and no other program listens at its port.",
  "all histories of hosts, all ports", "all histories", [H+"async_host.py: async_run, __listen", H+"host.py: Host"])
p("A running host listens at the port it publishes",
  "While a host accepts connections it listens at host.port, a port between 1 and 65535 at which no other host and no other program listens; a host that was given a port uses that one.",
  "all histories of starting, stopping and closing any number of hosts", "all histories, all ports", [H+"async_host.py: async_run, __listen", H+"host.py: Host"])
p("Serving another extension takes over",
  "host.serve(extension) on a host in use keeps its connections and what is being sent on them; from then on requests with a non-zero id are answered by the new extension as if it were served alone in a fresh process, and answers to requests made for the old extension have no effect.",
  "all histories before and after, all extensions", "all histories", [H+"async_extension_host.py: serve", A+"response_handlers.py: ResponseHandlers", A+"internal/discovery_extensions_request_handler.py"])
p("A peer can tell the replies on its connection apart",
  "Replies are handed to the network in pieces, with anything happening in between. At any time the peer can cut what it received at the length fields, in exactly one way, and finds exactly the replies the host had for its requests, in order; what is left over is the beginning of the reply being sent.",
  "all sequences of requests, all ways of cutting replies into pieces, all interleavings with other connections, all failures of sends", "all schedules and failure points", [H+"async_host.py: on_connection", T+"outbound_message.py: OutboundMessage", T+"tcp_header.py: TcpHeader"])
p("The kind of an error tells what was wrong",
  "Reading from a stream raises only Exception (a byte that is no boolean, a number too long, a size over 2^31, an unsupported type), UnicodeDecodeError (not UTF-8), ValueError (no member of an enumeration, no IPv4 address), struct.error (too few bytes for a float), protobuf's DecodeError, or RecursionError (settings nested too deeply); numbers of fixed width, bytes and headers never raise. Writing raises only OverflowError (a number too big for its field), UnicodeEncodeError, ValueError (a zLong over 63 bits), and AttributeError or TypeError exactly when a task's id, a status, a method or a version is missing. Building and getting a setting raises only ValueError, or re.error for a regular expression that does not compile.",
  "all inputs, all values, all messages, all settings", "all byte strings and all field values", [T+"stream_input.py: StreamInput", T+"stream_output.py: StreamOutput", S+"setting.py: Setting"])
p("The answer depends only on the question",
  "Two requests that ask the same get answers with the same payload and leave the extension in the same state, or both get none for the same reason: whatever their (non-zero) ids, thread contexts, features, flags and versions, however their payloads are encoded, and whatever follows them in the chunk.",
  "all pairs of requests with the same action whose payloads encode the same request, all states of the host and the extension", "all encodings and all contexts", [H+"async_extension_host.py: on_input", A+"request_handlers.py: RequestHandlers", A+"internal/extension_rest_request_handler.py", A+"internal/tcp_handshake_request_handler.py", A+"internal/transport_handshake_request_handler.py", A+"internal/action_not_found_request_error_handler.py"])
p("What a handler puts into one response appears in no other",
  "A response says the status, content and media type given to its constructor, the headers it was given or that were set on it and no other response's, the parameters read from its request, and whether that request's content had been read.",
  "all histories of a process that makes requests and responses, reads parameters and contents and sets headers, in any order", "all histories and all aliasing of dicts and requests", ["src/opensearch_sdk_py/rest/extension_rest_response.py: ExtensionRestResponse", "src/opensearch_sdk_py/rest/extension_rest_request.py: ExtensionRestRequest", A+"internal/extension_rest_request_handler.py"])
p("A received message cannot forge log records",
  "Whatever a peer sends, every record the host logs about it is one line, so nobody can write into the log what looks like another record.",
  "all chunks of bytes, all states of the host", "all byte strings", [H+"async_host.py: on_connection", H+"async_extension_host.py: on_input", T+"outbound_message_request.py: __str__", "src/opensearch_sdk_py/rest/extension_rest_request.py: __str__", T+"transport_request.py: __str__", T+"initialize_extension_request.py: __str__"])
p("The log does not disclose confidential parts of requests",
  "The log above the level DEBUG does not tell the headers, the content and the identity token of a REST request: it is the same for all values of them.",
  "all pairs of REST requests that differ only in these parts, all states of the host", "all pairs of inputs (non-interference)", [H+"async_host.py: on_connection", H+"async_extension_host.py: on_input", "src/opensearch_sdk_py/rest/extension_rest_request.py: __str__"])
p("A setting without a value takes that of its fallback",
  "Setting(type, key, default, fallback, parser, validator).get(settings) is the parsed value of the key if it is configured, otherwise the value of the fallback if there is one, otherwise the parsed default.",
  "all contents of the settings, all fallbacks, parsers, validators and defaults computed from the settings", "all functions supplied by the user", [S+"setting.py: Setting.get", S+"settings.py: Settings.get"])
p("Whatever is sent is in the log, and the log determines it",
  "For every message a running host sends it logs, before sending, at INFO its header as the peer will read it and its length, and at DEBUG its bytes; it logs nothing of the kind when it sends nothing. From the log the bytes received and the bytes sent can be read back: equal records mean equal bytes.",
  "all chunks, all reachable states of the host, all extensions", "all inputs and histories", [A+"request_handler.py: send", A+"response_handler.py: send", H+"async_host.py: on_connection", T+"tcp_header.py: __str__"])
p("The log above DEBUG does not disclose the contents of replies",
  "With the level INFO or higher the log of a whole run is the same whatever contents the handlers put into their replies, the lengths given; of each REST reply it tells the status, media type, headers and the length of the content.",
  "all pairs of extensions that differ only in the contents of replies, all sequences of chunks", "all pairs of runs (non-interference)", [A+"request_handler.py: send", "src/opensearch_sdk_py/rest/rest_execute_on_extension_response.py: __str__", H+"async_host.py: on_connection"])
p("Records about what is sent cannot be forged by peers",
  "If the extension's name and the media types chosen by its handlers are one line, every record the host logs about what it sends is one line, whatever peers send and have sent before.",
  "all chunks and histories, all extensions", "all byte strings and histories", [A+"request_handler.py: send", A+"response_handler.py: send", T+"outbound_message.py: __str__"])
p("Requests go to the handler registered last for their action",
  "A program may register request handlers of its own with the host. A request is given, as it was sent, to the handler registered last for its action and to no other, and what that handler returns is the reply; if it returns nothing the requester is told that there is no handler for the action (404). All other traffic is treated as on a host without such handlers.",
  "all sequences of registrations, all handlers (also such as register further handlers), all chunks, all states of the host", "all registrations, all handler code, all inputs", [A+"request_handlers.py: RequestHandlers", A+"request_handler.py: RequestHandler", H+"async_extension_host.py: on_input"])
p("A response handler runs once",
  "In any history of registrations and responses, a response handler registered under a request id is run by the first later response with that id, unless another one was registered under it in between, and by nothing else; afterwards the id is free. The host's own handlers are such a history, with fresh ids.",
  "all histories of register and handle with any ids and handlers; all inputs of the host", "all histories", [A+"response_handlers.py: ResponseHandlers", H+"async_extension_host.py: on_input", A+"internal/discovery_extensions_request_handler.py"])
p("An extension announces the interfaces it implements",
  "The interfaces in the answer to the initialization contain ActionExtension whenever the extension's class derives from it.",
  "all class hierarchies", "all class hierarchies", ["src/opensearch_sdk_py/extension.py: Extension.implemented_interfaces", A+"internal/discovery_extensions_request_handler.py"])
p("Any extension can be served",
  "host.serve(extension) takes any Extension, also one that offers no REST API (no ActionExtension, or its __init__ not called); its initialization by OpenSearch proceeds.",
  "all extensions, all initialization requests, all states of the host", "all inputs and states", [H+"async_extension_host.py: serve", A+"internal/discovery_extensions_request_handler.py", A+"internal/extension_rest_request_handler.py", "src/opensearch_sdk_py/api/action_extension.py: ActionExtension"])
p("Clients cannot forge warnings in the log",
  "Whatever arrives, every record the host logs at the level WARNING about it, including those about exceptions, is one line, if the texts of the exceptions of Python and of the program's own handlers are.",
  "all chunks, all extensions, all states of the host", "all byte strings", [H+"async_host.py: on_connection", "src/opensearch_sdk_py/rest/extension_rest_handlers.py: handle"])
p("Reading into an object replaces what it was, and nothing else",
  "message.read_from(input) leaves the message equal to what a new object of its class would have become, whatever it was used for before, and changes no other message.",
  "all objects with any history, all inputs, all other messages of the program", "all histories of objects, all inputs", ["src/opensearch_sdk_py/rest/extension_rest_request.py: read_from", T+"outbound_message.py: read_from", T+"network_message.py: __init__"])
p("A write that fails writes nothing",
  "When a method of StreamOutput or a write_to raises, the stream holds what it held before, so that the program can go on with it.",
  "all writers, all values they refuse", "all values; which part of a nested value is refused decides what is left", [T+"stream_output.py: StreamOutput", S+"settings.py: write_to"])
p("An error is found where it is",
  "When a method of StreamInput or a read_from raises, it has only moved forward, and unless it came to the end of the input the exception and the place where it stops depend on the bytes it consumed alone: with anything else behind them they are the same.",
  "all readers, all byte strings, all continuations", "all byte strings", [T+"stream_input.py: StreamInput", T+"outbound_message.py: read_from", "src/opensearch_sdk_py/rest/extension_rest_request.py: read_from"])
p("Reading can go on behind a malformed value",
  "When a value of a StreamInput is refused (a boolean other than 0 and 1, a number too long, a text that is not UTF-8, an unknown member of an enumeration), the input stands behind that value, so that the next one can be read; of a collection with a malformed element, behind the collection.",
  "all malformed values and collections, all continuations", "all byte strings", [T+"stream_input.py: StreamInput"])
p("The log describes what is received",
  "For every complete frame received the log holds, in this order, a dump of the bytes, the fields of its header (kind, version, size, id), its thread context, features and action, and the fields of the handshake, initialization request, registration reply, settings or error in it; texts are quoted so that they can be told from the log.",
  "all messages, all hosts, all displays of characters, all texts", "all messages and all texts", ["src/opensearch_sdk_py/server/async_extension_host.py: on_input", T+"tcp_header.py: __str__", T+"outbound_message.py: __str__", T+"discovery_node.py: __str__"])
p("The log tells of every REST request its headers, media type and content length",
  "When a REST request is received, the record about it holds its HTTP version, method, uri, path and parameters, and also its headers, its media type and the length of its content.",
  "all REST requests, all hosts", "all requests", ["src/opensearch_sdk_py/rest/extension_rest_request.py: __str__"])
p("The log describes what is sent",
  "For every frame sent the log holds, in this order, a record with the fields of its header, its thread context, what its payload says (version, node, status and content length of a REST reply, name and interfaces of the extension), features, action and size, and two dumps of its bytes; the frame sent is the one described.",
  "all requests and responses received, in all states a host can reach", "all messages, all histories, all extensions", ["src/opensearch_sdk_py/server/async_extension_host.py: on_input", "src/opensearch_sdk_py/actions/request_handler.py: send", "src/opensearch_sdk_py/actions/response_handler.py: send", T+"outbound_message_response.py: __str__"])
p("Every answer carries the id of the request it answers",
  "The response to a request carries that request's id, whatever it is, so that the requester can tell which of its requests is answered.",
  "all requests that read as such, with any id, all histories of the host; the deferred answer to an initialization as well", "all ids and histories", [T+"outbound_message_response.py: __init__", T+"tcp_header.py: __init__", A+"internal/tcp_handshake_request_handler.py", A+"internal/discovery_extensions_request_handler.py"])
p("Every chunk is answered or warned about",
  "Whatever arrives, either something is sent back and nothing about it is logged at the level WARNING, or nothing is sent and exactly one WARNING record says why.",
  "all chunks, all extensions, all states of the host", "all byte strings and all states", [H+"async_host.py: on_connection", H+"async_extension_host.py: on_input"])
p("A response is called unregistered only if nobody waits for it",
  "The record 'response id N not registered' is logged only for responses whose id the host has no handler for; so that the record points at a stray response.",
  "all responses, all histories of the host", "all histories; every content of an awaited response", [H+"async_extension_host.py: on_input", A+"internal/register_rest_actions_response_handler.py", A+"response_handlers.py: handle"])
p("Handlers are called only with requests that were sent",
  "However the network and the receive buffer of 10240 bytes divide the frames sent on a connection, a handler is called only with requests that were sent, with their whole path, parameters, headers, content and token.",
  "all REST requests of any size, all ways to divide the frames into chunks, all extensions", "all requests and all divisions", [H+"async_host.py: on_connection", T+"stream_input.py: read_bytes, read_byte", R+"extension_rest_request.py: read_from", A+"internal/extension_rest_request_handler.py: handle"])
p("What a client puts into a request is not taken for a message",
  "Whatever bytes a client sends as the content of a REST request, the host answers that request and nothing else: no part of the content is taken for a message from OpenSearch.",
  "all contents, all messages hidden in them, all extensions and states", "all contents and all divisions into chunks", [H+"async_host.py: on_connection", H+"async_extension_host.py: on_input"])
p("Settings are received whole",
  "However the network and the receive buffer of 10240 bytes divide what OpenSearch sends, every environment setting the host knows was in a settings response sent to it, with that value; in particular the initialization is not answered on the strength of a part of the settings.",
  "all settings responses of any size, all ways to divide them, all extensions and states", "all settings and all divisions", [H+"async_host.py: on_connection", "src/opensearch_sdk_py/settings/settings.py: Settings.read_from", A+"internal/environment_settings_response_handler.py: handle", T+"stream_input.py: read_generic_value"])
p("What is read and written again is the same bytes",
  "A value or message that is read and written again comes out as the very bytes it was read from: whoever forwards what was received forwards it unchanged.",
  "all values and messages of the wire format in the shortest form, whatever follows them", "all encodings of all messages", [T+"stream_input.py", T+"stream_output.py", T+"transport_address.py", T+"transport_handshaker_handshake_request.py", "src/opensearch_sdk_py/rest/extension_rest_request.py: read_from, write_to"])
p("The announcement says which routes there are",
  "From what an extension announces to OpenSearch the method, path and name of each of its routes can be told: extensions with different routes announce different things, and no two routes have the same name.",
  "all extensions with any handlers and routes that can be built", "all sets of routes", [R+"named_route.py: NamedRoute.__str__", R+"extension_rest_handlers.py: register"])
p("A registration that fails registers nothing",
  "If registering a handler raises because one of its routes is taken, nothing is registered or announced, so that the handler can be registered again without that route.",
  "all handlers, all states of the registry", "all registries and lists of routes", [R+"extension_rest_handlers.py: register"])
p("The order of the handlers does not matter",
  "Which handler gets a request does not depend on the order in which the extension lists its handlers.",
  "all extensions, all orders of their handlers, all methods and paths", "all routes, orders and paths", [R+"extension_rest_handlers.py: handle", "src/opensearch_sdk_py/api/action_extension.py: __init__"])
p("A handler cannot stop the server",
  "Whatever a REST handler raises, the other connections stay as they are, the server goes on accepting connections, and the connection the request came on stays open.",
  "all programs with any handlers, all histories, all chunks on any connection", "all histories and all outcomes of handlers", [H+"async_host.py: on_connection, async_run", A+"internal/extension_rest_request_handler.py: handle"])
p("Peers receive whole replies",
  "The bytes a peer has received on its connection at any time are a beginning of the replies to its messages, one after the other: no reply is cut and followed by another.",
  "all runs of the server, all points at which a send fails or is cancelled", "all schedules and failure points", [H+"async_host.py: on_connection"])
p("A new process ignores responses meant for the old one",
  "When the process of an extension dies at any point and another one is started in its place, a response to a request of the old process that arrives late changes nothing in the new one.",
  "all histories of both processes, all responses", "all crash points and histories", [T+"tcp_header.py: TcpHeader.id_iter", A+"response_handlers.py: handle"])
p("What is done to one node or request shows in no other",
  "When a program sets an attribute of a node, adds a role or a dependency to it, or changes the task id of a request, no other node or request changes, and OpenSearch is not told of it in handshakes.",
  "all programs that make, read and change any number of nodes and requests in any order", "all sequences of operations", [T+"discovery_node.py: DiscoveryNode.__init__", T+"discovery_extension_node.py: DiscoveryExtensionNode.__init__", T+"transport_request.py: TransportRequest.__init__", A+"internal/transport_handshake_request_handler.py: handle"])
p("No message is much longer than what was received",
  "Every message the host sends is at most as long as the longest chunk it received (10240 bytes) plus a fixed 450 bytes plus what the extension itself contributes (its announcement or the answer of its handler); the reply to a request is at most as long as that request plus the same. So a peer can make the host send only in proportion to what it sends itself, and never more than a known amount at once.",
  "all extensions, all histories, all chunks however malformed, all runs of the server", "all inputs and histories", [H+"async_host.py: on_connection", H+"async_extension_host.py: on_input", T+"thread_context_struct.py: read_from, write_to", T+"stream_input.py: read_string_to_string_dict, read_string_to_string_set_dict", A+"internal/discovery_extensions_request_handler.py: handle", A+"internal/action_not_found_request_error_handler.py: handle"])
p("A read that fails leaves the object as it was",
  "When read_from of a header, a task id, an address, a node, an initialization or handshake message, a REST request or response, an envelope, a value with a unit, the parser of a setting or a validator raises, the object it was called on is as it was before, and so are all others: it can be used, sent or read into again as if nothing had been tried.",
  "all objects, all byte strings on which reading raises", "all malformed inputs and all states of the object", [T+"discovery_node.py: read_from", T+"discovery_extension_node.py: read_from", T+"transport_address.py: read_from", T+"initialize_extension_request.py: read_from", T+"outbound_message.py: read_from", T+"outbound_message_request.py: _read_variable_bytes", T+"thread_context_struct.py: read_from", R+"extension_rest_request.py: read_from", R+"rest_execute_on_extension_response.py: read_from", T+"byte_size_value.py: read_from", S+"integer_setting.py: Parser.read_from", S+"long_setting.py: Parser.read_from", S+"byte_size_value_setting.py: Parser.read_from", S+"time_value_setting.py: Parser.read_from", S+"regex_validator.py: read_from"])
with open("/verif/properties.jsonl","w") as f:
    for x in P: f.write(json.dumps(x, ensure_ascii=False)+"\n")
print(len(P))
