{"id": "C01", "title": "Fixed-width integers survive the wire", "statement": "For every integer representable in 1, 4 or 8 bytes two's complement, write_byte/write_int/write_long emit exactly that many big-endian bytes, and read_byte/read_int/read_long on those bytes followed by any other bytes return the same integer and leave exactly the other bytes unread. Every integer outside the range makes the write raise OverflowError.", "quantifier": "all integers, all trailing byte strings", "why_tests_cant": "2^64 values and all trailers", "anchors": ["src/opensearch_sdk_py/transport/stream_output.py: write_byte, write_int, write_long", "src/opensearch_sdk_py/transport/stream_input.py: read_byte, read_int, read_long"]}
{"id": "C02", "title": "vInt round trip and rejection", "statement": "For every integer 0 <= i < 2^35, write_v_int(i) followed by any bytes is read back by read_v_int as i, leaving exactly those bytes. For every i >= 2^35 what write_v_int emits makes read_v_int raise: it is never decoded to a different number.", "quantifier": "all non-negative integers, all trailing byte strings", "why_tests_cant": "the domain is unbounded and the code is an unrolled loop with five shifts", "anchors": ["src/opensearch_sdk_py/transport/stream_output.py: write_v_int", "src/opensearch_sdk_py/transport/stream_input.py: read_v_int"]}
{"id": "C03", "title": "v_int_size predicts the encoded length", "statement": "For every integer that write_v_int accepts, v_int_size(i) equals the number of bytes write_v_int(i) emits; for i >= 0 that number is the least k >= 1 with i < 128^k.", "quantifier": "all integers", "why_tests_cant": "unbounded domain; message length fields are computed from it", "anchors": ["src/opensearch_sdk_py/transport/stream_output.py: v_int_size, write_v_int"]}
{"id": "C04", "title": "vLong round trip and rejection", "statement": "For every 0 <= i < 2^64, write_v_long(i) followed by any bytes is read back by read_v_long as i, leaving exactly those bytes. For every i >= 2^64 the emitted bytes make read_v_long raise.", "quantifier": "all non-negative integers, all trailing byte strings", "why_tests_cant": "2^64 values, ten-step unrolled reader", "anchors": ["src/opensearch_sdk_py/transport/stream_output.py: write_v_long", "src/opensearch_sdk_py/transport/stream_input.py: read_v_long"]}
{"id": "C05", "title": "zLong round trip and rejection", "statement": "For every integer i with |i| < 2^63, write_z_long(i) followed by any bytes is read back by read_z_long as i, leaving exactly those bytes; for every other integer write_z_long raises ValueError.", "quantifier": "all integers, all trailing byte strings", "why_tests_cant": "unbounded domain", "anchors": ["src/opensearch_sdk_py/transport/stream_output.py: write_z_long", "src/opensearch_sdk_py/transport/stream_input.py: read_z_long"]}
{"id": "C06", "title": "zLong is the standard zig-zag format", "statement": "write_z_long(i) emits the vLong of the protocol-buffers zig-zag value of i (0,-1,1,-2,... -> 0,1,2,3,...), the format the comment cites and OpenSearch uses, for every 64-bit i; and read_z_long decodes that format.", "quantifier": "all 64-bit signed integers", "why_tests_cant": "2^64 values; the unit tests pin the SDK's own bytes", "anchors": ["src/opensearch_sdk_py/transport/stream_output.py: write_z_long", "src/opensearch_sdk_py/transport/stream_input.py: read_z_long"]}
{"id": "C07", "title": "Strings survive the wire as UTF-8", "statement": "For every Python string that UTF-8 can encode (no lone surrogate) of at most 2^31 encoded bytes, write_string then read_string returns the same string and consumes exactly what was written; the bytes are the vInt of the UTF-8 length followed by the UTF-8 form as the Unicode standard tabulates it. A string with a lone surrogate makes write_string raise.", "quantifier": "all strings over all Unicode code points, all trailing byte strings", "why_tests_cant": "infinitely many strings; multi-byte boundaries at 0x80, 0x800, 0xD800, 0x10000", "anchors": ["src/opensearch_sdk_py/transport/stream_output.py: write_string", "src/opensearch_sdk_py/transport/stream_input.py: read_string, read_array_size"]}
{"id": "C08", "title": "Ill-formed UTF-8 is never turned into text", "statement": "Whenever read_string returns a string, the bytes it consumed as content are exactly the UTF-8 encoding of that string: overlong forms, surrogates, stray or missing continuation bytes and values above 0x10FFFF all raise.", "quantifier": "all byte strings", "why_tests_cant": "all byte sequences of every length", "anchors": ["src/opensearch_sdk_py/transport/stream_input.py: read_string"]}
{"id": "C09", "title": "String collections survive the wire", "statement": "write_string_array, write_string_set, write_string_to_string_dict, write_string_to_string_array_dict and write_string_to_string_set_dict are inverted by the matching readers for every list, set and dict of encodable strings: same elements, same order for lists and dict keys, same members for sets, and exactly the written bytes are consumed.", "quantifier": "all lists, sets and dicts of strings of every size, all set iteration orders, all trailing byte strings", "why_tests_cant": "unbounded sizes and arbitrary set order", "anchors": ["src/opensearch_sdk_py/transport/stream_output.py: write_string_array, write_string_to_string_dict, write_string_to_string_array_dict, write_string_to_string_set_dict", "src/opensearch_sdk_py/transport/stream_input.py: read_string_array, read_string_to_string_dict, read_string_to_string_array_dict, read_string_to_string_set_dict"]}
{"id": "C10", "title": "Generic values survive the wire", "statement": "For every value built from None, bool, str, 64-bit int, bytes and lists of such values nested to any depth, write_generic_value then read_generic_value returns an equal value of the same type and consumes exactly the written bytes (as long as Python's recursion limit exceeds the nesting).", "quantifier": "all values of every nesting depth, all trailing byte strings", "why_tests_cant": "recursive data of unbounded depth", "anchors": ["src/opensearch_sdk_py/transport/stream_output.py: write_generic_value, write_array_list, write_byte_array", "src/opensearch_sdk_py/transport/stream_input.py: read_generic_value, read_array_list, read_byte_array"]}
{"id": "C11", "title": "Unsupported generic values are rejected", "statement": "write_generic_value either writes a value that read_generic_value reads back, or raises; in particular it never silently writes nothing.", "quantifier": "all Python values including float and dict", "why_tests_cant": "any type the if-chain does not name falls through", "anchors": ["src/opensearch_sdk_py/transport/stream_output.py: write_generic_value"]}
{"id": "C12", "title": "Truncated input is detected", "statement": "If a byte string is a proper prefix of what a writer emitted, the matching reader raises instead of returning a value.", "quantifier": "all values, all proper prefixes (crash points of the sender)", "why_tests_cant": "every cut position of every message", "anchors": ["src/opensearch_sdk_py/transport/stream_input.py: read_byte, read_bytes, read_int, read_string"]}
{"id": "C13", "title": "Readers only move forward", "statement": "For every input, every StreamInput reader and every read_from method of messages, settings and parsers that returns leaves unread a suffix of its input; nothing is re-read, invented or reordered.", "quantifier": "all byte strings and all readers", "why_tests_cant": "all inputs, including malformed ones", "anchors": ["src/opensearch_sdk_py/transport/stream_input.py: StreamInput"]}
{"id": "C14", "title": "Generic values cannot exhaust a large enough stack", "statement": "For every input, decoding a generic value of n bytes nests at most n+1 deep: with a recursion budget above that, no input makes read_generic_value fail by recursion.", "quantifier": "all byte strings", "why_tests_cant": "adversarial nested input of any length", "anchors": ["src/opensearch_sdk_py/transport/stream_input.py: read_generic_value, read_array_list"]}
{"id": "C15", "title": "Version numbers decompose as MMmmrrbb", "statement": "For every major, minor, revision, build in 0..99, Version(major*10^6+minor*10^4+revision*100+build) has exactly those components, although they are computed with floating-point division; more generally for every id the components are the decimal digit pairs of the id with the OpenSearch marker bit removed.", "quantifier": "all version ids", "why_tests_cant": "10^8 ids and floating-point rounding", "anchors": ["src/opensearch_sdk_py/transport/version.py: Version.__init__, __build_string"]}
{"id": "C16", "title": "Versions survive the wire", "statement": "For every version id in 0 <= id < 2^35, write_version then read_version gives the same id; bytes(v) then from_bytes gives the same id for 0 <= id < 2^32; a constructed Version(n) carries n xor the marker bit.", "quantifier": "all version ids", "why_tests_cant": "unbounded id range and double xor", "anchors": ["src/opensearch_sdk_py/transport/version.py: __bytes__, from_bytes", "src/opensearch_sdk_py/transport/stream_output.py: write_version", "src/opensearch_sdk_py/transport/stream_input.py: read_version"]}
{"id": "C17", "title": "version_size predicts the encoded length", "statement": "version_size(v) equals the number of bytes write_version(v) emits.", "quantifier": "all version ids", "why_tests_cant": "unbounded ids", "anchors": ["src/opensearch_sdk_py/transport/stream_output.py: version_size, write_version"]}
{"id": "C18", "title": "TCP header round trip", "statement": "For every header with a 2-byte prefix, 32-bit size, 64-bit request id, 8-bit status, 32-bit version and 32-bit variable header size, write_to emits exactly 23 bytes laid out as prefix, size, id, status, version, variable size, all big-endian, and read_from on them (with any bytes after) restores every field.", "quantifier": "all field values, all trailing byte strings", "why_tests_cant": "2^184 headers", "anchors": ["src/opensearch_sdk_py/transport/tcp_header.py: TcpHeader.read_from, write_to"]}
{"id": "C19", "title": "Status flags are independent", "statement": "Setting any of is_request/is_response, is_error, is_compress, is_handshake to a value makes that property read that value and changes none of the others, after any sequence of assignments to any status byte. Each is its own bit of the byte (0 response, 1 error, 2 compressed, 3 handshake), and statuses lists exactly the names of the flags that are set.", "quantifier": "all status values, all sequences of assignments", "why_tests_cant": "histories of assignments", "anchors": ["src/opensearch_sdk_py/transport/tcp_header.py: is_response, is_request, is_error, is_compress, is_handshake, statuses"]}
{"id": "C20", "title": "Request ids are kept when given", "statement": "A message constructed with a request id carries that request id.", "quantifier": "all integers as request id", "why_tests_cant": "all 2^64 ids; 0 is falsy in Python", "anchors": ["src/opensearch_sdk_py/transport/tcp_header.py: TcpHeader.__init__"]}
{"id": "C21", "title": "Generated request ids never repeat", "statement": "In any sequence of header constructions in one process, two headers constructed without a request id never carry the same id, and ids are issued in increasing order from 0.", "quantifier": "all histories of constructions", "why_tests_cant": "unbounded histories", "anchors": ["src/opensearch_sdk_py/transport/tcp_header.py: id_iter, TcpHeader.__init__"]}
{"id": "C22", "title": "Frame length fields are right", "statement": "For every request or response message, the size field of the header equals the total number of bytes emitted minus 6, and the variable header size equals the number of bytes of thread context plus features and action.", "quantifier": "all thread contexts, features, actions, payloads", "why_tests_cant": "all strings including non-ASCII ones", "anchors": ["src/opensearch_sdk_py/transport/outbound_message.py: OutboundMessage.__init__, write_to", "src/opensearch_sdk_py/transport/network_message.py", "src/opensearch_sdk_py/transport/thread_context_struct.py: size", "src/opensearch_sdk_py/transport/stream_output.py: string_to_string_dict_size, string_to_string_collection_dict_size"]}
{"id": "C23", "title": "Replacing payload or variable bytes keeps the length fields right", "statement": "Whatever is assigned to message_bytes, variable_bytes and the flags of a message, in any order, the size and variable header size fields equal the lengths of what write_to then emits if and only if they did when the message was built (exactly when the thread context meets the condition of C22).", "quantifier": "all sequences of assignments", "why_tests_cant": "unbounded histories of assignments", "anchors": ["src/opensearch_sdk_py/transport/outbound_message.py: variable_bytes.setter, message_bytes.setter"]}
{"id": "C24", "title": "Request envelopes round trip", "statement": "For every request message (context, features, action, version, id, flags, payload), reading its bytes with TcpHeader and OutboundMessageRequest yields the same context, features, action, id, version and flags, and leaves exactly the payload (and whatever follows it) unread.", "quantifier": "all envelopes, all payloads, all trailing bytes", "why_tests_cant": "unbounded strings and nested sizes", "anchors": ["src/opensearch_sdk_py/transport/outbound_message.py: read_from", "src/opensearch_sdk_py/transport/outbound_message_request.py: _read_variable_bytes, _write_variable_bytes"]}
{"id": "C25", "title": "Response envelopes round trip", "statement": "For every response message, reading its bytes with TcpHeader and OutboundMessageResponse yields the same context, id, version and flags and leaves exactly the payload and what follows it unread.", "quantifier": "all envelopes, all payloads", "why_tests_cant": "unbounded strings", "anchors": ["src/opensearch_sdk_py/transport/outbound_message_response.py", "src/opensearch_sdk_py/transport/outbound_message.py: read_from"]}
{"id": "C26", "title": "Thread context round trip", "statement": "For every thread context, write_to then read_from gives the same request headers (in order) and the same response header sets.", "quantifier": "all contexts, all set iteration orders", "why_tests_cant": "unbounded maps and arbitrary set order", "anchors": ["src/opensearch_sdk_py/transport/thread_context_struct.py: read_from, write_to"]}
{"id": "C27", "title": "Task ids and plain requests round trip", "statement": "For every task id (empty node with no id, or non-empty node with a 64-bit id) write_to then read_from restores it; a non-empty node without an id raises on write.", "quantifier": "all task ids", "why_tests_cant": "all strings and ids", "anchors": ["src/opensearch_sdk_py/transport/task_id.py", "src/opensearch_sdk_py/transport/transport_request.py"]}
{"id": "C28", "title": "Transport addresses round trip", "statement": "Every IPv4 address, host name and 32-bit port written by write_to is read back unchanged by read_from.", "quantifier": "all 2^32 addresses, ports, host names", "why_tests_cant": "2^32 addresses; tests use 127.0.0.1", "anchors": ["src/opensearch_sdk_py/transport/transport_address.py: read_from, write_to"]}
{"id": "C29", "title": "Discovery nodes round trip", "statement": "Every discovery node (names, ids, address, attributes, roles, version) and every discovery extension node (plus minimum version and dependency list) written by write_to is read back unchanged by read_from, roles in the order written.", "quantifier": "all nodes, role sets of any order, dependency lists of any length", "why_tests_cant": "unbounded nested structures", "anchors": ["src/opensearch_sdk_py/transport/discovery_node.py", "src/opensearch_sdk_py/transport/discovery_extension_node.py", "src/opensearch_sdk_py/transport/extension_dependency.py"]}
{"id": "C30", "title": "Handshake and initialization messages round trip", "statement": "The transport handshake request/response, tcp handshake request/response, InitializeExtensionRequest/Response and AcknowledgedResponse written by write_to are read back unchanged by read_from.", "quantifier": "all field values", "why_tests_cant": "unbounded structures", "anchors": ["src/opensearch_sdk_py/transport/transport_service_handshake_response.py", "src/opensearch_sdk_py/transport/transport_handshaker_handshake_request.py", "src/opensearch_sdk_py/transport/transport_handshaker_handshake_response.py", "src/opensearch_sdk_py/transport/initialize_extension_request.py", "src/opensearch_sdk_py/transport/initialize_extension_response.py", "src/opensearch_sdk_py/transport/acknowledged_response.py"]}
{"id": "C31", "title": "Protobuf-carrying requests round trip", "statement": "For every request type and unique id, ExtensionTransportRequest written by write_to is read back with the same type and id; for every unique id and lists of actions, RegisterRestActionsRequest is read back with the same id and lists.", "quantifier": "all enum members, all strings and lists of strings", "why_tests_cant": "unbounded lists", "anchors": ["src/opensearch_sdk_py/transport/extension_transport_request.py", "src/opensearch_sdk_py/transport/register_rest_actions_request.py", "src/opensearch_sdk_py/protobuf/ExtensionRequestProto_pb2.py", "src/opensearch_sdk_py/protobuf/RegisterRestActionsProto_pb2.py", "src/opensearch_sdk_py/protobuf/ExtensionIdentityProto_pb2.py"]}
{"id": "C32", "title": "REST messages round trip", "statement": "Every ExtensionRestRequest, ExtensionRestResponse and RestExecuteOnExtensionResponse with a valid method/status/HTTP version written by write_to is read back unchanged by read_from (consumed parameters as a set).", "quantifier": "all field values, all enum members, all set orders", "why_tests_cant": "unbounded structures", "anchors": ["src/opensearch_sdk_py/rest/extension_rest_request.py", "src/opensearch_sdk_py/rest/extension_rest_response.py", "src/opensearch_sdk_py/rest/rest_execute_on_extension_response.py", "src/opensearch_sdk_py/rest/rest_status.py", "src/opensearch_sdk_py/rest/rest_method.py"]}
{"id": "C33", "title": "REST response bytes do not depend on set order", "statement": "An ExtensionRestResponse with given fields always serializes to the same bytes, whatever order Python iterates its consumed-parameter set in.", "quantifier": "all permutations of the consumed parameter set", "why_tests_cant": "hash-seed dependent iteration order", "anchors": ["src/opensearch_sdk_py/rest/extension_rest_response.py: write_to"]}
{"id": "C34", "title": "Consumed parameters and content are tracked exactly", "statement": "After any sequence of param/has_param/content calls, consumed_params is exactly the set of keys passed to param (present or not), has_param consumes nothing, and content_consumed is true exactly if some content call asked to consume; a response built from the request reports the parameters consumed before it is sent.", "quantifier": "all call sequences", "why_tests_cant": "unbounded histories", "anchors": ["src/opensearch_sdk_py/rest/extension_rest_request.py: param, has_param, content", "src/opensearch_sdk_py/rest/extension_rest_response.py: __init__"]}
{"id": "C35", "title": "Route registration is injective and never overwrites", "statement": "After any sequence of successful registrations every wildcard route key is held by exactly the handler that registered it first; registering a handler one of whose routes has an already registered key raises and replaces no handler; the announced named routes list every registered route in registration order.", "quantifier": "all sequences of registrations, all route strings", "why_tests_cant": "unbounded histories", "anchors": ["src/opensearch_sdk_py/rest/extension_rest_handlers.py: register", "src/opensearch_sdk_py/rest/named_route.py"]}
{"id": "C36", "title": "Named wildcards are replaced one for one", "statement": "The key of a route is its method and path with every {name} (shortest match, at least one character, no newline) replaced by *; text outside braces is unchanged and a path without { is its own key.", "quantifier": "all paths", "why_tests_cant": "all strings, including nested and unbalanced braces", "anchors": ["src/opensearch_sdk_py/rest/extension_rest_handlers.py: register"]}
{"id": "C37", "title": "Wildcard routes accept every value of their parameters", "statement": "For every registered route made of literal text (free of the pattern characters * ? [) and {name} placeholders, every request whose path is the literal text with the placeholders replaced by any strings is dispatched to a handler, and to that route's handler if no other key matches.", "quantifier": "all routes, all substitutions, all other registrations", "why_tests_cant": "infinitely many substitutions", "anchors": ["src/opensearch_sdk_py/rest/extension_rest_handlers.py: handle"]}
{"id": "C38", "title": "Dispatch order", "statement": "handle(route) calls the handler registered under exactly that key if there is one, otherwise the first registered handler whose key matches as a glob, otherwise raises; it never calls two handlers.", "quantifier": "all registries, all request routes", "why_tests_cant": "unbounded registries and strings", "anchors": ["src/opensearch_sdk_py/rest/extension_rest_handlers.py: handle"]}
{"id": "C39", "title": "A path parameter does not span path segments", "statement": "A route GET /a/{x} only matches requests whose x contains no '/'.", "quantifier": "all routes and requests", "why_tests_cant": "glob semantics over all strings", "anchors": ["src/opensearch_sdk_py/rest/extension_rest_handlers.py: handle"]}
{"id": "C40", "title": "Every reply echoes the request", "statement": "Whatever request with a non-zero id the host answers at once (handshakes, REST, unknown action), the reply frame has the response bit set, the error bit clear, the same request id, the same handshake and compress bits, the same thread context headers and version MIN_COMPAT, and a size field equal to its length minus 6.", "quantifier": "all request frames, all extensions, all host histories", "why_tests_cant": "all inputs and histories", "anchors": ["src/opensearch_sdk_py/server/async_extension_host.py: on_input", "src/opensearch_sdk_py/actions/request_handler.py: RequestHandler", "src/opensearch_sdk_py/actions/internal/tcp_handshake_request_handler.py", "src/opensearch_sdk_py/actions/internal/transport_handshake_request_handler.py", "src/opensearch_sdk_py/actions/internal/extension_rest_request_handler.py", "src/opensearch_sdk_py/actions/internal/discovery_extensions_request_handler.py", "src/opensearch_sdk_py/actions/internal/action_not_found_request_error_handler.py"]}
{"id": "C41", "title": "Unknown actions are answered with 404", "statement": "For every well-formed request frame with a non-zero id (for the id 0 see C113) whose action is not one of the four registered ones, the host replies with a RestExecuteOnExtensionResponse of status NOT_FOUND whose content names the action, and changes no pending-response registration.", "quantifier": "all action names, payloads and histories", "why_tests_cant": "all strings", "anchors": ["src/opensearch_sdk_py/actions/internal/action_not_found_request_error_handler.py", "src/opensearch_sdk_py/actions/internal/request_error_handler.py", "src/opensearch_sdk_py/server/async_extension_host.py: on_input"]}
{"id": "C42", "title": "REST requests are delivered to the user's handler and its answer returned", "statement": "For every well-formed REST frame with a non-zero id whose route matches, the user's handler receives exactly the request that was sent, and the reply carries exactly the status, content, content type, headers, consumed parameters and content flag it returned.", "quantifier": "all REST requests, all handlers, all histories", "why_tests_cant": "all inputs and handler behaviours", "anchors": ["src/opensearch_sdk_py/actions/internal/extension_rest_request_handler.py", "src/opensearch_sdk_py/api/action_extension.py"]}
{"id": "C43", "title": "Every request is answered", "statement": "Every request frame gets a reply, also when the user's handler raises or no route matches.", "quantifier": "all requests and handler behaviours", "why_tests_cant": "all failure points", "anchors": ["src/opensearch_sdk_py/server/async_host.py: on_connection", "src/opensearch_sdk_py/actions/internal/extension_rest_request_handler.py"]}
{"id": "C44", "title": "Initialization is a three-step exchange", "statement": "After an InitializeExtension request with a non-zero id the host sends a register-rest-actions request carrying the extension's name and routes; on its acknowledgement (status true) an environment-settings request; on that answer an InitializeExtensionResponse with the original request id, the extension's name and interfaces. If the acknowledgement is false or an error response arrives, nothing further is sent.", "quantifier": "all init frames, all histories, any unrelated traffic between the steps", "why_tests_cant": "all interleavings with other messages", "anchors": ["src/opensearch_sdk_py/actions/internal/discovery_extensions_request_handler.py", "src/opensearch_sdk_py/actions/internal/register_rest_actions_response_handler.py", "src/opensearch_sdk_py/actions/internal/environment_settings_response_handler.py"]}
{"id": "C45", "title": "Concurrent initializations do not mix", "statement": "If two InitializeExtension requests are in progress at once, each is eventually answered with its own request id.", "quantifier": "all interleavings of two exchanges", "why_tests_cant": "schedule-dependent", "anchors": ["src/opensearch_sdk_py/actions/internal/discovery_extensions_request_handler.py: self.response"]}
{"id": "C46", "title": "A response is consumed at most once", "statement": "In any history, each registered response handler runs at most once: a second response with the same id, or one with an id never issued, produces no output and leaves the registrations unchanged; an error response leaves them unchanged.", "quantifier": "all histories of frames", "why_tests_cant": "unbounded histories", "anchors": ["src/opensearch_sdk_py/actions/response_handlers.py: register, handle", "src/opensearch_sdk_py/server/async_extension_host.py: on_input"]}
{"id": "C47", "title": "Pending handlers never collide", "statement": "In any history, registering handlers for outgoing requests never overwrites a pending one: all pending ids are distinct, all were issued by the id generator and none is ever reissued.", "quantifier": "all histories of frames", "why_tests_cant": "unbounded histories", "anchors": ["src/opensearch_sdk_py/actions/response_handlers.py: register", "src/opensearch_sdk_py/transport/tcp_header.py: id_iter"]}
{"id": "C48", "title": "Bad input cannot hurt other traffic", "statement": "For every history of frames, well-formed or not, on any connections in any interleaving, the reply to a stateless request (handshake, unknown action, REST with a pure handler; with a non-zero id, see C113) is the same as on a freshly started host; an exception while handling a frame sends nothing and the connection goes on.", "quantifier": "all histories, all interleavings of connections", "why_tests_cant": "all schedules", "anchors": ["src/opensearch_sdk_py/server/async_host.py: on_connection", "src/opensearch_sdk_py/server/async_extension_host.py: on_input"]}
{"id": "C49", "title": "Message boundaries do not depend on TCP segmentation", "statement": "The replies depend only on the concatenation of the bytes received on a connection, not on how recv splits it.", "quantifier": "all byte streams and all segmentations", "why_tests_cant": "all schedules of the network", "anchors": ["src/opensearch_sdk_py/server/async_host.py: on_connection"]}
{"id": "C50", "title": "At most one reply per received chunk, in order", "statement": "On every connection the replies are sent in the order of the received chunks, at most one for each, and the connection is closed after end of input, or after the first chunk handled once termination was requested. The chunks of all connections, in whatever order they arrive, are handled one after the other by the one host, each continuing from the state the previous one left.", "quantifier": "all chunk sequences", "why_tests_cant": "unbounded histories", "anchors": ["src/opensearch_sdk_py/server/async_host.py: on_connection"]}
{"id": "C51", "title": "Integer and long settings respect their bounds", "statement": "Whatever the settings contain, IntegerSetting.get/LongSetting.get either raises or returns a number within the declared bounds (themselves within 32/64 bits); the constructor rejects defaults and bounds outside.", "quantifier": "all settings contents, bounds and defaults", "why_tests_cant": "all inputs", "anchors": ["src/opensearch_sdk_py/settings/integer_setting.py", "src/opensearch_sdk_py/settings/long_setting.py", "src/opensearch_sdk_py/settings/setting.py: get"]}
{"id": "C52", "title": "Defaults are returned unchanged", "statement": "For every setting that could be constructed, get on settings without the key returns the default value (integers, longs, booleans, strings, versions, byte sizes and time values).", "quantifier": "all settings and defaults", "why_tests_cant": "printing and re-parsing of all values", "anchors": ["src/opensearch_sdk_py/settings/setting.py: get", "src/opensearch_sdk_py/settings/boolean_setting.py", "src/opensearch_sdk_py/settings/byte_size_value_setting.py", "src/opensearch_sdk_py/settings/double_setting.py", "src/opensearch_sdk_py/settings/float_setting.py", "src/opensearch_sdk_py/settings/integer_setting.py", "src/opensearch_sdk_py/settings/long_setting.py", "src/opensearch_sdk_py/settings/string_setting.py", "src/opensearch_sdk_py/settings/time_value_setting.py", "src/opensearch_sdk_py/settings/version_setting.py"]}
{"id": "C53", "title": "Explicit values take precedence", "statement": "If the settings hold a value for the key, get returns that value parsed, never the default.", "quantifier": "all settings contents", "why_tests_cant": "all values, including falsy ones", "anchors": ["src/opensearch_sdk_py/settings/settings.py: get", "src/opensearch_sdk_py/settings/setting.py: get"]}
{"id": "C54", "title": "Byte sizes and durations print and parse consistently", "statement": "For every non-negative size/duration and every unit, parse(str(v)) is v; to_bytes/to_nanos are the size times the unit's factor, so comparisons across units are numeric comparisons.", "quantifier": "all sizes and units", "why_tests_cant": "unbounded integers", "anchors": ["src/opensearch_sdk_py/transport/byte_size_value.py", "src/opensearch_sdk_py/transport/time_value.py"]}
{"id": "C55", "title": "Byte-size and time settings respect their bounds", "statement": "For every setting whose bounds are defined, every value returned by parse lies within them, compared in bytes/nanoseconds whatever the units; undefined bounds (-1) do not constrain.", "quantifier": "all bounds, units and inputs", "why_tests_cant": "all unit combinations", "anchors": ["src/opensearch_sdk_py/settings/byte_size_value_setting.py", "src/opensearch_sdk_py/settings/time_value_setting.py"]}
{"id": "C56", "title": "Setting parsers round trip", "statement": "write_to then read_from of an Integer, Long, ByteSizeValue and TimeValue setting parser and of a regex validator restores bounds, key and filtered flag (an undefined maximum time value is restored as undefined).", "quantifier": "all bounds and keys", "why_tests_cant": "all field values", "anchors": ["src/opensearch_sdk_py/settings/integer_setting.py: Parser", "src/opensearch_sdk_py/settings/long_setting.py: Parser", "src/opensearch_sdk_py/settings/byte_size_value_setting.py: Parser", "src/opensearch_sdk_py/settings/time_value_setting.py: Parser", "src/opensearch_sdk_py/settings/regex_validator.py"]}
{"id": "C57", "title": "The filtered property reaches the parser", "statement": "A setting constructed with Property.FILTERED has a parser whose filtered flag is set, and one constructed without it has not.", "quantifier": "all settings and property lists", "why_tests_cant": "argument packing for any property list", "anchors": ["src/opensearch_sdk_py/settings/integer_setting.py: __init__", "src/opensearch_sdk_py/settings/long_setting.py: __init__", "src/opensearch_sdk_py/settings/time_value_setting.py: __init__"]}
{"id": "C58", "title": "String settings satisfy their validator", "statement": "Whatever the settings contain, StringSetting.get either raises or returns a string its regex validator accepts, where accepting means matching (or, if inverted, not matching) the regex at the start.", "quantifier": "all settings, regexes and values", "why_tests_cant": "all inputs", "anchors": ["src/opensearch_sdk_py/settings/string_setting.py", "src/opensearch_sdk_py/settings/regex_validator.py", "src/opensearch_sdk_py/settings/setting.py: get"]}
{"id": "C59", "title": "Reading settings gives exactly what was sent", "statement": "Settings().read_from(input) contains exactly the settings in the input, independently of any settings read before in the process.", "quantifier": "all histories of reads", "why_tests_cant": "depends on process history (shared default dict)", "anchors": ["src/opensearch_sdk_py/settings/settings.py: __init__, read_from"]}
{"id": "C60", "title": "Floating-point values survive the wire", "statement": "write_double then read_double returns the same double bit for bit; write_float then read_float returns the same number for every number representable in single precision; every other finite double is written as the nearest single (ties to even), and exactly those from half a unit above the largest single on raise OverflowError instead of becoming infinite.", "quantifier": "all 2^64 doubles, all 2^32 floats", "why_tests_cant": "2^64 bit patterns", "anchors": ["src/opensearch_sdk_py/transport/stream_output.py: write_double, write_float", "src/opensearch_sdk_py/transport/stream_input.py: read_double, read_float"]}
{"id": "C61", "title": "Generated node identifiers are well formed and distinct", "statement": "The ephemeral id a DiscoveryNode generates is the 16 random bytes in URL-safe base64, 22 characters without padding, and distinct random 16-byte values give distinct ids. A constructed node keeps what it was given; an ephemeral id, host name, host address or version not given (or empty) is the generated id, the address's host name, its dotted decimal notation, the current version.", "quantifier": "all 2^128 random values", "why_tests_cant": "2^128 values", "anchors": ["src/opensearch_sdk_py/transport/discovery_node.py: __init__"]}
{"id": "C62", "title": "Negative numbers are never written as vInts", "statement": "write_v_int(i) raises for every negative i: it never emits bytes for a number the vInt format cannot carry.", "quantifier": "all negative integers", "why_tests_cant": "unbounded integers", "anchors": ["src/opensearch_sdk_py/transport/stream_output.py: write_v_int, write_byte"]}
{"id": "C63", "title": "Decoding is not an amplifier", "statement": "read_string_array returns at most as many strings as its input has bytes, so a peer cannot make the host allocate more than it sent.", "quantifier": "all inputs", "why_tests_cant": "all inputs, including truncated ones with a large count", "anchors": ["src/opensearch_sdk_py/transport/stream_input.py: read_string_array, read_array_size"]}
{"id": "C64", "title": "A setting announces its own type", "statement": "The type a setting announces on the wire is the one its class stands for: BooleanSetting BOOLEAN, IntegerSetting INTEGER, LongSetting LONG, ByteSizeValueSetting BYTE_SIZE_VALUE, TimeValueSetting TIME_VALUE, and so on.", "quantifier": "all settings of every class", "why_tests_cant": "all constructor arguments of all classes", "anchors": ["src/opensearch_sdk_py/settings/long_setting.py", "src/opensearch_sdk_py/settings/byte_size_value_setting.py", "src/opensearch_sdk_py/settings/setting.py: Type"]}
{"id": "C65", "title": "Headers built with defaults are well formed", "statement": "A TcpHeader constructed without a version writes a 23-byte header; a message constructed without a version can be written.", "quantifier": "all constructions without a version", "why_tests_cant": "all argument combinations", "anchors": ["src/opensearch_sdk_py/transport/tcp_header.py: __init__, write_to", "src/opensearch_sdk_py/transport/network_message.py: __init__"]}
{"id": "C66", "title": "Float and double settings respect their bounds", "statement": "Whatever the settings contain, DoubleSetting.get/FloatSetting.get either raises or returns a number (never a NaN) within the declared bounds, infinite ones included; the constructor rejects defaults outside the bounds and NaN; the default is returned when the key is absent; parsers survive the wire.", "quantifier": "all settings contents, all bounds, all doubles", "why_tests_cant": "2^64 bounds and defaults, NaN and signed zero comparisons", "anchors": ["src/opensearch_sdk_py/settings/double_setting.py", "src/opensearch_sdk_py/settings/float_setting.py"]}
{"id": "C67", "title": "Handshakes are answered with the extension's identity", "statement": "Every well-formed tcp handshake frame with a non-zero id is answered with the current version; every such transport handshake frame with a response any reader decodes to the node hello-world at 127.0.0.1:1234 with the four roles, a fresh ephemeral id and the current version; no other state changes.", "quantifier": "all handshake frames, all host states", "why_tests_cant": "all inputs and histories", "anchors": ["src/opensearch_sdk_py/actions/internal/tcp_handshake_request_handler.py: handle", "src/opensearch_sdk_py/actions/internal/transport_handshake_request_handler.py: handle"]}
{"id": "C68", "title": "Only transport frames are answered", "statement": "A chunk that is not a transport message (no ES prefix, or shorter than a header) is never answered, and changes nothing.", "quantifier": "all byte strings", "why_tests_cant": "all inputs", "anchors": ["src/opensearch_sdk_py/server/async_extension_host.py: on_input", "src/opensearch_sdk_py/transport/tcp_header.py: read_from"]}
{"id": "C69", "title": "Primitive values follow the transport wire format", "statement": "Byte, short, int, long, vInt, vLong, zLong, boolean, byte array, string, string array, set, dict, optional and generic values are written in, read from, and only read from, the byte layout of an independently written wire format; the bytes are determined by the value.", "quantifier": "all values, all byte strings", "why_tests_cant": "all values and all encodings, also ones this SDK never writes (padded vInts, repeated keys)", "anchors": ["src/opensearch_sdk_py/transport/stream_output.py", "src/opensearch_sdk_py/transport/stream_input.py"]}
{"id": "C70", "title": "Frames follow the transport wire format", "statement": "Every request or response that is written is a frame: marker, sizes, id, status bits, version, thread context, features, action, payload at their places; every such frame, with any flags and any id, is read back as that message.", "quantifier": "all messages and all frames", "why_tests_cant": "all messages, contexts and flags", "anchors": ["src/opensearch_sdk_py/transport/tcp_header.py", "src/opensearch_sdk_py/transport/outbound_message.py", "src/opensearch_sdk_py/transport/outbound_message_request.py", "src/opensearch_sdk_py/transport/outbound_message_response.py", "src/opensearch_sdk_py/transport/thread_context_struct.py"]}
{"id": "C71", "title": "Message payloads follow the transport wire format", "statement": "Versions, tasks, roles, dependencies, handshakes, initialization responses, REST requests and responses, settings, setting parsers and the two protocol-buffer requests have exactly the field order and encodings of the independent format, and every payload in that format is read.", "quantifier": "all messages, all payload bytes", "why_tests_cant": "all field values and all encodings", "anchors": ["src/opensearch_sdk_py/transport/version.py", "src/opensearch_sdk_py/transport/task_id.py", "src/opensearch_sdk_py/transport/extension_dependency.py", "src/opensearch_sdk_py/transport/transport_handshaker_handshake_request.py", "src/opensearch_sdk_py/transport/initialize_extension_response.py", "src/opensearch_sdk_py/rest/extension_rest_request.py", "src/opensearch_sdk_py/rest/extension_rest_response.py", "src/opensearch_sdk_py/settings/settings.py", "src/opensearch_sdk_py/settings/setting.py", "src/opensearch_sdk_py/transport/register_rest_actions_request.py", "src/opensearch_sdk_py/transport/extension_transport_request.py"]}
{"id": "C72", "title": "Readers refuse what the format does not allow", "statement": "Booleans other than 0/1, enum numbers out of range, sizes over 2^31, over-long vInts and vLongs, ill-formed UTF-8, unknown generic types and non-IPv4 addresses raise, whatever follows.", "quantifier": "all malformed encodings, all continuations", "why_tests_cant": "all byte strings", "anchors": ["src/opensearch_sdk_py/transport/stream_input.py", "src/opensearch_sdk_py/transport/transport_address.py"]}
{"id": "C73", "title": "The host understands and speaks the wire format end to end", "statement": "Every request frame in the independent wire format is taken for the message it carries, every response frame for its id and payload, and every immediate reply is a response frame in that format with the request's id, flags and context.", "quantifier": "all frames, all host states", "why_tests_cant": "all inputs and histories", "anchors": ["src/opensearch_sdk_py/server/async_extension_host.py: on_input", "src/opensearch_sdk_py/transport/outbound_message.py"]}
{"id": "C74", "title": "Messages with node addresses follow the wire format", "statement": "Transport addresses, discovery nodes, extension descriptions, initialization requests and handshake responses are written in, and read from, the independent format, for every IPv4 address.", "quantifier": "all nodes and addresses", "why_tests_cant": "2^32 addresses, all nodes", "anchors": ["src/opensearch_sdk_py/transport/transport_address.py", "src/opensearch_sdk_py/transport/discovery_node.py", "src/opensearch_sdk_py/transport/discovery_extension_node.py", "src/opensearch_sdk_py/transport/initialize_extension_request.py", "src/opensearch_sdk_py/transport/transport_service_handshake_response.py"]}
{"id": "C75", "title": "The hello sample greets", "statement": "The hello extension announces the two routes GET /hello and GET /hello/{name}. For every REST request frame with a non-zero id OpenSearch may send it, a GET of /hello or of anything below /hello/ is answered, in any state of the host, with status 200, content type text/plain and the UTF-8 greeting of the request's name parameter (or the general greeting without one), reporting exactly the parameter name as consumed; every other request gets no reply and changes nothing but the id counter.", "quantifier": "all request frames, all names, all host states, all trailing bytes", "why_tests_cant": "all Unicode names, all thread contexts, ids, features and header dictionaries", "anchors": ["samples/hello/hello_rest_handler.py: HelloRestHandler", "samples/hello/hello_extension.py: HelloExtension"]}
{"id": "C76", "title": "The crud sample performs the matching operation", "statement": "The crud extension announces four routes on /crud. For every client and every REST request frame with a non-zero id: a POST, GET, PUT or DELETE of exactly /crud makes exactly one client call - index the content; search for parameter q; index the content under parameter id; delete parameter id - on test-index, and is answered with the JSON of the client's result (status 200), reporting exactly the parameters and content used; if the client raises, there is no reply and the host goes on. Every other request reaches no client call, so the handler's broken fallback (a response built with a status in place of the request) is unreachable.", "quantifier": "all clients (any function of call and state), all request frames, all host states", "why_tests_cant": "the client is arbitrary user code; all methods, paths and parameters", "anchors": ["samples/crud/crud_handler.py: CRUDRestHandler", "samples/crud/crud_extension.py: CRUDExtension"]}
{"id": "C77", "title": "Protobuf requests are read however they are encoded", "statement": "Reading an extension request or a REST action registration succeeds exactly on proto3 messages, with fields in any order, unknown fields, padded varints, repeated and merged identities: the result is the one the encoding stands for (last identity and request type, all actions in order), and every other byte string - field number 0, cut-off fields, over-long numbers, text that is not UTF-8 - is refused.", "quantifier": "all byte strings", "why_tests_cant": "all encodings other programs may produce and all malformed ones", "anchors": ["src/opensearch_sdk_py/transport/extension_transport_request.py", "src/opensearch_sdk_py/transport/register_rest_actions_request.py", "src/opensearch_sdk_py/protobuf/ExtensionRequestProto.proto: ExtensionRequest", "src/opensearch_sdk_py/protobuf/RegisterRestActionsProto.proto: RegisterRestActions", "src/opensearch_sdk_py/protobuf/ExtensionIdentityProto.proto: ExtensionIdentity"]}
{"id": "C78", "title": "Addresses are accepted and printed in dotted decimal", "statement": "TransportAddress(text, port, host) succeeds exactly for the dotted decimal notation of a 32-bit address (four numbers up to 255 without superfluous zeros), holds the number that notation means, and names the host by the given name or else by that notation; every other text raises ValueError. Every 32-bit address has exactly one notation, and the one printed is accepted again.", "quantifier": "all texts, all 2^32 addresses", "why_tests_cant": "2^32 addresses, all texts", "anchors": ["src/opensearch_sdk_py/transport/transport_address.py: __init__", "src/opensearch_sdk_py/transport/discovery_node.py: __init__"]}
{"id": "C79", "title": "What the host remembers is bounded by what it was asked", "statement": "Whatever chunks arrive, in any order: the host waits for at most two responses per initialization request among them, it draws at most five request ids per chunk, an awaited id was drawn from its own counter; its settings change only when a response to an awaited id arrives, its stored init request only with an init request, and extension state only with a REST request. No other traffic makes it grow or forget.", "quantifier": "all sequences of chunks, all extensions, all host states", "why_tests_cant": "all inputs and histories, unbounded in length", "anchors": ["src/opensearch_sdk_py/server/async_extension_host.py: on_input", "src/opensearch_sdk_py/actions/response_handlers.py: ResponseHandlers", "src/opensearch_sdk_py/transport/tcp_header.py: TcpHeader"]}
{"id": "C80", "title": "The server accepts connections until it is told to stop", "statement": "As long as nobody sets host.terminating or cancels host.future, a client that connects to a running server is served, whatever else happened before on any connection or on the listening socket.", "quantifier": "all sequences of connections, messages, failures, cancellations and accept errors", "why_tests_cant": "all schedules and failures", "anchors": ["src/opensearch_sdk_py/server/async_host.py: async_run, on_connection"]}
{"id": "C81", "title": "Termination takes effect", "statement": "Once host.terminating is set the server accepts no more connections.", "quantifier": "all states of the server, all later events", "why_tests_cant": "all schedules", "anchors": ["src/opensearch_sdk_py/server/async_host.py: async_run, on_connection"]}
{"id": "C82", "title": "A status reaches OpenSearch as the HTTP status it is named after", "statement": "Each RestStatus name stands for the HTTP status of that name: its number on the wire is the position of its code among the codes in ascending order, all codes have a name and no two share a number, and the first byte of a handler's reply is that number.", "quantifier": "all statuses, all replies", "why_tests_cant": "all replies with each of the 47 statuses", "anchors": ["src/opensearch_sdk_py/rest/rest_status.py: RestStatus", "src/opensearch_sdk_py/rest/rest_execute_on_extension_response.py: write_to, read_from"]}
{"id": "C83", "title": "Quantities are accepted exactly when they are a number and a unit", "statement": "A ByteSizeValue or TimeValue is parsed from a text exactly when it is digits, optional white space and a unit of the table in any case (b, kb or k, ...; nanos, ..., d) and nothing else; the result is that number and unit; any other text raises ValueError. Settings of these types accept exactly those texts whose value is within the bounds.", "quantifier": "all texts, all Unicode characters, all bounds", "why_tests_cant": "all texts: prefixes, suffixes, other scripts' digits, case", "anchors": ["src/opensearch_sdk_py/transport/byte_size_value.py: ByteSizeValue.parse", "src/opensearch_sdk_py/transport/time_value.py: TimeValue.parse", "src/opensearch_sdk_py/settings/byte_size_value_setting.py: Parser", "src/opensearch_sdk_py/settings/time_value_setting.py: Parser"]}
{"id": "C84", "title": "Integer settings accept exactly decimal numerals", "statement": "IntegerSetting and LongSetting accept a text exactly when it is an optional sign and decimal digits of a number within the bounds, and return that number; any other text raises ValueError.", "quantifier": "all texts, all bounds", "why_tests_cant": "all texts: underscores, spaces, other scripts' digits, over-long numerals", "anchors": ["src/opensearch_sdk_py/settings/integer_setting.py: Parser.parse", "src/opensearch_sdk_py/settings/long_setting.py: Parser.parse"]}
{"id": "C85", "title": "A boolean setting is true exactly for the word true", "statement": "BooleanSetting never raises on a text: it is true exactly when the text is the four letters of true in any case, and false for every other text.", "quantifier": "all texts", "why_tests_cant": "all texts, characters whose lower case is several characters or ASCII", "anchors": ["src/opensearch_sdk_py/settings/boolean_setting.py: BooleanSetting.Parser.parse"]}
{"id": "C86", "title": "A version setting accepts the text of a version", "statement": "VersionSetting accepts the text str(version) and returns that version.", "quantifier": "all versions, all texts", "why_tests_cant": "all versions", "anchors": ["src/opensearch_sdk_py/settings/version_setting.py: VersionSetting.Parser.parse", "src/opensearch_sdk_py/transport/version.py: __str__"]}
{"id": "C87", "title": "Extensions served in one process do not disturb each other", "statement": "Several hosts may serve extensions in one event loop. Whatever the program and the hosts do: no response id is awaited by two hosts; what happens to one host changes no connection, reply or awaited response of another; requests with a non-zero id get the reply the extension would give if served alone in a fresh process; an initialization runs to its end with the name and routes of the host's own extension.", "quantifier": "all numbers of hosts, all interleavings of their traffic with each other and with the program", "why_tests_cant": "all schedules and histories", "anchors": ["src/opensearch_sdk_py/server/async_extension_host.py: serve, on_input", "src/opensearch_sdk_py/transport/tcp_header.py: TcpHeader", "src/opensearch_sdk_py/actions/response_handlers.py: ResponseHandlers", "src/opensearch_sdk_py/settings/settings.py: Settings"]}
{"id": "C88", "title": "A host can be run again", "statement": "A host whose run() has returned can be run again, provided no other host and no other program listens at its port.", "quantifier": "all histories of hosts, all ports", "why_tests_cant": "all histories", "anchors": ["src/opensearch_sdk_py/server/async_host.py: async_run, __listen", "src/opensearch_sdk_py/server/host.py: Host"]}
{"id": "C89", "title": "A running host listens at the port it publishes", "statement": "While a host accepts connections it listens at host.port, a port between 1 and 65535 at which no other host and no other program listens; a host that was given a port uses that one.", "quantifier": "all histories of starting, stopping and closing any number of hosts", "why_tests_cant": "all histories, all ports", "anchors": ["src/opensearch_sdk_py/server/async_host.py: async_run, __listen", "src/opensearch_sdk_py/server/host.py: Host"]}
{"id": "C90", "title": "Serving another extension takes over", "statement": "host.serve(extension) on a host in use keeps its connections and what is being sent on them; from then on requests with a non-zero id are answered by the new extension as if it were served alone in a fresh process, and answers to requests made for the old extension have no effect.", "quantifier": "all histories before and after, all extensions", "why_tests_cant": "all histories", "anchors": ["src/opensearch_sdk_py/server/async_extension_host.py: serve", "src/opensearch_sdk_py/actions/response_handlers.py: ResponseHandlers", "src/opensearch_sdk_py/actions/internal/discovery_extensions_request_handler.py"]}
{"id": "C91", "title": "A peer can tell the replies on its connection apart", "statement": "Replies are handed to the network in pieces, with anything happening in between. At any time the peer can cut what it received at the length fields, in exactly one way, and finds exactly the replies the host had for its requests, in order; what is left over is the beginning of the reply being sent.", "quantifier": "all sequences of requests, all ways of cutting replies into pieces, all interleavings with other connections, all failures of sends", "why_tests_cant": "all schedules and failure points", "anchors": ["src/opensearch_sdk_py/server/async_host.py: on_connection", "src/opensearch_sdk_py/transport/outbound_message.py: OutboundMessage", "src/opensearch_sdk_py/transport/tcp_header.py: TcpHeader"]}
{"id": "C92", "title": "The kind of an error tells what was wrong", "statement": "Reading from a stream raises only Exception (a byte that is no boolean, a number too long, a size over 2^31, an unsupported type), UnicodeDecodeError (not UTF-8), ValueError (no member of an enumeration, no IPv4 address), struct.error (too few bytes for a float), protobuf's DecodeError, or RecursionError (settings nested too deeply); numbers of fixed width, bytes and headers never raise. Writing raises only OverflowError (a number too big for its field), UnicodeEncodeError, ValueError (a zLong over 63 bits), and AttributeError or TypeError exactly when a task's id, a status, a method or a version is missing. Building and getting a setting raises only ValueError, or re.error for a regular expression that does not compile.", "quantifier": "all inputs, all values, all messages, all settings", "why_tests_cant": "all byte strings and all field values", "anchors": ["src/opensearch_sdk_py/transport/stream_input.py: StreamInput", "src/opensearch_sdk_py/transport/stream_output.py: StreamOutput", "src/opensearch_sdk_py/settings/setting.py: Setting"]}
{"id": "C93", "title": "The answer depends only on the question", "statement": "Two requests that ask the same get answers with the same payload and leave the extension in the same state, or both get none for the same reason: whatever their (non-zero) ids, thread contexts, features, flags and versions, however their payloads are encoded, and whatever follows them in the chunk.", "quantifier": "all pairs of requests with the same action whose payloads encode the same request, all states of the host and the extension", "why_tests_cant": "all encodings and all contexts", "anchors": ["src/opensearch_sdk_py/server/async_extension_host.py: on_input", "src/opensearch_sdk_py/actions/request_handlers.py: RequestHandlers", "src/opensearch_sdk_py/actions/internal/extension_rest_request_handler.py", "src/opensearch_sdk_py/actions/internal/tcp_handshake_request_handler.py", "src/opensearch_sdk_py/actions/internal/transport_handshake_request_handler.py", "src/opensearch_sdk_py/actions/internal/action_not_found_request_error_handler.py"]}
{"id": "C94", "title": "What a handler puts into one response appears in no other", "statement": "A response says the status, content and media type given to its constructor, the headers it was given or that were set on it and no other response's, the parameters read from its request, and whether that request's content had been read.", "quantifier": "all histories of a process that makes requests and responses, reads parameters and contents and sets headers, in any order", "why_tests_cant": "all histories and all aliasing of dicts and requests", "anchors": ["src/opensearch_sdk_py/rest/extension_rest_response.py: ExtensionRestResponse", "src/opensearch_sdk_py/rest/extension_rest_request.py: ExtensionRestRequest", "src/opensearch_sdk_py/actions/internal/extension_rest_request_handler.py"]}
{"id": "C95", "title": "A received message cannot forge log records", "statement": "Whatever a peer sends, every record the host logs about it is one line, so nobody can write into the log what looks like another record.", "quantifier": "all chunks of bytes, all states of the host", "why_tests_cant": "all byte strings", "anchors": ["src/opensearch_sdk_py/server/async_host.py: on_connection", "src/opensearch_sdk_py/server/async_extension_host.py: on_input", "src/opensearch_sdk_py/transport/outbound_message_request.py: __str__", "src/opensearch_sdk_py/rest/extension_rest_request.py: __str__", "src/opensearch_sdk_py/transport/transport_request.py: __str__", "src/opensearch_sdk_py/transport/initialize_extension_request.py: __str__"]}
{"id": "C96", "title": "The log does not disclose confidential parts of requests", "statement": "The log above the level DEBUG does not tell the headers, the content and the identity token of a REST request: it is the same for all values of them.", "quantifier": "all pairs of REST requests that differ only in these parts, all states of the host", "why_tests_cant": "all pairs of inputs (non-interference)", "anchors": ["src/opensearch_sdk_py/server/async_host.py: on_connection", "src/opensearch_sdk_py/server/async_extension_host.py: on_input", "src/opensearch_sdk_py/rest/extension_rest_request.py: __str__"]}
{"id": "C97", "title": "A setting without a value takes that of its fallback", "statement": "Setting(type, key, default, fallback, parser, validator).get(settings) is the parsed value of the key if it is configured, otherwise the value of the fallback if there is one, otherwise the parsed default.", "quantifier": "all contents of the settings, all fallbacks, parsers, validators and defaults computed from the settings", "why_tests_cant": "all functions supplied by the user", "anchors": ["src/opensearch_sdk_py/settings/setting.py: Setting.get", "src/opensearch_sdk_py/settings/settings.py: Settings.get"]}
{"id": "C98", "title": "Whatever is sent is in the log, and the log determines it", "statement": "For every message a running host sends it logs, before sending, at INFO its header as the peer will read it and its length, and at DEBUG its bytes; it logs nothing of the kind when it sends nothing. From the log the bytes received and the bytes sent can be read back: equal records mean equal bytes.", "quantifier": "all chunks, all reachable states of the host, all extensions", "why_tests_cant": "all inputs and histories", "anchors": ["src/opensearch_sdk_py/actions/request_handler.py: send", "src/opensearch_sdk_py/actions/response_handler.py: send", "src/opensearch_sdk_py/server/async_host.py: on_connection", "src/opensearch_sdk_py/transport/tcp_header.py: __str__"]}
{"id": "C99", "title": "The log above DEBUG does not disclose the contents of replies", "statement": "With the level INFO or higher the log of a whole run is the same whatever contents the handlers put into their replies, the lengths given; of each REST reply it tells the status, media type, headers and the length of the content.", "quantifier": "all pairs of extensions that differ only in the contents of replies, all sequences of chunks", "why_tests_cant": "all pairs of runs (non-interference)", "anchors": ["src/opensearch_sdk_py/actions/request_handler.py: send", "src/opensearch_sdk_py/rest/rest_execute_on_extension_response.py: __str__", "src/opensearch_sdk_py/server/async_host.py: on_connection"]}
{"id": "C100", "title": "Records about what is sent cannot be forged by peers", "statement": "If the extension's name and the media types chosen by its handlers are one line, every record the host logs about what it sends is one line, whatever peers send and have sent before.", "quantifier": "all chunks and histories, all extensions", "why_tests_cant": "all byte strings and histories", "anchors": ["src/opensearch_sdk_py/actions/request_handler.py: send", "src/opensearch_sdk_py/actions/response_handler.py: send", "src/opensearch_sdk_py/transport/outbound_message.py: __str__"]}
{"id": "C101", "title": "Requests go to the handler registered last for their action", "statement": "A program may register request handlers of its own with the host. A request is given, as it was sent, to the handler registered last for its action and to no other, and what that handler returns is the reply; if it returns nothing the requester is told that there is no handler for the action (404). All other traffic is treated as on a host without such handlers.", "quantifier": "all sequences of registrations, all handlers (also such as register further handlers), all chunks, all states of the host", "why_tests_cant": "all registrations, all handler code, all inputs", "anchors": ["src/opensearch_sdk_py/actions/request_handlers.py: RequestHandlers", "src/opensearch_sdk_py/actions/request_handler.py: RequestHandler", "src/opensearch_sdk_py/server/async_extension_host.py: on_input"]}
{"id": "C102", "title": "A response handler runs once", "statement": "In any history of registrations and responses, a response handler registered under a request id is run by the first later response with that id, unless another one was registered under it in between, and by nothing else; afterwards the id is free. The host's own handlers are such a history, with fresh ids.", "quantifier": "all histories of register and handle with any ids and handlers; all inputs of the host", "why_tests_cant": "all histories", "anchors": ["src/opensearch_sdk_py/actions/response_handlers.py: ResponseHandlers", "src/opensearch_sdk_py/server/async_extension_host.py: on_input", "src/opensearch_sdk_py/actions/internal/discovery_extensions_request_handler.py"]}
{"id": "C103", "title": "An extension announces the interfaces it implements", "statement": "The interfaces in the answer to the initialization contain ActionExtension whenever the extension's class derives from it.", "quantifier": "all class hierarchies", "why_tests_cant": "all class hierarchies", "anchors": ["src/opensearch_sdk_py/extension.py: Extension.implemented_interfaces", "src/opensearch_sdk_py/actions/internal/discovery_extensions_request_handler.py"]}
{"id": "C104", "title": "Any extension can be served", "statement": "host.serve(extension) takes any Extension, also one that offers no REST API (no ActionExtension, or its __init__ not called); its initialization by OpenSearch proceeds.", "quantifier": "all extensions, all initialization requests, all states of the host", "why_tests_cant": "all inputs and states", "anchors": ["src/opensearch_sdk_py/server/async_extension_host.py: serve", "src/opensearch_sdk_py/actions/internal/discovery_extensions_request_handler.py", "src/opensearch_sdk_py/actions/internal/extension_rest_request_handler.py", "src/opensearch_sdk_py/api/action_extension.py: ActionExtension"]}
{"id": "C105", "title": "Clients cannot forge warnings in the log", "statement": "Whatever arrives, every record the host logs at the level WARNING about it, including those about exceptions, is one line, if the texts of the exceptions of Python and of the program's own handlers are.", "quantifier": "all chunks, all extensions, all states of the host", "why_tests_cant": "all byte strings", "anchors": ["src/opensearch_sdk_py/server/async_host.py: on_connection", "src/opensearch_sdk_py/rest/extension_rest_handlers.py: handle"]}
{"id": "C106", "title": "Reading into an object replaces what it was, and nothing else", "statement": "message.read_from(input) leaves the message equal to what a new object of its class would have become, whatever it was used for before, and changes no other message.", "quantifier": "all objects with any history, all inputs, all other messages of the program", "why_tests_cant": "all histories of objects, all inputs", "anchors": ["src/opensearch_sdk_py/rest/extension_rest_request.py: read_from", "src/opensearch_sdk_py/transport/outbound_message.py: read_from", "src/opensearch_sdk_py/transport/network_message.py: __init__"]}
{"id": "C107", "title": "A write that fails writes nothing", "statement": "When a method of StreamOutput or a write_to raises, the stream holds what it held before, so that the program can go on with it.", "quantifier": "all writers, all values they refuse", "why_tests_cant": "all values; which part of a nested value is refused decides what is left", "anchors": ["src/opensearch_sdk_py/transport/stream_output.py: StreamOutput", "src/opensearch_sdk_py/settings/settings.py: write_to"]}
{"id": "C108", "title": "An error is found where it is", "statement": "When a method of StreamInput or a read_from raises, it has only moved forward, and unless it came to the end of the input the exception and the place where it stops depend on the bytes it consumed alone: with anything else behind them they are the same.", "quantifier": "all readers, all byte strings, all continuations", "why_tests_cant": "all byte strings", "anchors": ["src/opensearch_sdk_py/transport/stream_input.py: StreamInput", "src/opensearch_sdk_py/transport/outbound_message.py: read_from", "src/opensearch_sdk_py/rest/extension_rest_request.py: read_from"]}
{"id": "C109", "title": "Reading can go on behind a malformed value", "statement": "When a value of a StreamInput is refused (a boolean other than 0 and 1, a number too long, a text that is not UTF-8, an unknown member of an enumeration), the input stands behind that value, so that the next one can be read; of a collection with a malformed element, behind the collection.", "quantifier": "all malformed values and collections, all continuations", "why_tests_cant": "all byte strings", "anchors": ["src/opensearch_sdk_py/transport/stream_input.py: StreamInput"]}
{"id": "C110", "title": "The log describes what is received", "statement": "For every complete frame received the log holds, in this order, a dump of the bytes, the fields of its header (kind, version, size, id), its thread context, features and action, and the fields of the handshake, initialization request, registration reply, settings or error in it; texts are quoted so that they can be told from the log.", "quantifier": "all messages, all hosts, all displays of characters, all texts", "why_tests_cant": "all messages and all texts", "anchors": ["src/opensearch_sdk_py/server/async_extension_host.py: on_input", "src/opensearch_sdk_py/transport/tcp_header.py: __str__", "src/opensearch_sdk_py/transport/outbound_message.py: __str__", "src/opensearch_sdk_py/transport/discovery_node.py: __str__"]}
{"id": "C111", "title": "The log tells of every REST request its headers, media type and content length", "statement": "When a REST request is received, the record about it holds its HTTP version, method, uri, path and parameters, and also its headers, its media type and the length of its content.", "quantifier": "all REST requests, all hosts", "why_tests_cant": "all requests", "anchors": ["src/opensearch_sdk_py/rest/extension_rest_request.py: __str__"]}
{"id": "C112", "title": "The log describes what is sent", "statement": "For every frame sent the log holds, in this order, a record with the fields of its header, its thread context, what its payload says (version, node, status and content length of a REST reply, name and interfaces of the extension), features, action and size, and two dumps of its bytes; the frame sent is the one described.", "quantifier": "all requests and responses received, in all states a host can reach", "why_tests_cant": "all messages, all histories, all extensions", "anchors": ["src/opensearch_sdk_py/server/async_extension_host.py: on_input", "src/opensearch_sdk_py/actions/request_handler.py: send", "src/opensearch_sdk_py/actions/response_handler.py: send", "src/opensearch_sdk_py/transport/outbound_message_response.py: __str__"]}
{"id": "C113", "title": "Every answer carries the id of the request it answers", "statement": "The response to a request carries that request's id, whatever it is, so that the requester can tell which of its requests is answered.", "quantifier": "all requests that read as such, with any id, all histories of the host; the deferred answer to an initialization as well", "why_tests_cant": "all ids and histories", "anchors": ["src/opensearch_sdk_py/transport/outbound_message_response.py: __init__", "src/opensearch_sdk_py/transport/tcp_header.py: __init__", "src/opensearch_sdk_py/actions/internal/tcp_handshake_request_handler.py", "src/opensearch_sdk_py/actions/internal/discovery_extensions_request_handler.py"]}
{"id": "C114", "title": "Every chunk is answered or warned about", "statement": "Whatever arrives, either something is sent back and nothing about it is logged at the level WARNING, or nothing is sent and exactly one WARNING record says why.", "quantifier": "all chunks, all extensions, all states of the host", "why_tests_cant": "all byte strings and all states", "anchors": ["src/opensearch_sdk_py/server/async_host.py: on_connection", "src/opensearch_sdk_py/server/async_extension_host.py: on_input"]}
{"id": "C115", "title": "A response is called unregistered only if nobody waits for it", "statement": "The record 'response id N not registered' is logged only for responses whose id the host has no handler for; so that the record points at a stray response.", "quantifier": "all responses, all histories of the host", "why_tests_cant": "all histories; every content of an awaited response", "anchors": ["src/opensearch_sdk_py/server/async_extension_host.py: on_input", "src/opensearch_sdk_py/actions/internal/register_rest_actions_response_handler.py", "src/opensearch_sdk_py/actions/response_handlers.py: handle"]}
{"id": "C116", "title": "Handlers are called only with requests that were sent", "statement": "However the network and the receive buffer of 10240 bytes divide the frames sent on a connection, a handler is called only with requests that were sent, with their whole path, parameters, headers, content and token.", "quantifier": "all REST requests of any size, all ways to divide the frames into chunks, all extensions", "why_tests_cant": "all requests and all divisions", "anchors": ["src/opensearch_sdk_py/server/async_host.py: on_connection", "src/opensearch_sdk_py/transport/stream_input.py: read_bytes, read_byte", "src/opensearch_sdk_py/rest/extension_rest_request.py: read_from", "src/opensearch_sdk_py/actions/internal/extension_rest_request_handler.py: handle"]}
{"id": "C117", "title": "What a client puts into a request is not taken for a message", "statement": "Whatever bytes a client sends as the content of a REST request, the host answers that request and nothing else: no part of the content is taken for a message from OpenSearch.", "quantifier": "all contents, all messages hidden in them, all extensions and states", "why_tests_cant": "all contents and all divisions into chunks", "anchors": ["src/opensearch_sdk_py/server/async_host.py: on_connection", "src/opensearch_sdk_py/server/async_extension_host.py: on_input"]}
{"id": "C118", "title": "Settings are received whole", "statement": "However the network and the receive buffer of 10240 bytes divide what OpenSearch sends, every environment setting the host knows was in a settings response sent to it, with that value; in particular the initialization is not answered on the strength of a part of the settings.", "quantifier": "all settings responses of any size, all ways to divide them, all extensions and states", "why_tests_cant": "all settings and all divisions", "anchors": ["src/opensearch_sdk_py/server/async_host.py: on_connection", "src/opensearch_sdk_py/settings/settings.py: Settings.read_from", "src/opensearch_sdk_py/actions/internal/environment_settings_response_handler.py: handle", "src/opensearch_sdk_py/transport/stream_input.py: read_generic_value"]}
{"id": "C119", "title": "What is read and written again is the same bytes", "statement": "A value or message that is read and written again comes out as the very bytes it was read from: whoever forwards what was received forwards it unchanged.", "quantifier": "all values and messages of the wire format in the shortest form, whatever follows them", "why_tests_cant": "all encodings of all messages", "anchors": ["src/opensearch_sdk_py/transport/stream_input.py", "src/opensearch_sdk_py/transport/stream_output.py", "src/opensearch_sdk_py/transport/transport_address.py", "src/opensearch_sdk_py/transport/transport_handshaker_handshake_request.py", "src/opensearch_sdk_py/rest/extension_rest_request.py: read_from, write_to"]}
{"id": "C120", "title": "The announcement says which routes there are", "statement": "From what an extension announces to OpenSearch the method, path and name of each of its routes can be told: extensions with different routes announce different things, and no two routes have the same name.", "quantifier": "all extensions with any handlers and routes that can be built", "why_tests_cant": "all sets of routes", "anchors": ["src/opensearch_sdk_py/rest/named_route.py: NamedRoute.__str__", "src/opensearch_sdk_py/rest/extension_rest_handlers.py: register"]}
{"id": "C121", "title": "A registration that fails registers nothing", "statement": "If registering a handler raises because one of its routes is taken, nothing is registered or announced, so that the handler can be registered again without that route.", "quantifier": "all handlers, all states of the registry", "why_tests_cant": "all registries and lists of routes", "anchors": ["src/opensearch_sdk_py/rest/extension_rest_handlers.py: register"]}
{"id": "C122", "title": "The order of the handlers does not matter", "statement": "Which handler gets a request does not depend on the order in which the extension lists its handlers.", "quantifier": "all extensions, all orders of their handlers, all methods and paths", "why_tests_cant": "all routes, orders and paths", "anchors": ["src/opensearch_sdk_py/rest/extension_rest_handlers.py: handle", "src/opensearch_sdk_py/api/action_extension.py: __init__"]}
{"id": "C123", "title": "A handler cannot stop the server", "statement": "Whatever a REST handler raises, the other connections stay as they are, the server goes on accepting connections, and the connection the request came on stays open.", "quantifier": "all programs with any handlers, all histories, all chunks on any connection", "why_tests_cant": "all histories and all outcomes of handlers", "anchors": ["src/opensearch_sdk_py/server/async_host.py: on_connection, async_run", "src/opensearch_sdk_py/actions/internal/extension_rest_request_handler.py: handle"]}
{"id": "C124", "title": "Peers receive whole replies", "statement": "The bytes a peer has received on its connection at any time are a beginning of the replies to its messages, one after the other: no reply is cut and followed by another.", "quantifier": "all runs of the server, all points at which a send fails or is cancelled", "why_tests_cant": "all schedules and failure points", "anchors": ["src/opensearch_sdk_py/server/async_host.py: on_connection"]}
{"id": "C125", "title": "A new process ignores responses meant for the old one", "statement": "When the process of an extension dies at any point and another one is started in its place, a response to a request of the old process that arrives late changes nothing in the new one.", "quantifier": "all histories of both processes, all responses", "why_tests_cant": "all crash points and histories", "anchors": ["src/opensearch_sdk_py/transport/tcp_header.py: TcpHeader.id_iter", "src/opensearch_sdk_py/actions/response_handlers.py: handle"]}
{"id": "C126", "title": "What is done to one node or request shows in no other", "statement": "When a program sets an attribute of a node, adds a role or a dependency to it, or changes the task id of a request, no other node or request changes, and OpenSearch is not told of it in handshakes.", "quantifier": "all programs that make, read and change any number of nodes and requests in any order", "why_tests_cant": "all sequences of operations", "anchors": ["src/opensearch_sdk_py/transport/discovery_node.py: DiscoveryNode.__init__", "src/opensearch_sdk_py/transport/discovery_extension_node.py: DiscoveryExtensionNode.__init__", "src/opensearch_sdk_py/transport/transport_request.py: TransportRequest.__init__", "src/opensearch_sdk_py/actions/internal/transport_handshake_request_handler.py: handle"]}
{"id": "C127", "title": "No message is much longer than what was received", "statement": "Every message the host sends is at most as long as the longest chunk it received (10240 bytes) plus a fixed 450 bytes plus what the extension itself contributes (its announcement or the answer of its handler); the reply to a request is at most as long as that request plus the same. So a peer can make the host send only in proportion to what it sends itself, and never more than a known amount at once.", "quantifier": "all extensions, all histories, all chunks however malformed, all runs of the server", "why_tests_cant": "all inputs and histories", "anchors": ["src/opensearch_sdk_py/server/async_host.py: on_connection", "src/opensearch_sdk_py/server/async_extension_host.py: on_input", "src/opensearch_sdk_py/transport/thread_context_struct.py: read_from, write_to", "src/opensearch_sdk_py/transport/stream_input.py: read_string_to_string_dict, read_string_to_string_set_dict", "src/opensearch_sdk_py/actions/internal/discovery_extensions_request_handler.py: handle", "src/opensearch_sdk_py/actions/internal/action_not_found_request_error_handler.py: handle"]}
{"id": "C128", "title": "A read that fails leaves the object as it was", "statement": "When read_from of a header, a task id, an address, a node, an initialization or handshake message, a REST request or response, an envelope, a value with a unit, the parser of a setting or a validator raises, the object it was called on is as it was before, and so are all others: it can be used, sent or read into again as if nothing had been tried.", "quantifier": "all objects, all byte strings on which reading raises", "why_tests_cant": "all malformed inputs and all states of the object", "anchors": ["src/opensearch_sdk_py/transport/discovery_node.py: read_from", "src/opensearch_sdk_py/transport/discovery_extension_node.py: read_from", "src/opensearch_sdk_py/transport/transport_address.py: read_from", "src/opensearch_sdk_py/transport/initialize_extension_request.py: read_from", "src/opensearch_sdk_py/transport/outbound_message.py: read_from", "src/opensearch_sdk_py/transport/outbound_message_request.py: _read_variable_bytes", "src/opensearch_sdk_py/transport/thread_context_struct.py: read_from", "src/opensearch_sdk_py/rest/extension_rest_request.py: read_from", "src/opensearch_sdk_py/rest/rest_execute_on_extension_response.py: read_from", "src/opensearch_sdk_py/transport/byte_size_value.py: read_from", "src/opensearch_sdk_py/settings/integer_setting.py: Parser.read_from", "src/opensearch_sdk_py/settings/long_setting.py: Parser.read_from", "src/opensearch_sdk_py/settings/byte_size_value_setting.py: Parser.read_from", "src/opensearch_sdk_py/settings/time_value_setting.py: Parser.read_from", "src/opensearch_sdk_py/settings/regex_validator.py: read_from"]}
