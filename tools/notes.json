{
 "C06": "False of the code: negative numbers use sign-magnitude. Refuted, with the part that holds and the exact deviation.",
 "C11": "False of the code: floats, dicts, ... are silently written as nothing. Refuted; holds for the representable types.",
 "C12": "False of the code: BytesIO short reads are not detected. Refuted; what holds is proved.",
 "C62": "False of the code for -128..-1. Refuted; exact behaviour proved.",
 "C63": "False of the code: five bytes decode to a list of 2^31 strings.",
 "C17": "False of the code for marked ids >= 2^28. Refuted; the exact condition is proved.",
 "C20": "False of the code for id 0 (falsy). Refuted; holds for every other id.",
 "C22": "False of the code for non-ASCII thread-context strings (length prefix sized by characters). Refuted; exact condition (iff) proved.",
 "C23": "Stated as: after any edits the length fields are right exactly if they were right at construction (condition of C22).",
 "C65": "False of the code: default version is an int, bytes(int) writes that many zero bytes.",
 "C28": "False of the code: write_int of an address >= 2^31 raises OverflowError. Refuted; holds below 128.0.0.0 and the rest is refused.",
 "C29": "Refuted only because of C28; every node below 128.0.0.0 survives, the others are refused by write_to.",
 "C30": "False of the code for a tcp handshake request without a version (reads back version 0) and for high addresses; all the rest proved.",
 "C39": "False of the code: fnmatch's * spans '/'. Refuted; the exact set of matched paths is proved (iff).",
 "C51": "IntegerSetting and LongSetting constructors and get, for all settings contents; int() restricted to ASCII digits/white space.",
 "C52": "Refuted for negative byte sizes and durations (e.g. the default -1): str() writes a sign the parser's regex does not accept, so get raises ValueError (C52_negative_partial). Proved for the other five classes and for non-negative quantities. Numbers of at most 640 digits where not bounded otherwise (CPython limits int()).",
 "C53": "Refuted: Settings.get tests the value's truth, so a stored False, 0, empty string or list is ignored and the default returned. Proved for all other stored values, in general and for each class of setting.",
 "C54": "parse(str(v)) = v and the shape of the text; factors stated as 1024^k and as a table of nanoseconds. For numbers of at most 640 digits (CPython limits int()).",
 "C55": "Both directions: values returned are within the bounds, and nothing within the bounds is rejected.",
 "C56": "Undefined maximum durations are restored as undefined (-1), all others exactly. Sizes within 63 bits (what write_z_long accepts).",
 "C57": "Refuted: subclasses pass the tuple of properties as one argument, so is_filtered is never true. Proved: the flag is right without FILTERED and for directly constructed Parsers.",
 "C58": "re.match is an oracle, uninterpreted.",
 "C59": "Refuted: the default dict of Settings() is shared by all instances. Proved: exact in the first reading, a union afterwards; the same across hosts of one process.",
 "C64": "Refuted: LongSetting announces INTEGER and ByteSizeValueSetting TIME_VALUE. Proved for the other classes.",
 "C60": "Doubles by their 64 bits; numbers, infinities and NaNs of both formats. The C casts are modelled with round-to-nearest-even (Floats.v).",
 "C66": "float() and str(float) are oracles; that float(str(x)) = x is a hypothesis of the default clause. FloatSetting bounds survive the wire if representable as singles.",
 "C40": "For bytes read as a request with non-zero id; C40_frames_read shows every written frame is read so. The reply is described by what any reader finds in it (carries, HostSpec.v).",
 "C41": "Frames up to 2^29 bytes (the reply's size field is 32 bits).",
 "C42": "Request as received (consumed parameters start empty); reply shorter than 2^31.",
 "C43": "Refuted: no reply when no route matches or the handler raises. Proved: exactly when a REST request is answered (route found, handler returns, response encodable); the other requests are always answered; an unanswered request changes no registration, settings or pending initialization.",
 "C44": "Any running host, any unrelated traffic between the steps; node addresses below 128.0.0.0 (others cannot be written, C28).",
 "C45": "Refuted: two initializations in flight, the first is never answered, the second twice. Proved: every output on a response belongs to a received initialization, the final answer to the latest.",
 "C46": "Histories of arbitrary chunks, well-formed or not.",
 "C47": "Invariant over all histories of arbitrary chunks.",
 "C48": "All runs of the server: any connections, chunks, failures, cancellations, interleavings.",
 "C49": "Refuted: a frame split over two chunks, or two frames in one chunk. Proved: what follows a whole well-formed frame in its chunk has no effect.",
 "C50": "Runs with failures, cancellation and termination; a reply can only be lost by a failed send or a cancelled task.",
 "C67": "The iteration order of the set of roles and the 16 random bytes are arbitrary.",
 "C68": "Refuted: the prefix is never checked and missing bytes read as zeros, so one byte is answered with 404. Proved: unreadable bytes raise and change only the id counter.",
 "C69": "Against the independent format in Wire.v; reads_only excludes inputs that end inside the value (see C12); zLong is the SDK's own sign-magnitude form (see C06).",
 "C70": "Refuted for thread contexts with long non-ASCII strings, whose size is miscounted (C22). Proved: the written bytes are a frame of the format if and only if length_prefix_ok holds of every context string, and every frame with such a context is read back, with any flags and id.",
 "C71": "Whole payloads, every field order and encoding, against Wire.v; messages with node addresses are C74.",
 "C72": "All malformed encodings of the listed kinds, any continuation.",
 "C73": "Refuted for contexts with long non-ASCII strings (C22). Proved for every other frame and host state.",
 "C74": "Refuted for addresses from 128.0.0.0 up, which can neither be written nor read (C28). Proved for all others.",
 "C75": "End to end over the modelled host and wire format; which paths are served follows fnmatch (everything below /hello/).",
 "C76": "The OpenSearch client with the cluster behind it is an arbitrary function; refresh=True and the query's constants are left out.",
 "C80": "Refuted: an exception in sock_accept (too many open files, aborted connection) is not caught and ends async_run. Proved: nothing on a connection does, and after such an error no connection is accepted again.",
 "C81": "Refuted: the flag is only looked at after the next connection or message. Proved: exactly which events then end the server, for good, and that without them it goes on accepting.",
 "C82": "The table of codes is written from the RFCs, not from the source.",
 "C83": "Refuted: re.match is not anchored at the end, so '5m!' and '1h 30m' are accepted as 5m and 1h. Proved: exactly which texts are accepted, with which value, for every Python runtime; at the settings, those within the bounds.",
 "C84": "Refuted: int() also takes underscores, surrounding white space and other scripts' digits ('1_0'). Proved: exactly int()'s grammar (digit limit included) and the bounds.",
 "C85": "For every Python runtime in which no other character has t, r, u or e in its lower case.",
 "C86": "Refuted: '3.0.0.99' is always refused. Proved: exactly the texts of int() are accepted, as the number of the version.",
 "C87": "Hosts sharing one event loop (threads are not modelled). The environment settings they read are shared, see C59.",
 "C88": "Refuted: the listening socket is left open when run() returns, and the second run binds the same port: OSError. Proved: exactly when run() gets a socket and what is left when it does not; closing host.server first makes it work.",
 "C89": "Published port: unless the program overwrites host.port. The operating system is modelled as the set of listening ports at one address.",
 "C91": "Refuted after a send that raised half-way (the exception is swallowed and the connection is used on) and for contexts affected by C22. Proved otherwise; what is handed over is described for every run.",
 "C93": "For requests answered at once (initialization is C44); encodings in the wire format, canonical or not, or written by the SDK; responses of at most 2^30 bytes.",
 "C94": "Refuted: responses made without headers share one dict for the whole process, so a header set on one is on every later one, also on the wire. Proved: exactly what a response says after any history (headers of its dict with every write through any response with the same dict; parameters read before or after its construction; the content flag of the moment of construction), and that a response alone with its dict says only its own headers. Lifted to running hosts (PropsShared.v): the objects of any running extension are those of some history, and its replies say what the last response made says after it.",
 "C95": "Refuted: the action of a request is logged as it is at level INFO, so a peer writes any text it likes at the beginning of a line of the log. Proved: exactly when the records about a chunk are single lines (the strings shown as they are - action; uri and path; the node of a task; ids, names and addresses of nodes - have no line breaks); everything else goes through repr() or is made of fixed characters.",
 "C96": "Refuted: on_connection logs the whole chunk at level INFO, so the log determines every byte received. Proved: but for the dumps of the bytes, the records of all levels depend only on the envelope and on HTTP version, method, uri, path and parameters of a REST request, and not on the values of cluster settings received.",
 "C97": "Refuted: get never uses the fallback. Proved for every Setting (any callable default, parser, validator, fallback): what get returns; that a default which asks the settings for the other key does fall back; that the subclasses are settings of this kind.",
 "C98": "For the host handling one chunk in any reachable state; the records exceptions cause (async_host.py:58) are not modelled.",
 "C99": "The extensions may be different programs whose states are related by any relation their handlers preserve; replies differ only in content of equal length.",
 "C100": "The action of received requests is not shown in these records; features and contexts go through repr().",
 "C101": "Handlers of the program are arbitrary functions on the state of the host and of the table.",
 "C103": "Refuted: only the direct bases are announced, so a class Mine(Base) with Base(Extension, ActionExtension) announces [\"Base\"]. Proved: exactly the names of the direct bases, in order; that these reach the peer unchanged is C44.",
 "C104": "Refuted: named_routes raises AttributeError. Proved for such an extension: initialization and REST requests are never answered; all other traffic is as usual; each initialization leaves a response handler behind under an id the peer was not told.",
 "C105": "Refuted: the warning about a REST request without route shows its path as it is. Proved: the text of that warning for every such request; a warning is more than one line exactly if such a path is. The texts of all other exceptions are a parameter assumed to be one line.",
 "C106": "Refuted three times: a REST request keeps what was consumed and, if the new one has none, its media type; an envelope keeps its old message and writes it out under the new header; a thread context given to several messages is overwritten for all of them. Proved: exactly these remain. The read_from of all other classes assign every attribute (their models take no old object).",
 "C107": "Refuted: a collection that fails has written its size and the elements in front of the first that cannot be written; a generic value its type byte. Proved: this exactly, and that writers of single numbers and strings leave nothing (C107_values_partial). C107_writers relates the tracked writers to those of the other theorems.",
 "C108": "For all readers of the model, with the position after an exception (Track.v); C108_readers relates them to the readers of the other theorems.",
 "C109": "Proved for single values; refuted for collections, which stop behind the malformed element (C109_collections_partial says where).",
 "C110": "Requests, responses and malformed input; what is said about a REST request is C111. The display of characters from 128 up is a parameter.",
 "C111": "Refuted: the second line of the record lacks the f-prefix, so it shows the source text {self.headers} instead. The fields of the first line are proved to be there.",
 "C112": "The size in the record is the size in the header; it equals the number of bytes sent less 6 unless the strings of the context are affected by C22.",
 "C113": "Refuted for the id 0: TcpHeader takes a request_id of 0 for a missing one and draws a fresh id from the process-wide counter, so the response can carry the id of another request of the same node. Proved: with any other id it is echoed, with 0 the answer is the one to the same request asked with the drawn id (never 0).",
 "C115": "Refuted: an awaited registration response that OpenSearch declined (status false) makes its handler return None, which the host reports as 'response id N not registered' although the id was. Proved: exactly when each kind of warning is logged.",
 "C116": "Refuted for every REST request: a chunk that ends within the content or the path is handled as a complete request, with the content (or path) up to there, without token, and answered; a request longer than 10240 bytes always is. Proved: with every frame in a chunk of its own the handlers are given exactly the requests sent, in order.",
 "C117": "Refuted for every answerable message: standing in the content of a request 10240 bytes from the beginning of its frame, it is handled and answered as a message of its own. Proved: with every frame in a chunk of its own, replies are to that frame's message only.",
 "C118": "Refuted for every settings response: cut before any of its settings, the host sends the deferred initialization response as after the whole one, knowing the settings before the cut and one named \"\"; cut within a text, it knows that setting with the text up to there. Proved: with every message in a chunk of its own, what it knows was sent to it.",
 "C119": "Proved for all values and messages except four groups, where the full statement is refuted by a theorem each: zLong 'minus zero' (comes out as zero; also zero byte sizes and durations), addresses from 128.0.0.0 on (not read), handshake versions from 2^28 on (wrong size in front), sets of two or more members (order of iteration).",
 "C120": "Proved for paths without a space: the announced texts determine method, path and name of every route. Refuted otherwise: every route with a space in its path is announced like another one; and any extension can be built with one name for all its routes.",
 "C121": "Refuted for every handler whose first routes are new: they stay registered and announced, and registering them again raises. Proved: exactly the routes before the first taken one stay, nothing else changes.",
 "C122": "Proved for requests that name a route literally or that the routes of one handler only serve; refuted for all others: of two routes that serve a request the one listed first gets it.",
 "C123": "Refuted: SystemExit and KeyboardInterrupt end the server, other BaseExceptions (and Exceptions whose text cannot be made) close the connection. Proved: with handlers that only return or raise Exceptions everything holds, and the run is that of the other theorems; exact effect of the two escapes.",
 "C124": "Refuted: after a send that failed half-way the connection is kept and the next reply is sent behind the half one. Proved: every reply is received from its beginning, in order; whole if nothing more gets through after a failure (as with a reset connection) or no send fails.",
 "C125": "Refuted: ids start from 0 in every process, so a stale acknowledgement is taken for a fresh one. Proved: a late response is ignored unless the new process awaits the same id, in particular before it is initialized.",
 "C126": "Refuted for arguments left out: the defaults are one dict, set, list or TaskId for the whole process, what is done to one object shows in all, and an attribute set on such a node is told to OpenSearch in handshakes. Proved: objects that were read or given containers of their own are written as if they were alone in the process, and then the handshake is as Host.v has it. The two classes do not share their default attributes, nor attributes of different kinds a default.",
 "C127": "Proved for the reply to a request in any state of the host, for any history of chunks, and for everything sent in any run of the server. Needs that the iteration order of sets is some order of their members and that uuid4 gives 16 bytes.",
 "C128": "Refuted: attributes are assigned as they are read; a node gets the new name before its id is found to be malformed, the media type of a refused request shows in the next one read into the object, and a context is read in place, so that another message with it is written with a wrong length. Proved: for all bytes the object has the first attributes as read, the same whatever was there, and all others as before; on input that is well-formed up to some attribute exactly those before it; and what is returned or raised, and the object if nothing is raised, are as the readers have it. Task ids and headers are as they were if reading them raises (headers never do). The same of values with a unit, parsers of settings and validators: a read of the parser of an integer or long setting that raises has always replaced both bounds, so that the setting then takes the values between those of the input."
}
