# Formal model of opensearch-sdk-py in Rocq (Coq 8.16.1)

The code is read as text; the model is a shallow embedding, function by function, with
exceptions as values.  Nothing here runs the Python code: the tie to the code is the
citation (file and lines) in the comment of every definition of the model.

## 1. Architecture

| file (rocq/theories) | content |
|---|---|
| `Py.v` | Python run-time pieces: `bytes`, `str` (code points), exceptions as values, `int.to_bytes/from_bytes`, `BytesIO.read` with its short reads, ordered dicts, sets with an iteration-order oracle, UTF-8 codec, decimal `int()`/`str()`, correctly rounded division |
| `Stream.v` | `StreamInput`, `StreamOutput` |
| `Version.v` | `Version`, including the floating-point division |
| `Frame.v` | `TcpHeader`, `TransportStatus`, `ThreadContextStruct`, `NetworkMessage`, `OutboundMessage*` |
| `Messages.v`, `Proto.v` | all transport messages; the proto3 wire format two of them embed |
| `Rest.v`, `Routes.v` | REST messages, `NamedRoute`, `re.sub`/`fnmatch`, `ExtensionRestHandlers`, `ActionExtension` |
| `Objects.v` | REST requests and responses as objects with identities: the shared default dict of headers, the set a response shares with its request |
| `Log.v` | `__str__` of the messages, repr(), and the log records about a received chunk (async_host.py:49-52, async_extension_host.py:48-70, the handlers up to the reply) |
| `Settings.v`, `Floats.v` | `Settings`, `Setting` and all nine subclasses, parsers, validator, `ByteSizeValue`, `TimeValue`, IEEE doubles and singles |
| `Host.v` | request/response handlers and their registries, `AsyncExtensionHost.on_input`, `AsyncHost.async_run`/`on_connection`, interleavings of connections with failures, cancellation and termination |
| `Handlers.v` | the tables of request and response handlers with entries of the program's own, extensions without a REST API, the classes an extension announces |
| `Process.v` | several hosts in one event loop: `Host.__init__`, `serve` (again), `async_run`'s start with `__listen`, `host.port`, `host.server`; the program and other programs as arbitrary events |
| `Link.v` | the bytes of a reply on their way to the peer: `sock_sendall` handing them over in pieces, failing or cancelled half-way |
| `Address.v` | addresses from text (`TransportAddress.__init__`, with the part of CPython's `ipaddress` it calls) |
| `Samples.v` | the sample extensions `samples/hello` and `samples/crud`, the OpenSearch client as an oracle |
| `Spec.v`, `HostSpec.v` | small independent specifications used in theorem statements |
| `Wire.v` | the transport wire format as relations between values and byte strings, written without reference to any reader or writer of the SDK |
| `Vectors.v` | generated (`tools/gen_vectors.py`): the literals of the project's unit tests and five frames captured from OpenSearch, computed with the model: tests of its fidelity, not proofs |
| `*Facts*.v` | lemmas and proofs |
| `Props*.v` | the theorems `Cnn_...`, each followed by `Print Assumptions`, and the `Example`s `Cnn_case` showing that hypotheses are met by concrete, non-trivial cases |

Readers are `bytes -> res (A * bytes)` (remaining input), writers are `A -> res bytes`
(bytes appended), message constructors thread the process-wide id counter (`idm`), host
code threads the whole mutable state (`hm`), the server is a transition function on a
`world` driven by an arbitrary list of events.

Naming: a theorem `Cnn_..._refuted` is the negation of the full statement of property `Cnn`
(kept in view as a `Definition Cnn_statement` or in the theorem itself), with a concrete
counterexample; `Cnn_..._partial` is the part that holds, whenever possible as an exact
characterisation (`<->`).  A property with such a theorem is `partial` in MANIFEST.json.

## 2. What is modelled and how it is proved, property by property

- C01 fixed-width integers: `Z` against big-endian two's complement; arithmetic.
- C02-C05 vInt, vLong, zLong: the unrolled readers and the writer's loop; induction on the
  encoding, also that too large numbers are refused.
- C06 zig-zag: refuted (sign-magnitude); the deviation is exact.
- C07-C08 strings: concrete UTF-8 encoder and strict decoder, bijection with an inductive
  table from the Unicode standard.
- C09-C10 collections and generic values: induction over lists / nested values.
- C11-C12 unsupported values, truncation: refuted, with what holds.
- C13 every reader consumes a prefix and does not look beyond: one closure lemma per combinator.
- C14 recursion limit: explicit fuel; enough fuel iff nesting is below it.
- C15-C17 versions: including the float division of `Version`, proved exact on the range used.
- C18-C19 header, flags: bit-level lemmas; any sequence of assignments.
- C20-C21 request ids: history of constructions threading the counter; id 0 refutes C20.
- C22-C23 length fields: refuted for non-ASCII context strings; iff condition; invariant over
  any sequence of edits.
- C24-C26 envelopes; C27-C31 messages; C32-C33 REST messages: composition of the codecs.
  C28/C29: refuted for addresses from 128.0.0.0 up.
- C34 consumption tracking: induction over call sequences.
- C35-C39 routing: registry as ordered dict; `re.sub` and `fnmatch` against inductive
  definitions of placeholders and glob languages; C39 refuted, exact set of paths proved.
- C40-C50, C67, C68, C73 host: `on_input` on an explicit state; statements talk about what any
  reader finds in the output (`carries`) and about histories of arbitrary chunks;
  invariants by induction on the history, on event lists for C48 and C50.
  C43, C45, C49, C68 refuted with concrete histories plus what holds.
- C51-C59, C64, C66 settings: constructors and `get` for every content of the settings;
  C52, C53, C57, C59, C64 refuted in part.
- C60 floats: 64/32-bit patterns, casts against the real numbers they denote, nearest-even rounding and overflow bound.
- C61, C78 nodes and addresses: base64 model, injectivity; what constructors keep and fill in;
  address texts against an independent dotted decimal notation.
- C62, C63, C65: refuted, with exact behaviour.
- C69-C71, C74 wire format: every writer stays in the format of `Wire.v`, every reader accepts
  everything in it (also encodings this SDK never writes) and nothing else.
- C72 refusals: for every malformed prefix and every continuation.
- C75, C76 samples: which requests each serves, what it calls and answers, on top of C42.
- C77 protobuf: the parser accepts exactly the encodings of an independently written proto3
  message format (any field order, padding, unknown fields, merging), with their meaning.
- C44_wire, C50_one_history: the initialization exchange in terms of the wire format only, and the
  server as one host fed with the chunks of all connections in order of arrival.
- C13_messages, C12_messages: the same locality argument for every `read_from` of messages.
- C35_announced, C35_buildable, C42_delivered, C42_one_handler: from the routes handlers declare
  (method numbers with OpenSearch's names, templates) to the requests they get, without the
  registry or fnmatch in the statement.
- C49_conversation: whole conversations depend only on the first message of each chunk.
- C79 memory: invariants by induction on the history; two awaited ids per initialization request.
- C80, C81 life of the server: invariants of the accepting flag over runs; refuted by an accept
  error and by a termination request that finds the server waiting.
- C82 statuses: finite table against an independently written list of HTTP codes; reply bytes
  for all replies.
- C83-C86 texts of settings: an inductive grammar of `int()` and of quantities, against the
  scanners of the model, for every Python runtime (what non-ASCII characters are, and the
  limit on digits, are parameters constrained by `runtime_ok`); refuted where the code takes more.
- C87-C90 several hosts in one process (`Process.v`): invariants over histories of a process with
  shared id counter, Settings dict and user state; per-host views reduce to the single-host
  lemmas (`C87_alone` shows the single-host model is the special case); listening sockets as a
  set of ports; C88 refuted by the socket `run()` leaves open.
- C91 framing of the byte stream to a peer (`Link.v`): invariant relating what was handed over to
  the replies; the peer's cutting at length fields is a relation shown deterministic; refuted after
  a send that failed half-way.
- C92 kinds of errors (`PropsErrors.v`): by composition over the readers and writers, each of which
  is given the list of exception classes it can raise; exact conditions for missing fields.
- C93 (and C43 for REST requests exactly, both in `PropsAnswer.v`): two arbitrary frames with the same
  question are followed through `on_input` side by side; the answers have the same payload, whatever
  ids, contexts, flags and encodings; C43: answered iff route, handler and encoding succeed.
- C94 (`Objects.v`, `PropsObjects.v`): a heap of dicts, sets, requests and responses with identities;
  an invariant over all histories gives the contents of every response; refuted for responses that
  share the default dict, at the level of objects and in the replies of a host; lifted to running
  hosts in `PropsShared.v`.
- C95, C96 (`Log.v`, `PropsLog.v`): the texts of the records as functions of the message; which of
  their parts can hold a line break (C95, refuted by the action, exact condition proved); the log as
  a function whose dependence on the confidential parts is asked for (C96, refuted by the dump of
  the chunk at INFO, proved for all other records).
- C98-C100 (`Log.v`, `PropsSent.v`): `says` is the host up to its send, shown equal to `on_input`
  followed by the write; the records about what is sent as functions of it.  C98: an invariant on the
  stored messages gives the header, `repr(bytes)` is shown to be injective (its codes are prefix-free).
  C99: a relational proof over two runs.  C100: which parts of the texts are free.
- C105 (`Log.v`, `PropsWarn.v`): the record about an exception; the text of the exception about a
  missing route is modelled, the others are a parameter.
- C106 (`Reuse.v`, `PropsReuse.v`): read_from as a function of the object it is called on, for the two
  classes whose result depends on it, and with contexts as shared cells; related to the readers.
- C107-C109 (`Track.v`, `PropsTrack.v`): all readers and writers once more, with the position of the
  input, or what was written, kept when they raise; shown to agree with the others (C107_writers,
  C108_readers), then locality as for C13, and the exact remains by induction over sequences.
- C112 (`Log.v`, `PropsTold.v`): the same fields for what is sent; that the bytes sent are the frame of the
  message described follows from how the constructors make it, for stored messages by the invariant of
  C45 (every stored message was built from an initialization received).
- C113 (`PropsZero.v`): refuted for the id 0, which the header takes for "no id" and replaces by a fresh
  one; proved: a request with id 0 is answered exactly as the same request with the id drawn next.
  The properties that speak of "requests with a non-zero id" hold for the others through this.
- C114, C115 (`Log.v`, `PropsAlert.v`): the records at level WARNING for each of the kinds of chunks (a
  request, an error, a response, anything else), which cover all byte strings. C115 is refuted by a
  declined registration; what each warning says is proved instead.
- C116, C117 (`PropsCut.v`): header and envelope are read the same whatever follows (locality of the
  readers), and the remains of a REST request cut in its content or path are read by hand, with the
  missing bytes read as zeros; both refuted in general, by theorems over all requests. What holds is
  proved by induction over the chunks, with an extension that records the calls of its handlers.
- C118 (`PropsCutSettings.v`): the same for the settings response: the envelope of a response is read
  the same whatever follows; the entries before the cut are read as sent, and behind the cut the zero
  bytes read as an empty name and an empty text. The positive part is an induction over the history.
- C119 (`PropsAgain.v`): against `Wire.v` in its strict form: what is in the format is read, and what
  was read is written as those bytes, for every value, message and parser with a reader and a writer.
  Partial: minus zero, high addresses, large handshake versions and sets of several members do not
  come out again (one refutation each).
- C120-C122 (`PropsAnnounce.v`): over `new_action_extension`, `register` and `find_handler`, with the
  declared routes of `PropsDelivery.v`. C120 by splitting the announced text at its spaces; C121 by
  induction over the routes; C122 from the characterization of dispatch (C42). Each with the exact
  behaviour where the English statement fails.
- C123 (`Escape.v`, `PropsEscape.v`): the server with handlers that may end in four ways, built on
  `world_step` with a mark beside the user's state; a simulation lemma shows that programs without
  escapes run as in `Host.v`; the effect of an escape from the wire format of the request on.
- C124 (`Peer.v`, `PropsPeer.v`): runs in which a send that ends early delivers any number of bytes;
  invariants over runs.
- C125 (`PropsRestart.v`): two histories, each from a fresh host; from C46 and C79.
- C126 (`Held.v`, `PropsHeld.v`): nodes and requests as objects with numbered containers, the
  defaults among them; by the invariant that a container of its own is held by one object only.
- C127 (`SizeFacts.v`, `PropsLength.v`): what reading takes from the input against what writing the
  value again needs, with the cases where input ended early; then one Hoare rule per step of the
  handlers, with the invariant that messages held back fit.
- C128 (`Half.v`, `HalfSettings.v`, `PropsHalf*.v`): the `read_from` methods statement by statement, each with the object
  it leaves; shown to return what the readers return, then a case per attribute, on all bytes and on
  the wire format of `Wire.v` up to an attribute.
- C110, C111 (`Log.v`, `PropsSeen.v`): a description of a message as a list of named fields, written
  against `Wire.v` (what bytes carry what message), shown to be the text of the records of `Log.v`;
  `repr` of a string is shown injective and prefix-free by an inverse for one escaped character.
- C101-C104 (`Handlers.v`, `PropsHandlers.v`): the host with an explicit table of handlers, shown
  equal to `on_input` when the action has no entry of the program's own; C102 by induction over
  histories of the dict; C103 over class hierarchies; C104 the same host without the attributes of
  `ActionExtension`.
- C97 (`PropsFallback.v`): `Setting` itself, with arbitrary functions as default, parser and validator.
- Further properties are described at their entries in properties.jsonl, with notes in MANIFEST.json.

No property of the list is left out as not expressible.

## 3. Trusted base

- Coq 8.16.1's kernel (`coqc`; `vm_compute` is used in proofs of concrete cases).
- Axioms: none.  `Print Assumptions` after every theorem prints "Closed under the global
  context".  (The libraries loaded are only parts of Coq's standard library.)
- That the model says what the code does: it was written by hand from the text of /repo.
- That `Spec.v`, `HostSpec.v` and `Wire.v` say what the English properties mean.

### Modelled
Everything in `src/opensearch_sdk_py`: `transport/`, `rest/`, `settings/`, `actions/`,
`server/`, `api/action_extension.py`, `extension.py`, `protobuf/` (as its two messages), and the
extensions in `samples/`, except as listed next.

### Not modelled, or simplified
- Logging changes nothing and is left out of the host's behaviour; `Log.v` models the records about
  what is received and sent and about exceptions; of the texts of exceptions only that of the
  missing route; not the records about sockets.  Which
  characters from 128 up are printable, and the default `repr` of objects, are parameters
  (`display`, constrained by `display_ok`).
- Bytes appended to a stream by a writer before it raises, and the position of an input stream
  after an exception, are only in `Track.v` (C107-C109); the attributes assigned by a `read_from`
  that raises later only in `Half.v` and `HalfSettings.v` (C128; not of messages with protocol
  buffers) and for the dict of `Settings`.
- The order in which a Python set iterates, `uuid4()`, the contents of character classes in
  `fnmatch`, `re.match` with a user's expression, `float()` and `str(float)`, `str()` of bytes
  and lists: oracles; theorems hold for each of them (C66 assumes `float(str(x)) = x`).
- `fnmatch` is the POSIX one (no case folding).  `int()`, `str.lower`, `\d`, `\s`, `\w` take the
  class of characters from 128 up, and the digit limit of `int()`, from a parameter `runtime`;
  the Greek final-sigma rule of `lower` and the digit limit of `str(int)` are not modelled.
- The google.protobuf runtime is modelled from its published encoding for the two messages
  used; groups are refused and unknown fields dropped.
- The C casts between
  double and float round to nearest even; NaN payloads as on common hardware.
- Objects lacking attributes (a `DiscoveryNode` built without id or address) are not modelled.
- Recursion depth is an explicit number; memory is unbounded.
- asyncio: between two awaits code is atomic; events are accepts, received chunks of at most
  10 KiB, completed or failed sends, failures (also of accept), cancellations, termination.  Of the
  operating system's errors in `bind`, port in use and port out of range are modelled (all
  hosts at one address; a port is in use if a socket listens at it), others, and signal
  handling, are not.  Several hosts share one event loop; threads are not modelled.
- Exceptions of handlers that are no `Exception` (`SystemExit`, ...) are only in `Escape.v` (C123);
  bytes delivered by a send that fails only in `Peer.v` (C124).
- REST handlers written by users have their own state, read the request through its methods and
  return a response or raise; they are assumed not to touch the SDK's own objects (the id
  counter, the registries, the host).  Request handlers registered by users (C101) may do
  anything to the host and to the table of handlers.

## 4. Tests against wrong programs

`seeded/LOG.jsonl` has one line per edited definition: the edit, the claims it breaks, the
theorems that failed to prove, and those tightened because they did not fail.
