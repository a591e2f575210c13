# Formal model of ti-mo/comfo in Rocq (Coq 8.16.1)

The subject is the Go library `libcomfo` (serial protocol of a ventilation unit), the RPC server
`comfoserver` with its HTTP front end, and the Python client. `properties.jsonl` lists what is claimed,
`MANIFEST.json` which theorem proves it.

## Layout (`rocq/theories`)

Models (definitions only; each cites the lines it transcribes):

| file | content |
| --- | --- |
| `GoBase.v` | Go integers, indexing and slicing with panics, error values (`libcomfo/errors.go`) |
| `GoStrings.v` | `strings.TrimSpace` and `utf8.DecodeRune` on arbitrary bytes |
| `Proto.v` | `libcomfo/proto.go` |
| `Scanner.v` | `bufio.Scanner` of Go 1.22 and the split function of `libcomfo/conn.go` |
| `Conn.v` | the connection: any reactive device, pending read results, readers left behind; `ReadPacket` |
| `Proc.v` | process language (locks, I/O, shared variables, clock, channels), sequential interpreter `run` |
| `Lib.v` | rest of `libcomfo`: requests, responses, temperatures, `QueryPacket`, API |
| `Slices.v` | frame building on a heap of arrays, for aliasing |
| `Server.v` | `comfoserver`: caches, RPC methods, poll loop, start-up, cache worker |
| `Machine.v` | all interleavings of any number of goroutines and the cache worker |
| `Fine.v` | the same with `ReadPacket` and `Write` cut into the steps at which a goroutine can be interrupted |
| `Wire.v` | protobuf encoding, as read and written by the Go runtime |
| `Twirp.v` | `routes.go`, generated Twirp server, HTTP side of the Python stub |
| `HttpMachine.v` | the server with its HTTP front end, all interleavings |
| `GoClient.v` | protobuf client of `comfo.twirp.go`, with the part of `net/url` it uses |
| `Main.v`, `Program.v` | `config.go`, `comfo.go`: flags, environment, connecting, start; exit status, `systemd/comfo.service` |
| `JsonScan.v`, `JsonRead.v`, `JsonWrite.v` | encoding/json and protojson for the messages of `comfo.proto`; JSON client of `comfo.twirp.go` |
| `Descriptor.v` | constants taken by `tools/gendesc.py` from `comfo.pb.go`, `comfo.twirp.go`, `comfo_pb2.py`, `comfo_twirp.py`: descriptors, struct tags, types, signatures |
| `JsonError.v` | the JSON of errors, `comfo.twirp.go:3224-3295`, with encoding/json for strings, structs and maps |
| `ErrorText.v` | messages and metadata of errors: `libcomfo/errors.go`, `comfoserver/errors.go`, `server.go`, `helpers.go`, `comfo.twirp.go:1133-1257, 3105-3121, 3257-3349, 3400-3409`, strconv.Quote |
| `Failures.v` | `comfo.twirp.go:1132-1143, 1221-1259, 1322-1341, 3257-3295, 3338-3349, 3436-3540`: bodies that break off, contexts that are done, connections that fail |
| `Log.v` | `logger.go`, `comfo.go:40-101`, and what they use of log/slog: records and how they are written |
| `LogServer.v` | `caches.go`, `server.go`, `timers.go` once more, with the records of their slog calls as results (`C113_same`: otherwise the programs of `Server.v`) |
| `LogMachine.v` | the interleavings of `Machine.v` with the programs of `LogServer.v` (`C126_same`: otherwise the same machine); the records of an operation are listed when it ends, the order of different goroutines' records is left out |
| `Hooks.v`, `HooksPanic.v`, `ClientHooks.v`, `ClientHooksPanic.v`, `Across.v` | hooks and interceptors of servers and clients in `comfo.twirp.go`; the same with hooks that panic; a client connected to a server |
| `Prefix.v`, `JsonOptions.v`, `Headers.v` | what else servers and clients of `comfo.twirp.go` can be given: path prefixes, JSON options, request headers (maps and slices in a heap) |
| `PacketText.v` | `Packet.String` |
| `Duration.v` | `time.Duration.String`, for `ReqTime` |
| `Client.v`, `ClientHttp.v` | `python/comfo/client.py`, against the server directly and over HTTP |

Specifications (no proofs, independent of the model's helpers): `SpecProto` (packet format),
`SpecFrame` (frames on the line), `SpecConn` (what a log of the connection shows), `SpecOps`, `SpecLayout` (reply
layouts by offset), `SpecUnit` (a unit that follows the protocol), `SpecServer`, `SpecMachine`, `SpecMerge`, `SpecSlices`,
`SpecClient`, `SpecWire` (protobuf encoding as a relation), `SpecTwirp`, `SpecHttp`, `SpecFresh`
(how recent answers are; exchanges of a request among others), `SpecTrack` (what happens to the unit with every entry of the log), `SpecGo`, `SpecMain`, `SpecProgram`,
`SpecJson` (JSON grammar, what an object says as a request), `SpecJsonReply`, `SpecDuration`, `SpecJsonError` (what an object says as an error), `SpecDescriptor` (comfo.proto, and what it is for bytes to describe a file), `SpecFine`, `SpecErrorText` (Go string literals, whose fault, what a message must say), `SpecFailures` (what can go wrong with a call), `SpecLog` (log lines, what must be reported), `SpecGzip` (gzip files as a relation), `SpecPacketText`, `SpecWaiting` (how long steps wait), `SpecLost` (a unit that says nothing any more), `SpecSpeed`, `SpecProfileTurns` and `SpecComfortTurns` (requests for speeds, profiles and comfort temperatures that meet), `SpecLogMachine` (whose exchanges, whose records), `SpecHooks` (the life of a request as hooks see it), `SpecHooksPanic`, `SpecClientHooks`, `SpecClientHooksPanic`, `SpecPrefix`, `SpecJsonOrder`, `SpecJsonOptions`, `SpecHeaders` (headers in a heap), `SpecArgs`.

Property theorems only, each closed by `exact`, followed by `Print Assumptions` and an `Example` that shows
a case meeting its hypotheses: `PropertiesCodec` (C01-C06), `PropertiesFrame` (C07-C11), `PropertiesQuery`
(C12-C16, C20), `PropertiesLayout` (C17-C19, C46), `PropertiesUnit` (C21, C22, C30, C31, C54, C71, C72), `PropertiesServer` (C23-C29,
C32-C35, C43, C45, C47, C49-C51), `PropertiesMachine` (C36-C42, C55-C58), `PropertiesMerge` (C41, C42), `PropertiesSlices`
(C48, C64), `PropertiesLine` (C52, C53), `PropertiesClient` (C44, C59-C63), `PropertiesTwirp` (C65-C70),
`PropertiesHttp` (C73, C74), `PropertiesFresh` (C75-C77), `PropertiesTrack` (C78-C81), `PropertiesGo` (C82-C85), `PropertiesMain` (C86, C87), `PropertiesJson` (C88-C91),
`PropertiesJsonReply` (C92, C93), `PropertiesHttpGo` (C94), `PropertiesDuration` (C95), `PropertiesJsonError` (C96, C97), `PropertiesDescriptor` (C98-C100), `PropertiesFine` (C101), `PropertiesErrorText` (C102-C107), `PropertiesFailures` (C108-C111), `PropertiesLog` (C112-C115), `PropertiesDebug` (C116, C117), `PropertiesWaiting` (C118, C119), `PropertiesLost` (C120, C121), `PropertiesSpeed` (C122, C123), `PropertiesProfileTurns` (C124), `PropertiesComfortTurns` (C125), `PropertiesLogMachine` (C126), `PropertiesTwice` (C127), `PropertiesBelief` (C128), `PropertiesHeard` (C129), `PropertiesEnd` (C130), `PropertiesHooks` (C131), `PropertiesClientHooks` (C132), `PropertiesAny` (C133), `PropertiesNowhere` (C134), `PropertiesPrefix` (C135), `PropertiesJsonOptions` (C136), `PropertiesHeaders` (C137), `PropertiesHooksPanic` (C138), `PropertiesProgram` (C139, C140), `PropertiesClientHooksPanic` (C141), `PropertiesAcross` (C142), `PropertiesJsonOrder` (C97: the order of metadata), `PropertiesArgs` (what becomes of values outside the ranges of C19, C26, C28, C29).

Proofs: all other files. `RepoTests.v` computes the tables of the repository's own unit tests on the model; it
validates the model and proves nothing else. `Samples*.v` and `*Examples.v` hold concrete cases.

`tools/props.py` and `tools/manifest.py` write the two JSON files. `tools/mutate.py` applies an edit to a model
definition in a scratch copy and records which theorems fail; `seeded/LOG.jsonl` has the results.

## Property by property

What is modelled (files above) and how it is proved. "p" marks properties proved in part, because the full
statement is false of the code (witness in the `_refuted` theorem; the note in `MANIFEST.json` says what is missing).

| property | model | proof |
| --- | --- | --- |
| C01, C02, C04, C05 | `Proto` | induction on the payload; escaping and unescaping as inverse recursions, the checksum as a sum mod 256 |
| C03, C06 | `Proto` | inversion of the decoder into the packet format of `SpecProto`; a changed byte shifts the sum |
| C07, C08 p, C11 p | `Scanner`, `Conn` | invariant of the scanner's buffer over all deliveries; a frame that is accepted is the frame sent; witnesses with `07 0F` in payloads, with a corrupted end |
| C09, C10 | `Scanner`, `Conn` | the result as a function of the concatenated pieces; the length of what is pending decreases |
| C12, C13, C20, C129 | `Lib` run on any device | symbolic execution of each API process; case analysis of what the device delivers |
| C14 p, C15 p, C52, C53 | `Lib`, `Conn` | the log of the connection; readers left behind take turns, induction on their number |
| C16, C19 p, C26 p, C28 p, C29 p | `Lib`, `Server` | case analysis over all argument values with the wraps of Go's integers; `PropertiesArgs` has the exact outcome for every value |
| C17 | `Lib` | sweep over all 256 bytes in binary32 arithmetic |
| C18, C46 | `Lib`, `GoStrings` | decoders against the offset table `SpecLayout`; trimming by induction on the name |
| C21, C22, C30 p, C31 p, C54, C71 p, C72 | `Lib`, `Server` run against the unit of `SpecUnit` | simulation: each exchange is a step of the unit |
| C23-C25, C27, C32-C34, C35 p, C43, C45 p, C47, C49, C50 p, C51 | `Server` run on any device | induction on sequences of operations with an invariant of the shared variables and the log |
| C36-C39, C40 p, C55-C57, C58 p | `Machine` | inductive invariants over all executions (locks, pairing of flush requests, pieces of the log); progress by a lock order |
| C41, C42 p | `Machine` against the unit | invariant that ties each running change to what it has read |
| C44, C59 p, C60, C61, C62 p, C63 p | `Client` on `Server` | symbolic execution of the Python methods, then the server's theorems |
| C48, C64 | `Slices` | heap with frames; addresses written are fresh |
| C65-C68, C69 p, C70 | `Twirp`, `Wire` | the dispatcher inverted; encoder and decoder against the relation of `SpecWire` |
| C73, C74, C94 | `HttpMachine` | refinement to `Machine` |
| C75 p, C76, C77 | `Machine` | invariant with the history of fetches; each operation owns a consecutive part of the log |
| C78-C81 | `Machine` against the unit | the state of the unit as a fold over the log, invariant for all interleavings |
| C82, C83 p, C84, C85, C134 | `GoClient` | the URL functions inverted over all byte strings of the stated form; induction on paths |
| C86, C87 | `Main` | case analysis over flags and environment of any content |
| C139 p, C140 | `Program`, `Main` | environments that agree on four variables; case analysis as for C86 |
| C88-C90, C91 p | `JsonScan`, `JsonRead` | soundness and completeness against the grammar of `SpecJson`; uniqueness of what an object says |
| C92, C93, C136 | `JsonWrite`, `JsonOptions` | what is written is an object of the grammar; then the reader's theorems |
| C95 | `Duration` | the digits read back, for every 64-bit duration |
| C96, C97 | `JsonError` | as C92; sorting of keys by permutation and order |
| C98-C100, C116 | `Wire`, `Descriptor` | computed against the descriptors of the repository; a decoder for gzip files proved sound for the relation of `SpecGzip` |
| C101 | `Fine` | simulation both ways between fine and coarse steps |
| C102, C103 p, C104-C107 | `ErrorText` | the texts read back; `strconv.Quote` inverted by induction |
| C108, C109 p, C110, C111 | `Failures` | the decoders on proper prefixes, case analysis of failures |
| C112-C115 | `Log`, `LogServer` | lines read back by induction; erasing the records gives the programs of `Server` |
| C117 | `PacketText` | injectivity, digits read back |
| C118, C119 p | `Machine` with waiting times | a bound on the steps of each process, summed |
| C120, C121 p | `Server`, `Machine` with a device that says nothing | invariant of the caches |
| C122, C123 p, C124, C125 p, C127 p, C128 | `Machine` against the unit | linearization: the order of exchanges in the log orders the requests; induction on executions |
| C126 | `LogMachine` | erasure to `Machine`, records of each operation |
| C130, C133 | `HttpMachine`, `Client`, `GoClient` | composition of the theorems above |
| C131, C132 | `Hooks`, `ClientHooks` | runs of the handler against the automaton of a request's life; interceptors by induction on their programs |
| C135 p | `Prefix` | slashes of the prefix by induction; witnesses |
| C141 | `ClientHooksPanic` | as C138, on top of C132; induction over the interceptor |
| C142 | `Across` | every life of a request (C131) writes once; the JSON of errors read back (C97); replies read back (C82) |
| C138 p | `HooksPanic` | the run with panics is the run without them, cut at the first; then the lives of requests (C131) |
| C137 p | `Headers` | heap with maps and slices: frame lemmas for what is written; witness with two spellings |

## Modelling decisions

* Bytes and fixed-width integers are `Z`; every Go conversion or arithmetic step that can wrap is an
  explicit `mod`. Statements about bytes assume `bytes_ok` (elements in 0..255), the invariant of `[]byte`.
* Panics (index out of range, failed type assertion, division by zero, `leftPad32`) are explicit outcomes.
* Errors are values of an inductive type with one constructor per sentinel error; their texts are in `ErrorText.v`, where the texts and types of errors of the
  connection and of proto.Marshal, strconv.IsPrint beyond ASCII and http.StatusText are parameters.
* The device at the other end is *any* coinductive automaton: for each `Write` it yields the result
  and the future results of `Read` (pieces, errors, end of file) and the points at which the one-second timer
  expires. Theorems quantify over all devices; only C21, C22, C30, C31, C41, C42, C54, C61, C71, C72, C78-C81, C122-C125, C127, C128 assume a unit that follows the protocol.
* `float32` is Coq's `SpecFloat` at precision 24, emax 128, without axioms. There is one NaN.
* Each Go function is written once as a process; `run` interprets it alone, `Machine.v` interleaves.
* Time is `Z` nanoseconds. In `run` time advances by arbitrary amounts (`w_adv`); in `Machine` at any moment.
* Properties that the code violates are kept at full strength: a `_partial` theorem is the strongest weakening
  we found, a `_refuted` theorem is a witness against the full statement.

## Trusted base

1. Coq's kernel, including its `vm_compute` conversion.
2. Axioms: none. `Print Assumptions` answers "Closed under the global context" for every theorem of the
   manifest. (`coqchk` lists `Coq.ssr.ssrunder.Under_rel.*`, a sealed module of the standard library that
   is loaded with the prelude and that no proof uses.) No functors or module types are defined, no kernel check is switched off, nothing is admitted.
3. The transcription of the source. Modelled completely: `libcomfo/{proto,conn,message,request_types,
   response_types,api,errors}.go`; `comfoserver/{caches,protobuf,helpers,timers,server,errors}.go`, with log
   output in `LogServer.v`; `routes.go`, `logger.go`; the server half of `comfo.twirp.go` for protobuf and JSON requests (the front end has the JSON decoder as a
   parameter; `JsonScan.v` and `JsonRead.v` are that decoder), and the hooks, interceptors and path prefixes it can be built with (`Hooks.v`; panics in hooks in `HooksPanic.v`);
   the protobuf and JSON clients in it (`GoClient.v`, `JsonWrite.v`; with hooks and interceptors in `ClientHooks.v`, panics in hooks in `ClientHooksPanic.v`; the prefix a server announces in `Prefix.v`, its JSON options in `JsonOptions.v`; request headers set by the caller in `Headers.v`, with maps and slices in a heap); `comfo.go`, `config.go`
   (`Main.v`, `Program.v`); `client.py`, `types.py`, `exceptions.py`; `comfo_twirp.py` (its tables in `Descriptor.v`).
4. Behaviour of things outside the repository, transcribed from the versions in `go.mod` or assumed:
   * `bufio.Scanner` (paths reachable with the split function used), `strings.TrimSpace`, `utf8.Valid`;
   * of several goroutines blocked in `Read` on one descriptor (after timeouts), any one may get the next piece (`Turn` in `Conn.v`);
   * float to integer conversion out of range as on amd64 (only reached for negative comfort temperatures, C26);
   * `sync.RWMutex`: a waiting writer blocks new readers (`possible` in `SpecMachine.v`); `sync.Mutex`: no fairness assumed;
   * memory is sequentially consistent, single fields are read and written atomically. C58 tells where the
     code has data races, so that Go gives no such guarantee there;
   * what the unit sends in reply to a `Write`, and when the timeout of `ScanTimeout` strikes among it, is settled when the bytes are
     written (any behaviour of the unit is allowed, so this is no loss); the steps of `ReadPacket` are those of `Fine.v`, and C101 proves that
     `Machine.v`, where it is a single step, has the same executions;
   * `time.Sleep` and ticker timing are arbitrary (C118: a sleep takes what it is told, the timer of a query one second); requests may arrive before `StartCaches` is done;
   * protobuf-go, the Twirp runtime, `gorilla/mux` path matching, as written in `Wire.v` and `Twirp.v`; a request body arrives
     complete, or breaks off with an error (`Failures.v`); Unicode `strings.ToLower` is a parameter that agrees with ASCII lower case on ASCII;
   * `net/url` on URLs of scheme, host and path, `path` functions, `http.Client` (one request, one response, no redirects), pflag v1.0.5
     and viper v1.18.2 for the four flags, as written in `GoClient.v` and `Main.v`; `GoClient.v` has the code that a body says as a field
     (`gr_err`), and `of_server` fills it with the code of the server's error: C97 proves that for the JSON of `JsonError.v`;
   * `json.Decoder` (encoding/json) as far as one raw value is read, and protojson v1.34.1 for messages of scalar fields, as written in
     `JsonScan.v`, `JsonRead.v` and `JsonWrite.v`; no extensions are registered; the decimal of a float32 that is no whole number (`ftoa`) and
     the choice of a space after commas (`sp`) are parameters, neither matters; encoding/json (Go 1.22) for `twerrJSON`, as written in `JsonError.v`;
   * Twirp v8.1.3's error codes and their statuses, in `GoClient.v` and `Hooks.v`: its source is not at hand, and whether the code for lost data is
     spelt `dataloss`, as in Twirp's specification and here, or `data_loss` could not be checked (nothing in the repository sends it);
   * net/http's `WriteHeader` panics at statuses that have not three digits (`HooksPanic.v`);
   * request headers on the way (`http.Header.Write`, canonical keys of net/textproto), as written in `Headers.v`;
   * the text handler of log/slog (Go 1.22) for records without groups, as written in `Log.v`; times by their calendar fields;
   * `io.Writer` does not modify or keep the slice it is given (`Slices.v`);
   * Python: arguments are ints; the stub's behaviour assumed in `Client.v` follows from C68 and C70.
5. The specifications, in particular `SpecUnit.v` (what a unit does) and `SpecLayout.v` (taken from the comments and names in
   `response_types.go`; no vendor document is available), and `comfo_proto` in `SpecDescriptor.v` (comfo.proto by hand).

Not modelled: HTTP itself, the banner, `twirpy`'s server (only the table of `ComfoServer` is).
