# Formal model of tcpx — design and trusted base

Prover: Coq (Rocq) 8.16.1, standard library only. Sources in `rocq/theories`, built with
`coq_makefile -f _CoqProject -o Makefile && make -j4` in `rocq/`.

## Conventions

* `*Model.v` files transcribe Go functions one by one. Each definition cites file and lines of /repo and
  states its simplifications there. They contain no proofs (one decidability lemma in `CtxModel`).
* `Spec*.v` files contain the vocabulary of the statements (what a frame is, what gin does, what a
  window is, who the latest owner of a name is). They describe histories, byte strings and traces
  directly and do not use the model's helper functions.
* `*Facts.v` and `*Proofs.v` files contain lemmas. `Prop*.v` files contain the property theorems, each closed by
  `exact`, `Example`s showing that the hypotheses hold of a concrete non-trivial case, and
  `Print Assumptions`.
* A property that is false of the code keeps its full English statement in `properties.jsonl`; the
  file then has a `..._refuted` theorem (a counterexample, usually a whole family of them) and, where something
  weaker holds, a `..._partial` theorem. Its manifest status is then `partial`.
* Where a claim is false, a theorem without suffix often says exactly what the code does instead
  (`..._exact`, `C24_chain_exact`, `C40_pool_content`, ...), for all inputs.

### Go values

* Bytes are `list ascii`. A `[]byte` whose capacity matters is a `gslice`: the backing bytes from the
  slice's start up to its capacity, and a length. `gsub` is Go's slice expression, including its panics.
* int32/uint32 arithmetic is on `Z` with explicit wrapping (`to_int32`, `to_uint32`); `int` is 64 bit and only
  wraps where stated. `nat` is used for lengths, indices and fuel only; that the fuel suffices is proved
  (`loop_all_ok`, `serve_fuel`, `readUntil` by structural recursion on the reader's events).
* A panic is the value `Panic` of the result type `res`, an error is `Err e`, a return is `Ok v`. Errors keep what
  code can test (io.EOF, wrapping by errorx), not their text.
* Maps are association lists with the equations of a map; a `sync.Map` is a reference into a heap.
* `interface{}` header values are the JSON values `jv` (with Go ints and float64s kept apart).
* User code (handlers, middlewares, callbacks) is universally quantified: a handler is an abstract name with a
  list of visible acts (effect, Next, Next under a recover, Abort, panic); a callback is unset or set and panics or not.
* Concurrency: a history is an arbitrary list of atomic steps, newest first, and theorems quantify over all
  histories. What one step is, and why nothing finer can be observed, is written at the head of
  each model; where finer steps matter (client pool lock, heartbeat channel creation, Start's
  loop variable) they have their own small-step machine.
* `env V` bundles the encoders of encoding/json, xml, toml, yaml, protobuf for an arbitrary type `V` of bodies
  and the header codec; they are universally quantified. Laws needed of them (round trip) are hypotheses of
  the theorem concerned, and `JsonModel` gives a concrete JSON codec for headers for which the header law is proved.

## What is modelled

| file | code |
|---|---|
| `WireModel` | packx.go (all pack, unpack and accessor functions), pack-type.go Bind*, marshaller.go name tables, message.go, utils.go headerGetString |
| `JsonModel` | encoding/json on `map[string]interface{}` headers, as a concrete codec (integers only; no combining of surrogate pairs) |
| `ReaderModel` | utils.go readUntil, packx.go UnpackToBlockFromReader* and FirstBlockOf* over an arbitrary io.Reader |
| `ClientModel` | utils.go PipeJSON, WriteJSON, WriteConn, write; the Python client's pack and unpack |
| `StrModel` | utils.go In, ListenAndServe's choice of network, context.go ClientIP, strings.Split, strconv.Atoi |
| `ChainModel` | context.go Next, Abort, isAbort, Reset |
| `MuxModel` | mux.go, anchor.go, url-mux.go, routeInfo.go and the registration and dispatch functions of tcpx.go |
| `CtxModel` | context.go: creation and copying of contexts, stores, router type, URL pattern, replies |
| `PoolModel` | client-pool.go, context.go Online/Offline/CloseConn/SendToUsername, tcpx.go closeAllConnection with the lock |
| `WatchModel` | tcpx.go heartBeatWatch, broadcastSignalWatch, authWatch; context.go HeartBeatChan/RecvHeartBeat as a race; timed runs |
| `LifeModel` | tcpx.go fillProperty, openState, Stop, Start, Restart, listeners and signals; the UDP server's shared socket |
| `ServerModel` | tcpx.go ListenAndServeTCP/UDP receive loops, isPipe, handlePipe, handleMiddleware |
| `BindModel` | context.go Bind, BindWithMarshaller, RawStream, SendToConn; pack-type.go; utils.go TCPCallOnceJSON; OnConnect's effect on the offset |
| `LoopModel` | the listening loops of `ListenAndServeTCP/UDP/Raw`, `fillProperty`, `Stop`, `Start` as interleaved goroutines; `handleRaw` (tcpx.go:421-607, 612-712, 1001-1014, 1140-1227) | whether an address can be bound is a function of the sockets open at that address (`ex` says which addresses exclude a second one); what is done with an accepted connection is in `ServerModel` |
| `ChanModel` | the one-slot channels behind `RecvAuthPass/Deny` and `RecvHeartBeat` with their watchers and any number of callers (context.go:621-641, 668-679; tcpx.go:1027-1116) | time is abstracted: a watcher may end by itself at any moment; the timed view is in `WatchModel` |
| `DeadModel` | deadlines of the server, of accepted connections and of contexts; reads after a deadline (tcpx.go:138-168, 448-451, 526-529, 564-571, 648-684; context.go:305-345) | instants are integers; a read is one step at one instant (a read already blocked when the deadline passes counts as a read at the deadline); write timeouts are not followed |
| `RegModel` | registration calls as sequences of field accesses under `mux.Mutex`, beside requests choosing their chains (tcpx.go:329-419, 853-992; mux.go; url.go) | one registering goroutine; indexSeed's atomic increment, a slice read, and the accesses to the two URL maps are one step each; memory is sequentially consistent (the race is what is stated) |
| `UdpModel` | Online, Offline, Reply, SendToUsername, CloseConn and Reset on the contexts of one UDP socket with the built-in pool (context.go:106-173, 203-220, 276-303, 380-415, 505-573, 643-660; client-pool.go) | each call is one step; names are strings |
| `GorModel` | the goroutines started per connection and datagram and what ends them (tcpx.go:463-483, 537-606, 682-703, 1027-1116; context.go:276-303) | time is abstracted; handlers may end at any moment; `CloseConn` is one step |
| `StateModel` | a connection's online state behind `ctx.L`: the end of `CloseConn`, `IsOffline`, `IsOnline`, `GetPoolRef` (context.go:288-290, 590-605, 662-666) | RWMutex without writer preference |
| `AllocModel` | the make and append calls of the read loop whose size depends on what the peer sent (packx.go:432-510; tcpx.go:566-604) | over-allocation by `append`, the header decoder and `copyContext` are not counted |
| `OrderModel` | accept loop, reading goroutines and handling goroutines as separate actors (tcpx.go:515-607, 853-871, 994-999) | the readers' actions are those of `ServerModel.connection`; OnConnect and handlers return or never do (no panics) |
| `ExitModel` | tcpx.go BeforeExit (1118-1136) with os/signal's delivery, utils.go Defer and CloseChanel (54-90) | a signal is one event; the functions given either return or panic; SIGKILL cannot be caught |
| `ListenModel` | tls.go newListener and LoadTLSFile; how ListenAndServe, ListenAndServeTCP, ListenAndServeRaw and ListenAndServeUDP begin and return (tcpx.go:367-511, 633-712, 1266-1275) | cryptography is not modelled: a listener is either wrapped in tls or in clear |
| `CallModel` | overlapping Stop, Start and Restart calls as steps (tcpx.go:1140-1227) over `LifeModel`'s state | Restart's beforeStart functions are left out |
| `SliceModel` | the handler lists as slices with their arrays: UseGlobal, AddHandler, Any and what lies below them (tcpx.go:320-362; mux.go:59, 72-82, 216-236; url-mux.go:41-70) | slices begin at the beginning of their arrays; growth of `append` is any function |
| `UrlMuxModel` | a URLMux of its own with lock, conflict panic and registration places (url-mux.go:20-85, routeInfo.go) | handler lists are values |
| `AccessModel` | goroutines as sequences of accesses to shared variables and one RWMutex | values are not modelled; branches are choices |
| `FieldModel` | how the configuring calls, ListenAndServe*, the connection goroutines, Stop, Start and State use the fields of a TcpX (tcpx.go:119-251, 367-712, 852-1118, 1140-1227) | what lies behind Mux and the pool; all Listener fields count as one variable |
| `CtxFieldModel` | how the goroutines of one connection or datagram use the fields of its contexts (context.go methods; tcpx.go:448-483, 526-608, 683-708, 852-1118) | writes of composite literals; what others do with a pooled context starts at Online |
| `ResetModel` | Next, Abort, Reset and ResetOffset with the handler list as part of the state (context.go:551-588) | the pool entry that Reset also touches is in `UdpModel`; a handler is a list of actions that may depend on the number of handler calls before it |
| `PanicModel` | which goroutine runs which callback, with the deferred calls and recovers of each (tcpx.go:421-712, 852-1116) | what clients send and which calls panic is data; a chain is one call; CloseConn does not panic (C41) |
| `LogModel` | log.go and the print statements of tcpx.go, context.go and utils.go | values are given by their %v rendering; file and line added by errorx and the timestamp of log.Println are arbitrary functions |
| `ToolModel` | the stream checker all-language-clients/main.go:27-86; the encode and decode programs of examples/modules/pack-detail | HTTP and the encoding of the answer; the programs' constants are parameters |
| `GuardModel` | the servers of examples/modules/middleware: anchor-middleware, router-middleware, global-middleware | replies and printed lines are numbered effects; reading the counter is one step |
| `ChatModel` | examples/modules/chat/server/main.go over PoolModel; the send handler in two steps (look up, then send) | a body is given as its two decodings; encoding two strings as JSON cannot fail; looking up and IsOnline are one step |
| `ByteModel` | examples/modules/my-marshal: the ByteMarshaller, the server's three handlers, the client's packing | a value is a byte slice or something else; a destination of interface type is not modelled |
| `SignModel` | utils.go:78-83 MD5 with RFC 1321's sum; examples/modules/auth server and clients over ChanModel | a body is given decoded; Conn.Write of the texts is a note; every message has a goroutine of its own |
| `ShowModel` | the receive loops of the example clients: around conn.Read (online-offline, graceful) and around FirstBlockOf (chat, middleware) | the printing of the raw bytes; decoding of the chat bodies is a parameter |
| `HelloModel` | examples/sayHello/server/main.go | printed lines and replies are numbered effects; only tcpx's own heartbeat handler calls RecvHeartBeat |
| `LinModel` | Online, Offline, CloseConn and GetClientPool one access to shared memory at a time (context.go:131-173, 276-303; client-pool.go:23-49) | a critical section of the pool's lock is one step; connections and pools are made before |
| `SendModel` | SendToUsername with its two looks at shared memory and its write at three different times (context.go:645-660) | the goroutines of `LinModel` run in between; writing to an open socket succeeds |
| `EchoModel` | the raw example: server loop over Read and Write, its middlewares, the client's receive loop (examples/modules/raw) | writing succeeds; OnConnect and OnClose unset as in the example |
| `PresModel` | the online-offline example: logins and logouts handled by goroutines over the pool (examples/modules/online-offline/server/server.go) | decoding of the login is given by its result; a pool call is one step (finer: `LinModel`) |
| `LoginModel` | the url-pattern example: server and client (examples/modules/url-pattern) | a goroutine handles its message in one step; writing succeeds |
| `WorldModel` | the helloworld example (examples/modules/helloworld) with the JSON of a []byte: base64 as in encoding/base64 | a JSON array is not accepted as a []byte; numbers and escapes as in `JsonModel` |
| `PulseModel` | heartbeat example: client loop, heartbeats on their way, watcher in real time | the race on creating the channel (C47) is left out; delays are bounded by the parameters J, L, D |
| `GraceModel` | the graceful-stop and graceful-restart examples and their client, on LoopModel's goroutines | the sleeps are dropped (any order); the kernel's accept queue is any-order; clients send nothing, as in the example; closing a listener resets its queue (Linux) |
| `WhereModel` | the call sites recorded by Use and UnUse and the panic texts listing them (anchor.go:29-95) | the file name is an uninterpreted string; texts made by errorx are left out; the unread copies of the info in the slice are left out |
| `TlsModel` | the tls example: server main, handler, client (examples/modules/tls) | crypto/tls and the certificates: what one end writes the other reads; that the client accepts any certificate (InsecureSkipVerify) is left out |
| `ShareModel` | the contexts of TCP connections as structs with shared pointers: context.go:25-104 (fields, copyContext), Online, Offline, CloseConn, the stores, SendToUsername, over client-pool.go with contexts as its entries | UDP (UdpModel), the lock ctx.L (StateModel), each call is one step (LinModel) |
| `FineModel` | the routing of a connection's messages with every Load and Store of the connection's map as a step: RouterType, GetURLPattern (context.go:682-730, 765-784), handleMiddleware's three calls of RouterType (tcpx.go:853-871), handlePipe, and what handlers or other goroutines of the application load and store | Reset (after the handlers), OnMessage; a panic ends only its goroutine |
| `DirectModel` | client-pool.go called directly by the application (SetClientPool, Online, GetClientPool, isOnline, DeleteFromClientPool, Offline, NewClientPool; GlobalClientPool as a pool made first), nil contexts included, beside the calls of contexts PoolModel has | the lock (LinModel), closing the whole pool (PoolModel, GraceModel), each call is one step |
| `BareModel` | the Mux of a server used directly: mux.go:72-236 beside tcpx.go:125-136, 200-251, 257-362, with AllowAdd, a nil Mux and the int32 counter of mux.go:98-100 | concurrent calls (RegModel), the texts of panics (WhereModel), arrays shared by the index ranges of anchors; UnUse and Use with one key each (C24_api_reduces_to_single_calls) |
| `PyModel` | all-language-clients/python/protocol.py:4-57 (pack, unpack) and the exchanges of test.py:26-38, 62-76 (one send, one recv(1024)), with Python's to_bytes, from_bytes and slices | json.dumps/json.loads and the protobuf methods are parameters; the generated pb module |
| `ProtoModel` | proto.Marshal and proto.Unmarshal, as called by marshaller.go:88-110, for the messages of all-language-clients/model/user.pb.go, examples/sayHello/*/pb/sayHello.pb.go (one string field, unknown fields kept) | nil pointers, texts of errors; the library (golang/protobuf v1.4.2) is not in /repo: written from its documented behaviour |
| `SayModel` | examples/sayHello/client/main.go:17-88 (block packed and the receive loop), the bytes of the replies of examples/sayHello/server/main.go:121-199, test.py:6-73 with Python's json.dumps for plain texts | failing dials, what fmt prints around the message, json.dumps of other texts, errors of the server's writes |
| `PostModel` | all-language-clients/go/main.go:29-239 (what is packed and posted), all-language-clients/main.go:14-49 (Bind into Param by encoding/json: key folding, null, base64) in front of ToolModel | HTTP itself, a []byte posted as an array of numbers, the text of the answer |
| `UrlSrvModel` | the calls a server makes on its URLMux (tcpx.go:346-362, mux.go:72-81) and the places recorded for them (url-mux.go:43) | AllowAdd = false (BareModel), arrays shared by handler lists (SliceModel) |
| `GexModel` | the graceful-exit example (examples/modules/graceful/graceful-exit/main.go:9-20): main, the goroutine of BeforeExit and signals, on ExitModel and ListenModel | what clients do; the two lines BeforeExit prints itself |
| `AnsModel` | the blocks handlers write to their TCP connection (context.go:421-521) or to others' (context.go:645-660, SpecRelay) by the goroutines of OrderModel (tcpx.go:515-607, 853-871, 994-999) | failing and partial writes (C19), who is behind a name (PoolModel, SendModel), goroutines the handlers start, panics |

## What is not modelled

* TLS beyond the choice of listener (certificate files and crypto/tls), the commented-out KCP, gRPC and HTTP servers,
  the examples except those listed above (ToolModel, GuardModel, ChatModel, ByteModel, SignModel, ShowModel, HelloModel, EchoModel, PresModel, LoginModel, WorldModel, PulseModel, GraceModel, TlsModel, PyModel, SayModel, PostModel) and the clients in other languages except Python.
* The Go runtime: memory exhaustion, scheduling fairness (except where a theorem's hypothesis bounds it), the data
  race detector; `net.Conn.Write` of one buffer is taken as atomic with respect to other writes (the Go
  documentation guarantees it), a `sync.Map` access as atomic.
* The contents of third-party encoders (except encoding/json in `JsonModel` and protobuf in `ProtoModel`); the text of errors and log lines.
* Kernel behaviour of sockets beyond: a read delivers some prefix of the stream or an error; an accepted connection
  is new; a datagram is delivered whole or cut to the buffer.

## Agreement with the repository's tests

`ConformTests.v` replays the repository's own unit tests in the model (message_test.go, packx_test.go,
marshaller_test.go, util_test.go, context_test.go, log_test.go and the middleware, OnMessage and raw tests of
tcpx_test.go, where they do not sleep, dial or use formats other than JSON): what they assert is what
the model computes. No theorem depends on that file.

## Per property: what is modelled and how it is proved

### C01 Packed bytes follow the documented wire layout (proved)

`WireModel` (PackWithMarshaller and its siblings, BigEndian by shifts); layout in `SpecWire.frame_layout` by base-256 digits. Computation on lists and arithmetic.
Result: Every pack entry point, all sizes below 2^32.
Theorems: `C01_pack_layout`, `C01_pack`, `C01_pack_with_body_layout`, `C01_pack_succeeds_iff`, `C01_packx_layout`.

### C02 Unpack inverts Pack (proved)

`WireModel.UnpackWithMarshaller` on slices with capacity. Slice lemmas (`UnpackFacts.unpack_pack`); the codec laws are hypotheses, discharged for `json_hdr`.
Result: Round-trip laws of the header codec and body marshaller are hypotheses; the JSON header law is discharged for the concrete codec JsonModel.json_hdr.
Theorems: `C02_unpack_inverts_pack`, `C02_unpack_inverts_pack_json_header`.

### C03 Field accessors agree with what was packed (proved)

`WireModel` accessors. `layout_fields` reads the fields off the layout; `C03_of_packed` composes it with C01.
Theorems: `C03_raw_stream`, `C03_bad_header`, `C03_accessors_agree`, `C03_of_packed`, `C03_unpack_from_reader`.

### C04 Accessors never panic on hostile bytes (partial)

`WireModel` accessors with their int32 conversions. Witnesses; exact panic condition by case analysis of the slice expressions.
Result: The four fixed-offset accessors and FirstBlockOfBytes never panic; the exact condition for each of the six others (HeaderBytesOf, BodyBytesOf, HeaderOf, URLPatternOf, RouteTypeOf, PackType.Bind) is proved. Full claim refuted: those conditions are reachable.
Theorems: `C04_accessors_never_panic_refuted`, `C04_accessors_panic_iff_partial`, `C04_derived_panic_iff_partial`.

### C05 BodyBytesOf/HeaderBytesOf only return bytes of the payload region (partial)

same. Witness with header length -1; otherwise by the slice lemmas.
Result: False of the code for a negative header length. HeaderBytesOf proved in full, BodyBytesOf proved when the header length is not negative.
Theorems: `C05_body_region_refuted`, `C05_body_region_partial`.

### C06 FirstBlockOfBytes is total and exact (proved)

`WireModel.FirstBlockOfBytes`. Case analysis, uint32/int conversions.
Theorems: `C06_first_block_of_bytes`.

### C07 Unpack never panics and never decodes bytes outside the stream (partial)

`WireModel.UnpackWithMarshaller`. Witnesses; the panic condition is an iff over all slices; confinement when len = cap.
Result: False of the code: short streams, nil dest and hostile lengths panic, and bytes between len and cap are decoded. Exact panic condition and confinement for full slices proved.
Theorems: `C07_unpack_total_refuted`, `C07_unpack_frame_partial`, `C07_unpack_panic_iff_partial`, `C07_unpack_confined_partial`.

### C08 Message size limit of the wire format (partial)

pack + `ReaderModel`. Threshold 2^31 exact; above it the length fields wrap (witness family).
Result: Receivable iff content < 2^31 is proved; that packing fails above is false (refuted).
Theorems: `C08_receivable_iff_partial`, `C08_oversize_pack_refuted`.

### C09 The encoding is injective and self-delimiting (proved)

layout. Prefix argument on the length fields.
Theorems: `C09_injective_and_prefix_free`.

### C10 Later header maps override earlier ones (proved)

`WireModel.merge_headers`. Specification by the last map that has the key; induction.
Theorems: `C10_header_merge_last_wins`.

### C11 Marshaller names select the documented marshaller (proved)

`WireModel` name tables. String case analysis for every string.
Theorems: `C11_marshaller_names`.

### C12 Framing does not depend on TCP segmentation (proved)

`ReaderModel` over event lists; `SpecReader.segmentation`. Refinement to an offset in the byte stream by induction on events.
Theorems: `C12_segmentation_independent`.

### C13 A sequence of packed messages is received as that sequence (proved)

same, iterated; composed with C01.
Theorems: `C13_sequence_received`, `C13_blocks_received`.

### C14 A truncated message is never delivered (proved)

same, for proper prefixes of a block. A silent peer and UnPackFromReader by the same lemma.
Theorems: `C14_truncation`, `C14_silence`, `C14_unpack_truncated`.

### C15 The configured message size limit is enforced (partial)

`UnpackToBlockFromReaderLimitMaxLengthOfByte`. Case analysis on the int32 length; witnesses.
Result: False for length fields >= 2^31 (panic) and for limits >= 2^31 (wraps). Proved otherwise.
Theorems: `C15_limit_partial`, `C15_limit_refuted`.

### C16 Readers that deliver the last bytes together with EOF (partial)

readers whose last Read returns data and error together. Witness; partial by C12.
Result: False of the code: data returned together with an error is dropped. Proved for readers that return them separately.
Theorems: `C16_data_with_eof_refuted`, `C16_data_then_eof_partial`.

### C17 PipeJSON validates before writing (partial)

`ClientModel.PipeJSON`. Induction over the argument pairs; specification of the batch in `SpecClient.batch`.
Result: Proved for every argument list except that a nil interface in an id position panics (refuted) instead of returning an error; nothing is written in that case either.
Theorems: `C17_pipejson_all_or_nothing_partial`, `C17_pipejson_writes`, `C17_pipejson_nil_id_refuted`.

### C18 Pipelined messages are handled in order, one after another (proved)

`ServerModel.serve` + C17. Marker survives the header codec, then `serve_parts`; `handlePipe` by induction.
Result: the batch PipeJSON writes is handed on as one SPipe event with all n blocks and no nil contexts, for every segmentation and continuation, given the marker header survives the header codec and the blocks are within the limit; handlePipe runs them in order.
Theorems: `C18_bad_marker`, `C18_batch_received`, `C18_piped_arrives`, `C18_handled_in_order`.

### C19 WriteConn transmits the buffer exactly once (partial)

`ClientModel.write_loop` against arbitrary Write results. Induction on the results; witness.
Result: Proved under the io.Writer contract (short count only with an error); refuted for a connection that reports short writes without error, because the loop re-sends from the first byte.
Theorems: `C19_writeconn_once_partial`, `C19_writeconn_short_write_refuted`, `C19_writeconn_exact`, `C19_write_exact`, `C19_error_reported`.

### C20 Concurrent replies are never interleaved inside a message (proved)

replies as lists of Write calls (`CtxModel.send`), any `merge` of the handlers' lists. Induction on the merge + C13.
Result: every successful reply is one Write of one block; any interleaving of the handlers' writes is received block for block in that order. Atomicity of one net.Conn.Write is trusted; raw writes by user code are outside.
Theorems: `C20_replies_never_mixed`.

### C21 Middleware chain runs exactly as in gin (partial)

`ChainModel.loop` (index machine) against `SpecChain.gin_chain` (structural, no index). Simulation by induction on fuel, determinism of the reference.
Result: Proved for chains of at most 2019 handlers (the code's ABORT offset), any handlers including panicking and recovering ones. False beyond.
Theorems: `C21_chain_is_gin_partial`, `C21_long_chain_refuted`.

### C22 Every handler of an unaborted chain runs exactly once, in order (partial)

consequence of C21 for the list of entered handlers.
Result: Proved for chains of at most 2019 handlers; false for longer ones (the 2020th handler never runs).
Theorems: `C22_all_in_order_partial`, `C22_well_behaved_partial`, `C22_long_chain_refuted`.

### C23 Abort stops the chain (proved)

trace invariant (`quiet`) carried through the same induction; no length bound.
Theorems: `C23_abort_stops`.

### C24 Chain composition and order for a messageID request (partial)

`MuxModel` (maps, anchors with index windows) against `SpecMux` (recursion over the call history). Invariant `inv_all` by induction over histories.
Result: The exact chain is proved for every history. The claim itself is false after RewriteHeartBeatHandler (stale own middlewares) and after a recovered duplicate registration; proved otherwise.
Theorems: `C24_api_reduces_to_single_calls`, `C24_chain_exact`, `C24_chain_partial`, `C24_stale_own_middleware_refuted`, `C24_refused_call_leaks_middleware_refuted`.

### C25 Anchor middleware applies exactly to handlers registered between Use and UnUse (partial)

same invariant, URL and id dispatch.
Result: Exact coverage rule proved for every history; the claim is false when a key is Use'd again after UnUse, proved otherwise.
Theorems: `C25_coverage_exact`, `C25_coverage_partial`, `C25_reuse_refuted`.

### C26 Use installs the middleware it was given (partial)

same invariant, function stored at first Use.
Result: False when a key is Use'd again (the first function is kept); proved otherwise.
Theorems: `C26_given_function_partial`, `C26_later_function_dropped_refuted`.

### C27 One handler per messageID (proved)

single step of the invariant.
Theorems: `C27_one_handler_per_id`.

### C28 Dispatching never hits a missing anchor (proved)

same invariant: every anchor index exists.
Theorems: `C28_no_missing_anchor`.

### C29 Global middleware runs before every messageID handler (partial)

C24 + id arithmetic for heartbeat and auth ids.
Result: False for id 0 when heartbeat or auth is not configured; proved for every other id.
Theorems: `C29_globals_first_partial`, `C29_id_zero_refuted`.

### C30 Handlers registered with Any run exactly once per request (partial)

C25 for `Any`; witness family for two or more handlers.
Result: Exact behaviour proved: with two or more handlers each runs twice (claim refuted); proved for one handler.
Theorems: `C30_any_exact`, `C30_any_once_partial`, `C30_twice_refuted`.

### C31 OnMessage replaces routing (proved)

definition of dispatch under OnMessage.
Theorems: `C31_onmessage_replaces_routing`.

### C32 Use/UnUse misuse is rejected (proved)

`MuxModel.step` refusals, for every history; well-formed windows as an invariant.
Theorems: `C32_misuse_rejected`, `C32_bad_arguments_rejected`, `C32_windows_well_formed`.

### C33 Rewriting the heartbeat handler moves it (proved)

`MuxModel` RewriteHeartBeatHandler; step of the invariant.
Result: Proved for calls that return; C33_refused_rewrite_is_half_done describes the panicking case.
Theorems: `C33_rewrite_moves_heartbeat`, `C33_refused_rewrite_is_half_done`.

### C34 Each message is routed by its own Router-Type header (partial)

`CtxModel` heap against `SpecCtx.val` (recursion over the history). Refinement `stores_exact` with an injective map from storages to heap references.
Result: Exact router type for every history; own header decides for the first message of a TCP connection and for every datagram; refuted for later TCP messages (the first routed message decides for the whole connection).
Theorems: `C34_router_type_exact`, `C34_own_type_partial`, `C34_datagram_own_type`, `C34_sticky_refuted`.

### C35 A URL-pattern reply carries the request's pattern (partial)

same, key url_pattern; reply bytes by C01.
Result: The reply carries the pattern GetURLPattern reports; that is the request's own for datagrams and first requests; refuted for later TCP requests (sticky).
Theorems: `C35_pattern_exact`, `C35_reply_carries_reported_pattern`, `C35_own_pattern_partial`, `C35_datagram_own_pattern`, `C35_sticky_refuted`.

### C36 Per-request values do not leak between requests (partial)

same refinement, for two requests.
Result: Holds for datagrams, Reset contexts and across connections; refuted within a TCP connection (copyContext shares the connection's map).
Theorems: `C36_private_isolated_partial`, `C36_datagram_private`, `C36_cross_connection`, `C36_tcp_shared_refuted`.

### C37 Per-connection values: read your last write, no cross-connection leak (partial)

same refinement; `last_conn_store` by recursion over the history.
Result: Last write by the per-connection setters is read back through every context, no leak across connections on any history; refuted when the key is also used with SetCtxPerRequest or is one of the two cache keys.
Theorems: `C37_last_write_partial`, `C37_read_own_write`, `C37_no_leak`, `C37_overwritten_refuted`.

### C38 Reserved keys cannot be overwritten through the public setter (proved)

definition of the guard, every key; bypass as a separate theorem.
Result: Exact for every key; extra theorem: SetCtxPerRequest bypasses the guard on TCP.
Theorems: `C38_reserved_keys`, `C38_per_request_setter_overwrites`.

### C39 SendToUsername only reaches the latest live owner of the name (partial)

`PoolModel` against `SpecPool` (latest Online). Invariant over histories.
Result: proved under the hypothesis that only strings are stored as user names; without it a refutation is given (PerConnectionContext is exported, a number under the reserved key makes CloseConn panic half-way).
Theorems: `C39_send_latest_only`, `C39_nonstring_name_refuted`.

### C40 A user who is online is reachable (partial)

same; exact pool content; refutation for every history of the described kind.
Result: false as stated: an older connection that still carries the name deletes the newer owner's pool entry when it closes or goes offline (C40_online_reachable_refuted, for every such history). Partial: reached when no call of that kind happened since. C40_pool_content gives the pool's exact content after any history.
Theorems: `C40_pool_content`, `C40_online_reachable_partial`, `C40_online_reachable_refuted`.

### C41 CloseConn is idempotent and takes the user offline (partial)

`PoolModel.CloseConn`; idempotence by computation on the state.
Result: proved under the hypothesis that only strings are stored as user names, plus idempotence; refuted without the hypothesis.
Theorems: `C41_closeconn`, `C41_idempotent`, `C41_nonstring_name_refuted`.

### C42 The empty username never enters the pool (proved)

invariant: no empty key in any pool.
Result: full.
Theorems: `C42_online_empty`, `C42_never_pooled`.

### C43 Stop(true) closes every pooled connection (partial)

`PoolModel` small-step machine of closeAllConnection, CloseConn and the RWMutex. Deadlock state is closed under every step.
Result: false as stated: the closing goroutine deadlocks on the pool's own lock for every non-empty pool, in every continuation (C43_stop_true_refuted); it works for the empty pool.
Theorems: `C43_stop_true_refuted`, `C43_empty_pool_partial`.

### C44 Heartbeat loss is detected after exactly three silent intervals (proved)

`WatchModel.hb_run` over event lists. Induction. The timed watcher of C46 and the event loop agree step by step (`SpecAgree.saw`).
Result: full (for a loss handler that does not panic; see C46) The timed watcher of C46 and the event loop agree step by step (`SpecAgree.saw`).
Theorems: `C44_timed_described`, `C44_timed_agrees`, `C44_three_intervals`, `C44_beat_resets`, `C44_off`.

### C45 Heartbeat timing guarantee (proved)

timed runs of the same loop with arbitrary busy periods. Arithmetic invariant.
Result: full: never earlier than 3I after the last heartbeat, never later than 3I+4D when the goroutine's busy periods are bounded by D, exactly 3I for D=0.
Theorems: `C45_loss_time`, `C45_exact`, `C45_alive`, `C45_noticed`, `C45_progress`.

### C46 OnHeartbeatLoss fires exactly once, just before the close (partial)

same loop, acts emitted; panic case by witness family.
Result: proved for a handler that returns; refuted for one that panics (the connection is then never closed by the watcher).
Theorems: `C46_loss_handler`, `C46_loss_handler_panic_refuted`.

### C47 A heartbeat is never lost (partial)

`WatchModel` small-step machine of the two get-or-create sequences. Reachable lost state; invariant for the partial. One channel per connection on every history of context calls: `CtxModel.HeartBeatChan` is a step of `crun`, and the heap of maps realises `SpecCtx.val`. Once the channel is stored, every send and take of the two-step machine is one of `ChanModel` (`C47_stored_agrees`).
Result: false as stated: the get-or-create of the channel races and a heartbeat can end in a channel nobody reads (C47_lost_refuted, C47_lost_forever_refuted), and SetCtxPerRequest on the library's own key replaces the channel (C47_channel_replaced_refuted); partial: no loss once the watcher's channel exists before the handlers start, and on every history of context calls each connection keeps one channel, its own, as long as nobody stores under that key with SetCtxPerRequest Once the channel is stored, every send and take of the two-step machine is one of `ChanModel` (`C47_stored_agrees`).
Theorems: `C47_stored_agrees`, `C47_one_channel_partial`, `C47_channels_apart_partial`, `C47_channel_replaced_refuted`, `C47_lost_forever_refuted`, `C47_lost_refuted`, `C47_one_each`, `C47_not_lost_partial`.

### C48 Auth watcher: pass keeps, deny or silence closes (proved)

`WatchModel.auth_run`. Case analysis on the first event.
Result: full.
Theorems: `C48_auth`, `C48_pass_deny_silence`, `C48_off`.

### C49 No handler runs on an unauthenticated connection (partial)

`ServerModel.handleMiddleware` does not read the authentication state.
Result: refuted: handling a message never consults the authentication state; the Example runs a handler for the first message of a connection with authentication on.
Theorems: `C49_auth_not_consulted_refuted`.

### C50 Broadcast stop closes every watched connection, and only then (partial)

`LifeModel` histories with signal channels. Invariants over histories. The history's heartbeat and broadcast events do exactly what one round of the two watch loops does (`C50_watch_agrees`).
Result: With WithBroadCastSignal(true) called once before everything, for every history: before a Stop(true) the broadcast watchers close nothing, from it on each closes its connection when it next runs. Refuted on repetition: after one Stop(true) a later one panics and new connections are closed at once. The history's heartbeat and broadcast events do exactly what one round of the two watch loops does (`C50_watch_agrees`). Without the signals Stop never panics and nothing waits for the broadcast (`C50_no_signals`).
Theorems: `C50_watch_agrees`, `C50_broadcast_partial`, `C50_repeat_refuted`, `C50_no_signals`, `C50_watcher`.

### C51 Stop(false) leaves existing connections alone (partial)

same with heartbeat watchers.
Result: Refuted with HeartBeatOn: after Stop(false) each open connection is closed when its heartbeat watcher next runs. Holds (partial) with heartbeats off and no Stop(true).
Theorems: `C51_stop_false_refuted`, `C51_stop_false_partial`.

### C52 Stop closes every listener (partial)

`LifeModel.Stop` over the records. Exact set of closed listeners. The Stop of the serving loop machine and the Stop of the call machine are the same steps (`C52_stop_agrees`).
Result: Exact characterisation of the listeners Stop closes (network written tcp, udp or kcp, and latest on its address); refuted for every other network. The Stop of the serving loop machine and the Stop of the call machine are the same steps (`C52_stop_agrees`).
Theorems: `C52_stop_agrees`, `C52_stop_exact`, `C52_other_networks_refuted`, `C52_stop_closes_partial`.

### C53 Start re-listens on every recorded address (partial)

`LifeModel` machine of Start's goroutines reading the shared loop variable (Go 1.12 semantics). Witness schedules.
Result: Refuted: with two or more records all goroutines of Start may see the last one (shared loop variable, go 1.12), or even a torn pair. Partial: one record is served, and the last record always is.
Theorems: `C53_start_refuted`, `C53_torn_refuted`, `C53_start_partial`.

### C54 One listener record per address (proved)

`LifeModel.fillProperty`. Invariant over histories.
Result: For every history: one record per address, present iff listened on, holding the latest listener.
Theorems: `C54_one_record`.

### C55 Stop/Start/Restart state machine (proved)

`LifeModel` state machine. Case analysis, hooks arbitrary.
Result: Stop and Start refuse exactly by the running state after every history; Restart runs its hooks in order on the stopped server. A repeated Stop(true) may panic instead (C50).
Theorems: `C55_stop_start`, `C55_restart`, `C55_interleaved`.

### C56 Every well-formed message on a TCP connection is dispatched exactly once (proved)

`ServerModel.serve` against `SpecServer.part`. Induction over parts.
Result: all sequences, all segmentations.
Theorems: `C56_every_message_once`.

### C57 Malformed input on a TCP connection is contained (partial)

same + `fault`; every stream is parts followed by a fault (well-founded induction on length); `stream_served` (SpecServer) is the exact relation, batches broken off inside included, proved by classifying one read and one batch.
Result: Exact for every stream and segmentation (C57_exact, C57_segmentation_free). As claimed (C57_contained_partial) when no batch is cut short or holds an unacceptable frame; false for a malformed frame inside a batch, where reading resumes mid-frame.
Theorems: `C57_contained_partial`, `C57_every_stream`, `C57_exact`, `C57_segmentation_free`, `C57_malformed_in_batch_refuted`.

### C58 A message with headerLength 0 is acceptable (partial)

`isPipe` on an empty header text.
Result: refuted for TCP with JSON headers, proved for UDP and for codecs that accept the empty text.
Theorems: `C58_empty_header_refuted`, `C58_empty_header_partial`, `C58_datagram`.

### C59 No client input can crash the server process (partial)

`handleMiddleware`/`handlePipe` totality; witnesses for the crash.
Result: ordinary TCP messages never crash; refuted by a truncated batch and by one datagram with a negative header length.
Theorems: `C59_survives_partial`, `C59_truncated_batch_refuted`, `C59_datagram_refuted`.

### C60 Each UDP datagram is one request (partial)

`serve_udp` over datagram lists. Induction.
Result: exact statement proved (truncation to the buffer); as claimed for datagrams that fit; refuted for larger ones.
Theorems: `C60_datagrams_exact`, `C60_datagrams_partial`, `C60_large_datagram_refuted`.

### C61 Connection callbacks (proved)

`accept_loop`/`connection` traces.
Result: all connections and byte streams; a panicking OnConnect is a separate theorem.
Theorems: `C61_callbacks`, `C61_close_on_fault`, `C61_onconnect_panic`.

### C62 One UDP client's heartbeat loss does not affect others (partial)

`LifeModel` datagram histories; `SpecLife`.
Result: Refuted for every datagram: three intervals without a beat for that datagram close the shared socket for every peer for good. Partial: heartbeats off.
Theorems: `C62_udp_heartbeat_refuted`, `C62_udp_no_heartbeat_partial`, `C62_udp_exact`, `C62_udp_spins_refuted`.

### C63 ListenAndServe accepts exactly the documented networks (proved)

`StrModel.network_choice`, every byte string.
Result: Complete: exact choice for every byte string.
Theorems: `C63_networks`.

### C64 In matches percent patterns (partial)

`StrModel.In`; prefix/suffix/substring as existentials.
Result: Exact for every list: panics exactly when an entry equal to "%" is reached; otherwise the documented meaning.
Theorems: `C64_in_matches_partial`, `C64_in_panics_refuted`, `C64_in_exact`, `C64_middle_percent_never_matches`.

### C65 ClientIP returns the peer's address (partial)

`StrModel.ClientIP`; split on the last colon semantics of the code.
Result: IPv4 holds; every IPv6 peer is reported as 127.0.0.1 (refuted).
Theorems: `C65_clientip_ipv4_partial`, `C65_clientip_ipv6_always_localhost`, `C65_clientip_ipv6_refuted`, `C65_clientip_other`.

### C66 The Python client speaks the same wire format (partial)

`ClientModel` Python functions; equality with the Go bytes.
Result: Holds for ids 0..2^31-1; negative ids cannot be packed and are misread (refuted).
Theorems: `C66_python_pack_partial`, `C66_python_unpack_partial`, `C66_python_negative_ids_refuted`.

### C67 Message header Get/Set (partial)

`WireModel` message accessors; map laws.
Result: Holds for messages with a header map; Set on a nil header panics (refuted).
Theorems: `C67_get_set_partial`, `C67_set_nil_header_refuted`, `C67_request_set`.

### C68 Reply helpers always encode with the announced marshaller (proved)

`CtxModel.commonReply`; equality with pack under the selected marshaller.
Result: One block with the announced marshaller (the context's own if it has that name), nothing written on encoding failure; the error of a failed encoding or write comes back wrapped (C68_wraps).
Theorems: `C68_reply_helpers`, `C68_reply`, `C68_wraps`, `C68_send_to_conn`.

### C69 What a client packs is what a TCP handler binds (proved)

`BindModel` over `ServerModel` and `WireModel`. Composition of C01, C02, C56.
Result: composition of the pack layout, segmentation, receive loop and unpack theorems.
Theorems: `C69_delivered_as_sent`.

### C70 On a connection with one router type each message runs its own chain (proved)

`CtxModel` + `MuxModel` + `ChainModel` through `handleMiddleware`. New invariant: on a uniform connection the cached router type is absent or the common one; then C25 and C21.
Result: composition of the context-store, configuration and chain theorems; stated on decoded messages and on sent ones.
Theorems: `C70_routed_by_own_header`, `C70_handled_as_planned`, `C70_sent_and_handled`.

### C71 A datagram is handled as it was sent (proved)

`serve_udp` + the same composition.
Result: UDP analogue of C69 and C70; no uniformity needed.
Theorems: `C71_datagram_handled_as_sent`.

### C72 OnConnect cannot change which handlers later requests run (partial)

`BindModel.connected_offset`; exec of OnConnect's acts on a context without handlers, then C21's simulation from a later offset.
Result: holds if OnConnect calls neither Next nor Abort; refuted otherwise: requests skip the first k handlers, or all.
Theorems: `C72_connect_untouched_partial`, `C72_next_in_onconnect_refuted`, `C72_abort_in_onconnect_refuted`.

### C73 After Stop no further connection is served (partial)

`LoopModel`: listening loops, Stop and Start as a step relation with one step per observable action. Potential function `left_steps` bounds the steps of a loop after STOP; closed listeners stay closed.
Result: C73_after_stop holds on every network: after the state is STOP a loop takes at most the one connection it is already waiting for and at most three more steps of its own; C73_recorded_partial: on "tcp", "kcp" and "udp" a recorded loop takes none after Stop closed the listeners. Missing: C73_other_network_refuted - on any other network name (tcp4, tcp6, udp4, ...) Stop closes nothing and the waiting loop accepts and serves one more connection.
Theorems: `C73_after_stop`, `C73_recorded_partial`, `C73_other_network_refuted`.

### C74 A listening loop that has ended has closed its socket (partial)

`LoopModel.leave`; invariant `QDone -> closed` for the kinds with the deferred Close; for UDP a concrete run and an invariant that nothing closes the socket later.
Result: Proved for TCP and raw (deferred Close). C74_udp_refuted: when the UDP receive loop ends, ListenAndServeUDP itself still waits in select{} and never runs its deferred Close, so on a network Stop does not close (udp4, ...) the socket stays open and the address taken for ever.
Theorems: `C74_returned_closed`, `C74_udp_refuted`.

### C75 A running server keeps accepting (partial)

Same machine; the guard on the operations excludes exactly failing Accepts and panicking callbacks of that loop; the refutation is one step.
Result: Holds while no Accept fails and OnConnect does not panic (both for the loop in question). C75_one_error_refuted: a single failing Accept (EMFILE, say) or one panicking OnConnect ends the loop and closes the listener while the server still reports it is running, and Start refuses to help.
Theorems: `C75_keeps_accepting_partial`, `C75_one_error_refuted`.

### C76 Restart resumes the same service on the same address (partial)

`start_kind` is the switch of Start; invariants: every open loop past fillProperty is recorded under its address, recorded loops exist; then Stop frees the address and an explicit run re-listens. Refutations by runs of an executable version of the machine, proved sound.
Result: C76_resumes_partial: on "tcp", "kcp", "udp" an execution after Start exists in which the address is served by a loop of the kind Start picks. Missing: Start never restarts a raw server nor a UDP buffer size (C76_kind_lost_refuted); on other networks the old listener still holds the address, so Start's call fails (C76_not_resumed_refuted).
Theorems: `C76_kind_lost_refuted`, `C76_not_resumed_refuted`, `C76_start_kind`, `C76_resumes_partial`.

### C77 A listening loop whose socket was closed ends (partial)

The same potential function with a closed listener; the refutation exhibits a loop in the state graph (a two-step run from a state to itself).
Result: C77_tcp_ends_partial: TCP and raw loops with a closed listener take at most four more steps and are never stuck before they return. Missing: C77_udp_spins_refuted - a UDP loop whose socket was closed by Stop and which reads its state after the next Start reads "use of closed" errors for ever without returning.
Theorems: `C77_udp_spins_refuted`, `C77_udp_closed_refuted`, `C77_tcp_ends_partial`.

### C78 A raw connection runs its chain and is always closed (proved)

`LoopModel.raw_chain`/`raw_conn` over `MuxModel` and `ChainModel`; C21's chain theorem and the anchors' invariant of C14.
Theorems: `C78_closed_always`, `C78_chain`.

### C79 Middleware that was UnUse'd does not run on raw connections (partial)

`raw_funcs` is compared with `in_use`; the refutation is for every history that ever used the middleware.
Result: C79_in_use_partial: when UnUse was never called the chain is exactly the middlewares in use. C79_unused_runs_refuted: handleRaw takes every anchor, whatever its expiry, so any middleware ever used runs, UnUse'd or not.
Theorems: `C79_unused_runs_refuted`, `C79_in_use_partial`.

### C80 The client pool's map is never raced (proved)

`PoolModel`'s lock machine. Static lock discipline of the programs (`disc`, preserved by steps) tied to the lock's state: the writer is the one thread in write mode, and the number of threads about to read or release equals the reader count.
Theorems: `C80_no_race`.

### C81 A connection's online state is not raced (proved)

`StateModel`: the lock `ctx.L` and the state word with any number of goroutines running CloseConn's tail, IsOffline, IsOnline, GetPoolRef. Invariant: each program is a suffix fitting what its goroutine holds; the lock's value counts the holders; the state is what the log of sets says; what a goroutine did and what its program still holds are always the accesses its calls owe (`C81_accounts`).
Result: Any number of goroutines; no race, every read returns whether a close came before it, every call makes exactly its accesses (C81_accounts), no deadlock.
Theorems: `C81_no_race`, `C81_reads`, `C81_no_deadlock`, `C81_accounts`.

### C82 RecvAuthPass, RecvAuthDeny and RecvHeartBeat return (partial)

`ChanModel`: the one-slot channel, its watcher and any number of calling goroutines as a step relation. Counting invariant: returned calls + slot before = takes + slot after, and the auth watcher takes at most once. `ChanModel`'s watchers take and leave exactly when the loops of `WatchModel` do (`C82_take_agrees`, `C82_leave_agrees`).
Result: False: at most two auth signals of a connection (one without a watcher) and one RecvHeartBeat without HeartBeatOn ever return, all further calls block for ever (C82_at_most_refuted, C82_blocked_refuted). What holds: the first call always returns, and RecvHeartBeat returns while the heartbeat watcher is at work. `ChanModel`'s watchers take and leave exactly when the loops of `WatchModel` do (`C82_take_agrees`, `C82_leave_agrees`).
Theorems: `C82_take_agrees`, `C82_leave_agrees`, `C82_at_most_refuted`, `C82_blocked_refuted`, `C82_first_returns_partial`, `C82_beat_returns_partial`, `C82_beats_all_partial`, `C82_taken`.

### C83 RecvAuthDeny closes the connection (partial)

Same machine; invariant that a first denial is in the slot with the watcher waiting, or the connection is closed; conversely that the connection stays open; that the socket is closed exactly when recvEnd is (C83_closed).
Result: Holds when WithAuth is on and the denial is the first signal. C83_ignored_refuted: without a watcher (no WithAuth, raw, UDP) or after a first pass no denial ever closes the connection.
Theorems: `C83_deny_first_partial`, `C83_ignored_refuted`, `C83_closed`.

### C84 A deadline set with srv.SetDeadline bounds every connection (partial)

`DeadModel`: server fields, sockets with their deadlines, three `Set*` calls per new socket in the order of the code. Induction over histories; the last two calls overwrite what the first did.
Result: False: accept calls SetDeadline and then SetReadDeadline and SetWriteDeadline with fields that are zero unless set, which cancels it; SetDeadline never has any effect (C84_ignored_refuted). Exact: a socket gets the newest SetReadDeadline and SetWriteDeadline (C84_new_socket_partial), so it holds for programs not using SetDeadline (C84_without_both_partial). C84_passed_closes: the TCP reader closes at the first read at or after its deadline.
Theorems: `C84_new_socket_partial`, `C84_without_both_partial`, `C84_ignored_refuted`, `C84_passed_closes`, `C84_not_before`, `C84_closed_by_late_read`.

### C85 A deadline set through a context concerns that client only (partial)

Same model; contexts map to sockets, injectively for TCP, all to one for UDP. The deaf-socket theorem is an induction over any continuation whose reads are not before the deadline.
Result: Holds for TCP. False for UDP: all datagrams share the socket, so the deadline is everybody's (C85_udp_shared_refuted), and after a handler has set a read deadline the server never receives a datagram again once it has passed (C85_udp_deaf_refuted).
Theorems: `C85_tcp_own_partial`, `C85_tcp_distinct_partial`, `C85_sets_partial`, `C85_udp_shared_refuted`, `C85_udp_deaf_refuted`.

### C86 After ListenAndServe the mux is locked (partial)

`RegModel`: the registration calls as programs of locked field accesses beside any number of requests. An explicit run that registers after `MServe` for an arbitrary configuration.
Result: False: nothing sets the lock; every call after the start takes effect (C86_unlocked_refuted, for every configuration and every call).
Theorems: `C86_unlocked_refuted`.

### C87 A request sees a complete routing table (partial)

Same machine. Before-serve part: invariant that with nothing left to register the mux is `build h`, each request's pending continuation agrees with `plan_of`, and no write is pending. Refutations: explicit runs for an arbitrary configuration and call. The footprint theorems compare two muxes that agree at the given locations, step by step, and exhibit a mux for each location that matters.
Result: Holds when all registration precedes the start (C87_before_serve_partial, with progress in C87_progress_partial); with calls at any time the URL anchor map is never raced and nobody waits for ever (C87_anchor_maps_partial, C87_no_deadlock_partial). False during registration: data race on the handler map (C87_race_refuted); a request finds the handler without its anchor and panics on a goroutine without recover (C87_crash_refuted). The accesses the statements speak of are exact: a registering step changes only what it is said to write, depends only on what it is said to access, and can change each location it is said to write (C87_footprint, C87_writes); a request's step depends on the locations it is said to read and on each of them (C87_reads).
Theorems: `C87_before_serve_partial`, `C87_progress_partial`, `C87_anchor_maps_partial`, `C87_no_deadlock_partial`, `C87_race_refuted`, `C87_crash_refuted`, `C87_footprint`, `C87_reads`, `C87_writes`.

### C88 Over UDP replies and pushes go to the right address (proved)

`UdpModel` against address and name functions read off the history (`from`, `last_login`, `logged_out`); one invariant relating state and history, by induction.
Result: Exact results of both calls after every history.
Theorems: `C88_reply`, `C88_push`.

### C89 A UDP user can go offline (partial)

Same invariant; after the name is gone from every context, no step other than `UOnline` touches the entry.
Result: Holds inside the handling of the datagram that went online (C89_same_datagram_partial). False afterwards: the name is kept in the request's context, which is reset when the chain is through; nothing but a new Online of that name ever changes the pool entry (C89_never_offline_refuted).
Theorems: `C89_same_datagram_partial`, `C89_never_offline_refuted`.

### C90 No goroutine outlives its connection (partial)

`GorModel`: goroutines with kinds and reasons to end. Invariant: a connection's reader runs or recvEnd is closed. Then induction on the number of live goroutines drains them. Refutation: invariant that every datagram's broadcast watcher is alive. A watcher of `GorModel` may end exactly when a round of its loop can end (`C90_beat_agrees`, `C90_auth_agrees`, `C90_broadcast_agrees`). Which ends close the connection: by cases (`C90_closing`).
Result: Holds for TCP and raw connections (C90_connection_partial). False for datagrams when WithBroadCastSignal is used: one goroutine per datagram that nothing but closing the server ends (C90_datagram_refuted). A watcher of `GorModel` may end exactly when a round of its loop can end (`C90_beat_agrees`, `C90_auth_agrees`, `C90_broadcast_agrees`). The watchers see a Stop exactly while the server is stopped and the broadcast exactly from a Stop(true) with signals on (`C90_stop_seen`).
Theorems: `C90_beat_agrees`, `C90_auth_agrees`, `C90_broadcast_agrees`, `C90_connection_partial`, `C90_datagram_refuted`, `C90_not_early`, `C90_handlers`, `C90_closing`, `C90_stop_seen`, `C90_started`.

### C91 Heartbeat and auth messages reach their handlers (partial)

`asks_for` (SpecBeat) names the two calls and the function they install; `serving` shows the registration stays in force (induction over the later calls), C70 gives the plan that is carried out, and an induction over gin's semantics (`gin_steady`) shows that a chain whose functions neither abort nor panic shows every effect of every function. The two refutations: OnMessage's plan consists of functions handed over by other calls (`loop_effects`), and after a URL-routed message C34_sticky_refuted gives the routing, by the empty pattern.
Result: Holds with OnMessage unset, on TCP connections all of whose messages ask for MESSAGE_ID routing, for functions that neither abort nor panic and plans of at most 2019 functions. False when OnMessage is set (no routing at all), and after a URL-routed message on the same connection (the router type is remembered).
Theorems: `C91_reaches_handler_partial`, `C91_onmessage_refuted`, `C91_after_url_refuted`.

### C92 One-shot JSON calls send exactly one message and close (partial)

case analysis over dialling, packing and writing (BindModel, ClientModel); the written block is identified by C01's layout; the receiving side is C69 for a single message. Refuted for ids outside int32 by the conversion int32(messageID).
Result: Proved for ids in int32 range. False for other ints given to TCPCallOnceJSON: the low 32 bits are sent. A failed encoding gives the encoder's error, wrapped, and nothing is written. A short write without an error (which net.Conn does not do) would go unnoticed.
Theorems: `C92_call_once_partial`, `C92_write_json`, `C92_server_dispatches_one`, `C92_wide_id_refuted`.

### C93 What a handler replies is what the client reads (partial)

C68 and C35 give the layout of the written blocks, C13 their reception over any segmentation, C03 the fields the client's accessors read.
Result: Proved for replies with a value, given that encoder and decoder round-trip on it and that a context marshaller using a built-in name is the built-in one. False for replies without a value: the empty body is handed to the decoder.
Theorems: `C93_replies_read_back_partial`, `C93_no_value_refuted`, `C93_pattern_replies`.

### C94 A message limit bounds what a message makes the server allocate (partial)

the allocation trace of the read loop (AllocModel) is a recursion over the same reads as ServerModel; induction over it bounds the byte buffers; C14's isPipe lemma gives the batch's slice, whose length is the announced number. The total (C94_total_partial) by a potential argument: a block that is read costs twice its length, a failed read is followed by at most one more.
Result: Bounds proved for byte buffers (any stream), for all buffers of a connection together (at most twice what was received, the limit and eight bytes) and for streams of ordinary messages; false for batches: the announced number alone sizes a slice of pointers (tcpx.go:585), at most one slice for every four bytes. Without a limit any length below 2^31 is allocated on four bytes. What the header decoder and copyContext allocate is not counted.
Theorems: `C94_buffers_bounded_partial`, `C94_plain_messages_partial`, `C94_batch_refuted`, `C94_without_limit`, `C94_exact`, `C94_total_partial`, `C94_few_batches`.

### C95 Messages of one connection are handled in the order they arrive (partial)

transition system of accept loop, readers and handling goroutines (OrderModel); an invariant assigns to each goroutine a range of message numbers, disjoint from the others, and says how far it has come; lockstep clients by a second invariant; the refutation constructs the schedule for a given permutation.
Result: False: ordinary messages may be handled in any order and at the same time (every permutation occurs, C95_any_order_refuted). Holds within a batch, and for clients that wait for each message to be handled; each message is handled exactly once in any case.
Theorems: `C95_each_once`, `C95_batch_partial`, `C95_lockstep_partial`, `C95_any_order_refuted`.

### C96 A handler that does not return delays nothing else (partial)

same model; a measure decreasing with every step gives an execution without the blocked goroutines that runs until nothing more is possible, where the invariant of C95 says everything else was handled.
Result: Holds but for the rest of a batch (C96_batch_refuted), for batches that announce more messages than follow, which can end the process (C96_short_batch_refuted) and for OnConnect, which runs in the accept loop: while it blocks no further connection is served (C96_onconnect_refuted). TCP server; locks taken inside handlers are the program's own.
Theorems: `C96_others_proceed_partial`, `C96_batch_refuted`, `C96_onconnect_refuted`, `C96_short_batch_refuted`.

### C97 BeforeExit runs its functions and then exits (partial)

process with waiting goroutines and signals as events (ExitModel); an invariant relates the functions that have run to the goroutine's position; refutations are executions for all lists of functions.
Result: Partial: holds for one call whose functions do not panic. Refuted: a panicking function leaves the process unable to be ended by signals, a signal between Notify and receive is dropped, a signal before Notify ends the process at once, two calls race for os.Exit, SIGKILL runs nothing.
Theorems: `C97_one_call_partial`, `C97_signal_exits`, `C97_panic_refuted`, `C97_too_early_refuted`, `C97_dropped_refuted`, `C97_two_calls_refuted`, `C97_sigkill_refuted`.

### C98 Defer eliminates every panic and hands it on (partial)

Defer as a function of the outcomes of f and the handlers; induction over the handlers.
Result: Partial: holds when the handlers do not panic. Refuted for a panicking handler and for panic(nil).
Theorems: `C98_defer_partial`, `C98_handler_panics_refuted`, `C98_nil_panic_refuted`, `C98_closechanel`.

### C99 With a TLS configuration nothing is served in clear (partial)

case analysis of newListener and the four entry points over every configuration and network name.
Result: Partial: holds for the stream server. Refuted for the raw and packet servers, which ignore TLSConfig.
Theorems: `C99_tcp_encrypted_partial`, `C99_raw_udp_clear_refuted`, `C99_new_listener`, `C99_load`.

### C100 ListenAndServe reports what happened (partial)

same functions as C99; the result of each entry point for every way its accept loop can be left.
Result: Partial: stream servers report every failure to listen and do not return while the accept loop runs. Refuted: packets panic or never return; nil is also returned after a failed Accept.
Theorems: `C100_stream_error_partial`, `C100_unsupported`, `C100_udp_refuted`, `C100_nil_refuted`, `C100_waits`.

### C101 Overlapping Stop, Start and Restart calls act as if made one after another (partial)

the steps of Stop, Start and Restart as a transition system over LifeModel's state; an uninterrupted run is shown equal to LifeModel.Stop; calls that do not overlap are shown, by induction over the calls, to give the results of the sequence; each step's effect on the state is characterised; the overlapping schedules are executed for every state.
Result: What holds: a call nobody interrupts and any number of calls that do not overlap act as in sequence; after a Stop has set the state every later Stop is refused; only a started server and a Stop that saw the server running change the state; no call waits for another. False for overlapping calls: two Stops both succeed, two Stop(true) panic on the channel, two Restarts start every listener twice.
Theorems: `C101_alone_partial`, `C101_later_refused_partial`, `C101_never_blocks`, `C101_serial_partial`, `C101_state`, `C101_two_stops_refuted`, `C101_double_close_refuted`, `C101_two_starts_refuted`.

### C102 Registration takes a snapshot of its handlers (partial)

memory of arrays and slices (SliceModel); invariant: no place the mux filled by copying shares its array with any other place; each call is shown to change the private places only as the list-valued model says. The refutations compute the array for every list, spare room and growth function.
Result: Partial: AddHandler, UseGlobal and Any with listed handlers take snapshots (C102_ids, C102_literal_partial). Refuted for Any with a slice: the route keeps the program's own array, so a later append or assignment changes it.
Theorems: `C102_ids`, `C102_literal_partial`, `C102_append_refuted`, `C102_write_refuted`.

### C103 A URLMux obeys its lock and its conflict rule (proved)

induction over the history of calls, with the list of successful registrations as ghost value.
Result: Proved for a URLMux used on its own; the server never calls LockWrite or PanicOnExistRouter (see C86).
Theorems: `C103_routes`, `C103_places`, `C103_locked`, `C103_conflict`.

### C104 The fields of a server are not raced (partial)

every function is a set of access sequences (FieldModel); fields always accessed under pLock are shown free of races by an invariant relating the mutex to what each goroutine holds, fields written only before the first `go` by an invariant on what goroutines may still access (AccessFacts); the races are reached by explicit schedules. For late configuring one server takes every branch; the schedule for each field is searched by a function proved to yield runs.
Result: Proved for every program: state and the listeners are never raced; the record list is not raced without Start; what is configured before anything is started and never afterwards is not raced, except the pool when Stop(true) replaces it. Refuted: Stop(true) replaces tcpx.pool while an accept loop reads it; Start reads tcpx.properties without the lock fillProperty holds; Start's loop variable is shared with the goroutines it starts; every configuring call on a running server, for each field it sets (C104_late_setup_refuted).
Theorems: `C104_locked_partial`, `C104_properties_partial`, `C104_conf`, `C104_setup_partial`, `C104_pool_refuted`, `C104_properties_refuted`, `C104_start_refuted`, `C104_late_setup_refuted`.

### C105 The fields of a context are not raced (partial)

the same machine with ctx.L as the lock; per message the copies get fresh numbers, and each goroutine is shown to touch late-written fields of its own copy only; races are reached by explicit schedules.
Result: Proved: the user state is never raced; on TCP and raw connections no context field is raced without OnHeartbeatLoss and without goroutines of the handlers' own; on datagrams without watchers and Online neither. Refuted: OnHeartbeatLoss copies the context the reader is writing to (TCP and raw); a handler's goroutine that asks for ClientIP; the UDP loop sets poolRef after starting the watchers; Reset replaces PerRequestContext while the UDP heartbeat watcher reads it.
Theorems: `C105_state_partial`, `C105_tcp_partial`, `C105_raw_partial`, `C105_udp_partial`, `C105_loss_refuted`, `C105_raw_refuted`, `C105_background_refuted`, `C105_udp_pool_refuted`, `C105_udp_reset_refuted`.

### C106 A handler may call Reset or ResetOffset on its context (partial)

a machine with an explicit stack of handler bodies and Next loops (ResetModel), shown to simulate ChainModel where neither call is made (induction on ChainModel's fuel); the refutations drive it through any list of handlers by induction on the list, the endless chain by a cycle lemma.
Result: refuted: Reset makes the running chain panic with an index out of range once the handler returns (the goroutine does not recover, so the process ends), ResetOffset runs the chain again from its beginning, for ever if it is called each time. Holds if the handler calls Abort after it, and for the heartbeat and auth handlers, which are called without a chain.
Theorems: `C106_reset_refuted`, `C106_after_next_refuted`, `C106_offset_forever_refuted`, `C106_offset_twice_refuted`, `C106_then_abort_partial`, `C106_direct_partial`, `C106_same_chain`.

### C107 A panic in user code does not end the process (partial)

goroutines as lists of calls, deferred calls, recovers and `go` statements (PanicModel); an invariant places every goroutine in its own body (how far it got, which deferred calls ran), from which the claims follow per kind of goroutine; the crash schedules are built by running the goroutines concerned one after the other.
Result: refuted for handlers, middleware and OnMessage on TCP and UDP (the process ends exactly when one of them panics), for OnConnect (the server stops listening and the connection is never closed) and for OnHeartbeatLoss (the watcher is gone without closing). Holds for raw servers, and for OnClose: the reading goroutine always closes its connection.
Theorems: `C107_crash_iff_refuted`, `C107_raw_partial`, `C107_closed_partial`, `C107_tcp_refuted`, `C107_udp_refuted`, `C107_connect_refuted`, `C107_loss_refuted`.

### C108 The logger prints what it is given, and only in debug mode (partial)

log.go with its trimming of brackets on strings, and a table of everything the library prints (LogModel); by computation over the table and a lemma that trimming gives back the joined values.
Result: holds for Logger.Println itself. Refuted for the library: every datagram received, accept errors, Stop, Start, BeforeExit, Defer and Debug print in release mode too; SetLogFlags changes nothing; two lines show an unformatted verb.
Theorems: `C108_logger_partial`, `C108_release_refuted`, `C108_flags_refuted`, `C108_verb_refuted`, `C108_texts`.

### C109 The stream checker accepts exactly well-formed messages (partial)

the handler over WireModel's Unpack (ToolModel); acceptance is characterised exactly by reading the array as a list (unpack_loose), no-answer by C07's condition with the wrap-arounds eliminated; the refuting streams are computed.
Result: Well-formed and packed streams pass; acceptance and no-answer are characterised exactly. False as stated: trailing bytes, a length field that is too small and bytes missing at the end (when the decoded slice has spare capacity) are accepted, and short streams panic the handler so that no answer is sent.
Theorems: `C109_packed_passes_partial`, `C109_wellformed_passes_partial`, `C109_passes_iff_partial`, `C109_no_answer_iff_partial`, `C109_rejects`, `C109_checks_refuted`.

### C110 The pack-detail programs show the real wire format (partial)

encoder and decoder written out as the programs do (ToolModel); equality with PackWithMarshaller by cases, the decoder by the field lemmas of a laid-out block; the arrays in the programs' comments are checked by computation.
Result: Encoders are equal to the library's for all inputs. False of the decoders: negative ids are printed as unsigned numbers and decoding errors are dropped.
Theorems: `C110_encode_is_pack`, `C110_decode_inverts_partial`, `C110_documented_bytes`, `C110_decode_refuted`.

### C111 The middleware examples let only clients with the key log in (partial)

the handlers as functions of the message's bytes over ServerModel.handleMiddleware (GuardModel); the chain is computed once symbolically, the guard follows by cases on HeaderOf and the header's value.
Result: The guard holds for all bytes and states, and a login request routed by id gets exactly one reply. False in one respect: after a URL-routed message on the same connection login requests are silently dropped (C34).
Theorems: `C111_login_guarded`, `C111_login_answered_partial`, `C111_same_servers`, `C111_every_login_answered_refuted`.

### C112 The global-middleware example counts requests (partial)

handling goroutines as step lists sharing the counter; invariant relating counter, replies and steps left.
Result: Bounds, monotonicity and the final total hold under every schedule below 2^31 requests. False as stated: unrouted requests are not counted, two requests may be told the same number, and the int32 counter goes negative.
Theorems: `C112_count_partial`, `C112_count_refuted`.

### C113 The chat example delivers each message once or says the user is offline (partial)

invariant by induction over the events: the pool is the one PoolModel computes from the calls, every unfinished send is explained by its request, every write by a finished send; delivery then follows from the pool's invariant (C40).
Result: One write per request holds when nothing happens between looking up and sending, and every write is explained under every interleaving. False as stated: the sender's name in a delivered message is the receiver's, a request may be lost silently when the user leaves in between, a user still online is reported offline once another connection of that name leaves, and one undecodable request ends the process.
Theorems: `C113_send_partial`, `C113_writes_partial`, `C113_sender_refuted`, `C113_malformed_refuted`, `C113_lost_refuted`, `C113_online_refuted`.

### C114 The my-marshal example prints what was sent (proved)

Unpack and the accessors in closed form (UnpackFacts, WireFacts) instantiated with the ByteMarshaller; agreement on arbitrary streams by cases on the wrap-around of the 32-bit sums.
Result: For streams shorter than 2^31 bytes. Packing anything but bytes panics (C114_not_bytes).
Theorems: `C114_received`, `C114_agree`, `C114_server`, `C114_packs`, `C114_not_bytes`.

### C115 MD5 is 32 upper-case hexadecimal digits of the RFC 1321 sum (proved)

RFC 1321 written out and run on its test vectors; format and injectivity of the two digits of a byte by computation over all 256 bytes, lifted by induction.
Theorems: `C115_format`, `C115_tells_sums_apart`.

### C116 The auth example keeps exactly the connections that sign their message (partial)

invariant over the runs of ChanModel with the goroutines' signals computed from the messages; the first signal by C83.
Result: The first claim holds under every interleaving, the others for the message that signals first. False as stated: an undecodable message neither passes nor denies, a wrong message after a right one closes nothing, the signature does not separate the two fields, and the example's ValidClient signs with the wrong secret.
Theorems: `C116_kept_only_if_signed`, `C116_signed_first_partial`, `C116_wrong_first`, `C116_fields_refuted`, `C116_undecodable_refuted`, `C116_deny_after_pass_refuted`, `C116_valid_client_refuted`.

### C117 The example clients show every message they are sent (partial)

one read of the 500-byte buffer in closed form (BodyBytesOf_cases), then induction over the reads; the FirstBlockOf clients by induction over the blocks with the segmentation lemmas of C06.
Result: holds in full for the FirstBlockOf clients; for the conn.Read clients only when every read starts with a whole message. Refuted otherwise: bodies over 500 bytes are never shown, the second of two joined messages is lost, a cut message shows an empty line and can end the client.
Theorems: `C117_reads_partial`, `C117_blocks`, `C117_stream_ends`, `C117_short_block`, `C117_chat_panel`, `C117_chat_stops`, `C117_long_refuted`, `C117_together_refuted`, `C117_split_refuted`, `C117_crash_refuted`.

### C118 The say-hello server answers its clients (partial)

the plans of the server computed for every id; the chains run by cases on Bind; the heartbeat by C45 with no beat in any plan.
Result: the replies and middlewares are as documented. Refuted: the kcp goroutine ends the process, an undecodable body panics, and no message resets the heartbeat count.
Theorems: `C118_answers_partial`, `C118_malformed_refuted`, `C118_kcp_refuted`, `C118_heartbeat_refuted`.

### C119 Pool calls made at the same time act as if made one after another (partial)

simulation of the access-by-access model by PoolModel, with ghost instants: Online acts when the entry is set, Offline and CloseConn when the name is read, looked up or deleted, GetClientPool when it reads; invariant relating the two memories while calls are going on.
Result: Proved under the condition that no connection is given a name while another call on it is going on (in particular when a connection that gets a name from one goroutine is used by no other); without it false: CloseConn overlapping Online of a second name leaves a closed connection registered under both names (C119_overlap_refuted).
Theorems: `C119_linearizable_partial`, `C119_final_partial`, `C119_own_connections`, `C119_overlap_refuted`, `C119_no_call_is_lost`.

### C120 A message sent to a name while others log in and out goes where it should (partial)

the state of a connection never returns to online, so the instant of the look-up serves for a message sent; for a refusal, invariants over the runs of LinModel: a connection past the deletion in CloseConn is not in the pool under its name, and until then it stays online.
Result: Sending: proved without condition (C120_sent). Refusing: proved when no connection is given a name while another call on it is going on, the connection found uses one name only, and its socket is not closed meanwhile; each of the three is needed (C120_two_names_refuted, C120_overlap_refuted, C120_closing_refuted).
Theorems: `C120_sent`, `C120_refused_partial`, `C120_two_names_refuted`, `C120_overlap_refuted`, `C120_closing_refuted`.

### C121 The raw example answers every message (partial)

induction on the reader; each Read consumes one piece of at most 500 bytes; fuel shown sufficient by the reader's size.
Result: Proved for every segmentation: exactly the bytes sent are printed, in order; one answer for each piece read; the close. "One answer per message" is false because Read knows no messages (refuted: joined, long and split messages); it holds when each message arrives in a Read of its own.
Theorems: `C121_prints_what_came`, `C121_one_answer_partial`, `C121_one_answer_refuted`, `C121_client_prints`.

### C122 In the online-offline example a client is in the pool while logged in (partial)

effect lemmas of the pool calls in a world with one pool, then an invariant over the events tying the entry under u, the names kept by contexts and the last deed of the connection; refutations by short histories, two of them from every reachable state.
Result: The last login or logout to be handled decides (proved for every schedule, when the name is the client's alone), so what was sent decides when goroutines run in order. Refuted otherwise: handlers run out of order; an empty name prints success; a name shared by two clients; a client that changes its name.
Theorems: `C122_last_handled_partial`, `C122_presence_partial`, `C122_lines`, `C122_order_refuted`, `C122_empty_name_refuted`, `C122_shared_name_refuted`, `C122_new_name_refuted`.

### C123 The url-pattern example answers every login with the token (partial)

every run of the server is a history of context calls (CtxModel), so C70 gives the routing of each message; an invariant ties goroutines, messages and buffers; the client by induction on the copies of the answer; refutation by running both orders.
Result: Proved: only logins are answered, at most once, with the token; on connections whose messages all ask for patterns exactly the handled logins are answered; one token per message; the client prints each. Refuted: on a connection that also carries a message routed by number the cached router type can leave a login unanswered.
Theorems: `C123_answers`, `C123_logins_answered_partial`, `C123_one_token_each`, `C123_client_shows`, `C123_token`, `C123_decodes`, `C123_mixed_refuted`.

### C124 The helloworld server prints what its clients send (proved)

C69 for an environment with the JSON of byte slices; base64 by induction three bytes at a time, its bits by linear arithmetic. Pipelined messages by C18_piped_arrives (the marker header survives encoding/json for every count).
Result: All of it, with encoding/base64 and the JSON of byte slices modelled concretely; a slice whose packed message reaches 2^31 bytes is outside (C08).
Theorems: `C124_base64`, `C124_prints`, `C124_packs`, `C124_always_a_line`, `C124_piped`, `C124_line_ends`.

### C125 The heartbeat example keeps clients that beat and drops those that stop (partial)

a machine of client, heartbeats on their way and WatchModel's watcher; the invariant is that the next heartbeat is due within sleep + lateness + latency of the last arrival, then C45_loss_time; the bound is exact (C125_late_refuted builds the run). Bytes by C69, routing by C70.
Result: Kept only while sleep + lateness + latency stay below three intervals; C125_late_refuted shows that at three intervals a client that never misses a heartbeat can be dropped.
Theorems: `C125_beats`, `C125_kept_partial`, `C125_noticed`, `C125_late_refuted`.

### C126 The graceful-stop and graceful-restart examples keep their clients (partial)

the goroutines of LoopModel with the examples' program counter and the clients; an invariant lists the thirteen shapes the server can have, each step is checked against it; clients by induction over the run; the case by a computed, proved stepper.
Result: Proved for every client the server has accepted, for all dials between Stop and Start, and (with a network that does its part) after Start. Refuted: a client connected but not yet accepted when Stop closes the listener is cut off; a Stop called before the server runs stops nothing. Waiting clients: that one can still be served is proved as the existence of such a run, without fairness.
Theorems: `C126_kept`, `C126_ended`, `C126_stop_works`, `C126_stopped`, `C126_restarted`, `C126_waiting_served_partial`, `C126_cut_refuted`, `C126_too_early_refuted`.

### C127 The panic of a misused Use or UnUse names the calls involved (partial)

WhereModel runs MuxModel's Use and UnUse and keeps the recorded places beside the anchors; an invariant relates both to the list of calls that took effect (SpecWhere.notes), over all histories.
Result: Proved for every history of registration calls, with panics recovered: a Use (UnUse) panics in callUse (callUnUse) exactly when it meets a key in use (a known key not in use), and the text is, character for character, the two headings with the places of the earlier calls that took effect, oldest first; every such place occurs in the text. Refuted: the misusing call's own place is not in the text (it is recorded after the test). The texts of the other panics come from errorx and are not modelled.
Theorems: `C127_use_text_partial`, `C127_unuse_text_partial`, `C127_earlier_named`, `C127_same_effect`, `C127_offender_refuted`.

### C128 The TLS example serves logins over TLS only, one for each client (proved)

TlsModel composes ListenModel, ServerModel and CtxModel; the message is computed (JSON headers of JsonModel), delivery by C56 for every segmentation, handling by C70 over all histories of contexts.
Result: Proved for the listening, the reading and the handling; cryptography is not modelled (what one end writes is what the other reads), and the header JSON is that of JsonModel.
Theorems: `C128_never_clear`, `C128_one_message_each`, `C128_one_login`.

### C129 The contexts of one connection are interchangeable for presence (partial)

`ShareModel` against `PoolModel`: a simulation over all histories (contexts of connection c point to the c-th cells; pools related by mapping every context to its connection). Histories that differ in the context used translate to the same `PoolModel` history.
Result: Proved for all histories: the model with structs and shared pointers is simulated by the model with one record per connection (C129_one_record), so that histories differing only in the context a call is made on cannot be told apart (C129_interchangeable_partial). False for SetCtxPerRequest: on a message's context it stores for the whole connection and can rename the user, on the connection's first context it does not (C129_request_store_refuted).
Theorems: `C129_one_record`, `C129_interchangeable_partial`, `C129_request_store_refuted`.

### C130 A message of a known router type is never dropped, however the accesses interleave (partial)

`FineModel`: goroutines are access programs, a schedule is any list of goroutine numbers. Rely/guarantee over the map entry (`keeps`), instantiated three times: uniform types, a type already stored, and where values can come from. The refutation is a schedule of ten steps for any two messages of the two types. `alone` (no interference) is shown to be a schedule and to be `CtxModel.route`.
Result: False: handleMiddleware calls RouterType up to three times and the cache is shared by all messages of the connection, so two first messages of different (known) types can race and one is dropped as of unexpected type (C130_two_types_refuted, for every such pair of messages). Proved: if all messages ask for the same type and the application leaves the key alone, every interleaving routes every message by its own header; once a type is stored it decides for all later messages; without overlap the first message decides; and in general where every value comes from. The one-step view of CtxModel is proved to be the schedule without interference.
Theorems: `C130_uniform_partial`, `C130_settled_partial`, `C130_sources`, `C130_two_types_refuted`, `C130_first_decides_partial`, `C130_alone_scheduled`, `C130_alone_route`.

### C131 A pool used directly names exactly the open connections it was given (partial)

`DirectModel` with the independent history relation `holds` (`SpecDirect`): one invariant over all histories relates every field of the world to the history; `holds` is shown to be a function. `C131_conservative` maps `PoolModel` into it.
Result: Proved: what a pool holds after any history is exactly what the history says (C131_content, C131_lookup), a send by name never reaches a closed connection even through entries the application made itself (C131_send), closing a connection leaves no context under its own name in its own pool (C131_close_partial), Offline through the pool (C131_offline), and without direct calls this is PoolModel (C131_conservative). Refuted: closing leaves entries the application made under another name (C131_stale_refuted), and Offline does not remove a nil entry (C131_nil_refuted). The empty name can be pooled directly (C131_empty).
Theorems: `C131_content`, `C131_lookup`, `C131_send`, `C131_close_partial`, `C131_stale_refuted`, `C131_nil_refuted`, `C131_offline`, `C131_empty`, `C131_conservative`.

### C132 What is registered through the mux itself is served, and a locked mux does not change (partial)

`BareModel` (MuxModel with the exported methods of Mux, AllowAdd, a nil Mux and an int32 counter). State theorems over arbitrary configurations; `C132_conservative` by induction over histories, with the counter bounded by the number of calls; the wrap-around by an invariant for n calls of CurrentAnchorIndex.
Result: Proved: in any configuration that passes ListenAndServe's check, a request panics exactly when its id or pattern has handlers but no index (C132_panics; not so for anchors added after the check, C132_unchecked_refuted); AddHandleFunc with CurrentAnchorIndex and AddMessageIDAnchor is AddHandler (C132_by_hand); a pattern registered through the mux runs its handlers once (C132_url_once); while AllowAdd is false no id gets a handler (C132_locked_partial); what each call does with a nil Mux (C132_nil); what AddMessageIDSelfMiddleware does, and that followed by AddHandler it is AddHandler with middlewares (C132_self); below 2^31 - 2 calls this is MuxModel (C132_conservative). Refuted: handlers registered with AddHandleFunc or Mux.Any alone make requests panic (C132_bare_refuted); after 2^31 indices a middleware in use is skipped (C132_wrap, C132_wrap_refuted); with AllowAdd false Any registers two or more handlers and silently drops one (C132_locked_any_refuted), and a refused AddHandler leaves its middlewares behind (C132_leftover_refuted). While a server has no mux every routable request panics (C132_nil_requests).
Theorems: `C132_conservative`, `C132_wrap`, `C132_wrap_refuted`, `C132_panics`, `C132_unchecked_refuted`, `C132_bare_refuted`, `C132_by_hand`, `C132_url_once`, `C132_locked_partial`, `C132_locked_any_refuted`, `C132_leftover_refuted`, `C132_nil`, `C132_assign`, `C132_self`, `C132_nil_requests`.

### C133 The Python client and the Go side read each other's messages (partial)

`PyModel` over the same bytes and readers as `WireModel`/`ReaderModel`. `py_pack` is shown to succeed exactly when the fields fit and then to equal `assemble`, so the reading theorems of C03 apply; `py_unpack` is put in terms of the fields of the stream (`py_unpack_eq`).
Result: packing (C133_pack), reading on the Go side for ids below 2^31 (C133_received_partial), unpacking of every frame with anything behind it (C133_unpack), the round trip (C133_roundtrip), what unpack makes of a cut frame (C133_cut) and an exchange with a reply of at most 1024 bytes in one segment (C133_exchange_partial) hold. False: ids from 2^31 on arrive as negative ones; negative ids cannot be sent and come back with 2^32 added; cut data is taken for another message where the Go side reports an error; replies over 1024 bytes or in two segments are cut, of two replies the second is lost; a closed connection is a message with id 0 to the protobuf client; a reply without a body makes the json client raise; what send does not take is never sent. The packing and unpacking agree with the functions of C66 (C133_extends).
Theorems: `C133_pack`, `C133_received_partial`, `C133_high_id_refuted`, `C133_negative_refuted`, `C133_unpack`, `C133_negative_back_refuted`, `C133_roundtrip`, `C133_cut`, `C133_cut_refuted`, `C133_exchange_partial`, `C133_recv`, `C133_reply_refuted`, `C133_closed_refuted`, `C133_nil_body_refuted`, `C133_short_send_refuted`, `C133_extends`.

### C134 Protobuf bodies are read and written as the encoding guide says (partial)

`ProtoModel` (varints, fields, groups and UTF-8 as golang/protobuf v1.4.2 reads and writes them). `SpecProto` states Unicode's UTF-8 and the encoding guide's grammar as inductive relations; the reader is shown equivalent to the relation in both directions, the writer by the shortest varint.
Result: Reading and writing are characterised exactly (C134_reads, C134_writes) with UTF-8 as Unicode defines it (C134_utf8); a reading is unique (C134_one_reading), a message read can be handed on (C134_handed_on), UTF-8 text survives the round trip (C134_roundtrip), concatenated messages merge (C134_together). False: a Go string that is not UTF-8 cannot be packed (C134_any_text_refuted).
Theorems: `C134_utf8`, `C134_reads`, `C134_one_reading`, `C134_writes`, `C134_handed_on`, `C134_roundtrip`, `C134_any_text_refuted`, `C134_together`.

### C135 The say-hello clients get the answers of the say-hello server (partial)

`SayModel` puts HelloModel (server), ProtoModel, JsonModel, PyModel and the Go client's receive loop together with concrete encoders. Routing by C70, decoding by C07, the replies' bytes computed and related to `frame_layout`; the client's loop by induction over the answers with `read_block_ok`; the Python exchanges by C133.
Result: The server's answers are exact: one frame per accepted message, none for refused or unknown ones (C135_answered); the Go client's block is accepted and handled once per copy (C135_sent), what it shows for any cut of the answers is exact (C135_received), and so is the whole exchange (C135_exchange). For the Python client with a reply in one piece: C135_python_json_partial, C135_python_protobuf_partial (replies in two pieces are cut, C133). False: the Go client ends in a panic when the connection ends (C135_outlives_refuted; after about 15 s without heartbeats the server closes it, C118_heartbeat_refuted). Which bodies are accepted is said without the decoder in C135_text.
Theorems: `C135_answered`, `C135_received`, `C135_outlives_refuted`, `C135_sent`, `C135_exchange`, `C135_python_json_partial`, `C135_python_protobuf_partial`, `C135_text`.

### C136 A post to the stream checker is checked as the stream it was packed from (partial)

`PostModel` (json.Marshal of Param, the key-by-key struct decoding of encoding/json with its case folding, base64 as in WorldModel) in front of ToolModel.stream_check. The member loop is related to a fold over the members by the JsonFacts round-trip lemmas; C109 gives the answer.
Result: Proved for the Go client and for any client whose JSON members are written as JsonModel writes them (ASCII keys, integers); the body formats are parameters with a round-trip hypothesis except protobuf, which is ProtoModel. A []byte written as an array of numbers is not modelled. A name given twice is no error, the last counts (C136_last_counts). Which keys count, for keys of any bytes: C136_keys. No theorem says that bytes after the object are refused (only the Example C136_case does), nor what a null stream does to a stream read before it: mutants PO15 and PO18 survive.
Theorems: `C136_any_client`, `C136_posted`, `C136_passes_partial`, `C136_protobuf`, `C136_last_counts`, `C136_rejects`, `C136_no_object`, `C136_keys`.

### C137 The URL routes of a server are those of its URLMux, with the places they were registered at (partial)

`UrlSrvModel` turns every registration call into the calls it makes on a URLMux. Equality with MuxModel's routes by induction over the calls; the record of places by C103. That the application's places are on record is refuted: runtime.Caller(1) is always a line of the library.
Result: Routes, handlers and that nothing is refused are proved for all histories. That the record names the application's place is false: runtime.Caller(1) in AddURLPatternHandler is the library's own tcpx.go:351 or mux.go:74 (C137_recorded_partial, C137_places_refuted).
Theorems: `C137_same_routes`, `C137_never_refused`, `C137_handlers`, `C137_recorded_partial`, `C137_places_refuted`.

### C138 The graceful-exit example runs both jobs before it ends (partial)

`GexModel` puts ExitModel and ListenModel under the example's main. An invariant relates the phase of BeforeExit's goroutine to what was printed; it is kept by every step. That both jobs run on every way out is refuted: main drops ListenAndServe's result and returns.
Result: Order, completeness at os.Exit and that signals can still end it are proved for all interleavings without SIGKILL. False when main returns: a failed Listen (C138_port_refuted) or a single failed Accept (C138_accept_refuted) ends the process without the jobs, since main drops the result of ListenAndServe; before the goroutine has begun a signal ends it too (C97).
Theorems: `C138_jobs_partial`, `C138_exits`, `C138_port_refuted`, `C138_accept_refuted`.

### C139 Answers reach a client in the order of its messages (partial)

`AnsModel` adds to OrderModel what the handlers write: a goroutine inside the handlers of a message may write its next block, and returns when all are written. The invariant of C95 (which goroutine has which messages) is carried along with, for each goroutine, the exact list of blocks written for its messages. For a client that waits, one more invariant: all but the messages read last are answered in full. The refutation drives the machine through any given interleaving.
Result: Proved in every interleaving: each message is answered by exactly its own blocks in their order (C139_each_answer), and no schedule goes on for ever: each can be carried on until everything is answered (C139_ends). The order of messages is kept within a batch (C139_batch) and for a client that waits for the answers to each message before sending the next (C139_waiting, at the client's reader C139_read). False otherwise: without waiting every interleaving of the answers can occur (C139_any_order_refuted). Writes that fail are not in the model.
Theorems: `C139_each_answer`, `C139_batch`, `C139_waiting`, `C139_read`, `C139_ends`, `C139_any_order_refuted`.

### C140 What clients send each other arrives once, whole and in order (partial)

`AnsModel` with pairs of a connection and a block as what handlers write. The results of C139 carry over by keeping the blocks for one connection only (a filter preserves beginnings and order); that in the end everything has arrived once is a permutation, proved by sorting what was written by the message it belongs to.
Result: Proved in every interleaving: each receiver gets, for each message, exactly the blocks its handlers have for it, in their order (C140_each), in the end everything and nothing else, each once (C140_all, C140_ends); a peer reading block by block gets exactly what was written to it (C140_read). The order between messages is kept within a batch and for a sender that waits (C140_order). False otherwise: of two messages sent without waiting the second may arrive first (C140_order_refuted). Writes are taken to succeed.
Theorems: `C140_each`, `C140_all`, `C140_ends`, `C140_order`, `C140_read`, `C140_order_refuted`.

## Trusted base

* Coq's kernel (coqc 8.16.1; `coqchk -o` accepts all files).
* `Print Assumptions`: every one of the 566 theorems listed above reports "Closed under the global context", that
  is, no axiom at all. `coqchk` lists in its context the axioms of the standard library file `Coq.ssr.ssrunder`
  (`Under_rel`, `over_rel` and their laws), which comes with the standard library and is used by no theorem.
* The correspondence between the Go source and the `*Model.v` definitions, as documented by their comments, and the
  encoding of Go described under Conventions. The mutation log `seeded/LOG.jsonl` records how edits of the model
  are caught by the theorems.
* No axioms, parameters, section-less variables, admitted proofs, functors, module types or plugins are used and no kernel check is
  switched off.
