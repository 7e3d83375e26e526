{"id": "C01", "title": "Packed bytes follow the documented wire layout", "statement": "Every successful Pack/PackWithMarshaller/PackWithBody/PackWithMarshallerAndBody call returns exactly: 4-byte big-endian length (= total-4), 4-byte big-endian messageID, 4-byte header length, 4-byte body length, the header JSON bytes, the body bytes, and nothing else.", "quantifier": "every message id in int32, every header, every body value, every marshaller, every total size below 2^32", "why_tests_cant": "the layout has to hold for every length and id, including the ones that touch the sign bit; tests check a handful of small messages", "anchors": ["packx.go:PackWithMarshaller", "packx.go:PackWithMarshallerAndBody", "packx.go:Packx.Pack", "packx.go:Packx.PackWithBody"]}
{"id": "C02", "title": "Unpack inverts Pack", "statement": "For every message whose encoded content is shorter than 2^31 bytes, Unpack of the packed bytes (followed by any further bytes, in a slice of any capacity) returns the same messageID, a header with the same keys and JSON values, and the body value that was packed (an empty encoding leaves dest unchanged).", "quantifier": "every message, every marshaller with a round-trip law, every trailing bytes/capacity", "why_tests_cant": "a round trip over an infinite set of messages", "anchors": ["packx.go:PackWithMarshaller", "packx.go:UnpackWithMarshaller", "packx.go:Packx.Unpack", "message.go:Message.Pack"]}
{"id": "C03", "title": "Field accessors agree with what was packed", "statement": "On any packed block followed by arbitrary bytes, LengthOf, MessageIDOf, HeaderLengthOf, BodyLengthOf, HeaderBytesOf, BodyBytesOf return exactly the fields that were packed (negative ids included).", "quantifier": "every packed message below 2^31 bytes and every trailing byte string", "why_tests_cant": "all ids and all sizes", "anchors": ["packx.go:LengthOf", "packx.go:MessageIDOf", "packx.go:HeaderLengthOf", "packx.go:BodyLengthOf", "packx.go:HeaderBytesOf", "packx.go:BodyBytesOf"]}
{"id": "C04", "title": "Accessors never panic on hostile bytes", "statement": "Every stream accessor, given arbitrary bytes, returns a value or an error and never panics.", "quantifier": "every byte string", "why_tests_cant": "the panicking inputs are a vanishing fraction of the input space", "anchors": ["packx.go:HeaderBytesOf", "packx.go:BodyBytesOf", "packx.go:HeaderOf", "packx.go:MessageIDOf"]}
{"id": "C05", "title": "BodyBytesOf/HeaderBytesOf only return bytes of the payload region", "statement": "Whenever BodyBytesOf succeeds, the returned bytes are the bodyLength bytes that start headerLength bytes after offset 16 of the stream, entirely inside the stream and after the 16-byte prefix; the same for HeaderBytesOf.", "quantifier": "every byte string on which the call succeeds", "why_tests_cant": "length fields are attacker controlled 32-bit numbers", "anchors": ["packx.go:HeaderBytesOf", "packx.go:BodyBytesOf"]}
{"id": "C06", "title": "FirstBlockOfBytes is total and exact", "statement": "For every buffer FirstBlockOfBytes never panics; it returns the first 4+length bytes when the buffer has at least 16 bytes and holds that many, and an error otherwise.", "quantifier": "every byte string", "why_tests_cant": "all 2^32 length fields times all buffer sizes", "anchors": ["packx.go:FirstBlockOfBytes"]}
{"id": "C07", "title": "Unpack never panics and never decodes bytes outside the stream", "statement": "Given any stream, Unpack returns a message or an error without panicking, and the header and body it decodes come from bytes inside the stream slice.", "quantifier": "every byte string, every slice capacity", "why_tests_cant": "wrap-around and slice capacity effects need adversarial length fields", "anchors": ["packx.go:UnpackWithMarshaller", "context.go:Context.Bind"]}
{"id": "C08", "title": "Message size limit of the wire format", "statement": "A message is receivable exactly when its encoded content is shorter than 2^31 bytes; packing a larger message either fails or is still readable.", "quantifier": "every header/body size", "why_tests_cant": "needs multi-gigabyte messages", "anchors": ["packx.go:PackWithMarshaller", "packx.go:UnpackToBlockFromReader"]}
{"id": "C09", "title": "The encoding is injective and self-delimiting", "statement": "Two packed messages (content below 2^32) with a common prefix relation are equal: different (id, header bytes, body bytes) never give the same bytes, and no packed message is a proper prefix of another.", "quantifier": "every pair of messages", "why_tests_cant": "a statement about all pairs", "anchors": ["packx.go:PackWithMarshallerAndBody"]}
{"id": "C10", "title": "Later header maps override earlier ones", "statement": "Pack(id, src, h1, ..., hn) sends a header whose value at each key is that of the last hi containing the key, and no other keys; with no header maps it sends the empty map.", "quantifier": "every list of header maps and every key", "why_tests_cant": "all lists and keys", "anchors": ["packx.go:Packx.Pack", "packx.go:Packx.PackWithBody"]}
{"id": "C11", "title": "Marshaller names select the documented marshaller", "statement": "PackWithMarshallerName, UnpackWithMarshallerName and GetMarshallerByMarshalName accept exactly json, xml, toml/tml, yaml/yml, protobuf/proto, agree with one another on which marshaller each name selects, and return an error (never panic) for any other string.", "quantifier": "every string", "why_tests_cant": "all strings", "anchors": ["packx.go:PackWithMarshallerName", "packx.go:UnpackWithMarshallerName", "marshaller.go:GetMarshallerByMarshalName"]}
{"id": "C12", "title": "Framing does not depend on TCP segmentation", "statement": "Reading blocks from a connection yields the same blocks for every way the same byte stream is cut into segments (including empty reads).", "quantifier": "every byte stream and every segmentation", "why_tests_cant": "there are exponentially many segmentations", "anchors": ["packx.go:readUntil", "packx.go:UnpackToBlockFromReader", "packx.go:FirstBlockOf"]}
{"id": "C13", "title": "A sequence of packed messages is received as that sequence", "statement": "Reading n blocks from a connection carrying n packed messages back to back (then anything) returns exactly those n blocks in order, and leaves the connection positioned at the first byte after them.", "quantifier": "every list of messages, every segmentation, every continuation", "why_tests_cant": "all lists and segmentations", "anchors": ["packx.go:UnpackToBlockFromReader", "utils.go:Recv"]}
{"id": "C14", "title": "A truncated message is never delivered", "statement": "If the peer closes at any byte position, the blocks read are exactly the messages completely contained in what arrived; the partial one produces io.EOF (or the wrapped transport error), never a block.", "quantifier": "every message list, every cut position, every segmentation", "why_tests_cant": "every crash point", "anchors": ["packx.go:readUntil", "packx.go:UnpackToBlockFromReader"]}
{"id": "C15", "title": "The configured message size limit is enforced", "statement": "With limit m > 0, a frame with 0 <= length <= m is returned exactly as without the limit; a frame whose length field exceeds m is refused with an error after reading only the 4 length bytes and without allocating its payload.", "quantifier": "every limit, every byte stream, every segmentation", "why_tests_cant": "all 2^32 length values", "anchors": ["packx.go:FirstBlockOfLimitMaxByte", "packx.go:UnpackToBlockFromReaderLimitMaxLengthOfByte", "tcpx.go:TcpX.SetMaxBytePerMessage"]}
{"id": "C16", "title": "Readers that deliver the last bytes together with EOF", "statement": "For every reader obeying the io.Reader contract (a Read may return n>0 together with an error), the complete messages it delivers are returned by FirstBlockOf.", "quantifier": "every io.Reader behaviour", "why_tests_cant": "depends on the reader implementation's error timing", "anchors": ["packx.go:readUntil"]}
{"id": "C17", "title": "PipeJSON validates before writing", "statement": "PipeJSON writes either nothing (and returns an error, or nil for no arguments) or, in one Write, the concatenation of one packed block per (id, value) pair in order; only the first block carries the pipe marker 'enable;<n>' and n is the number of pairs.", "quantifier": "every argument list", "why_tests_cant": "all argument lists", "anchors": ["utils.go:PipeJSON"]}
{"id": "C18", "title": "Pipelined messages are handled in order, one after another", "statement": "When a client sends a PipeJSON batch of n messages, the server hands exactly those n blocks, in order, to one sequential run of the handlers, and continues with the next message after the batch.", "quantifier": "every batch of n>=1 messages below the size limit, every segmentation, every continuation", "why_tests_cant": "all batch sizes, contents and segmentations", "anchors": ["utils.go:PipeJSON", "tcpx.go:ListenAndServeTCP", "tcpx.go:isPipe", "tcpx.go:handlePipe"]}
{"id": "C19", "title": "WriteConn transmits the buffer exactly once", "statement": "WriteConn returns nil only if the connection has accepted exactly the buffer's bytes, in order, once.", "quantifier": "every buffer and every sequence of Write results", "why_tests_cant": "depends on short writes by the connection", "anchors": ["utils.go:WriteConn", "utils.go:write"]}
{"id": "C20", "title": "Concurrent replies are never interleaved inside a message", "statement": "Whatever order concurrent handlers' replies reach the connection, a client decoding the connection receives exactly the replied messages, as some interleaving that keeps each handler's own order.", "quantifier": "every set of concurrent handlers, every schedule", "why_tests_cant": "needs every schedule", "anchors": ["context.go:Context.Reply", "context.go:Context.replyBuf", "packx.go:FirstBlockOf"]}
{"id": "C21", "title": "Middleware chain runs exactly as in gin", "statement": "For any handlers (each a sequence of effects, Next and Abort calls), running the chain has the effects of the gin-style reference: a handler's Next runs the rest of the chain there, a handler that does not call Next is followed by the rest, a second Next does nothing, and after Abort no further handler starts.", "quantifier": "every chain of at most 2019 handlers and every handler behaviour", "why_tests_cant": "all chains and nesting patterns", "anchors": ["context.go:Context.Next", "context.go:Context.Abort", "context.go:Context.isAbort"]}
{"id": "C22", "title": "Every handler of an unaborted chain runs exactly once, in order", "statement": "If no handler aborts, every handler in the chain is entered exactly once and in registration order, however handlers use Next.", "quantifier": "every chain", "why_tests_cant": "all chains; the hidden bound only shows at 2020 handlers", "anchors": ["context.go:Context.Next", "context.go:ABORT"]}
{"id": "C23", "title": "Abort stops the chain", "statement": "Once some handler calls Abort, no handler later in the chain is entered afterwards, whatever Next calls follow.", "quantifier": "every chain of any length, every abort position and nesting", "why_tests_cant": "all chains", "anchors": ["context.go:Context.Abort", "context.go:Context.Next"]}
{"id": "C24", "title": "Chain composition and order for a messageID request", "statement": "For every configuration built through the API, a message routed by id runs: the global middlewares in registration order, then the anchor middlewares that apply to that handler in order of their first Use, then the handler's own middlewares in order, then the handler.", "quantifier": "every registration history and every message id other than the heartbeat/auth ids", "why_tests_cant": "all histories", "anchors": ["tcpx.go:handleMessageIDHandlers", "tcpx.go:TcpX.AddHandler", "tcpx.go:TcpX.UseGlobal"]}
{"id": "C25", "title": "Anchor middleware applies exactly to handlers registered between Use and UnUse", "statement": "An anchor middleware runs for a handler exactly when, at the moment the handler was registered, the key had been Use'd and not yet UnUse'd (including handlers registered after a Use that is never UnUse'd).", "quantifier": "every registration history", "why_tests_cant": "all interleavings of Use/UnUse/AddHandler/Any", "anchors": ["tcpx.go:TcpX.Use", "tcpx.go:TcpX.UnUse", "anchor.go:MiddlewareAnchor.Contains", "mux.go:ReplaceMiddlewareAnchor"]}
{"id": "C26", "title": "Use installs the middleware it was given", "statement": "After Use(key, f), handlers covered by this Use run f under that key.", "quantifier": "every registration history", "why_tests_cant": "all histories", "anchors": ["tcpx.go:TcpX.Use"]}
{"id": "C27", "title": "One handler per messageID", "statement": "Registering a handler for an id that already has one panics and the previously registered handler keeps serving that id; successful registrations map each id to the handler it was registered with.", "quantifier": "every registration history", "why_tests_cant": "all histories", "anchors": ["mux.go:Mux.AddHandleFunc", "tcpx.go:TcpX.AddHandler"]}
{"id": "C28", "title": "Dispatching never hits a missing anchor", "statement": "For every configuration built through the TcpX API, including after recovered registration panics, routing any message by id or URL pattern never panics inside the mux and checkPrepare never panics.", "quantifier": "every registration history, every message", "why_tests_cant": "all histories", "anchors": ["mux.go:AnchorIndexOfMessageID", "mux.go:AnchorIndexOfURLPattern", "tcpx.go:checkPrepare", "anchor.go:MiddlewareAnchor.Contains"]}
{"id": "C29", "title": "Global middleware runs before every messageID handler", "statement": "Every message routed by id to a registered handler runs all global middlewares first, except messages carrying the configured heartbeat or auth id.", "quantifier": "every configuration, every id", "why_tests_cant": "only ids equal to unset configuration fields fail", "anchors": ["tcpx.go:handleMessageIDHandlers", "tcpx.go:NewTcpX"]}
{"id": "C30", "title": "Handlers registered with Any run exactly once per request", "statement": "For a URL pattern registered once with Any(pattern, f1..fn), a request for the pattern runs f1..fn once each in order (after global and anchor middlewares).", "quantifier": "every pattern and handler list", "why_tests_cant": "all handler lists", "anchors": ["tcpx.go:TcpX.Any", "mux.go:Mux.Any", "url-mux.go:AddURLPatternHandler"]}
{"id": "C31", "title": "OnMessage replaces routing", "statement": "When OnMessage is set, every message runs all global middlewares, then every anchor middleware ever Use'd once each in first-Use order (used or unused), then OnMessage, and no routed handler.", "quantifier": "every configuration and message", "why_tests_cant": "all configurations", "anchors": ["tcpx.go:handleOnMessage", "tcpx.go:handleMiddleware"]}
{"id": "C32", "title": "Use/UnUse misuse is rejected", "statement": "Use of a key that is already in use, UnUse of a key that is not in use, odd argument lists and wrongly typed arguments panic; the windows of every key stay well formed (UnUse count <= Use count <= UnUse count + 1) in every state reachable through the API.", "quantifier": "every call history including recovered panics", "why_tests_cant": "all histories", "anchors": ["anchor.go:callUse", "anchor.go:callUnUse", "tcpx.go:TcpX.Use", "tcpx.go:TcpX.UnUse"]}
{"id": "C33", "title": "Rewriting the heartbeat handler moves it", "statement": "After RewriteHeartBeatHandler(id, f), messages with the new id reach f, and (if different) the previous heartbeat id is no longer routed; other ids are unaffected.", "quantifier": "every configuration", "why_tests_cant": "all configurations", "anchors": ["tcpx.go:RewriteHeartBeatHandler", "tcpx.go:removeHandler"]}
{"id": "C34", "title": "Each message is routed by its own Router-Type header", "statement": "A message is handled by id routing when its Router-Type header is absent, not a string, or MESSAGE_ID, by URL routing when it is URL_PATTERN, and dropped otherwise, whatever messages came earlier on the connection.", "quantifier": "every message and every earlier traffic on the connection", "why_tests_cant": "depends on history", "anchors": ["context.go:Context.RouterType", "context.go:copyContext", "tcpx.go:handleMiddleware"]}
{"id": "C35", "title": "A URL-pattern reply carries the request's pattern", "statement": "JSONURLPattern/ProtobufURLPattern reply with the URL pattern of the request being handled.", "quantifier": "every request sequence on a connection", "why_tests_cant": "depends on history", "anchors": ["context.go:GetURLPattern", "context.go:JSONURLPattern"]}
{"id": "C36", "title": "Per-request values do not leak between requests", "statement": "A value stored with SetCtxPerRequest while handling one request is not visible to GetCtxPerRequest in another request.", "quantifier": "every operation history, tcp and udp", "why_tests_cant": "depends on history", "anchors": ["context.go:copyContext", "context.go:SetCtxPerRequest", "context.go:NewUDPContext"]}
{"id": "C37", "title": "Per-connection values: read your last write, no cross-connection leak", "statement": "GetCtxPerConn(k) on a tcp connection returns the value most recently stored under k on that connection (through any of its request contexts), and never a value stored on another connection.", "quantifier": "every history over any number of connections and requests", "why_tests_cant": "all histories", "anchors": ["context.go:SetCtxPerConn", "context.go:GetCtxPerConn", "context.go:copyContext"]}
{"id": "C38", "title": "Reserved keys cannot be overwritten through the public setter", "statement": "SetCtxPerConn panics, changing nothing, for every string key starting with 'tcpx-', and stores every other key.", "quantifier": "every key", "why_tests_cant": "all strings", "anchors": ["context.go:SetCtxPerConn"]}
{"id": "C39", "title": "SendToUsername only reaches the latest live owner of the name", "statement": "If SendToUsername(u) writes to a connection, that connection is the one that most recently went Online(u), it has not been closed, and exactly one connection is written.", "quantifier": "every history of Online/Offline/Close/Send over any number of connections", "why_tests_cant": "all histories", "anchors": ["context.go:SendToUsername", "context.go:Online", "context.go:Offline", "client-pool.go"]}
{"id": "C40", "title": "A user who is online is reachable", "statement": "If connection c called Online(u), nobody called Online(u) since, and c has not gone Offline or been closed, then SendToUsername(u) reaches c.", "quantifier": "every history", "why_tests_cant": "needs the reconnect interleaving", "anchors": ["context.go:Online", "context.go:CloseConn", "client-pool.go:Offline"]}
{"id": "C41", "title": "CloseConn is idempotent and takes the user offline", "statement": "CloseConn never panics however often and from however many contexts of the connection it is called; afterwards IsOffline is true and the pool has no entry for the connection's current username.", "quantifier": "every history", "why_tests_cant": "all histories", "anchors": ["context.go:CloseConn", "utils.go:CloseChanel"]}
{"id": "C42", "title": "The empty username never enters the pool", "statement": "Online(\"\") returns an error and changes nothing.", "quantifier": "every state", "why_tests_cant": "all states", "anchors": ["context.go:Online"]}
{"id": "C43", "title": "Stop(true) closes every pooled connection", "statement": "With a built-in pool and no broadcast signal, Stop(true) eventually closes every connection in the pool and releases the pool lock.", "quantifier": "every pool content and every schedule", "why_tests_cant": "needs the lock interleaving", "anchors": ["tcpx.go:closeAllConnection", "context.go:CloseConn", "client-pool.go"]}
{"id": "C44", "title": "Heartbeat loss is detected after exactly three silent intervals", "statement": "The heartbeat watcher closes the connection exactly when three consecutive intervals elapse without a heartbeat; any heartbeat resets the count.", "quantifier": "every sequence of heartbeats and interval expiries", "why_tests_cant": "all sequences", "anchors": ["tcpx.go:heartBeatWatch"]}
{"id": "C45", "title": "Heartbeat timing guarantee", "statement": "With interval I, a connection whose heartbeats are always less than 3I apart is never closed by the watcher, and one that stays silent is closed exactly 3I after its last heartbeat (or the start).", "quantifier": "every real-time arrival sequence, every I>0", "why_tests_cant": "all timings", "anchors": ["tcpx.go:heartBeatWatch"]}
{"id": "C46", "title": "OnHeartbeatLoss fires exactly once, just before the close", "statement": "On heartbeat loss OnHeartbeatLoss (if set) is called exactly once and then the connection is closed; it is never called otherwise.", "quantifier": "every event sequence", "why_tests_cant": "all sequences", "anchors": ["tcpx.go:heartBeatWatch"]}
{"id": "C47", "title": "A heartbeat is never lost", "statement": "Every heartbeat handled by RecvHeartBeat resets the watcher's count, whatever the interleaving of the handler with the watcher.", "quantifier": "every schedule", "why_tests_cant": "needs the race between two first-time channel creations", "anchors": ["context.go:HeartBeatChan", "context.go:RecvHeartBeat", "tcpx.go:heartBeatWatch"]}
{"id": "C48", "title": "Auth watcher: pass keeps, deny or silence closes", "statement": "The auth watcher closes the connection exactly when the first signal is a deny, when no signal arrives before the deadline, or on a broadcast close; after a pass it never closes the connection.", "quantifier": "every event sequence and timing", "why_tests_cant": "all sequences", "anchors": ["tcpx.go:authWatch", "context.go:RecvAuthPass", "context.go:RecvAuthDeny"]}
{"id": "C49", "title": "No handler runs on an unauthenticated connection", "statement": "With WithAuthDetail enabled no handler other than the auth handler runs on a connection before RecvAuthPass.", "quantifier": "every message sequence", "why_tests_cant": "needs the whole server loop", "anchors": ["tcpx.go:authWatch", "tcpx.go:ListenAndServeTCP", "README-CN.md#2.9"]}
{"id": "C50", "title": "Broadcast stop closes every watched connection, and only then", "statement": "With WithBroadCastSignal(true), after Stop(true) every live connection's watcher closes it; no watcher closes a connection before that; the server can be started and stopped this way repeatedly.", "quantifier": "every history of connects, Stop, Start and watcher steps", "why_tests_cant": "all histories", "anchors": ["tcpx.go:broadcastSignalWatch", "tcpx.go:closeAllConnection", "tcpx.go:WithBroadCastSignal"]}
{"id": "C51", "title": "Stop(false) leaves existing connections alone", "statement": "After Stop(false) no existing connection is closed by the server.", "quantifier": "every configuration and schedule", "why_tests_cant": "needs the watcher loop", "anchors": ["tcpx.go:Stop", "tcpx.go:heartBeatWatch"]}
{"id": "C52", "title": "Stop closes every listener", "statement": "After a successful Stop every listener opened by ListenAndServe is closed.", "quantifier": "every set of served networks", "why_tests_cant": "all networks", "anchors": ["tcpx.go:Stop", "tcpx.go:fillProperty"]}
{"id": "C53", "title": "Start re-listens on every recorded address", "statement": "Start after Stop serves every (network, address) previously served.", "quantifier": "every property list and every goroutine schedule", "why_tests_cant": "needs the goroutine schedule", "anchors": ["tcpx.go:Start"]}
{"id": "C54", "title": "One listener record per address", "statement": "For every sequence of listens the server keeps exactly one record per (network, address), holding the most recent listener.", "quantifier": "every listen history", "why_tests_cant": "all histories", "anchors": ["tcpx.go:fillProperty"]}
{"id": "C55", "title": "Stop/Start/Restart state machine", "statement": "Stop succeeds exactly when running and Start exactly when stopped; Restart runs its hooks in order between the two and only if Stop succeeded.", "quantifier": "every call history", "why_tests_cant": "all histories", "anchors": ["tcpx.go:Stop", "tcpx.go:Start", "tcpx.go:Restart", "tcpx.go:State"]}
{"id": "C56", "title": "Every well-formed message on a TCP connection is dispatched exactly once", "statement": "For any sequence of well-formed non-pipe messages within the limit, however segmented, the server dispatches exactly those messages, byte for byte, once each and in arrival order, then ends or waits.", "quantifier": "every message sequence and segmentation", "why_tests_cant": "all sequences", "anchors": ["tcpx.go:ListenAndServeTCP"]}
{"id": "C57", "title": "Malformed input on a TCP connection is contained", "statement": "For every byte stream, everything before the first malformed frame is dispatched and nothing after it; the connection goroutine itself never brings down the process.", "quantifier": "every byte stream and segmentation", "why_tests_cant": "all byte streams", "anchors": ["tcpx.go:ListenAndServeTCP"]}
{"id": "C58", "title": "A message with headerLength 0 is acceptable", "statement": "A frame with headerLength 0 (allowed by the pack documentation) is dispatched like any other.", "quantifier": "every id and body", "why_tests_cant": "one documented corner of an infinite space", "anchors": ["tcpx.go:isPipe", "packx.go:HeaderOf", "examples/modules/pack-detail/README.md"]}
{"id": "C59", "title": "No client input can crash the server process", "statement": "For every byte stream a TCP or UDP client sends, the server process survives.", "quantifier": "every byte stream, every cut position", "why_tests_cant": "all byte streams and crash points", "anchors": ["tcpx.go:handlePipe", "tcpx.go:handleMiddleware", "tcpx.go:ListenAndServeUDP"]}
{"id": "C60", "title": "Each UDP datagram is one request", "statement": "A datagram is dispatched iff it has at least 16 bytes and contains a complete first block; exactly that first block is dispatched and trailing bytes are ignored; a malformed datagram does not affect later ones.", "quantifier": "every datagram sequence", "why_tests_cant": "all datagrams", "anchors": ["tcpx.go:ListenAndServeUDP", "tcpx.go:ReadAllUDP", "packx.go:FirstBlockOfBytes"]}
{"id": "C61", "title": "Connection callbacks", "statement": "For each accepted connection OnConnect runs once before any of its messages is handled, and OnClose runs exactly once when its reading ends, followed by CloseConn, even if reading panics.", "quantifier": "every connection byte stream", "why_tests_cant": "all streams", "anchors": ["tcpx.go:ListenAndServeTCP"]}
{"id": "C62", "title": "One UDP client's heartbeat loss does not affect others", "statement": "With heartbeat on, a UDP peer that stops sending only loses its own context.", "quantifier": "every datagram sequence and schedule", "why_tests_cant": "needs time and several peers", "anchors": ["tcpx.go:ListenAndServeUDP", "tcpx.go:heartBeatWatch", "context.go:CloseConn"]}
{"id": "C63", "title": "ListenAndServe accepts exactly the documented networks", "statement": "For every network string: tcp, tcp4, tcp6, unix, unixpacket go to TCP; udp, udp4, udp6, unixgram and any string starting with 'ip' go to UDP; anything else is an error.", "quantifier": "every string", "why_tests_cant": "all strings", "anchors": ["tcpx.go:ListenAndServe", "utils.go:In"]}
{"id": "C64", "title": "In matches percent patterns", "statement": "In(s, arr) is true exactly when some entry without % equals s, some 'p%' is a prefix, some '%p' a suffix, or some '%p%' a substring; it never panics.", "quantifier": "every string and pattern list", "why_tests_cant": "all strings", "anchors": ["utils.go:In"]}
{"id": "C65", "title": "ClientIP returns the peer's address", "statement": "ClientIP returns the host part of the peer's address for IPv4 'a.b.c.d:port' and IPv6 '[addr]:port'.", "quantifier": "every address", "why_tests_cant": "all addresses", "anchors": ["context.go:ClientIP"]}
{"id": "C66", "title": "The Python client speaks the same wire format", "statement": "For every message the Python client's pack produces the bytes Go's pack produces for the same id, header bytes and body bytes, and its unpack recovers id, header bytes and body bytes from Go's output.", "quantifier": "every message", "why_tests_cant": "all messages", "anchors": ["all-language-clients/python/protocol.py", "packx.go:PackWithMarshallerAndBody"]}
{"id": "C67", "title": "Message header Get/Set", "statement": "After Set(k,v), Get(k) is v and other keys are unchanged; Get never panics.", "quantifier": "every message, key, value", "why_tests_cant": "all headers", "anchors": ["message.go:Message.Get", "message.go:Message.Set"]}
{"id": "C68", "title": "Reply helpers always encode with the announced marshaller", "statement": "ctx.JSON/XML/TOML/YAML/ProtoBuf write exactly one block, encoded with the marshaller of that name, whatever marshaller the server was created with; when encoding fails nothing is written and the error is returned.", "quantifier": "every context, id, value and header list", "why_tests_cant": "all values and marshallers", "anchors": ["context.go:commonReply", "context.go:Reply"]}
{"id": "C69", "title": "What a client packs is what a TCP handler binds", "statement": "For any sequence of messages packed by clients and written to a connection, however the bytes are segmented on the way, the server hands on exactly those messages in order, and a handler that binds one gets the id, header and body that were sent.", "quantifier": "every message sequence, marshaller and segmentation", "why_tests_cant": "all messages, headers and segmentations", "anchors": ["packx.go:PackWithMarshaller", "packx.go:FirstBlockOfLimitMaxByte", "context.go:Bind", "tcpx.go:ListenAndServeTCP"]}
{"id": "C70", "title": "On a connection with one router type each message runs its own chain", "statement": "If all messages of a TCP connection carry the same router type and no handler stores under router_type, every message of it is routed by its own header and runs exactly the handlers the configuration plans for that id or pattern, in gin's order, whatever all other goroutines do.", "quantifier": "every configuration, message sequence and interleaving of context calls", "why_tests_cant": "all interleavings", "anchors": ["tcpx.go:handleMiddleware", "context.go:RouterType", "tcpx.go:handleByMessageID"]}
{"id": "C71", "title": "A datagram is handled as it was sent", "statement": "A packed message arriving in a datagram that fits the buffer, followed by anything, is handed to one handler run, which binds the id, header and body that were sent and runs the chain its own header asks for.", "quantifier": "every message, trailing bytes, configuration and interleaving", "why_tests_cant": "all messages and interleavings", "anchors": ["tcpx.go:ListenAndServeUDP", "packx.go:FirstBlockOfBytes", "tcpx.go:handleMiddleware"]}
{"id": "C72", "title": "OnConnect cannot change which handlers later requests run", "statement": "Whatever OnConnect does with the context it is given, later requests of the connection run their complete chains.", "quantifier": "every OnConnect body and chain", "why_tests_cant": "all callback bodies", "anchors": ["tcpx.go:ListenAndServeTCP", "context.go:copyContext", "context.go:Next"]}
{"id": "C73", "title": "After Stop no further connection is served", "statement": "Once Stop has returned, a listening loop accepts and serves no further connection (or datagram) until the server is started again.", "quantifier": "every state, address, network and interleaving of Stop with the loops", "why_tests_cant": "all interleavings and networks", "anchors": ["tcpx.go:Stop", "tcpx.go:ListenAndServeTCP", "tcpx.go:ListenAndServeUDP", "tcpx.go:ListenAndServeRaw"]}
{"id": "C74", "title": "A listening loop that has ended has closed its socket", "statement": "Once the accept or receive loop of a ListenAndServe call has ended, its listener or packet socket is closed and its address is free again.", "quantifier": "every reachable state of every server and every later execution", "why_tests_cant": "all executions", "anchors": ["tcpx.go:ListenAndServeTCP", "tcpx.go:ListenAndServeUDP", "tcpx.go:ListenAndServeRaw"]}
{"id": "C75", "title": "A running server keeps accepting", "statement": "As long as nobody stops the server, its listening loop goes on accepting connections whatever individual connections do.", "quantifier": "every reachable state and execution", "why_tests_cant": "all executions including failing Accepts and panicking callbacks", "anchors": ["tcpx.go:ListenAndServeTCP", "tcpx.go:ListenAndServeRaw"]}
{"id": "C76", "title": "Restart resumes the same service on the same address", "statement": "After Stop then Start, every address the server listened on is served again, in the same way as before (TCP, UDP with its buffer size, raw).", "quantifier": "every address, kind and interleaving", "why_tests_cant": "all configurations and interleavings", "anchors": ["tcpx.go:Stop", "tcpx.go:Start", "tcpx.go:fillProperty", "tcpx.go:ListenAndServeRaw"]}
{"id": "C77", "title": "A listening loop whose socket was closed ends", "statement": "Once the listener or packet socket of a loop is closed, the loop returns after finitely many of its own steps.", "quantifier": "every state and execution", "why_tests_cant": "a spinning goroutine is invisible to output-based tests", "anchors": ["tcpx.go:ListenAndServeUDP", "tcpx.go:ListenAndServeTCP", "tcpx.go:Stop", "tcpx.go:Start"]}
{"id": "C78", "title": "A raw connection runs its chain and is always closed", "statement": "A raw connection runs the global middlewares, then the used ones in order of first use, then HandleRaw, as a Gin chain; whatever happens, a panic included, it ends with OnClose (if set) and then CloseConn, once each.", "quantifier": "every configuration history, handler behaviour and panic", "why_tests_cant": "all configurations and all handler behaviours", "anchors": ["tcpx.go:ListenAndServeRaw", "tcpx.go:handleRaw", "mux.go:execChain", "context.go:Next"]}
{"id": "C79", "title": "Middleware that was UnUse'd does not run on raw connections", "statement": "A middleware taken out with UnUse is not in the chain of a raw connection, as it is not in that of a handler registered after the UnUse.", "quantifier": "every configuration history", "why_tests_cant": "all histories", "anchors": ["tcpx.go:handleRaw", "mux.go:UnUse", "tcpx.go:ListenAndServeRaw"]}
{"id": "C80", "title": "The client pool's map is never raced", "statement": "No two goroutines access the pool's map at the same time with one of them writing, whatever mix of Online, Offline, SendToUsername, CloseConn and Stop(true) they run.", "quantifier": "every reachable state of any number of goroutines and connections", "why_tests_cant": "all interleavings; the race detector sees only the executions it ran", "anchors": ["client-pool.go:SetClientPool", "client-pool.go:GetClientPool", "client-pool.go:DeleteFromClientPool", "client-pool.go:isOnline", "tcpx.go:closeAllConnection"]}
{"id": "C81", "title": "A connection's online state is not raced", "statement": "No two goroutines access a connection's userState at the same time with one of them assigning it; every read returns whether a CloseConn assigned it before; unless all calls have returned, some goroutine can go on.", "quantifier": "any number of goroutines, each making any sequence of CloseConn, IsOffline, IsOnline and GetPoolRef; every interleaving", "why_tests_cant": "all interleavings", "anchors": ["context.go:CloseConn", "context.go:IsOffline"]}
{"id": "C82", "title": "RecvAuthPass, RecvAuthDeny and RecvHeartBeat return", "statement": "A handler that calls RecvAuthPass, RecvAuthDeny or RecvHeartBeat gets control back.", "quantifier": "every connection, number of calling goroutines and interleaving with the watchers", "why_tests_cant": "blocking depends on the interleaving and on earlier calls", "anchors": ["context.go:RecvAuthPass", "context.go:RecvAuthDeny", "context.go:RecvHeartBeat", "tcpx.go:authWatch", "tcpx.go:heartBeatWatch"]}
{"id": "C83", "title": "RecvAuthDeny closes the connection", "statement": "Once RecvAuthDeny was called on a connection, the connection gets closed.", "quantifier": "every order of signals and every interleaving with the watcher", "why_tests_cant": "all orders of signals", "anchors": ["context.go:RecvAuthDeny", "tcpx.go:authWatch"]}
{"id": "C84", "title": "A deadline set with srv.SetDeadline bounds every connection", "statement": "After srv.SetDeadline(t), every connection accepted later has t as its read and write deadline, unless a later SetReadDeadline or SetWriteDeadline replaces it; a TCP connection whose read deadline has passed is closed.", "quantifier": "every history of SetDeadline, SetReadDeadline, SetWriteDeadline, accepts and reads", "why_tests_cant": "the claim is about all orders of the three calls and all later connections", "anchors": ["tcpx.go:SetDeadline", "tcpx.go:SetReadDeadline", "tcpx.go:SetWriteDeadline", "tcpx.go:ListenAndServeTCP", "tcpx.go:ListenAndServeUDP"]}
{"id": "C85", "title": "A deadline set through a context concerns that client only", "statement": "ctx.SetDeadline, ctx.SetReadDeadline and ctx.SetWriteDeadline change the deadlines of the context's own client and of nobody else.", "quantifier": "every history of accepts, datagrams and deadline calls on any context", "why_tests_cant": "the effect on other clients shows only when the deadline has passed, for all histories", "anchors": ["context.go:SetDeadline", "context.go:SetReadDeadline", "context.go:SetWriteDeadline", "tcpx.go:ListenAndServeUDP"]}
{"id": "C86", "title": "After ListenAndServe the mux is locked", "statement": "Handlers and middlewares cannot be registered any more once the server has been started (as the text of the panic in AddHandleFunc documents).", "quantifier": "every configuration and every registration call after the start", "why_tests_cant": "all configurations and calls", "anchors": ["mux.go:AddHandleFunc", "mux.go:LockWrite", "tcpx.go:ListenAndServe", "tcpx.go:AddHandler"]}
{"id": "C87", "title": "A request sees a complete routing table", "statement": "Every request is dispatched by the configuration before or after a concurrent registration call, never by a half-done one, and never races with it.", "quantifier": "every interleaving of registration calls and requests", "why_tests_cant": "interleavings of individual field accesses", "anchors": ["tcpx.go:AddHandler", "tcpx.go:handleMiddleware", "tcpx.go:handleMessageIDHandlers", "mux.go:AddHandleFunc", "mux.go:AddMessageIDAnchor"]}
{"id": "C88", "title": "Over UDP replies and pushes go to the right address", "statement": "A reply on a datagram's context is written to the sender of that datagram, and SendToUsername writes to the sender of the datagram that last went online under that name and nowhere else.", "quantifier": "every history of datagrams, Online, Offline, CloseConn and handler ends", "why_tests_cant": "all histories of datagrams, names and calls", "anchors": ["context.go:replyUDP", "context.go:SendToUsername", "client-pool.go:Online", "context.go:Online"]}
{"id": "C89", "title": "A UDP user can go offline", "statement": "After a client that went online over UDP calls Offline, also from the handler of a later datagram, SendToUsername to that name fails.", "quantifier": "every history of datagrams, Online, Offline, CloseConn and handler ends", "why_tests_cant": "all histories after the login", "anchors": ["context.go:Offline", "context.go:setUsername", "context.go:Reset", "client-pool.go:Offline"]}
{"id": "C90", "title": "No goroutine outlives its connection", "statement": "When a connection has been closed, or a datagram handled, the goroutines the server started to watch over it can end.", "quantifier": "every execution: any number of connections and datagrams, closings, stops and timers in any order", "why_tests_cant": "leaks show up only in the number of goroutines after arbitrarily long executions", "anchors": ["tcpx.go:broadcastSignalWatch", "tcpx.go:heartBeatWatch", "tcpx.go:authWatch", "tcpx.go:ListenAndServeUDP", "context.go:CloseConn"]}
{"id": "C91", "title": "Heartbeat and auth messages reach their handlers", "statement": "After HeartBeatModeDetail(true, ..) or WithAuthDetail(true, ..) has installed a handler for a messageID, every well-formed message with that id runs that handler, whatever else is configured and whatever was received before on the connection. Otherwise a client that beats or authenticates as documented is disconnected.", "quantifier": "for all configuration histories, connections, messages and middleware behaviours", "why_tests_cant": "Needs every order of configuration calls (OnMessage, Use, UseGlobal) and every mix of messages on one connection; tests use one fixed configuration with one router type.", "anchors": ["tcpx.go:125-138", "tcpx.go:200-244", "tcpx.go:853-945", "context.go:682-730"]}
{"id": "C92", "title": "One-shot JSON calls send exactly one message and close", "statement": "TCPCallOnceJSON and WriteJSON write exactly one message carrying the given messageID and data, or nothing; nil is returned exactly when it was written. TCPCallOnceJSON closes the connection it opened on every path, after everything else. The server dispatches exactly that message.", "quantifier": "for all ids, data, encoders, dial and write errors, and all segmentations on the receiving side", "why_tests_cant": "The failure paths (dial error, encoding error, write error) and the id range cannot be exhausted by examples.", "anchors": ["utils.go:124-140", "utils.go:201-222"]}
{"id": "C93", "title": "What a handler replies is what the client reads", "statement": "Replies written with ctx.JSON, XML, TOML, YAML, ProtoBuf and the URL-pattern variants are received by a client using Recv, over any segmentation, as the same messages in the same order, and PackType.MessageID, Bind* and URLPattern give back id, value and pattern.", "quantifier": "for all sequences of replies, formats, ids, values, header maps and segmentations", "why_tests_cant": "Needs all values, header maps and arrival patterns; tests check one value in one chunk.", "anchors": ["context.go:436-502", "context.go:733-763", "pack-type.go:11-86", "utils.go:246-250", "packx.go:121-125"]}
{"id": "C94", "title": "A message limit bounds what a message makes the server allocate", "statement": "With SetMaxBytePerMessage(n), no read on a TCP connection allocates more than n plus the four length bytes on the peer's word, whatever is sent.", "quantifier": "for all byte streams, segmentations, limits and header codecs", "why_tests_cant": "A test tries a few lengths; the worst request is one particular header text.", "anchors": ["tcpx.go:566-604", "packx.go:90-95", "packx.go:432-510", "tcpx.go:152-154"]}
{"id": "C95", "title": "Messages of one connection are handled in the order they arrive", "statement": "The handlers of message n+1 of a TCP connection start only after those of message n have returned, so a client sees its messages take effect in the order it sent them.", "quantifier": "for all streams, arrival patterns and interleavings of the reading and handling goroutines", "why_tests_cant": "The handling goroutines are scheduled by the runtime; a test nearly always sees them run in order.", "anchors": ["tcpx.go:565-605", "tcpx.go:853-871", "tcpx.go:994-999"]}
{"id": "C96", "title": "A handler that does not return delays nothing else", "statement": "While a handler or callback is blocked, every other message already sent on this or any other connection is still read and handled.", "quantifier": "for all sets of blocked handlers, reachable states and interleavings", "why_tests_cant": "Needs all interleavings and all combinations of blocked handlers; a test blocks one.", "anchors": ["tcpx.go:515-607", "tcpx.go:853-871", "tcpx.go:994-999"]}
{"id": "C97", "title": "BeforeExit runs its functions and then exits", "statement": "When a signal to exit arrives, every function given to BeforeExit runs, once and in the given order, and then the process exits.", "quantifier": "for all function lists, signals and times of arrival", "why_tests_cant": "Signals race with the goroutine that waits for them; a test sends one signal long after the call.", "anchors": ["tcpx.go:1118-1135"]}
{"id": "C98", "title": "Defer eliminates every panic and hands it on", "statement": "No panic leaves Defer, and every panic's reason is handed to every handler in order.", "quantifier": "for all functions, panic values and handler lists", "why_tests_cant": "Needs all combinations of panicking and returning handlers.", "anchors": ["utils.go:54-77"]}
{"id": "C99", "title": "With a TLS configuration nothing is served in clear", "statement": "After LoadTLSFile or with TLSConfig set, no listener of the server accepts unencrypted traffic.", "quantifier": "for all configurations, networks and outcomes of listening", "why_tests_cant": "A test checks the one network it dials.", "anchors": ["tls.go:15-25", "tcpx.go:421-433", "tcpx.go:489-511", "tcpx.go:633-650", "tcpx.go:1266-1275"]}
{"id": "C100", "title": "ListenAndServe reports what happened", "statement": "ListenAndServe returns an error when it cannot listen, and returns nil only after Stop.", "quantifier": "for all networks, configurations and ways the accept loop ends", "why_tests_cant": "The failing ways out of the loop are hard to provoke.", "anchors": ["tcpx.go:367-394", "tcpx.go:421-433", "tcpx.go:489-511", "tcpx.go:633-712"]}
{"id": "C101", "title": "Overlapping Stop, Start and Restart calls act as if made one after another", "statement": "When several goroutines call Stop, Start or Restart at once, the results are those of some sequential order: of two Stops one succeeds and the other is refused.", "quantifier": "for all states and interleavings of the calls", "why_tests_cant": "The window lies between two lock operations; a test would hardly ever hit it.", "anchors": ["tcpx.go:1140-1227"]}
{"id": "C102", "title": "Registration takes a snapshot of its handlers", "statement": "The handlers of a registered route are those given in the call: what the program later does with the slice it passed, or registers for other routes, does not change them.", "quantifier": "for all registration histories, slice capacities and growth policies of append", "why_tests_cant": "Depends on spare capacity of the caller's slice, which differs between Go versions and call sites.", "anchors": ["tcpx.go:320-362", "mux.go:216-236", "url-mux.go:41-70"]}
{"id": "C103", "title": "A URLMux obeys its lock and its conflict rule", "statement": "Before LockWrite each registration of a pattern appends its handlers, or panics without effect after PanicOnExistRouter, naming every earlier place; after LockWrite every registration is refused and nothing changes.", "quantifier": "for all histories of calls", "why_tests_cant": "Unbounded histories mixing registrations, PanicOnExistRouter and LockWrite.", "anchors": ["url-mux.go:20-85", "routeInfo.go:5-19"]}
{"id": "C104", "title": "The fields of a server are not raced", "statement": "No two goroutines access a field of a TcpX at the same time with one of them writing, whatever calls (configuring, ListenAndServe, Stop, Start, Restart) the application makes from whichever goroutines.", "quantifier": "every program using a server, every schedule, any number of goroutines, connections and messages", "why_tests_cant": "Races are schedule dependent; the race detector only sees the schedules that happen in a test run", "anchors": ["tcpx.go:119-251", "tcpx.go:396-418", "tcpx.go:488-609", "tcpx.go:1140-1211"]}
{"id": "C105", "title": "The fields of a context are not raced", "statement": "No two goroutines access a field of a context at the same time with one of them writing, for the contexts of TCP connections, raw connections and datagrams.", "quantifier": "every connection or datagram, every schedule, any number of messages and any handlers", "why_tests_cant": "Races are schedule dependent; the race detector only sees the schedules that happen in a test run", "anchors": ["context.go:25-75", "context.go:77-104", "context.go:574-582", "tcpx.go:526-606", "tcpx.go:682-706", "tcpx.go:1027-1073"]}
{"id": "C106", "title": "A handler may call Reset or ResetOffset on its context", "statement": "A handler or middleware that calls ctx.Reset or ctx.ResetOffset on the context it was given lets the message end in good order: the chain neither panics nor runs handlers a second time nor goes on for ever.", "quantifier": "every list of handlers, every handler, every position of the call in it", "why_tests_cant": "Needs chains of every shape; the tests never call Reset inside a handler", "anchors": ["context.go:551-588", "tcpx.go:852-1025"]}
{"id": "C107", "title": "A panic in user code does not end the process", "statement": "A panic in a handler, a middleware, OnMessage, HandleRaw, OnConnect, OnClose or OnHeartbeatLoss neither ends the process nor stops the server from serving others, and the connection concerned is closed.", "quantifier": "every configuration of callbacks and watchers, any clients and messages, every schedule of the goroutines, every choice of which calls panic", "why_tests_cant": "A test that panics in a handler ends the test process; which goroutine recovers depends on where the panic happens", "anchors": ["tcpx.go:421-486", "tcpx.go:489-609", "tcpx.go:652-707", "tcpx.go:852-1025", "tcpx.go:1027-1116"]}
{"id": "C108", "title": "The logger prints what it is given, and only in debug mode", "statement": "In debug mode each Logger.Println prints one line with the values given to it; in release mode the library prints nothing; SetLogFlags takes effect on what is printed.", "quantifier": "every sequence of SetLogMode and SetLogFlags calls, every list of values, everything the library prints about", "why_tests_cant": "Output is rarely asserted in tests, and the bypassing prints sit on paths tests do not silence", "anchors": ["log.go:11-58", "tcpx.go:444", "tcpx.go:522", "tcpx.go:1033", "tcpx.go:1118-1167", "tcpx.go:1203", "context.go:707", "utils.go:54-67"]}
{"id": "C109", "title": "The stream checker accepts exactly well-formed messages", "statement": "The HTTP service for writers of clients in other languages answers 200 with the decoded message for a stream that is exactly one message in the named format, and 400 for everything else.", "quantifier": "every stream, capacity of the decoded slice, format name, encoders and decoders", "why_tests_cant": "Needs arbitrary malformed streams and the capacity that JSON decoding leaves behind a slice; the service has no tests", "anchors": ["all-language-clients/main.go:27-86", "packx.go:358-414"]}
{"id": "C110", "title": "The pack-detail programs show the real wire format", "statement": "For every id, header and payload the hand-written encoders of examples/modules/pack-detail print the bytes the library packs, and the hand-written decoders give id, header and body back.", "quantifier": "every id, header, payload, format, every slice beginning with a message", "why_tests_cant": "The programs run on one constant each", "anchors": ["examples/modules/pack-detail/json/encode/main.go:10-59", "examples/modules/pack-detail/json/decode/main.go:9-32", "packx.go:287-327"]}
{"id": "C111", "title": "The middleware examples let only clients with the key log in", "statement": "On the servers of examples/modules/middleware (anchor and router middleware) the login handler runs only for messages whose header carries the key, and every login request gets exactly one reply.", "quantifier": "every byte sequence, connection state, header, body, encoders", "why_tests_cant": "Needs arbitrary streams and histories of the connection; the examples have no tests", "anchors": ["examples/modules/middleware/anchor-middleware/main.go:9-65", "examples/modules/middleware/router-middleware/main.go:9-64", "tcpx.go:852-992"]}
{"id": "C112", "title": "The global-middleware example counts requests", "statement": "The server of examples/modules/middleware/global-middleware counts every request and tells each requester how many there have been.", "quantifier": "any messages in any order, every interleaving of the handling goroutines", "why_tests_cant": "Needs all interleavings and 2^31 requests", "anchors": ["examples/modules/middleware/global-middleware/main.go:10-28"]}
{"id": "C113", "title": "The chat example delivers each message once or says the user is offline", "statement": "On the server of examples/modules/chat every request to send is answered by exactly one write: the message to the connection that last logged in under the name, naming its sender, or a notice to the sender that the user is offline; no client can disturb the others.", "quantifier": "any number of connections, any messages in any order, every interleaving of the send handler's two halves", "why_tests_cant": "Needs arbitrary histories of logins, logouts, closes and sends and their interleavings; the example has no tests", "anchors": ["examples/modules/chat/server/main.go:10-62", "context.go:131-173", "context.go:590-660", "client-pool.go:23-49"]}
{"id": "C114", "title": "The my-marshal example prints what was sent", "statement": "With the ByteMarshaller of examples/modules/my-marshal, any payload packed by the client under any id is printed unchanged with that id by each of the three ways of reading it (c.Bind, packx.Unpack, BodyBytesOf and Unmarshal), and the server runs the handler of its id; on arbitrary streams the three ways agree wherever the first two print.", "quantifier": "all payloads, ids, streams and header encoders", "why_tests_cant": "Needs all payloads and all malformed streams", "anchors": ["examples/modules/my-marshal/marshaller/marshaller.go:5-17", "examples/modules/my-marshal/server/main.go:10-55", "examples/modules/my-marshal/client/main.go:17-52", "packx.go:356-394"]}
{"id": "C115", "title": "MD5 is 32 upper-case hexadecimal digits of the RFC 1321 sum", "statement": "tcpx.MD5 of any string is 32 upper-case hexadecimal digits, and two strings give the same result exactly when their MD5 sums are equal.", "quantifier": "all strings", "why_tests_cant": "Needs all strings and all sums", "anchors": ["utils.go:78-83", "examples/modules/auth/server/main.go:43-48"]}
{"id": "C116", "title": "The auth example keeps exactly the connections that sign their message", "statement": "On the server of examples/modules/auth a connection outlives authentication only if one of its messages is signed with the server's secret; a rightly signed message keeps it, a wrongly signed or undecodable one gets it closed, and a signature holds for one pair of fields only.", "quantifier": "any messages, every interleaving of handlers, watcher, deadline and closes", "why_tests_cant": "Needs all interleavings and all messages", "anchors": ["examples/modules/auth/server/main.go:11-48", "examples/modules/auth/client/main.go:13-116", "context.go:668-679", "tcpx.go:1091-1116"]}
{"id": "C117", "title": "The example clients show every message they are sent", "statement": "Whatever the segmentation of the server's bytes, an example client shows the id and body of every message the server sends, once and in order, and stays alive.", "quantifier": "all messages, all segmentations of the stream, all numbers of reads", "why_tests_cant": "Needs every way TCP can cut and join the messages", "anchors": ["examples/modules/online-offline/client/client.go:36-48", "examples/modules/graceful/graceful-stop/client/client.go:20-33", "examples/modules/graceful/graceful-restart/client/client.go:20-33", "examples/modules/chat/client_1/main.go:66-104", "examples/modules/middleware/anchor-middleware/client/main.go:35-91", "packx.go:254-268"]}
{"id": "C118", "title": "The say-hello server answers its clients", "statement": "The server of examples/sayHello runs the documented middlewares and answers messages 1, 3, 5 and 11 with replies 2, 4, 6 and 12; it keeps running on its three networks, survives undecodable bodies, and keeps the connections whose clients send heartbeats with the rewritten id.", "quantifier": "all messages, headers, timings and ports", "why_tests_cant": "Needs all messages and the timing of every connection", "anchors": ["examples/sayHello/server/main.go:15-214", "tcpx.go:200-251", "tcpx.go:367-394", "tcpx.go:1027-1070"]}
{"id": "C119", "title": "Pool calls made at the same time act as if made one after another", "statement": "Calls of Online, Offline, CloseConn and GetClientPool made by any number of goroutines act as if each took effect at one instant between its beginning and its end; once all have returned the memory is the one some order of the calls leaves.", "quantifier": "any number of goroutines, any calls, every interleaving of their accesses to the shared memory", "why_tests_cant": "Needs all interleavings of accesses of arbitrarily many goroutines; races show up rarely", "anchors": ["context.go:131-173", "context.go:276-303", "client-pool.go:23-49"]}
{"id": "C120", "title": "A message sent to a name while others log in and out goes where it should", "statement": "SendToUsername, whose looks into the pool and at the state of the context found are apart in time, answers as it would at some instant of the call: it sends to the connection the name led to, and refuses only if the name led to no online connection.", "quantifier": "any number of goroutines logging in, out and closing, every interleaving with the call's steps", "why_tests_cant": "Needs all interleavings of accesses of arbitrarily many goroutines", "anchors": ["context.go:645-660", "context.go:590-594", "client-pool.go:29-33"]}
{"id": "C121", "title": "The raw example answers every message", "statement": "The raw example's server prints exactly the bytes a client sends, in order, answers each of the client's messages once, and closes the connection when the client is gone; its client prints exactly the bytes the server writes.", "quantifier": "all byte streams, every way they are cut into reads, every ending", "why_tests_cant": "Needs every segmentation of unbounded streams", "anchors": ["examples/modules/raw/server/server.go:9-32", "examples/modules/raw/client/client.go:9-32", "tcpx.go:455-483", "tcpx.go:1001-1014"]}
{"id": "C122", "title": "In the online-offline example a client is in the pool while logged in", "statement": "At every moment the pool of the online-offline example has a client under its name exactly when the last login or logout it sent was a login and its connection has not ended, and \"online success\" is printed only for a login that took effect.", "quantifier": "any number of clients, all messages, every order in which the goroutines run", "why_tests_cant": "Needs every schedule of unboundedly many handler goroutines", "anchors": ["examples/modules/online-offline/server/server.go:10-36", "tcpx.go:566", "context.go:131-173"]}
{"id": "C123", "title": "The url-pattern example answers every login with the token", "statement": "The server of the url-pattern example answers every message that asks for /login/ and whose body decodes with the token, exactly once, and answers nothing else; its client prints one token for each answer.", "quantifier": "any number of connections and messages, every order in which the goroutines run, every segmentation of the answers", "why_tests_cant": "Needs every schedule of unboundedly many handler goroutines", "anchors": ["examples/modules/url-pattern/server/server.go:10-34", "examples/modules/url-pattern/client.go:11-60", "context.go:733-746", "tcpx.go:853-871"]}
{"id": "C124", "title": "The helloworld server prints what its clients send", "statement": "For every sequence of byte slices sent the way the helloworld client sends hello world, the server's handlers print exactly these slices, one line each, however the bytes are cut into reads and however the connection ends. Messages sent together by PipeJSON are printed as well, in their order, and line ends inside base64 text make no difference.", "quantifier": "all byte slices, all sequences, all segmentations and endings", "why_tests_cant": "Needs all byte strings through base64, JSON and framing", "anchors": ["examples/modules/helloworld/server/server.go:9-17", "examples/modules/helloworld/client/main.go:11-32", "tcpx.go:874-887", "packx.go:358-394"]}
{"id": "C125", "title": "The heartbeat example keeps clients that beat and drops those that stop", "statement": "In the heartbeat example a client that writes a heartbeat every 10 seconds stays connected for as long as it runs, and once it has gone the server closes the connection after three intervals; heartbeats of 20 bytes reach the library's own handler whatever way the connection cuts them.", "quantifier": "all environments with JSON headers, all segmentations, all sleeps, intervals, delays and latencies, all interleavings of client, network and watcher", "why_tests_cant": "A test can wait for one 30-second run with one latency; the margin between a slow network and a lost client is a statement about all schedules.", "anchors": ["examples/modules/heartbeat/server/server.go:9-22", "examples/modules/heartbeat/client/client.go:11-31", "tcpx.go:220-233", "tcpx.go:1027-1070"]}
{"id": "C126", "title": "The graceful-stop and graceful-restart examples keep their clients", "statement": "In the examples, Stop(false) ends listening without any effect on existing connections, dials are refused until Start, and after Start the same address is served again.", "quantifier": "every interleaving of the listening goroutines, the stopping goroutine and any number of clients", "why_tests_cant": "all interleavings of dials, Accept, Stop and Start", "anchors": ["tcpx.go:Stop", "tcpx.go:Start", "tcpx.go:ListenAndServeTCP", "examples/modules/graceful/graceful-restart/main.go:main", "examples/modules/graceful/graceful-stop/main.go:main", "examples/modules/graceful/graceful-restart/client/client.go:Recv"]}
{"id": "C127", "title": "The panic of a misused Use or UnUse names the calls involved", "statement": "When Use is called for a key that is already in use, or UnUse for one that is not, the panic text lists the places (file:line) of all Use and UnUse calls of that key that took effect, in the order they were made, and the place of the misusing call itself.", "quantifier": "all histories of registration calls (several keys per call, panics recovered), all keys and places", "why_tests_cant": "The places come from the callers and the text from slices that grow with the history; a test sees one or two calls.", "anchors": ["anchor.go:29-95", "tcpx.go:257-316"]}
{"id": "C128", "title": "The TLS example serves logins over TLS only, one for each client", "statement": "The server of examples/modules/tls never listens in clear: it listens, encrypted, exactly when its certificate files load and its port is free, and panics otherwise. Each run of the example's client that connects makes the server run its login handler exactly once and then close the connection, in whatever pieces the client's bytes arrive and whatever other clients do meanwhile.", "quantifier": "all outcomes of loading and listening, any number of clients, all segmentations of their bytes, all interleavings of the server's goroutines", "why_tests_cant": "The example needs certificate files and a network; how the bytes are cut up and the goroutines scheduled cannot be chosen by a test.", "anchors": ["examples/modules/tls/server/main.go:8-26", "examples/modules/tls/client/main.go:46-61", "tls.go:15-25", "tcpx.go:489-609", "tcpx.go:1266-1275"]}
{"id": "C129", "title": "The contexts of one connection are interchangeable for presence", "statement": "A TCP connection has many contexts: the one OnConnect and OnClose are given and one copy for every message. Whichever of them Online, Offline, CloseConn, SendToUsername, Username, IsOnline and IsOffline are called on, the result and the effect on everybody are the same; the pool may hold any of them.", "quantifier": "all histories of connections, messages and calls on any of the contexts", "why_tests_cant": "Which copy is stored in the pool and which one a later handler holds depends on the history; a test tries a few combinations.", "anchors": ["context.go:25-104", "context.go:131-173", "context.go:276-303", "context.go:354-418", "context.go:590-654", "client-pool.go:9-49", "tcpx.go:531-535", "tcpx.go:574"]}
{"id": "C130", "title": "A message of a known router type is never dropped, however the accesses interleave", "statement": "Every message of a TCP connection that asks for MESSAGE_ID or URL_PATTERN is given to the handlers its own header names, with every Load and Store of the connection's map that RouterType and GetURLPattern make taken as a separate step of concurrent goroutines.", "quantifier": "all connections, messages (single or in batches), handlers that use the map, and all interleavings of accesses", "why_tests_cant": "The loss needs the second message to store its type between two of the three calls of RouterType made for the first one; a test practically never meets that schedule.", "anchors": ["context.go:682-730", "context.go:765-784", "tcpx.go:853-871", "tcpx.go:994-999", "context.go:79-104"]}
{"id": "C131", "title": "A pool used directly names exactly the open connections it was given", "statement": "An application that calls the exported methods of a pool itself (SetClientPool, Online, DeleteFromClientPool, Offline, GetClientPool), beside Online, Offline and CloseConn of its connections, finds under each name the context of the last call that put one there and was not undone since; closing a connection takes out every entry that names it.", "quantifier": "all histories of calls, direct or through connections, on any number of pools and connections, nil contexts included", "why_tests_cant": "Every mixture of direct and indirect calls on every pool matters, and a stale entry shows only when someone later looks the name up.", "anchors": ["client-pool.go:7-59", "context.go:131-173", "context.go:276-303", "context.go:645-666"]}
{"id": "C132", "title": "What is registered through the mux itself is served, and a locked mux does not change", "statement": "Handlers registered through the exported methods of srv.Mux (AddHandleFunc, Any) are run for the requests that name them; a middleware in use is run for every handler registered later, however many registrations there were; with AllowAdd false the server's registrations change nothing and can be tried again once it is true.", "quantifier": "all configurations made by any calls on the server and on its Mux, with AllowAdd and a nil Mux, any number of them, and all requests", "why_tests_cant": "It takes 2^31 indices for the counter to wrap, and the ways in which calls on the mux and on the server mix cannot be enumerated.", "anchors": ["mux.go:33", "mux.go:72-236", "tcpx.go:42", "tcpx.go:257-362", "tcpx.go:853-992"]}
{"id": "C133", "title": "The Python client and the Go side read each other's messages", "statement": "A message packed by the Python client is a frame of the documented layout, packed exactly when the id is an unsigned 32-bit number and the lengths fit, and the Go side reads id, header and body as sent; of every frame the Go side packs, the client's unpack returns id, header bytes and body, whatever follows it; and an exchange (send, one recv, unpack) returns the server's reply or raises.", "quantifier": "every message, serializer, header and body codec, every frame with anything after it, every cut of a frame and every segmentation of the stream", "why_tests_cant": "The client is in another language and its test needs a fixed remote address; it tries two small messages with small ids, complete replies in one segment. Ids from 2^31 on, negative ids, replies over 1024 bytes or in two segments, empty bodies and closed connections never occur in it.", "anchors": ["all-language-clients/python/protocol.py:15-36", "all-language-clients/python/protocol.py:38-56", "all-language-clients/python/test.py:27-37", "all-language-clients/python/test.py:63-76", "packx.go:98-119", "packx.go:159-165", "packx.go:287-327"]}
{"id": "C134", "title": "Protobuf bodies are read and written as the encoding guide says", "statement": "The one-string protobuf messages of the repository are written as field 1 with a shortest length followed by unknown fields, read exactly when the bytes are a sequence of protobuf fields with UTF-8 text (last text wins, the rest is kept in order), what is read can be handed on unchanged, and every UTF-8 text survives the round trip.", "quantifier": "every byte string as input, every text and every sequence of kept fields", "why_tests_cant": "The tests and the Python client send one fixed short name. Varints longer than needed, groups, fields of other numbers and types, repeated fields, texts that are not UTF-8 and cut bodies never occur in them, and a wrong reading shows only in what a peer receives.", "anchors": ["marshaller.go:88-110", "all-language-clients/model/user.pb.go:23-60", "examples/sayHello/server/pb/sayHello.pb.go:23-99", "examples/sayHello/server/main.go:178-199"]}
{"id": "C135", "title": "The say-hello clients get the answers of the say-hello server", "statement": "The Go client's greeting and the Python client's JSON and protobuf requests are messages the say-hello server accepts; each is answered with exactly one frame of the documented id, header and body, and the clients show exactly these answers: the Go client one line per request however the answers are cut into pieces, the Python client the decoded reply.", "quantifier": "every text and user name the clients can encode, every number of requests, every history of the server's contexts, every segmentation of the answers, anything after the Python client's reply", "why_tests_cant": "The examples are programs, no tests, and need a server on a fixed address; they send one text, look at the output by eye and never see cut answers, other texts, or the end of the connection.", "anchors": ["examples/sayHello/client/main.go:17-88", "examples/sayHello/server/main.go:27-53", "examples/sayHello/server/main.go:121-199", "all-language-clients/python/test.py:6-34", "all-language-clients/python/test.py:36-73"]}
{"id": "C136", "title": "A post to the stream checker is checked as the stream it was packed from", "statement": "What a client posts to the checking service (base64 of the packed stream and the marshaller's name, as JSON) is read back as exactly those bytes and that name, whatever the order of the members, the case of their names and further members; a user packed by the Go client in any documented format is answered with 200 and the message; malformed posts are answered with 400.", "quantifier": "for all streams, names, member lists (ASCII keys) and users whose format reads back what it writes; all UTF-8 user names for protobuf", "why_tests_cant": "The space of JSON objects, byte lengths modulo 3 and key spellings is unbounded; the repository's only check posts one fixed user.", "anchors": ["all-language-clients/main.go:14-86", "all-language-clients/go/main.go:29-239"]}
{"id": "C137", "title": "The URL routes of a server are those of its URLMux, with the places they were registered at", "statement": "After any calls of the registration API the routes of a server are exactly those of a URLMux on which the calls of Any were made; the URLMux refuses none; the handlers of a pattern are those of its Any calls in order (several handlers given in one call appear twice); and the record of a route names the place in the application of each registration.", "quantifier": "for all histories of registration calls from any places, panics recovered, all patterns and handler lists", "why_tests_cant": "Tests register a handful of routes once and never look at the record of places, which is unexported and read by the text of a panic only.", "anchors": ["tcpx.go:346-362", "mux.go:72-81", "url-mux.go:32-85", "routeInfo.go:5-19"]}
{"id": "C138", "title": "The graceful-exit example runs both jobs before it ends", "statement": "Whenever the process of the graceful-exit example ends, the lines of both jobs have been printed, in order and once each; while it listens any catchable signal makes them be printed and the process leave through os.Exit.", "quantifier": "for all interleavings of main, the goroutine of BeforeExit, signals, failing listens and failing accepts", "why_tests_cant": "The example is a program without tests; which of main, the goroutine and the signal comes first is up to the scheduler, and a failing Accept needs an exhausted process.", "anchors": ["examples/modules/graceful/graceful-exit/main.go:9-20", "tcpx.go:1118-1135", "tcpx.go:489-524"]}
{"id": "C139", "title": "Answers reach a client in the order of its messages", "statement": "Every message of a connection is answered exactly by the blocks its handlers write, each once and in their order, and a client gets the answers in the order in which it sent the messages.", "quantifier": "for all handlers, message streams, connections and interleavings of accept loop, readers, handling goroutines and their writes", "why_tests_cant": "Which goroutine writes first is up to the scheduler; a test sees one order.", "anchors": ["context.go:421-521", "tcpx.go:515-607", "tcpx.go:853-871", "tcpx.go:994-999"]}
{"id": "C140", "title": "What clients send each other arrives once, whole and in order", "statement": "Whatever the handlers of messages write to whichever connections, each connection is written exactly the blocks meant for it, each once; a peer reading block by block gets exactly these; and what a client sends to another arrives in the order in which it sent it.", "quantifier": "for all handlers, receivers, message streams, connections and interleavings of accept loop, readers, handling goroutines and their writes", "why_tests_cant": "Handlers of several connections write to one socket; a test sees one interleaving and one order.", "anchors": ["context.go:421-521", "context.go:645-660", "tcpx.go:515-607", "tcpx.go:853-871", "tcpx.go:994-999"]}
