{"id": "C01", "title": "UBuf space accounting and absence of panics", "statement": "For a UBuf made by UBufAlloc/UBufAllocWithHeadReserved with legal arguments, after any sequence of API calls HeadWritableLength + ReadableLength + TailWritableLength = Capacity, Capacity never changes, and no call panics.", "quantifier": "every capacity and reserved size, every finite sequence of read/write/peek/head-write/reset/ReadFrom/WriteTo calls with any arguments and any io.Reader/io.Writer that respects its contract", "why_tests_cant": "The number of call sequences is unbounded; tests only run a few literal sequences on a 64 byte buffer.", "anchors": ["ubuf.go: UBufAllocWithHeadReserved, Capacity, ReadableLength, HeadWritableLength, TailWritableLength, Write*, Read*, Reset"]}
{"id": "C02", "title": "UBuf behaves as a byte deque", "statement": "A UBuf behaves as a byte deque with bounded room at both ends: tail writes append, head writes prepend, reads remove from the front, peeks observe the front, Reset empties it; the result (count, value, error) of each call and the later contents are exactly those of the deque, and a call that reports failure of an all-or-nothing operation leaves the contents unchanged.", "quantifier": "every finite sequence of calls, every argument, every initial capacity and reserve", "why_tests_cant": "Refinement has to hold for every history; unit tests fix a handful of histories.", "anchors": ["ubuf.go: Write, WriteByte, WriteU*, Read, ReadByte, ReadU*, Peek*, WriteHead*, Reset"]}
{"id": "C03", "title": "Integer round trip and byte order", "statement": "A value written with WriteUxx/WriteUxxBE/WriteUxxLE (or the head variants) and read or peeked with the matching call is returned unchanged, whatever is written after it; BE stores the most significant byte first, LE the least significant, and the plain variants are BE.", "quantifier": "every uint16/uint32/uint64 value, every buffer state with enough room", "why_tests_cant": "2^64 values times every buffer position; tests use one literal each.", "anchors": ["ubuf.go: WriteU16..WriteHeadU64LE, ReadU16..ReadU64LE, PeekU16..PeekU64LE"]}
{"id": "C04", "title": "Fixed-width operations are all-or-nothing", "statement": "WriteUxx, WriteHeadUxx, ReadUxx and PeekUxx either transfer the whole value or return an error and leave the buffer exactly as it was; they fail exactly when there is not enough room (or data).", "quantifier": "every buffer state, width and value", "why_tests_cant": "Boundary conditions must hold for every position of the indices.", "anchors": ["ubuf.go: WriteU*, ReadU*, PeekU*, writeHead"]}
{"id": "C05", "title": "Head writes prepend", "statement": "WriteHeadByte/WriteHeadBytes/WriteHeadUxx on a buffer that is not a shared copy-on-write snapshot put the new bytes immediately before the readable data and change nothing else readable; they succeed exactly when HeadWritableLength is large enough, except that an empty WriteHeadBytes on a buffer with no readable data and no tail room reports an error and changes nothing.", "quantifier": "every buffer state and every byte string", "why_tests_cant": "Every split of the buffer into head, data and tail must be covered.", "anchors": ["ubuf.go: writeHead, WriteHeadByte, WriteHeadBytes, WriteHeadU*"]}
{"id": "C06", "title": "Write and Read count exactly what they move", "statement": "Write(p) appends exactly the longest prefix of p that fits and returns its length, with an error iff it is shorter than p or the buffer has no tail room at all; Read(p) and Peek(p) fill p with exactly the longest prefix of the readable data that fits and return its length; Read consumes it, Peek does not.", "quantifier": "every buffer state and every p, including empty p", "why_tests_cant": "Partial transfers happen at every boundary, for every size.", "anchors": ["ubuf.go: Write, Read, Peek"]}
{"id": "C07", "title": "WriteTo and ReadFrom account for the other side", "statement": "WriteTo(w) offers exactly the readable bytes to w and consumes exactly the number w accepted, or nothing if w reports an error; ReadFrom(r) appends exactly the bytes r produced, or nothing if r reports an error, and never more than TailWritableLength.", "quantifier": "every buffer state and every io.Writer / io.Reader behaviour within its contract", "why_tests_cant": "The peer may accept or produce any number of bytes and fail at any point.", "anchors": ["ubuf.go: WriteTo, ReadFrom"]}
{"id": "C08", "title": "Direct-copy snapshots are independent", "statement": "After UBufMakeSnapshot(ub, CopyDirectly) the snapshot has the same readable bytes and room as ub, and no later sequence of operations on one is observable through the other.", "quantifier": "every buffer, every interleaved sequence of operations on original and snapshots", "why_tests_cant": "Independence quantifies over all later histories of both buffers.", "anchors": ["ubuf.go: UBufMakeSnapshot"]}
{"id": "C09", "title": "Copy-on-write snapshots are isolated", "statement": "Any family of buffers obtained from each other by CopyOnWrite and CopyDirectly snapshots behaves like independent value copies: a write through one is never observable through another, whatever the order of snapshots, reads, tail writes and head writes on unshared buffers.", "quantifier": "every number of snapshots, snapshots of snapshots, and every interleaving of operations", "why_tests_cant": "Reference-count bookkeeping is right only if it is right for every history.", "anchors": ["ubuf.go: UBufMakeSnapshot, resolveCopyOnWriteIfNeed"]}
{"id": "C10", "title": "Head writes are safe on copy-on-write snapshots", "statement": "A head write with enough head room on a buffer that shares its data with a copy-on-write snapshot succeeds, prepends the bytes and leaves the readable data intact.", "quantifier": "every pair of sharing buffers and every head write", "why_tests_cant": "Depends on sharing state and on every index value.", "anchors": ["ubuf.go: writeHead, resolveCopyOnWriteIfNeed"]}
{"id": "C11", "title": "Reference snapshots share storage but not cursors", "statement": "After a Reference snapshot, both buffers read the same storage: each keeps its own read/write position, a byte stored through one at a position the other regards as readable is what the other reads, and operations on one never move the other's cursors.", "quantifier": "every buffer, snapshot and later write", "why_tests_cant": "Aliasing has to be characterised for all positions.", "anchors": ["ubuf.go: UBufMakeSnapshot"]}
{"id": "C12", "title": "Copy-on-write stays safe beside Reference snapshots", "statement": "A CopyOnWrite snapshot never observes a later write made through another handle on the same data, even when Reference snapshots of that data also exist.", "quantifier": "every history mixing the three snapshot types", "why_tests_cant": "Needs every mix of snapshot kinds.", "anchors": ["ubuf.go: UBufMakeSnapshot, resolveCopyOnWriteIfNeed"]}
{"id": "C13", "title": "Wrapping a caller's slice", "statement": "UBufFrom/UBufFromWithHeadReserved return nil exactly for a nil slice or an illegal reserve; otherwise the buffer uses the caller's storage, its capacity is cap(slice), TailWritableLength bytes can really be written, and no operation panics.", "quantifier": "every slice (every length and capacity), every reserve", "why_tests_cant": "Length and capacity of a slice vary independently; tests only use literals where they agree.", "anchors": ["ubuf.go: UBufFrom, UBufFromWithHeadReserved"]}
{"id": "C14", "title": "Standard readers terminate on a UBuf", "statement": "io.ReadFull over a UBuf returns after finitely many Read calls: the full data if enough bytes are readable, otherwise an error after consuming what there was.", "quantifier": "every buffer content and every requested size", "why_tests_cant": "Non-termination cannot be observed by a test, and sizes are unbounded.", "anchors": ["ubuf.go: Read", "proc_codec_gob.go: OnLowerData"]}
{"id": "C15", "title": "Copy-on-write copies only when shared", "statement": "A write through a buffer copies the storage only if the buffer is currently sharing it, and over any history the number of copies made by writes is at most the number of CopyOnWrite snapshots taken.", "quantifier": "every history of allocations, snapshots and operations", "why_tests_cant": "A counting bound over unbounded histories.", "anchors": ["ubuf.go: resolveCopyOnWriteIfNeed, UBufMakeSnapshot"]}
{"id": "C16", "title": "Coalesced frames are split exactly", "statement": "When a received chunk is a concatenation of complete non-empty frames produced by FrameDecoder on the sending side, the receiving FrameDecoder hands up exactly the payloads, in order, and nothing else.", "quantifier": "every number of frames, every payload content and size, every cache capacity", "why_tests_cant": "Any number and size of frames may be coalesced by the transport.", "anchors": ["proc_frame_decoder.go: OnUpperData, OnLowerData, handleCurrentData, handleCachedData"]}
{"id": "C17", "title": "Frames split across reads are reassembled", "statement": "For every way the transport cuts the byte stream of frames into received chunks, the receiving FrameDecoder hands up exactly the sent payloads in order.", "quantifier": "every chunking of every frame stream", "why_tests_cant": "The number of chunkings is exponential in the stream length.", "anchors": ["proc_frame_decoder.go: handleCurrentData, handleCachedData", "ubuf.go: ReadFrom, Read"]}
{"id": "C18", "title": "Malformed input never crashes the frame decoder", "statement": "No sequence of bytes received from a peer makes FrameDecoder panic, loop forever, or hand up bytes that were not in the received data.", "quantifier": "every byte string received, every decoder state", "why_tests_cant": "An attacker chooses the bytes.", "anchors": ["proc_frame_decoder.go: handleCurrentData, handleCachedData", "ubuf.go: UBufAllocWithHeadReserved"]}
{"id": "C19", "title": "Truncated frames are never handed up", "statement": "FrameDecoder hands up a payload only if all the bytes announced by its length field have been received.", "quantifier": "every received byte string", "why_tests_cant": "Every truncation point of every frame must be considered.", "anchors": ["proc_frame_decoder.go: handleCurrentData"]}
{"id": "C20", "title": "Connections do not disturb each other's framing", "statement": "With one FrameDecoder serving several connections, what is handed up for a chunk received on one connection does not depend on chunks received on other connections.", "quantifier": "every interleaving of chunks from any number of connections, every cache capacity option", "why_tests_cant": "Interleavings across connections are unbounded.", "anchors": ["proc_frame_decoder.go: cache, Run"]}
{"id": "C21", "title": "Frame decoding always makes progress", "statement": "FrameDecoder's receive loops terminate for every chunk and cache content, after a number of iterations bounded by the number of bytes available; a decoder never gets stuck ignoring all later well-formed chunks.", "quantifier": "every chunk, cache content and cache capacity", "why_tests_cant": "Termination and absence of wedging are properties of all inputs and histories.", "anchors": ["proc_frame_decoder.go: handleCurrentData, handleCachedData"]}
{"id": "C22", "title": "Run wires the processors into one chain", "statement": "After Run, data sent by an endpoint visits the appended processors exactly once each in append order and then the transport side; data received visits them exactly once each in reverse order and then the endpoint side.", "quantifier": "every list of distinct processors, including the empty list", "why_tests_cant": "Any number of processors may be appended in any order.", "anchors": ["ustack_default.go: build", "proc_base.go: SetUpper, SetLower"]}
{"id": "C23", "title": "Reserved head room always suffices", "statement": "For a buffer produced by a codec or by a processor's own message, every header written by the processors below it fits into the reserved head room, for any set and order of processors; GetOverhead after one Run is the sum of the processors' overheads.", "quantifier": "every processor list and order, every MTU at least the overhead", "why_tests_cant": "Every permutation and multiplicity of processors.", "anchors": ["ustack_default.go: build, GetOverhead", "proc_codec_bytes.go: OnUpperData", "proc_heartbeat.go: OnEvent"]}
{"id": "C24", "title": "End-to-end delivery through matching stacks", "statement": "If two stacks use the same codec and the same list of transparent processors, every message that fits is handed to the peer's endpoint with the same content, destination session and connection, exactly once, and several messages arriving coalesced are delivered in order when FrameDecoder is the lowest processor.", "quantifier": "every message, session in range, processor list, MTU large enough", "why_tests_cant": "Combinatorial in processors, messages and sizes.", "anchors": ["proc_upperdeck.go: acceptEndpoint, OnLowerData", "proc_lowerdeck.go: OnUpperData, acceptTransport", "proc_codec_bytes.go", "proc_session_resolver.go", "proc_frame_decoder.go"]}
{"id": "C25", "title": "Oversize messages are dropped whole", "statement": "Bytes/String/JSON codecs send a non-empty message exactly when its encoding fits into MTU minus overhead; otherwise nothing at all is sent for it - never a truncated message.", "quantifier": "every message size, MTU and overhead", "why_tests_cant": "Boundary must be right for every MTU and overhead.", "anchors": ["proc_codec_bytes.go: OnUpperData", "proc_codec_string.go: OnUpperData", "proc_codec_json.go: OnUpperData", "ubuf.go: Write"]}
{"id": "C26", "title": "Session numbers survive the wire", "statement": "A message sent to destination session s is delivered to the endpoint registered for s, for every int s.", "quantifier": "every Go int session", "why_tests_cant": "2^64 session values.", "anchors": ["proc_session_resolver.go: OnUpperData, OnLowerData", "proc_upperdeck.go: OnLowerData, findEndPoint"]}
{"id": "C27", "title": "Disabled processors are transparent", "statement": "A processor with SetEnable(false) passes every message in both directions unchanged.", "quantifier": "every processor type, message and direction", "why_tests_cant": "All processors, directions and contexts.", "anchors": ["proc_base.go: SetEnable", "proc_*.go: OnUpperData, OnLowerData"]}
{"id": "C28", "title": "Discarder, FlowController, Loopback", "statement": "An enabled Discarder forwards all outgoing data unchanged and hands up nothing; FlowController forwards both ways unchanged; a stack of a codec over Loopback hands every message that fits back to the destination session's endpoint unchanged and sends nothing to the transport.", "quantifier": "every message, session and stack position", "why_tests_cant": "All contexts and positions.", "anchors": ["proc_discarder.go", "proc_flow_controller.go", "proc_loopback.go"]}
{"id": "C29", "title": "Echo returns what was received", "statement": "A stack with an enabled Echo sends back on the same connection a message that the peer's identical framing decodes to the payload it sent, and hands nothing to the endpoints above it.", "quantifier": "every payload and every list of header processors below Echo", "why_tests_cant": "All stacks below Echo and all payloads.", "anchors": ["proc_echo.go: OnLowerData", "proc_frame_decoder.go: OnUpperData, handleCurrentData"]}
{"id": "C30", "title": "Filter and Forwarder follow their functions", "statement": "An enabled Filter passes a message iff one of its functions returns true and counts the others; an enabled Forwarder consumes a message iff one of its functions returns true, counts it, and passes the others.", "quantifier": "every list of functions, message and direction", "why_tests_cant": "All function lists and contexts.", "anchors": ["proc_filter.go: NewFilter, doFilter", "proc_forwarder.go: NewForwarder, doForward"]}
{"id": "C31", "title": "LoadBalancer does not lose traffic", "statement": "Between two stacks that both have an enabled LoadBalancer, every message that fits is delivered.", "quantifier": "every message", "why_tests_cant": "All messages.", "anchors": ["proc_load_balancer.go: OnUpperData, OnLowerData"]}
{"id": "C32", "title": "Reference connections bypass byte processing", "statement": "On a connection that uses references, a message sent through StatCounter, Heartbeat, LoadBalancer or FrameDecoder reaches the peer as the same object, and the send completes.", "quantifier": "every message and every list of these processors", "why_tests_cant": "All stacks; non-termination is not testable.", "anchors": ["proc_frame_decoder.go: OnUpperData", "proc_heartbeat.go", "proc_stat_counter.go", "proc_load_balancer.go", "proc_lowerdeck.go: OnUpperData"]}
{"id": "C33", "title": "Self messages are harmless on reference connections", "statement": "Heartbeats and statistics requests issued on a connection that uses references leave the connection open.", "quantifier": "every stack containing Heartbeat or StatCounter with a collect interval", "why_tests_cant": "All stacks.", "anchors": ["proc_heartbeat.go: OnEvent", "proc_stat_counter.go: request", "proc_lowerdeck.go: OnUpperData", "tran_reference.go: SetReference"]}
{"id": "C34", "title": "Messages without a connection are dropped quietly", "statement": "Sending endpoint data that has no connection set has no effect and does not crash the stack.", "quantifier": "every stack and message", "why_tests_cant": "All processor lists.", "anchors": ["proc_lowerdeck.go: OnUpperData", "proc_frame_decoder.go: OnUpperData", "proc_heartbeat.go: OnUpperData"]}
{"id": "C35", "title": "Statistics count every message", "statement": "StatCounter's transmit and receive counters equal (modulo 2^64) the number of messages that passed it in each direction while enabled, and the statistics response carries exactly those counters and the stack name.", "quantifier": "every history of sends and receives, including concurrent ones", "why_tests_cant": "Counts over unbounded histories and all schedules.", "anchors": ["proc_stat_counter.go: OnUpperData, OnLowerData, response, show"]}
{"id": "C36", "title": "Wrongly typed, nil or empty messages are ignored", "statement": "A codec given a message of the wrong dynamic type, a nil message or an empty one sends nothing and changes nothing; on receive an empty or missing buffer is not handed up.", "quantifier": "every message and codec", "why_tests_cant": "All values of all types.", "anchors": ["proc_codec_bytes.go", "proc_codec_string.go", "proc_codec_json.go", "proc_codec_generic.go", "proc_codec_gob.go"]}
{"id": "C37", "title": "Endpoints and transports are kept as ordered sets", "statement": "After any history of Add/Delete calls, GetEndPoint (and GetTransport) lists exactly the objects added and not deleted since, each once, in order of their latest addition; adding a present object or deleting an absent one changes nothing and publishes nothing.", "quantifier": "every history of Add/Delete calls", "why_tests_cant": "Unbounded histories.", "anchors": ["ustack_default.go: AddEndPoint, DeleteEndPoint, AddTransport, DeleteTransport"]}
{"id": "C38", "title": "Events reach every registered party once, in order", "statement": "PublishEvent delivers the event exactly once to each listener, endpoint, upper deck, processor and lower deck, in that order and within each group in registration order; each effective Add/Delete publishes exactly one event of the right type.", "quantifier": "every configuration and event", "why_tests_cant": "All configurations.", "anchors": ["ustack_default.go: PublishEvent, AddEndPoint, DeleteEndPoint, AddTransport, DeleteTransport"]}
{"id": "C39", "title": "Returned endpoint lists are stable and deletion during delivery is safe", "statement": "A list returned by GetEndPoint is not changed by later Add/Delete calls, and an endpoint that deletes itself from its event handler does not cause another endpoint to miss the event or see it twice.", "quantifier": "every history and every list obtained at any point in it", "why_tests_cant": "Depends on aliasing of slice storage for every history.", "anchors": ["ustack_default.go: GetEndPoint, DeleteEndPoint, PublishEvent"]}
{"id": "C40", "title": "Run is repeatable", "statement": "GetOverhead after calling Run any number of times is the sum of the processors' overheads.", "quantifier": "every number of Run calls and every processor list", "why_tests_cant": "Unbounded number of calls.", "anchors": ["ustack_default.go: build, Run"]}
{"id": "C41", "title": "Options: last write wins, wrong types fall back to the default", "statement": "GetOption returns the value most recently set under that name and nil otherwise, for stacks, processors, transports and contexts; a typed option read returns the set value iff it has exactly the expected type and the default otherwise; the MTU in force after Run is the MTU option if it is an int and 2048 otherwise.", "quantifier": "every history of SetOption calls, every value", "why_tests_cant": "Unbounded histories and value types.", "anchors": ["utils.go: OptionParseInt, OptionParseByte, OptionParseBool, OptionParseByteSlice", "ustack_default.go: SetOption, GetOption, parseOptions"]}
{"id": "C42", "title": "One endpoint serves each session", "statement": "At any time at most one registered endpoint receives data for a session, it is the one that was added first among those present, and received data for a session with a registered endpoint is handed to it.", "quantifier": "every history of endpoint additions and deletions, including concurrent ones", "why_tests_cant": "Histories and interleavings are unbounded.", "anchors": ["proc_upperdeck.go: existsEndpoint, acceptEndpoint, deleteEndpoint, findEndPoint"]}
{"id": "C43", "title": "Data listener sees every message once and in order", "statement": "Once a data listener is set, every message delivered to the endpoint is passed to it exactly once and in arrival order, however the goroutines are scheduled.", "quantifier": "every schedule of deliveries, listener changes and receive goroutines", "why_tests_cant": "All schedules.", "anchors": ["endp_default.go: SetDataListener, autoReceive"]}
{"id": "C44", "title": "Replacing the data listener keeps reception alive", "statement": "After SetDataListener(l) with l non-nil as the last call, some goroutine keeps consuming, so no message stays undelivered forever.", "quantifier": "every schedule of SetDataListener calls (including nil) and receive goroutines", "why_tests_cant": "A lost wake-up occurs only in particular schedules.", "anchors": ["endp_default.go: SetDataListener, autoReceive"]}
{"id": "C45", "title": "A deleted endpoint stops transmitting", "statement": "After DeleteEndPoint returns, data put into the endpoint's transmit channel is not sent any more once the message in progress (if any) is finished.", "quantifier": "every schedule of the endpoint goroutine, senders and the deletion", "why_tests_cant": "select chooses nondeterministically; all schedules matter.", "anchors": ["proc_upperdeck.go: acceptEndpoint, deleteEndpoint"]}
{"id": "C46", "title": "Channel hand-off neither loses, duplicates nor reorders", "statement": "Messages handed to an endpoint's receive channel by one connection are received in the order they were handed over, none lost or duplicated, and a full channel blocks the sender instead of dropping.", "quantifier": "every schedule of producers and consumers", "why_tests_cant": "All schedules and channel fill levels.", "anchors": ["endp_default.go: NewEndPoint", "proc_upperdeck.go: OnLowerData"]}
{"id": "C47", "title": "Stopping a socket transport never crashes", "statement": "For TCP and Unix transports no schedule of Run, Stop, incoming connections and NextConnection callers panics (send on closed channel, nil connection).", "quantifier": "every schedule", "why_tests_cant": "Races appear only in particular schedules.", "anchors": ["tran_tcp.go: Run, Stop, accept, connect, NextConnection, saveConnection, dropConnections", "tran_unix.go: same"]}
{"id": "C48", "title": "Stopping a transport closes its connections", "statement": "After Stop (or DeleteTransport) returns and the accept loop has finished, every connection the transport has handed out or will hand out is closed.", "quantifier": "every schedule of accepts, NextConnection and Stop; all three transports", "why_tests_cant": "Races appear only in particular schedules.", "anchors": ["tran_tcp.go: Stop, dropConnections", "tran_unix.go: Stop", "tran_reference.go: Stop"]}
{"id": "C49", "title": "Reference transport is a FIFO pipe between client and server", "statement": "With one server and one client transport on the same address, the messages got by each side are exactly a prefix of those set by the other side, in order, whatever the schedule; transports on other addresses never interfere.", "quantifier": "every schedule of SetReference/GetReference on any number of addresses", "why_tests_cant": "All schedules and addresses.", "anchors": ["tran_reference.go: Run, SetReference, GetReference"]}
{"id": "C50", "title": "Reference transport Run/Stop are usable repeatedly", "statement": "Run is idempotent while running, Stop closes the connection and releases the channel when the last user stops, and neither blocks forever.", "quantifier": "every sequence of Run and Stop calls", "why_tests_cant": "Unbounded sequences; blocking cannot be observed by a finite test.", "anchors": ["tran_reference.go: Run, Stop"]}
{"id": "C51", "title": "Client dialling is bounded", "statement": "A client transport makes at most MaxRetryCount dial attempts, hands out at most one connection, and stops itself if all attempts fail.", "quantifier": "every sequence of dial outcomes and every retry count", "why_tests_cant": "Unbounded retry counts and outcome sequences.", "anchors": ["tran_tcp.go: connect", "tran_unix.go: connect"]}
{"id": "C52", "title": "Connection events bracket connection data", "statement": "For every connection, the new-connection event is published before any data received on it is processed, and when receiving ends the connection is closed and a connection-closed event is published - exactly once per connection.", "quantifier": "every schedule of reads, writes, failures and closes", "why_tests_cant": "All schedules of the receive loop and concurrent writers.", "anchors": ["proc_lowerdeck.go: acceptTransport, closeConnection, OnUpperData"]}
{"id": "C53", "title": "Heartbeat loss is detected exactly", "statement": "check() reports a monitored connection lost iff at least the timeout (in whole seconds) has passed since its last heartbeat or its opening, reports it once per silence, closes it iff CloseOnLost, and never reports a connection whose heartbeats keep arriving within the timeout.", "quantifier": "every history of heartbeats, new connections, closes and checks at any times", "why_tests_cant": "Unbounded timed histories.", "anchors": ["proc_heartbeat.go: check, updateMonitor, deleteMonitor, OnLowerData, OnEvent"]}
{"id": "C54", "title": "Closed connections leave heartbeat supervision", "statement": "After a connection is closed and its heartbeat goroutine has ended, no heartbeat-lost event is published for it.", "quantifier": "every schedule of receive loop, heartbeat goroutine and checker", "why_tests_cant": "Only particular schedules violate it.", "anchors": ["proc_heartbeat.go: OnEvent, OnLowerData, check"]}
{"id": "C55", "title": "Heartbeats are invisible to upper layers", "statement": "A heartbeat message sent by one Heartbeat processor refreshes the peer's monitor for the receiving connection and is never handed to the layers above; user messages pass through unchanged whatever their first byte.", "quantifier": "every stack below Heartbeat, every user payload", "why_tests_cant": "All payloads and stacks.", "anchors": ["proc_heartbeat.go: OnUpperData, OnLowerData, OnEvent"]}
{"id": "C56", "title": "Chained setters return the object they were called on", "statement": "SetName, SetOption, SetEnable, SetUpper, SetLower, SetUStack and Run of a processor or feature return the object they were called on, so that a setting made in a chain is visible through the chain's result.", "quantifier": "every processor and feature, every chain of setters", "why_tests_cant": "Whether the returned object is the same one is not visible from the values a test usually reads.", "anchors": ["proc_base.go: NewProcBaseInstance, NewProcBase, SetWhere, SetName", "feat_base.go: NewFeatBaseInstance, NewFeatBase, SetName"]}
{"id": "C57", "title": "Messages of one endpoint are sent in order, exactly once", "statement": "The messages put into an endpoint's transmit channel are passed to the layer below in the order they were put, none lost or passed twice, and putting blocks only while the channel is full.", "quantifier": "every schedule of senders, registrations, deletions and the deck's goroutines", "why_tests_cant": "The order is only wrong in particular schedules, when an endpoint is deleted while busy and registered again.", "anchors": ["proc_upperdeck.go: acceptEndpoint, deleteEndpoint", "endp_default.go: NewEndPoint"]}
{"id": "C58", "title": "A stopped socket transport can be run again", "statement": "After Stop has returned, Run starts the transport afresh: it goes on until the next Stop or until its own Accept or Dial fails.", "quantifier": "every schedule of Run, Stop and the goroutines of former runs", "why_tests_cant": "Only particular schedules, with a goroutine of the former run still alive, violate it.", "anchors": ["tran_tcp.go: Run, Stop, accept, connect", "tran_unix.go: same"]}
{"id": "C59", "title": "Closing a reference connection ends it on both sides", "statement": "After Close, a reference connection delivers nothing more, a GetReference waiting on it returns, and the other side learns of it: its GetReference returns and its SetReference fails.", "quantifier": "every schedule of SetReference, GetReference and Close", "why_tests_cant": "All schedules; that a call never returns cannot be observed by a finite test.", "anchors": ["tran_reference.go: Close, GetReference, SetReference"]}
{"id": "C60", "title": "Reporting one lost connection does not hold up the others", "statement": "While the loss of one connection is being reported to the event listeners, heartbeats of other connections are registered, new connections are taken into supervision and heartbeat goroutines of closed connections end.", "quantifier": "every state of every schedule", "why_tests_cant": "The listeners of a test return at once.", "anchors": ["proc_heartbeat.go: check, updateMonitor, deleteMonitor"]}
{"id": "C61", "title": "The upper deck's map is never written during another access", "statement": "No write to the upper deck's map of endpoints overlaps another access to it (the Go runtime ends the program with a fatal error when it notices one).", "quantifier": "every schedule of additions, deletions, lookups and endpoint goroutines", "why_tests_cant": "The overlap lasts nanoseconds; tests rarely hit it.", "anchors": ["proc_upperdeck.go: acceptEndpoint, deleteEndpoint, findEndPoint"]}
{"id": "C62", "title": "Copy-on-write snapshots stay independent in different goroutines", "statement": "When copy-on-write snapshots of one buffer are used by different goroutines, each buffer by one of them, everything a goroutine reads from its buffer is what its own calls imply: no call on another buffer of the family shows in it.", "quantifier": "every number of buffers and goroutines, every interleaving of their accesses to the shared storage and its reference count", "why_tests_cant": "The wrong result needs a write to fall between the decrement of the count and the copy of the bytes.", "anchors": ["ubuf.go: resolveCopyOnWriteIfNeed, UBufMakeSnapshot, Write, WriteByte, ReadFrom, WriteHead..."]}
{"id": "C63", "title": "Messages carry what was set last", "statement": "A message is passed down with the destination session set last by SetDestinationSession and not cleared since, or else with its endpoint's session, and with the connection and data set last; the messages of an endpoint are passed down in the order they were put into its channel.", "quantifier": "every chain of setter calls, every interleaving of users and goroutines in which a message is not changed on its way", "why_tests_cant": "All chains and interleavings.", "anchors": ["endp_default.go: SetConnection, SetData, SetDestinationSession, ClearDestinationSession", "proc_upperdeck.go: acceptEndpoint"]}
{"id": "C64", "title": "An endpoint sends and receives under one session of its own", "statement": "At any time an accepted endpoint receives under the session it sends with, and no other endpoint receives under it.", "quantifier": "every history of SetSession, additions and deletions, every schedule", "why_tests_cant": "Whether both directions agree is only visible with a peer, and only after a change of session.", "anchors": ["endp_default.go: SetSession", "proc_upperdeck.go: acceptEndpoint, existsEndpoint, findEndPoint"]}
{"id": "C65", "title": "A message object may be reused once it has been put into the channel", "statement": "Each message is passed down as it was when it was put into the endpoint's channel, whatever its sender does with the object afterwards.", "quantifier": "every history of setter calls and puts, every schedule", "why_tests_cant": "Depends on when the deck's goroutine reads the object.", "anchors": ["endp_default.go: DefaultEndPointData", "proc_upperdeck.go: acceptEndpoint"]}
{"id": "C66", "title": "Running a stack again leaves its endpoints working as before", "statement": "After any number of Runs: a deleted endpoint neither sends nor receives until it is added again, the messages of an endpoint are passed down in the order they were put into its channel, an endpoint receives from every connection of the stack, and each endpoint has at most one goroutine.", "quantifier": "every history of additions, deletions and Runs, every schedule of the goroutines", "why_tests_cant": "Run twice is rarely tested, and the goroutines of the former Run win the race only sometimes.", "anchors": ["ustack_default.go: Run, build, AddEndPoint, DeleteEndPoint, PublishEvent", "proc_upperdeck.go: acceptEndpoint, deleteEndpoint, Run", "proc_lowerdeck.go: acceptTransport"]}
{"id": "C67", "title": "A slow endpoint does not hold up the others", "statement": "As long as an endpoint's own listener takes its messages, messages for it are delivered, even if the listener of another endpoint takes none.", "quantifier": "every state of every schedule of the decks' goroutines and the listeners, every pair of endpoints", "why_tests_cant": "Needs a full channel of another endpoint; that delivery never happens cannot be observed by a finite test.", "anchors": ["proc_upperdeck.go: OnLowerData", "proc_lowerdeck.go: acceptTransport", "endp_default.go: NewEndPoint"]}
{"id": "C68", "title": "A message that could not be sent is reported", "statement": "Whenever OnUpperData of the lower deck is given a message for a socket connection, either all of its bytes are written or a ConnectionClosed event is published for the connection by that call.", "quantifier": "every message, every state of the connection, every schedule of senders and closers", "why_tests_cant": "The drop needs a close between two sends and leaves no trace.", "anchors": ["proc_lowerdeck.go: OnUpperData, closeConnection", "tran_tcp.go: Write, Close", "tran_unix.go: same", "ubuf.go: WriteTo"]}
{"id": "C69", "title": "Messages of several senders arrive whole and in order", "statement": "When several goroutines send on one socket connection, the bytes written are whole messages one after the other, followed by at most the beginning of one; the messages of each sender are in the order it sent them, without gaps. A peer that reads whole frames hands up exactly their payloads in this order.", "quantifier": "every number of senders and messages, every schedule, closing and failing at any moment", "why_tests_cant": "All schedules.", "anchors": ["proc_lowerdeck.go: OnUpperData", "tran_tcp.go: Write, Close", "ubuf.go: WriteTo", "proc_frame_decoder.go: OnLowerData"]}
{"id": "C70", "title": "Connections sharing a frame decoder do not mix their messages", "statement": "When several connections of a stack receive at the same time, what the frame decoder hands up on a connection is what the bytes of that connection alone give, in order.", "quantifier": "every number of connections, every chunks, every interleaving of the goroutines' accesses to the decoder's cache", "why_tests_cant": "All interleavings; the wrong result needs three connections and particular moments.", "anchors": ["proc_frame_decoder.go: OnLowerData, handleCurrentData, handleCachedData", "proc_lowerdeck.go: acceptTransport", "ubuf.go: Read, ReadFrom, Reset"]}
{"id": "C71", "title": "Messages arrive whole and in order, end to end", "statement": "Two stacks with the same codec and the same processors are joined by a byte connection: the listeners of the receiving stack's endpoints are called with exactly the messages that the other stack's endpoints were given, each at the session it was sent to, those of one endpoint in the order it was given them, and nothing is lost while the connection is open.", "quantifier": "every matching pair of stacks, every number of endpoints, every messages that fit, every interleaving of all goroutines, every division of the bytes into Reads", "why_tests_cant": "The receiving side's result depends on where the operating system's Reads happen to end.", "anchors": ["proc_upperdeck.go: Run, OnLowerData", "proc_lowerdeck.go: OnUpperData, acceptTransport", "proc_frame_decoder.go: handleCurrentData", "endp_default.go: Run"]}
{"id": "C72", "title": "The address of a running server leads to the socket it accepts on", "statement": "While a server transport runs and its accept goroutine has stored its listener, a client that connects to the transport's address reaches the very socket the goroutine accepts on, also after the transport has been stopped and run again.", "quantifier": "every Unix and TCP server transport, every sequence of Run, Stop and NextConnection calls, every interleaving with the accept goroutines of earlier runs", "why_tests_cant": "The file is removed and the listener replaced only in short windows between two goroutines.", "anchors": ["tran_unix.go: accept, Stop, Run", "tran_tcp.go: accept, Stop, Run"]}
{"id": "C73", "title": "A server transport never finds its own address in use", "statement": "Running a server transport never ends the program because its address is taken by itself, and while it is stopped neither a listening socket nor a socket file of it is left.", "quantifier": "every Unix and TCP server transport, every sequence of Run, Stop and NextConnection calls, every interleaving with the accept goroutines", "why_tests_cant": "log.Fatal needs Stop and Run to fall between Listen and the assignment of the listener.", "anchors": ["tran_unix.go: accept, Stop, Run", "tran_tcp.go: accept, Stop, Run"]}
{"id": "C74", "title": "Every client gets the answers to its own requests", "statement": "When clients ask a server whose data listener answers on the connection a request came from, and every client reads an answer before it asks again, then the listener is called with the clients' requests and nothing else, and the n-th Read of a client returns the answer the listener gave to that client's n-th request; every request that the listener answers is answered to the client.", "quantifier": "every number of clients, every stack of codec, carrying processors and frame decoder, every listener (with or without state), every interleaving, every split of the bytes into Reads", "why_tests_cant": "Requests of several clients share the server's endpoint, channels and processors; a mix-up needs particular interleavings or particular splits of the bytes.", "anchors": ["examples/microservices/main.go: startCenterServer, startHelloServer, AppSession", "proc_upperdeck.go: acceptEndpoint, OnLowerData", "endp_default.go: NewEndPoint"]}
{"id": "C75", "title": "Nothing a peer sends ends the program", "statement": "Whatever bytes arrive on the byte connections of a stack, however they are cut into chunks and mixed with messages sent by endpoints and by processors themselves, every call returns normally: no panic, no endless recursion.", "quantifier": "every stack of the supplied processors whose user functions do not panic, every sequence of inputs, every state reached", "why_tests_cant": "Tests send well-formed messages; the set of malformed inputs and of stacks is unbounded.", "anchors": ["proc_lowerdeck.go: handleConnection, OnUpperData", "proc_frame_decoder.go: handleCurrentData, handleCachedData", "proc_stat_counter.go: OnLowerData, response, show", "proc_echo.go: OnLowerData"]}
{"id": "C76", "title": "Heartbeats tell the living from the dead", "statement": "A connection whose peer runs a Heartbeat processor, is alive and reachable is never reported lost; one whose peer has died is reported lost within a fixed time.", "quantifier": "every IntervalInSecond and TimeoutInSecond, every bound on the delays, every interleaving of the two peers, the transport and the checks", "why_tests_cant": "Needs two peers and real time; whether a false alarm occurs depends on the delays and on the order of check and registration.", "anchors": ["proc_heartbeat.go: OnEvent, check, updateMonitor, Run", "examples/heartbeat/main.go: configuration of both peers"]}
{"id": "C77", "title": "Statistics collected from a peer are the peer's own and stay inside the stacks", "statement": "When a StatCounter asks its peer for the statistics, it shows the name of the peer's stack and the numbers of messages the peer sent and received; no endpoint of either side gets anything because of that, and asking is not counted.", "quantifier": "all pairs of stacks with equal processors below the StatCounters, all names, MTUs and earlier traffic, any number of requests, enabled or not", "why_tests_cant": "The requests come from a timer and their effect is only printed; a test would have to compare the print of one process with the counters of another.", "anchors": ["proc_stat_counter.go: OnEvent, request, response, show, OnLowerData"]}
{"id": "C78", "title": "Asking ahead of the answers never blocks for ever", "statement": "A user who sends questions to a peer whose data listener answers each of them gets all the answers, however many questions it sends before it takes the first answer.", "quantifier": "all orders of questions and answers taken, all capacities of the connection, all interleavings of the goroutines on the way", "why_tests_cant": "Whether a program with blocking channels can come to a standstill depends on the schedule and on thousands of places filled at the same time.", "anchors": ["endp_default.go: NewEndPoint, autoReceive", "proc_upperdeck.go: acceptEndpoint, OnLowerData", "proc_lowerdeck.go: acceptTransport, OnUpperData"]}
{"id": "C79", "title": "Two peers that answer each other's questions never block each other", "statement": "If both endpoints of a connection have a data listener that answers questions, every question of both is answered.", "quantifier": "all numbers of questions of either side, all capacities of the connection, all interleavings", "why_tests_cant": "The standstill needs all places of both directions to be full at the same time, which a test does not bring about.", "anchors": ["endp_default.go: NewEndPoint, autoReceive", "proc_upperdeck.go: acceptEndpoint, OnLowerData", "proc_lowerdeck.go: acceptTransport, OnUpperData"]}
{"id": "C80", "title": "Endpoints can be added and deleted by several goroutines", "statement": "Whatever goroutines call AddEndPoint and DeleteEndPoint, after all calls have returned the list has every endpoint added and not deleted exactly once, the upper deck serves exactly these, and no call panics.", "quantifier": "all interleavings of any number of calls and publications, all growth policies of arrays", "why_tests_cant": "The calls interfere only if one runs between two lines of another, which a test hits by chance if at all.", "anchors": ["ustack_default.go: AddEndPoint, DeleteEndPoint, PublishEvent", "proc_upperdeck.go: OnEvent"]}
{"id": "C81", "title": "An event published while endpoints come and go reaches every endpoint that stays, exactly once", "statement": "An endpoint that is in the list from the beginning to the end of a publication is told of the event exactly once.", "quantifier": "all interleavings of publications with calls of AddEndPoint and DeleteEndPoint made one at a time, all positions of the deletion", "why_tests_cant": "A deletion has to fall between two deliveries of the same publication; what goes wrong then depends on the positions in the shared array.", "anchors": ["ustack_default.go: PublishEvent, AddEndPoint, DeleteEndPoint"]}
{"id": "C82", "title": "Deleting a transport ends what it started", "statement": "After DeleteTransport has returned no connection of the transport is announced any more, every connection is closed and reported closed, and the goroutines of the transport and of its connections end.", "quantifier": "all interleavings of the goroutines of the transport, of the lower deck and of the connections, all outcomes of Accept, Dial and reads, any number of connections and of additions", "why_tests_cant": "Whether a connection is in the channel at the moment of the deletion is a matter of microseconds, and a test does not see goroutines and connections that are left behind.", "anchors": ["proc_lowerdeck.go: acceptTransport, deleteTransport, closeConnection", "tran_tcp.go: Stop, NextConnection, accept", "ustack_default.go: DeleteTransport"]}
{"id": "C83", "title": "A transport forgets the connections that are closed", "statement": "What a transport keeps is bounded by the number of its connections that are open, however many have come and gone.", "quantifier": "all runs, any number of connections", "why_tests_cant": "It shows as slow growth of memory over many connections.", "anchors": ["tran_tcp.go: saveConnection, dropConnections, NextConnection", "tran_unix.go: saveConnection"]}
{"id": "C84", "title": "Objects sent by reference arrive where they were sent", "statement": "An object given to an endpoint for a reference connection is heard, once and in the order of its sender, by the endpoint with the destination session of the stack at the other end, and by nobody else.", "quantifier": "any number of stacks on one address, all processors that let references pass, all endpoints, destinations and capacities, all interleavings of the goroutines", "why_tests_cant": "Which of several receivers of a Go channel gets the next element is up to the scheduler, and with one client and session 0, as in the example program, nothing goes wrong.", "anchors": ["tran_reference.go: SetReference, GetReference, Run", "proc_lowerdeck.go: acceptTransport, OnUpperData", "proc_upperdeck.go: acceptEndpoint, OnLowerData", "proc_session_resolver.go: OnUpperData, OnLowerData"]}
{"id": "C85", "title": "Counting connection events tells how many connections are open", "statement": "The variable of an event listener that adds one for every new-connection event and takes one off for every connection-closed event is, whenever no event is being published, the number of connections announced and not ended; a program that ends when it is zero ends only when no connection is left.", "quantifier": "all interleavings of the goroutines of any number of connections, writes that succeed or fail, calls of the listener that overlap", "why_tests_cant": "It takes a failed write or two events at the same moment.", "anchors": ["examples/dynamic_transport/main.go: client, server", "examples/dynamic_endpoint/main.go: client, server", "proc_lowerdeck.go: closeConnection, acceptTransport"]}
{"id": "C86", "title": "The service center finds what was registered", "statement": "After a service has been registered under a name the center answers a request for the name with the address registered last, and no request ends the center.", "quantifier": "all histories of requests, all names and addresses", "why_tests_cant": "Which strings are dangerous does not show with the one service of the example.", "anchors": ["examples/microservices/main.go: startCenterServer"]}
{"id": "C87", "title": "A session answers the connection it was asked on", "statement": "What an application session writes after it has read a request goes to the connection the request came from, and every connection that is made is served.", "quantifier": "all interleavings of connections, requests, reads and writes", "why_tests_cant": "The example uses sessions with one connection only.", "anchors": ["examples/microservices/main.go: AppSession"]}
{"id": "C88", "title": "Two stacks can talk in both directions at once, with heartbeats and statistics between", "statement": "Two stacks with the same codec and processors are joined by a connection over which both send: in both directions the listeners are called with exactly the messages the other side's endpoints were given, in order; heartbeats, requests for statistics and their answers never reach a listener; every heartbeat is noted by the other side and every request is answered.", "quantifier": "every matching pair of stacks, every number of endpoints, messages that fit, every interleaving of all goroutines of both sides, every division of the bytes into Reads", "why_tests_cant": "The goroutines of the processors write between the messages at moments of their own.", "anchors": ["proc_heartbeat.go: OnUpperData, OnLowerData, Run", "proc_stat_counter.go: OnLowerData, RequestPeerStatistics", "proc_upperdeck.go: Run, OnLowerData", "proc_lowerdeck.go: OnUpperData, acceptTransport", "proc_frame_decoder.go: handleCurrentData"]}
{"id": "C89", "title": "What an honest peer sends never ends the program nor silences the connection", "statement": "A stack that receives only what a matching stack sent (messages that fit, through the same processors) never ends its program and never stops handing up, however the connection divides the bytes into Reads.", "quantifier": "every stack with a frame decoder at the bottom, every message, every run of both stacks, every division of the bytes into Reads", "why_tests_cant": "Whether a Read ends inside a frame depends on the network; on a local connection it practically never does.", "anchors": ["proc_frame_decoder.go: handleCurrentData, handleCachedData, OnLowerData, Run", "proc_session_resolver.go: OnUpperData", "proc_stat_counter.go: OnUpperData", "proc_heartbeat.go: OnUpperData", "proc_lowerdeck.go: acceptTransport", "examples/tcp/main.go"]}
{"id": "C90", "title": "The counters count every message when several goroutines pass messages", "statement": "When several endpoints send, or several connections receive, through one StatCounter, the transmission (reception) counter it reports is the number of messages it has counted so far, and a later report is never smaller than an earlier one.", "quantifier": "every number of goroutines, every number of messages of each, every interleaving of the loads and stores of the counter", "why_tests_cant": "Two goroutines must be between load and store of one increment at the same time; the tests send from one.", "anchors": ["proc_stat_counter.go: OnUpperData, OnLowerData, response", "proc_filter.go: OnUpperData, OnLowerData", "proc_forwarder.go: OnUpperData, OnLowerData"]}
{"id": "C91", "title": "Traffic between two stacks comes to rest", "statement": "Once the endpoints and the processors of two connected stacks stop sending of their own accord, only a bounded number of further Reads happen: every message causes a bounded number of further messages.", "quantifier": "every pair of stacks, every sequence of messages, every division of the bytes into Reads, every interleaving", "why_tests_cant": "The tests stop after a fixed number of messages and never put an answering processor on both sides.", "anchors": ["proc_echo.go: OnLowerData", "proc_stat_counter.go: OnLowerData", "proc_lowerdeck.go: OnUpperData, connection goroutine"]}
{"id": "C92", "title": "Messages pass between stacks with different MTUs", "statement": "A message that the sending stack's MTU admits reaches the endpoint it was sent to, also when the receiving stack has another MTU.", "quantifier": "every pair of stacks with matching processors, every pair of MTUs, every message, every division of the bytes into Reads", "why_tests_cant": "All tests and examples use one MTU on both sides and short messages.", "anchors": ["ustack_default.go: SetOption MTU, GetMTU", "proc_lowerdeck.go: connection goroutine, Read into UBufAlloc(MTU)", "proc_frame_decoder.go: OnLowerData"]}
{"id": "C93", "title": "Everything heard stands in what the peer wrote", "statement": "Every message an endpoint hears over a byte connection is what the codec makes of consecutive bytes the peer wrote; nothing is made up, mixed from distant bytes, or longer than the MTU. The messages of one listener come from pieces that lie one behind the other: none is heard twice or before one that was written earlier.", "quantifier": "every stack with a codec, every sequence of bytes written by the peer, every division into Reads", "why_tests_cant": "A test can look at some streams; that no stream whatsoever yields other bytes cannot be tested.", "anchors": ["proc_frame_decoder.go: OnLowerData", "proc_session_resolver.go: OnLowerData", "proc_stat_counter.go: OnLowerData", "proc_heartbeat.go: OnLowerData", "proc_codec_bytes.go: OnLowerData", "proc_lowerdeck.go: connection goroutine"]}
{"id": "C94", "title": "Features are found, run, told of events and given their stack", "statement": "A feature added to a stack is found under its name, is run exactly once by Run before data can flow, is told of every event of the stack like the other parts, and is given the stack it belongs to.", "quantifier": "every sequence of calls of AddFeature, SetName, SetUStack, AddEndPoint, AppendDataProcessor, SetEventListener, PublishEvent and Run", "why_tests_cant": "No test and no example uses a feature at all.", "anchors": ["ustack_default.go: AddFeature, GetFeature, GetFeatures, PublishEvent, build, Run", "feat_base.go: NewFeatBaseInstance, SetName, SetUStack, OnEvent, Run"]}
{"id": "C95", "title": "An echo server returns what its client sent", "statement": "A client whose peer is an echo server hears every message it sends back, as it was, once, in the order sent, at its own endpoint of the session the message was for; the server itself hears nothing.", "quantifier": "every client stack, every echo server, every sequence of messages and own messages of processors, every interleaving, every division of the bytes into Reads", "why_tests_cant": "The example sends one short message a second; joined and split Reads do not occur in it.", "anchors": ["examples/echo/main.go: client, server", "proc_echo.go: OnLowerData", "proc_lowerdeck.go: OnUpperData, connection goroutine", "proc_heartbeat.go: OnLowerData", "proc_stat_counter.go: OnLowerData"]}
{"id": "C96", "title": "Messages stay apart without a frame decoder", "statement": "Between two stacks without a frame decoder every message that is sent is heard, as it was sent, at the session it was for, also if several messages come in one Read.", "quantifier": "every stack without a frame decoder, every codec, every sequence of messages, every run in which a Read returns any number of whole Writes", "why_tests_cant": "The examples wait between messages or send so little that a Read rarely returns two Writes.", "anchors": ["examples/genericcodec/main.go: client", "examples/jsoncodec/main.go", "examples/gobcodec/main.go", "examples/unix/main.go", "proc_codec_json.go: OnLowerData", "proc_codec_generic.go: OnLowerData", "proc_codec_gob.go: OnLowerData", "proc_lowerdeck.go: connection goroutine"]}
{"id": "C97", "title": "Endpoints of one stack reach each other over a Loopback", "statement": "In a stack whose codec stands on a Loopback every message given to an endpoint is heard, once and as it was sent, by the listener of the endpoint it is for, those of one endpoint in the order they were given; nothing goes to a transport; and nobody ever waits for ever, also if the listeners send messages themselves.", "quantifier": "every such stack, every number of endpoints, every capacity of the channels, every listener, every interleaving", "why_tests_cant": "The example sends one message a second and its listener only prints; the channels never fill.", "anchors": ["proc_loopback.go: OnUpperData", "proc_upperdeck.go: acceptEndpoint, OnLowerData", "endp_default.go: autoReceive", "examples/loopback/main.go"]}
{"id": "C98", "title": "Stop of a reference transport gives up its own share of the channel and no more", "statement": "Whenever a reference transport counts as running, Stop closes its connection and gives up its share of the channel of its address; the last share closes and forgets the channel; a further Stop gives up nothing more, Stop never panics, and no call on another transport's connection fails by it.", "quantifier": "every state, every number of transports and addresses", "why_tests_cant": "Nothing sets isRunning, so no test can reach the code behind the test in Stop.", "anchors": ["tran_reference.go: Stop, Run, deleteReferenceChannel"]}
{"id": "C99", "title": "The speed test shows how many messages went and came", "statement": "The counters of the speed test show how many messages were sent and how many came; those sent and not yet answered are on the way, and there are never more of them than the places between the endpoints hold; the test never comes to a standstill, for every package size.", "quantifier": "every package size of client and server, every capacity of the connection, every interleaving", "why_tests_cant": "A test shows numbers that grow; it compares them with nothing and uses one size.", "anchors": ["examples/speedtest/main.go: client, server", "proc_codec_bytes.go: OnUpperData", "endp_default.go: autoReceive"]}
{"id": "C100", "title": "Processors may be switched while the stacks talk", "statement": "SetEnable may be called on any processor of either stack at any moment: every message given to an endpoint is still heard by the listener of its session, whole and in order.", "quantifier": "every pair of stacks that agree, every processor and side, every interleaving of switches with sending, reading and delivering", "why_tests_cant": "A test sets its switches before Run and leaves them.", "anchors": ["proc_base.go: SetEnable", "proc_session_resolver.go: OnUpperData, OnLowerData", "proc_frame_decoder.go: OnUpperData, OnLowerData", "proc_codec_bytes.go: OnUpperData"]}
{"id": "C101", "title": "Several goroutines inside the processors", "statement": "The goroutines of several endpoints may be inside the same processors at the same time, each between any two of them, and processors may be switched meanwhile: every message is sent and heard as if it had passed all processors at once, with the switches of one moment at which the stacks agree.", "quantifier": "every pair of stacks that agree, every number of endpoints, every interleaving of the calls of single processors with each other, with switches, reading and delivering", "why_tests_cant": "A test has one goroutine inside the processors, or cannot stop it between two of them.", "anchors": ["proc_upperdeck.go: Run", "proc_base.go: SetEnable", "proc_codec_bytes.go: OnUpperData", "proc_session_resolver.go: OnUpperData", "proc_stat_counter.go: OnUpperData", "proc_heartbeat.go: OnUpperData", "proc_frame_decoder.go: OnUpperData", "proc_lowerdeck.go: OnUpperData"]}
{"id": "C102", "title": "One processor instance at two places of a stack", "statement": "A processor instance that is appended twice handles each message at both places: what is sent passes every appended processor in order, and what arrives passes them in reverse and reaches the endpoint.", "quantifier": "every list of appended instances, all processors, switches, messages and states", "why_tests_cant": "A test appends each instance once.", "anchors": ["ustack_default.go: build", "ustack_default.go: AppendDataProcessor", "proc_base.go: SetUpper", "proc_base.go: SetLower"]}
{"id": "C103", "title": "One processor instance in two stacks", "statement": "Stacks of one program do not disturb each other, whatever processor instances they are built from: each stack's messages pass its own processors to its own transports, and what its transports receive reaches its own endpoints.", "quantifier": "every number of stacks, every list of instances of each, every order of their Runs", "why_tests_cant": "A test has instances of its own for each stack, and looks at one stack.", "anchors": ["ustack_default.go: build", "ustack_default.go: Run", "proc_base.go: SetUpper", "proc_base.go: SetLower", "proc_base.go: SetUStack"]}
{"id": "C104", "title": "Goroutines that send until their connection is closed return", "statement": "A goroutine that a listener starts for a connection, and that sends messages until the connection is closed, returns after the close, with at most one message more, also when its endpoint is deleted.", "quantifier": "every number of such goroutines and connections, every capacity and every schedule of goroutines, closings and a deletion", "why_tests_cant": "A test waits some seconds; the goroutine blocks only when the channel is full and nobody takes from it any more.", "anchors": ["examples/dynamic_endpoint/main.go", "examples/dynamic_transport/main.go", "proc_upperdeck.go: acceptEndpoint", "proc_upperdeck.go: deleteEndpoint", "endp_default.go: NewEndPoint"]}
{"id": "C105", "title": "Goroutines inside the processors at the same time do not disturb each other", "statement": "The goroutines of all connections, endpoints and processors call the same processors at the same time; what the bytes and objects read from one connection, the messages of one endpoint or the messages of a processor itself make a stack hand to endpoints, write, note or crash is the same as if no other goroutine existed, in order.", "quantifier": "every stack, every number of goroutines, all bytes, objects and messages of each and every schedule of the calls of the processors", "why_tests_cant": "Which of two goroutines is before which processor is left to the scheduler; tests use one connection, or wait for one message before they send the next.", "anchors": ["proc_lowerdeck.go: acceptTransport", "proc_base.go: OnLowerData", "proc_frame_decoder.go: OnLowerData", "proc_stat_counter.go: OnLowerData", "proc_echo.go: OnLowerData", "proc_upperdeck.go: OnLowerData"]}
