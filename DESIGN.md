# Formal model of guolinp/ustack in Rocq (Coq 8.16.1)

The plan per property (last section) was written before the proofs; the rest is kept current as
the model grows.

## Approach

The Go package is read as text and modelled function by function. Sequential code is transcribed
into total, computable Gallina functions; goroutines are labelled small-step transition systems
whose steps interleave arbitrarily. Every definition cites the Go file and lines it models. A Go
panic is an explicit outcome (never a default value), nil is an explicit `option`, errors are
values, unbounded recursion is "no result for any fuel".

Each part of the model has the same layout:

- `XModel.v`: transcription of the Go code, nothing else;
- `XSpec.v`: the vocabulary of the properties (deques, ordered sets, histories, executions),
  written without the model's helpers where possible;
- `XProofs.v`, `XFacts.v`, ...: invariants and lemmas;
- `Props_X.v`: only the theorems that answer the properties, each with an example in which its
  hypotheses hold.

Properties the unchanged code violates are kept at full strength in `properties.jsonl`. The
theorem that shows the violation is called `..._refuted`, and says under exactly which
circumstances it happens, for all such states where that is possible. The part that does hold is
proved as `..._partial`; both are listed in `MANIFEST.json`, whose note says what is missing.

| part | Go code | kind of model |
|------|---------|---------------|
| UBuf | ubuf.go | one buffer (`vbuf`) and a heap of shared storage with any number of buffers (`world`) |
| Cow | ubuf.go, copy-on-write in several goroutines | transition system, one step per memory access |
| Frame | proc_frame_decoder.go | functions, one per loop iteration |
| Stack | proc_*.go, ustack_default.go (build), decks | machine over processor lists with a call-depth fuel |
| Mgmt | ustack_default.go, utils.go, proc_base.go, feat_base.go | functions over slices with backing arrays; handlers may call back |
| End | endp_default.go (receiving) | transition system |
| Deck | proc_upperdeck.go | functions, and transition systems for sending and for receiving |
| Sock | tran_tcp.go, tran_unix.go | transition system |
| Ref | tran_reference.go | transition system |
| Conn | proc_lowerdeck.go (connections) | transition system |
| Beat | proc_heartbeat.go (supervision) | transition system with a clock |
| Race | proc_stat_counter.go (counters), proc_upperdeck.go (map accesses) | transition systems |
| Addr | endp_default.go (messages, sessions), proc_upperdeck.go (what it reads of them) | transition system |
| Again | ustack_default.go (Run called again), both decks | transition system |
| Wire | proc_lowerdeck.go (sending), tran_tcp.go and tran_unix.go (connections), with Frame at the other end | transition system |
| Mix | proc_frame_decoder.go (receiving, several goroutines at once) | transition system |
| Net | proc_upperdeck.go, proc_lowerdeck.go, endp_default.go (goroutines of two joined stacks), the processors as in Stack | transition system |
| Path | tran_tcp.go, tran_unix.go (addresses, socket file), on top of Sock | transition system |
| Rpc | examples/microservices/main.go on top of Stack, proc_upperdeck.go, proc_lowerdeck.go, endp_default.go | transition system |
| Safe | whole stacks of Stack fed with arbitrary chunks, sends and messages of processors | from Stack |
| Pulse | proc_heartbeat.go (both ends of one connection: sender, transport, checks) | transition system with a clock and bounded delays |
| Stat | proc_stat_counter.go (request, response and show of two stacks) | from Stack |
| Flow | endp_default.go, proc_upperdeck.go, proc_lowerdeck.go (the places where messages wait) | transition system |
| Adm | ustack_default.go AddEndPoint, DeleteEndPoint, PublishEvent called by several goroutines | transition system |
| Life | proc_lowerdeck.go acceptTransport, deleteTransport, closeConnection over tran_tcp.go, tran_unix.go | transition system (SockModel inside) |
| Obj | stacks joined by tran_reference.go: upper deck, processors, lower deck, channel, endpoints | transition system (StackModel inside) |
| Tally | the event listeners of examples/dynamic_transport, examples/dynamic_endpoint over proc_lowerdeck.go | transition system (ConnModel inside) |
| App | examples/microservices: service center and AppSession | functions, transition system |
| Duo | two stacks over one connection, both sending, with the goroutines of Heartbeat and StatCounter | transition system (StackModel inside) |
| Inc | the counters of StatCounter, Filter and Forwarder under several goroutines | transition system (load, store) |
| Hush | when the traffic between two stacks ends (uses DuoModel) | counting Reads |
| Sift | what the receiver can make of the stream (uses NetModel) | pieces of the stream with a budget of header bytes |
| Feat | ustack_default.go (features, PublishEvent, Run), feat_base.go | functions over call sequences |
| Back | a client and an echo server, examples/echo (uses DuoModel) | both directions as one stream |
| Glue | two stacks without a frame decoder, examples/genericcodec, gobcodec, jsoncodec, unix, discard, dynamic_transport (uses NetModel) | invariant of runs |
| Loop | proc_loopback.go with the endpoints and listeners of the stack above, examples/loopback | transition system (StackModel inside) |
| Speed | examples/speedtest, over the places of FlowModel | transition system (FlowModel inside) |
| Swap | SetEnable (proc_base.go) during the traffic of Net | transition system (NetModel inside) |
| Grain | the calls from processor to processor (proc_*.go OnUpperData) of several endpoints' goroutines (proc_upperdeck.go), with SetEnable | transition system, one step per processor (StackModel's on_upper inside) |
| Twice | build of several stacks over common processor instances (ustack_default.go:120-145, proc_base.go SetUpper/SetLower/SetUStack) | the fields as functions, one Run after the other |
| Poll | the sending goroutines of examples/dynamic_endpoint and dynamic_transport, with proc_upperdeck.go:47-81 | transition system; one endpoint, any number of goroutines and connections |
| Climb | proc_lowerdeck.go:61-84, proc_upperdeck.go:54-64 and the messages of Heartbeats and StatCounters, with the OnLowerData and OnUpperData of all processors but the frame decoder | transition system; one processor call per step, any number of goroutines |

## Trusted base

- Coq 8.16.1's kernel and the std++ library's definitions (lists, finite functions). No kernel
  check is switched off.
- `Print Assumptions` at the end of every `Props_*.v` file reports, for every theorem named in
  `MANIFEST.json` without exception, **Closed under the global context**: no axiom is used, not
  even one of the standard library. (The standard library file `ssr/ssrunder.v`, which
  std++ loads, declares `Under_rel`, `Over_rel`, `Under_rel_from_rel`, `Under_relE`,
  `under_rel_done`, `over_rel` and `over_rel_done` through a module type; they appear in the list
  of everything loaded, but no theorem here depends on them.)
- That the model says what the Go code does. It was written by hand from the source; nothing was
  run. `UBufTests.v` replays the 24 tests of ubuf_test.go, the only test file of the
  project, in the heap model of ubuf.go, which passes them all; they are tests, not claims.
  Mutation tests (`seeded/LOG.jsonl`) check that theorems fail when the model is changed the
  way a bug would change the program.
- What Go, its runtime, the network and the operating system do, as far as the model uses it:
  - `int` has 64 bits; slices, maps, channels, `select`, closures and mutexes as in the language
    specification; a send on a closed channel panics, a receive from one yields the zero value.
  - Memory accesses of goroutines are sequentially consistent. The code has data races, for which
    Go promises less, so a `_refuted` theorem shows a failure even under this friendlier
    assumption, while a `_partial` or proved theorem about interleavings holds only under it.
  - `net.Conn`, `net.Listener`, `os` and clocks return whatever the transition systems allow:
    reads and writes may fail at any time, connections may arrive at any time, any time may pass
    between two steps.
  - `io.Reader`s and `io.Writer`s given to a UBuf keep the contracts of package io.
  - `encoding/gob` and `encoding/json` are arbitrary partial functions; where a message is to
    arrive, decoding an encoding is assumed to give the message back.
  - User functions (encoders, filters, forwarders, listeners) return; in the Stack model they do
    not call back into the stack, in the Mgmt model they may.
- The examples beside the theorems show that the hypotheses can be met; they are not claims.

## What is modelled and what is not

| file | modelled | not modelled |
|------|----------|--------------|
| ubuf.go (and the calls of ubuf_test.go, UBufTests.v) | all functions | the debug print in resolveCopyOnWriteIfNeed |
| endp_default.go | autoReceive, SetDataListener, channels, sessions, destination sessions | names |
| ustack_default.go | all functions | prints |
| proc_base.go, feat_base.go | names and the object setters return, options, links, enable, features in their stack (Feat) | what a user's feature does in Run and OnEvent; ForServer (nothing in the library reads it) |
| proc_frame_decoder.go | all functions | nothing (several goroutines at once: Mix) |
| proc_codec_*.go | all functions, the encoders as arbitrary functions | printing of errors |
| proc_session_resolver.go, proc_echo.go, proc_loopback.go, proc_discarder.go, proc_flow_controller.go, proc_filter.go, proc_forwarder.go, proc_load_balancer.go | all functions | prints |
| proc_stat_counter.go | all functions; the goroutine that sends requests as self messages at any time | its interval |
| proc_heartbeat.go | all functions; heartbeats as self messages at any time, supervision with a clock (Beat), both ends with their intervals (Pulse) | prints |
| proc_upperdeck.go | all functions | |
| proc_lowerdeck.go | all functions | prints |
| tran_tcp.go, tran_unix.go | Run, Stop, accept, connect, NextConnection, saveConnection, dropConnections, Read/Write/Close of connections as far as callers see them, listening on the address and the socket file (Path) | names; other users of the address |
| tran_reference.go | all functions | prints |
| utils.go | all functions | |
| endpoint.go, event.go, feature.go, processor.go, transport.go, ustack.go | interface declarations: nothing to model | |
| examples/ | the listeners of dynamic_transport and dynamic_endpoint (Tally), the service center and the session type of microservices (App), the two sides of echo (Back), what the stacks without frames make of joined messages (Glue), loopback (Loop), speedtest (Speed) | the other programs, which only put together parts of the library |

Simplifications are named in the comment at the head of each model file and at the definitions
they concern.

## Violations found

Beyond the properties that hold, the proofs establish these defects of the code (theorem names
end in `_refuted`):

- UBuf: head writes on a shared copy-on-write buffer panic (C10); Reference snapshots and
  copy-on-write snapshots spoil each other (C11, C12); wrapping a slice with spare capacity
  (C13); io.ReadFull on an empty buffer never returns (C14); copy-on-write buffers used by two
  goroutines can lose writes, because the count is decremented before the bytes are copied (C62).
- FrameDecoder: frames cut across reads are lost (C17), a zero length field crashes it (C18),
  some truncated frames are handed up (C19), connections disturb each other and the decoder can
  get stuck for good if the cache is small (C20, C21), it recurses without end on reference
  connections (C32).
- Processors: Filter and Forwarder always panic (C30), LoadBalancer drops everything (C31),
  disabled processors are not always transparent (C27), Echo does not work over FrameDecoder
  (C29), self messages close reference connections (C33), header processors panic on messages
  without connection (C34), sessions outside 0..2^32-1 alias (C26), counters lose updates (C35).
- Administration: event handlers that call the stack corrupt its lists (C37, C38, C39), Run adds
  the overhead again (C40), setters of bare bases return another object (C56).
- Endpoints and decks: deletion silences other endpoints of the session (C42), a replaced data
  listener can lose messages or their order (C43, C44), deleted endpoints may go on transmitting
  for ever (C45) and reorder (C57), unsynchronised map accesses (C61).
- Transports: Stop can crash the program (C47) or leave connections open (C48), a former run
  stops the next one (C58); reference transports cannot be stopped, Run may block for ever (C50),
  Close does not wake or inform anybody (C59); connection events are published twice or before
  late data (C52).
- Messages and sessions: after SetSession an endpoint sends with the old session and receives
  under the new one, and two endpoints can share one (C64); a message object that is reused
  before it was sent changes the message in the channel (C65).
- Heartbeat: reports hold up supervision (C53, C60), closed connections can come back into
  supervision and be reported (C54).
- Run called again: the goroutines of the former Run go on, so deleted endpoints still send,
  messages overtake each other and, without processors, old connections serve the old
  endpoints (C66); a slow endpoint holds up its whole connection (C67).
- Messages sent on a closed socket connection are dropped without an event (C68).
- C70: with CacheCapacity at most the MTU, a message can be handed up on a connection it did not come from.  With the default the cache never holds anything (C17), so goroutines cannot disturb each other.
- C71: end to end, messages arrive whole and in order only while Reads end where Writes ended.  A Read that returns all of a frame but its last four bytes delivers the message without its last four bytes.
- C72, C73: a server that is stopped and run again without waiting for the old accept goroutine can lose its socket file, accept on a socket nobody can reach, or end the program because its own address is still in use.
- C74: one truncated Read is enough for a client of the request and answer example to read the answer to a question nobody asked.
- C75: any peer can end the program of a stack with a frame decoder by sending four zero bytes.
- C76: nothing relates IntervalInSecond to TimeoutInSecond; with the values of `examples/heartbeat/main.go` (10 against 3 and 5) each side reports the live other one between any two heartbeats, and the server closes its connection.
- C77: a StatCounter that is switched off (SetEnable(false)) but has Collect.IntervalInSecond set still asks its peer; the answer is then delivered to the endpoint of session 0 as a message.  The name is printed with zero bytes up to 128.
- C78, C79: nothing limits how far a user is ahead and every send blocks.  A user who asks more than 2053 questions (plus what the connection holds) before taking an answer blocks for ever; two peers whose listeners answer each other can come to a standstill as soon as they ask 2054 questions (plus the connection's places) together, even if one of them asks only one.
- C80: u.endpoints is not protected.  Two overlapping AddEndPoint calls can lose one endpoint from the list: it is served for ever, because DeleteEndPoint does not find it.  Two overlapping DeleteEndPoint calls of different endpoints can remove a third one (which goes on being served while the second stays in the list) or panic.
- C81: PublishEvent ranges over an array in which DeleteEndPoint moves the elements.  One deletion during a publication, even with no other call around, makes it pass over an endpoint that stays and tell the last one twice.
- C82: Stop closes the connections in t.connections, but those still in the channel are not there yet.  The goroutine of acceptTransport goes on receiving from the closed channel, announces them after DeleteTransport has returned, and serves them for ever.
- C83: t.connections of a TCP or Unix transport is only ever appended to: a server keeps every connection it ever accepted (and its buffers in net.Conn) until it is stopped and run again.
- C84: all clients of a reference address read from one channel, so what a server sends is got by any of them; and an object carries no session, so that the destination session is ignored and everything arrives at session 0.
- C85: the example programs that count connections count one out twice if a write on it fails, and can count two in as one: they end while a connection is open.
- C86: the service center of the example ends with an index out of range on any request that ends in reg and has no colon, and keeps only the host of a registered host:port.
- C87: an AppSession used as a server serves two connections at most (the listener blocks in a channel nobody empties any more), and a connection made between a Read and a Write gets the answer.
- C89: not only rubbish ends the program.  Every message for session 0 through a SessionResolver and a FrameDecoder carries four zero bytes; if a Read happens to begin there, the receiving program ends.  With the CacheCapacity of 128 of `examples/tcp/main.go` (the MTU is larger) a message of letters cut at the wrong place silences all connections of the receiver.
- C90: the counters of StatCounter, Filter and Forwarder are incremented without synchronisation by all sending (receiving) goroutines: of any numbers of messages of two goroutines two may remain counted, and reported statistics can go back.
- C91: two connected stacks that both have an enabled Echo lowest send every byte to and fro for ever.
- C92: MTUs are not negotiated: a message longer than the receiver's MTU is split by its Read and lost.
- C94: features are never told of an event and never given the stack they were added to.
- C95: in examples/echo two messages that come back in one Read are heard as one; a client's Heartbeat takes its own heartbeats, echoed, for the server's.
- C96: the client of examples/genericcodec sends two messages at once and the stacks have no frames; if one Read returns both, the second one is lost (gob ignores what follows), and with the JSON codec both are.
- C97: a Loopback delivers in the goroutine that sends. A listener that sends from the same endpoint waits for that goroutine, which waits for the listener, once both channels are full (1026 messages).
- C98: Stop of a reference transport does not clear isRunning. If Run set it, a second Stop would close the channel under the peer. Today nothing sets it, so this code is dead.
- C99: the speed test counts what it puts into the txChannel. With a package size of 0 or above MTU - overhead it shows a Tx speed although nothing is sent.
- C100: the switches of a stack are not part of what the peers agree on. A session resolver or frame decoder switched off with messages under way makes their headers part of a message for session 0; switched off at the sender, the first bytes of the user's message choose the session; a codec switched off drops every message without an error.
- C101: OnUpperData reads the switch when the message arrives, not when it was taken: a session resolver switched off and on again while a message is on its way down sends it without its header, to a session its first four bytes choose.
- C102: AppendDataProcessor takes the same instance twice; build then leaves it with the neighbours of its last place only: the stack receives nothing any more, or recurses until the goroutine's stack overflows, and what is sent skips the processors between the two places.
- C103: an instance appended to two stacks is taken over by the one that runs last: the first stack's messages leave through the other stack's transports and what it receives is delivered to the other stack's endpoints.
- C104: DeleteEndPoint leaves the goroutines that send through the endpoint behind: once its channel is full they wait for ever, and do not notice that their connection is closed (examples/dynamic_endpoint deletes the endpoint after the transport, which avoids it for that transport's connection). The goroutines of examples/dynamic_transport never return at all.
- C105: a frame decoder with a cache no longer than a chunk is blocked for all connections by the beginning of one connection's message, not only for the connection it came from; a StatCounter's answer to one peer tells how much the others sent.

## Plan and result per property

`R` marks properties the code violates: there the full property is refuted and the part that holds is proved.

| id | modelled | proof | status |
|----|----------|-------|--------|
| C01 UBuf space accounting and absence of panics | UBuf value + heap model | wf invariant over op lists; fold over arbitrary op sequences, outcome never Panic | proved |
| C02 UBuf behaves as a byte deque | UBuf model vs. deque spec (UBufSpec.v) | forward simulation op by op, lifted to traces of outputs | proved |
| C03 Integer round trip and byte order | byte order functions + UBuf | algebraic round trip, for all values below 2^width | proved |
| C04 Fixed-width operations are all-or-nothing | UBuf | case analysis: success iff room, failure implies state equality | proved |
| C05 Head writes prepend | UBuf (value level, unshared) | readable' = bytes ++ readable | proved |
| C06 Write and Read count exactly what they move | UBuf | readable' = readable ++ take n p, etc. | proved |
| C07 WriteTo and ReadFrom account for the other side | UBuf; io.Reader / io.Writer are arbitrary contract-respecting functions | equations on readable | proved |
| C08 Direct-copy snapshots are independent | UBuf heap with many handles | instance of C09 refinement | proved |
| C09 Copy-on-write snapshots are isolated | UBuf heap: handles, cells, refcounts (int32 wrap) | invariant refCount = number of handles; refinement of the whole heap to independent deques | proved |
| C10 Head writes are safe on copy-on-write snapshots | UBuf heap | refuted: panic theorem for all sharing pairs; partial: unshared | partial R |
| C11 Reference snapshots share storage but not cursors | UBuf heap | equations on cells / cursors | partial R |
| C12 Copy-on-write stays safe beside Reference snapshots | UBuf heap | refuted for every buffer in two ways; invariant (count at least the number of non-Reference handles on a cell, marked if two) for the histories in between | partial R |
| C13 Wrapping a caller's slice | UBuf with len < cap | refuted for len<cap; partial for len=cap | partial R |
| C14 Standard readers terminate on a UBuf | io.ReadFull loop with fuel over UBuf | refuted: no fuel suffices when empty; partial otherwise | partial R |
| C15 Copy-on-write copies only when shared | UBuf heap with allocation counter | counting invariant | proved |
| C16 Coalesced frames are split exactly | frame decoder step functions | induction over frames | proved |
| C17 Frames split across reads are reassembled | frame decoder over chunk lists | refuted by witness + general: default-capacity decoder keeps nothing; partial = C16 | partial R |
| C18 Malformed input never crashes the frame decoder | frame decoder | refuted (zero length field); partial: no panic when no zero length field; delivered bytes are a sublist | partial R |
| C19 Truncated frames are never handed up | frame decoder | refuted; partial: exact characterisation of what is handed up | partial R |
| C20 Connections do not disturb each other's framing | frame decoder, chunks tagged by connection | refuted for small cache; partial: default capacity => independent | partial R |
| C21 Frame decoding always makes progress | frame decoder | termination by measure; wedge refuted | partial R |
| C22 Run wires the processors into one chain | build link tables | NoDup list => chain | proved |
| C23 Reserved head room always suffices | stack machine | induction over processors | proved |
| C24 End-to-end delivery through matching stacks | stack machine, both ends | induction over processor list with a wire-format spec | proved |
| C25 Oversize messages are dropped whole | codecs | iff boundary | proved |
| C26 Session numbers survive the wire | session resolver | refuted outside [0,2^32); proved inside; aliasing mod 2^32 | partial R |
| C27 Disabled processors are transparent | all processors | case analysis; refuted for LoadBalancer/StatCounter/Heartbeat | partial R |
| C28 Discarder, FlowController, Loopback | stack machine | machine runs | proved |
| C29 Echo returns what was received | stack machine | refuted with FrameDecoder; partial for header-only stacks | partial R |
| C30 Filter and Forwarder follow their functions | filter / forwarder | refuted: always panics; disabled passes | partial R |
| C31 LoadBalancer does not lose traffic | load balancer | refuted: nothing delivered | partial R |
| C32 Reference connections bypass byte processing | stack machine with reference connections | refuted with FrameDecoder (divergence); partial without | partial R |
| C33 Self messages are harmless on reference connections | stack machine | refuted | partial R |
| C34 Messages without a connection are dropped quietly | stack machine | refuted for header processors; partial for the rest | partial R |
| C35 Statistics count every message | stat counter sequential + racing increments | sequential exact; concurrent refuted with upper bound | partial R |
| C36 Wrongly typed, nil or empty messages are ignored | codecs | case analysis | proved |
| C37 Endpoints and transports are kept as ordered sets | management state machine with slice storage | refinement to ordered set | partial R |
| C38 Events reach every registered party once, in order | PublishEvent | list equation | partial R |
| C39 Returned endpoint lists are stable and deletion during delivery is safe | slices with shared backing arrays | refuted with witness | partial R |
| C40 Run is repeatable | build | k runs => k*sum; refuted idempotence | partial R |
| C41 Options: last write wins, wrong types fall back to the default | options | map laws | proved |
| C42 One endpoint serves each session | upper deck | sequential invariant; concurrent refuted; starvation refuted | partial R |
| C43 Data listener sees every message once and in order | endpoint goroutine small-step model | invariants over all schedules; order refuted with two goroutines | partial R |
| C44 Replacing the data listener keeps reception alive | same | refuted: lost wake-up reachable; partial without nil | partial R |
| C45 A deleted endpoint stops transmitting | upper deck goroutine small-step model | refuted; partial: idle goroutine stops | partial R |
| C46 Channel hand-off neither loses, duplicates nor reorders | bounded channel model | history invariant | proved |
| C47 Stopping a socket transport never crashes | socket transport small-step model (TCP/Unix flag) | refuted; partial: Unix never stores nil | partial R |
| C48 Stopping a transport closes its connections | same + reference transport | refuted; partial: saved connections closed | partial R |
| C49 Reference transport is a FIFO pipe between client and server | reference channel model | history invariant | proved |
| C50 Reference transport Run/Stop are usable repeatedly | reference transport | refuted | partial R |
| C51 Client dialling is bounded | dial loop | induction on attempts | proved |
| C52 Connection events bracket connection data | lower deck connection small-step model | history invariants; exactly-once refuted | partial R |
| C53 Heartbeat loss is detected exactly | heartbeat monitor model | exact characterisation + history induction | partial R |
| C54 Closed connections leave heartbeat supervision | heartbeat threads | refuted | partial R |
| C55 Heartbeats are invisible to upper layers | stack machine | machine runs | proved |
| C56 Chained setters return the object they were called on | bases as objects with a `where` pointer | case analysis on how an object was made | partial R |
| C57 Messages of one endpoint are sent in order, exactly once | upper deck goroutine small-step model | history invariant (put = passed down + in hand + queued); order refuted by a schedule | partial R |
| C58 A stopped socket transport can be run again | socket transport small-step model | refuted by a schedule; partial: invariant once former goroutines have ended | partial R |
| C59 Closing a reference connection ends it on both sides | reference transport small-step model | refuted for every reachable state with a waiting receiver; partial: later calls refused | partial R |
| C60 Reporting one lost connection does not hold up the others | heartbeat small-step model | blocked-step theorem for every reachable state in which check runs; check itself always has a step | partial R |
| C61 The upper deck's map is never written during another access | map accesses with beginning and end, lock | refuted from every reachable state with one endpoint; partial: lock invariant | partial R |
| C62 Copy-on-write snapshots stay independent in different goroutines | copy-on-write buffers at the granularity of memory accesses | ghost contents + invariant on counts; refuted for every family of two; progress of writers | partial R |
| C63 Messages carry what was set last | message objects, channels of pointers, field-by-field reads | history invariant over all interleavings | proved |
| C64 An endpoint sends and receives under one session of its own | the same with sessions read at acceptance and at reception | refuted for every idle accepted endpoint; partial: invariant while sessions are settled | partial R |
| C65 A message object may be reused once it has been put into the channel | the same | refuted for every setter and every idle endpoint; partial = C63 | partial R |
| C66 Running a stack again leaves its endpoints working as before | Again: the decks, goroutines and connections of all Runs | refuted from every state by one more Run; partial: one Run (invariant over all histories and schedules) | partial R |
| C67 A slow endpoint does not hold up the others | Deck: receiving goroutines and rx channels | refuted for every state with a full channel; partial: other connections go on | partial R |
| C68 A message that could not be sent is reported | Wire: OnUpperData, WriteTo, Write and Close step by step | refuted for every closed connection; partial: failures of Write are counted against events | partial R |
| C69 Messages of several senders arrive whole and in order | the same, with the frame decoder of Frame at the other end | invariant over all schedules; unique decomposition into frames | proved |
| C70 Connections sharing a frame decoder do not mix their messages | Mix: the decoder's accesses to its cache, step by step, for any number of goroutines | refuted for a cache no longer than a chunk; partial: isolated when chunks are shorter | partial R |
| C71 Messages arrive whole and in order, end to end | Net: two stacks, from the transmit channels of one to the listeners of the other, with the byte connection between them | partial: in order, complete and able to finish when Reads end where Writes ended; refuted by a Read that leaves four bytes of a frame behind | partial R |
| C72 The address of a running server leads to the socket it accepts on | Path: the server side of Sock together with what its address leads to | partial: holds over restarts that wait for the earlier goroutine; refuted by the deferred os.Remove and by the unguarded listener field | partial R |
| C73 A server transport never finds its own address in use | Path | partial: holds for patient callers; refuted by Stop and Run around net.Listen | partial R |
| C74 Every client gets the answers to its own requests | Rpc: clients and a server as one transition system, the processors being those of Stack | partial: holds for Reads that return all that is there, with termination; refuted for truncated Reads | partial R |
| C75 Nothing a peer sends ends the program | SafeSpec on top of Stack | partial: holds without frame decoders, and for chunks without four zero bytes in a row; refuted for a zero length field | partial R |
| C76 Heartbeats tell the living from the dead | PulseModel/PulseSpec | partial: holds if the timeout exceeds the interval by the delays; refuted for longer intervals, as in examples/heartbeat | partial R |
| C77 Statistics collected from a peer are the peer's own and stay inside the stacks | StackModel/StatSpec | partial: holds for enabled StatCounters with room for 16 bytes; refuted for switched off ones | partial R |
| C78 Asking ahead of the answers never blocks for ever | FlowModel | partial: up to 2053 questions and the places of the connection ahead; refuted beyond | partial R |
| C79 Two peers that answer each other's questions never block each other | FlowModel | partial: below 2054 questions and the places of the connection in total; refuted otherwise | partial R |
| C80 Endpoints can be added and deleted by several goroutines | AdmModel | partial: calls one at a time; refuted for overlapping calls | partial R |
| C81 An event published while endpoints come and go reaches every endpoint that stays, exactly once | AdmModel | partial: endpoints in front of the deleted ones; refuted behind them | partial R |
| C82 Deleting a transport ends what it started | LifeModel | partial: deletion with no connection on its way; refuted otherwise | partial R |
| C83 A transport forgets the connections that are closed | LifeModel | refuted; each connection is kept once | partial R |
| C84 Objects sent by reference arrive where they were sent | ObjModel | partial: exactly one stack, in order, session 0; refuted for sessions and for several clients | partial R |
| C85 Counting connection events tells how many connections are open | TallyModel | partial: events one at a time and no failed write; refuted otherwise | partial R |
| C86 The service center finds what was registered | AppModel | partial: no colons; refuted otherwise | partial R |
| C87 A session answers the connection it was asked on | AppModel | partial: one connection; refuted for several | partial R |
| C88 Two stacks can talk in both directions at once, with heartbeats and statistics between | DuoModel | partial: Reads end where Writes ended; refuted otherwise | partial R |
| C89 What an honest peer sends never ends the program nor silences the connection | NetModel | refuted for every message for session 0; no four zero bytes in a row and default capacity: proved | partial R |
| C90 The counters count every message when several goroutines pass messages | IncModel | refuted for two goroutines; one goroutine: proved | partial R |
| C91 Traffic between two stacks comes to rest | DuoModel | refuted for two Echos; bounds otherwise | partial R |
| C92 Messages pass between stacks with different MTUs | NetModel | refuted for a receiver with a smaller MTU; what fits both sides arrives | partial R |
| C93 Everything heard stands in what the peer wrote | NetModel | invariant over all runs and all divisions into Reads | proved |
| C94 Features are found, run, told of events and given their stack | FeatModel | refuted for events, stack, duplicates and chained setters; lookup and order of Run over all call sequences | partial R |
| C95 An echo server returns what its client sent | DuoModel | refuted without frames; the stream comes back for any Reads, the messages in order for whole Reads, and always can | partial R |
| C96 Messages stay apart without a frame decoder | NetModel | refuted: two messages in one Read are heard as at most one; exactly what is heard for Reads of whole Writes | partial R |
| C97 Endpoints of one stack reach each other over a Loopback | LoopModel | refuted: the listener and the goroutine that hands it messages wait for each other; order for all listeners; the exact number of messages | partial R |
| C98 Stop of a reference transport gives up its own share of the channel and no more | RefModel | refuted: a second Stop takes the share of the peer, Stop before NextConnection panics; exactly what one Stop does. States that the code never reaches | partial R |
| C99 The speed test shows how many messages went and came | SpeedModel | refuted for packages that do not fit: Tx counts messages that are dropped; otherwise the counters agree up to the messages on the way, and answers keep coming in every schedule | partial R |
| C100 Processors may be switched while the stacks talk | SwapModel | refuted for session resolver, frame decoder and codec; proved for processors whose switch the peer does not notice, and for any if switched while nothing is under way | partial R |
| C101 Several goroutines inside the processors | GrainModel | refuted: a switch used while a message is between two processors; proved for all interleavings of single calls if only processors whose switch the peer does not notice are switched | partial R |
| C102 One processor instance at two places of a stack | StackModel | refuted for every list of instances with a repetition; proved: the neighbours of every instance | partial R |
| C103 One processor instance in two stacks | TwiceModel | refuted for every two stacks with a common instance; proved for any number of stacks whose instances no later one has | partial R |
| C104 Goroutines that send until their connection is closed return | PollModel | refuted from every state with a waiting endpoint and an open connection; proved: at most one more message, all schedules end with all returned while the endpoint is served or has room | partial R |
| C105 Goroutines inside the processors at the same time do not disturb each other | ClimbModel | refuted with a frame decoder (full cache) and with a StatCounter; proved for stacks that keep nothing: every job of a goroutine shows what it shows alone, under every schedule, within 2n+4 steps of its goroutine | partial R |
