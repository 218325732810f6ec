# A Rocq (Coq 8.16) model of go-stomp/stomp

Everything lives in `rocq/theories` (logical name `Verif`).  The model is written
as computable Gallina functions; each definition cites the file and lines of
`/repo` it models.  Proofs are kept out of the `*Model.v` files; the property
theorems are collected in `*Props.v` files which contain only statements closed by
`exact lemma`, each followed by `Print Assumptions`, plus the non-vacuity examples.

## Layers

| layer | model files | code modelled |
|---|---|---|
| Go base | `GoBase` | strings and byte slices as `list ascii`; strconv decimal formatting and parsing, strings.Split/Join/Replace |
| codec | `HeaderModel`, `FrameModel` | frame/*.go (whole package) |
| wire I/O | `BufioModel` | frame/reader.go, frame/writer.go over bufio: any buffer size, any packetisation, any failure byte |
| memory | `HeapModel` | frame.Clone, Header.Add/Set/Del/Clone and topic copies with shared backing arrays |
| memory of readers | `MemModel` | frame/reader.go and frame/encode.go with bufio's buffer and all byte slices and strings as parts of arrays; several readers, and a program that writes into the bodies it got |
| handshake | `NegotiationModel` | conn_options.go, conn.go:100-244, version.go, frame/heartbeat.go, server/client/frame.go, util.go, CONNECT part of server/client/conn.go, server.go Accept loop (`listen`) |
| client API, sequential | `ClientApiModel` | id.go, message.go, transaction.go, send_options.go, subscribe_options.go, ack.go, frame building in conn.go |
| client, concurrent | `ClientModel` | conn.go readLoop, processLoop, Send, sendFrame, Subscribe, Disconnect, MustDisconnect, Ack/Nack; subscription.go: every interleaving at the granularity of channel, mutex and atomic operations |
| Subscription.Read | `ReadModel` | subscription.go Active and Read: any number of concurrent calls on top of `ClientModel` |
| errors | `ErrorModel` | errors.go newError, the error message of subscription.go readLoop |
| broker | `BrokerModel` | server/queue/*.go, server/topic/*.go, server/processor.go, server/client/subscription.go, subscription_list.go, request.go |
| server connection | `ServerConnModel` | server/client/conn.go processLoop and all handlers, tx_store.go |
| whole server | `SystemModel` | any number of connections plus the processor and their bounded channels, every interleaving, cleanupConn step by step |
| queue storages | `StorageModel` | the processor over an arbitrary implementation of server.QueueStorage, errors included |
| dialling | `DialModel` | Dial, Connect and their options as a program over the operations of a network connection; net.SplitHostPort |
| transactions | `TxModel` | Transaction objects used by any goroutines, on top of the running client |
| bodies | `BodyModel` | the slices a program passes to Send and stores into, read byte by byte when processLoop writes a frame, on top of the running client |
| statistics | `StatsModel` | Stats, WithStats and the counters, on top of the running client |
| goroutines after the end | `LeakModel` | server readLoop with the frame in its hand, on top of `SystemModel`; the client's is in `StatsModel` |
| queue and topic managers | `KeepModel` | which destinations have a Queue or Topic object, on top of `SystemModel`, which has what is in them |
| grace period | `GraceModel` | conn.go:318: float64 multiplication and conversion, over integers |
| duration of calls | `LimitModel` | clock and the timers of Send, sendFrame, Disconnect and Unsubscribe, on top of the running client; calls that can go on do so before the clock advances |
| example program | `ExampleModel` | examples/client_test/main.go: both goroutines, on top of the whole of clients, network and server |
| client against server | `PeerModel` | the client's frames through the codec, the server and back |
| clients and server together | `NetModel` | one `SystemModel` and any number of `ClientModel`s (and other programs) joined by byte streams through the codec, from dialling on; every interleaving |
| time | `TimerModel`, `AliveModel`, `SilentModel` | write timers of both processLoops and the client's read timer on top of `ClientModel` and `ServerConnModel`; the server's read deadlines over bytes with arrival times |

`*Spec.v` files hold the vocabulary of the theorem statements; `*Proofs.v`, `*Lemmas.v` and the other
`Client*`/`System*` files hold invariants and lemmas; `Flow*`, `Rest*` and `QueueOrder*` are further invariants of `SystemModel`, `ClientRest*`, `ClientDisconnect`, `ClientUnsub`, `React*`, `Order*`, `SubEnd*` of `ClientModel`, `Refusal*` of `ServerConnModel`, `Net*` of `NetModel`; `*Props.v` the theorems.

## Plan per property

* C01-C04, C06-C08: the reader is a function on byte lists, the writer a function from
  frames to bytes; an independent inductive grammar (`GrammarSpec`) defines which byte
  strings encode which frame. Proved: reader = grammar (iff), writer output in grammar,
  grammar unambiguous, hence round trip, truncation, relay, progress. C02 uses a second
  reader model over bufio with an arbitrary list of chunks and proves it equal to the first.
* C05: bufio.Writer with buffer size and a sink that fails after k bytes; induction over writes.
* C09, C10, C54: refinement of the slice/map representation to an ordered multimap / deques.
* C11, C30, C31: functional correctness against declarative specs of texts.
* C12: explicit heap of backing arrays; separation invariant.
* C13, C48: composition of option functions, codec theorems and server header edits.
* C14-C16: handshake as composition of functions; nanosecond arithmetic in Z.
* C17, C18, C20, C45: case analysis / induction over call sequences.
* C19: counter modulo 2^64, injectivity of decimal text.
* C21, C25, C29: process loop as a step function over events; trace induction.
* C22-C24, C26: interleaving semantics of arbitrarily many API threads, a mutex and channels; invariants; C26 by a stuck-state theorem.
* C27, C28: interleaving semantics of readLoop, Unsubscribe, consumer.
* C32-C36, C41, C43, C50, C53: server connection as `handle : conn -> frame -> conn * outputs`; induction over frame histories.
* C37-C40, C42, C44, C46, C47, C49: interleaving semantics of all connections and the request processor with FIFO channels; invariants (ownership of every message and of every subscription), and concrete schedules for the statements the code violates.
* C51, C67: timed step relations with a clock.
* C60-C64: further invariants of the whole-server model (`Flow*`): order and flow of topic frames through the channels, the sequence of requests about each subscription, and a counting argument that a live queue subscription is always somewhere.
* C68, C69: a potential function that every move of the server other than a heart-beat lowers and every input raises by a bounded amount; then C47, C62, C64 and C37 at the state where nothing moves.
* C70, C71: the same for the client; then the state where nothing moves is inspected goroutine by goroutine.
* C72-C76: an invariant of `NetModel` says what bytes are on each stream, so that the runs of the parts are runs of `SystemModel` and `ClientModel` (C72) and their theorems compose: C60 with the client's routing (C73), C61/C62 with C27 (C74), C36/C65 with C22 (C75), C34 with the client's waiting Unsubscribe (C76).
* C77, C78: a measure over streams, server and clients (C68, C70 combined) decreases with every move nobody asked for; at a state where none is possible the stream invariant of C72 makes both ends agree on all frames, and C34, C22 and C58 give the receipts to the waiting calls.
* C79: the client model with a list of Read calls; the calls that returned something are matched one to one with what left the channel.
* C80: every write attempt of a queue message is covered by one of: finished, lost, unacknowledged in its connection, given back; with the balance of C37 this bounds the attempts.
* C81: the frames that the client hands to calls and subscriptions are its own or were read from the stream (`ErrorClient`); the stream holds what the server wrote (C72), and C65 says why it wrote an ERROR.
* C82: the frames a program receives are the frames written for its subscription (C72), every subscription id belongs to one subscription, so the sum over programs is bounded by the write attempts of C80; at rest nothing waits or is in transit (C77), so with auto subscriptions the attempts are the messages finished, by C37 all that were sent.
* C83: an invariant reconstructs the response table from the log; each move of processLoop is then matched with what the log says about who waits.
* C84: the requests taken and queued only grow at the end, by the request of a call that is still before its put; program counters say which calls are in that list.
* C85: what is on C, consumed, buffered or in the goroutine's hand, equals what `shown` makes of the frames handed over; an invariant over the stages of closeChannel, with the reasons a response channel can be closed.
* C86: for every subscription object, what the processor assigned equals what the connection wrote for it plus what is on its way, as long as nothing was given back; then the FIFO of the broker (C36), the transport lemmas of C82 and the order per sender (C61).
* C87: step-by-step simulation, both ways, between the server over a storage keeping the contract and `SystemModel`. C88: balance of the messages handled, handed out, stored and refused.
* C89: every step's change of the number of requests taken, queued, offered and given up equals the change of the counter.
* C65, C66: case analysis of one iteration of the server connection against an inductive list of reasons (`Refusal*`).
* C55-C59: composition of the handshake functions; option lists.
* C92: `collected` (the frames of an open transaction, read off a connection's history) is split at each of its frames; ghost numbers of frames are unique over all connections; composed with C35, C61, C73, C75.
* C93: an invariant ties every method call to its sendFrame call; without overlapping calls, each later call of a transaction starts after the earlier returned, so C84 orders the frames.
* C94: every function of the reader in memory is simulated by its counterpart in `BufioModel` and writes only to its own buffer and to arrays made since; an invariant keeps buffers, frames and bodies apart.
* C95: invariants over program, client and slices: while a frame is written its request is the last event of the log; a slice that changed belongs to calls that have returned, are not in the write channel and are not being written. Answered calls are followed by an event of the log (from `mapinv`), and calls made later are served later (C84).
* C96: a confirmed call puts the server's processLoop past every frame the program wrote before (`receipt_served`, as for C75), and what an iteration of processLoop asks for is on the request channel before the next one begins (`reach_pushed`). Frames are numbered when readLoop reads them, so a frame of a call not yet made has a higher number than anything the processor was asked for. Runs are followed by `link_run` (clients) and `handed_moves`, `inbox_moves`, `log_moves` (server).
* C97: `reach_shut` (after the loop took the closing of readChannel there is nothing left to read) with C65 gives the reasons (`end_reason`); without a failed write and an ERROR only the first remains, and C35 and C61 turn the accepted frames into requests.
* C98: after processLoop nobody takes from readChannel, so what is kept grows by exactly the reads (`kept_run`); `leaked` (channel full, a frame in hand) is preserved by every step, and without it two steps of readLoop end it (`ends_soon`). The unbounded leak is an induction on the list of frames, with symbolic runs for one connection (`leak_one`).
* C99: a clock over the client's steps. `reach_early`: a state that reports a timeout (`mark`) was entered by that timer. `reach_late`: for each pair of calls the time one kept the mutex while the other was in progress (existential ghosts `U`, `held`); while a call waits the mutex is taken, so its waiting time is the sum of these, and each is bounded by the holder's timeouts (`heldok`).
* C100: which moves of the whole (`NetModel`) the example program makes is a predicate on state and move (`ex_allowed`). Its frames fix what the server is asked (`ex_asked`), it never unsubscribes and acks nothing, so messages come back to the queue only when the receiver's connection is over (`SteadyServer`), and the rest is C77, C78, C84 and C86.
* C101: a machine on the frames of one client (`AnswerSpec.converse`) that knows the session, the open transactions and the subscription ids. Handling a frame makes the connection's state, its answers and its publications those of the machine; other inputs leave them alone; so any two histories with the same frames agree.
* C102: the three errors only arise at a call's first step (invariant on the result Unsubscribe remembers), whose effect is computed; one winner of the compare-and-swap per subscription (ClientUnsub) gives C102_lost.
* C103: each step appends to the processor's history plus its channel and takes from the front of the channel; the same for a connection's history and channels; sends per request bounded through one membership per subscription.
* C104: a request about d was handled iff there is an object for d (induction on runs); every subscription object and every accepted message has its request in the history, in the channel or with its connection; the unbounded runs by induction on the list of topics, one round per topic.
* C105: rounding to 53 bits keeps lower bounds that have 53 bits and has a relative error of at most 2^-53; the runs of the client are those of C67 with the computed timer.
* C106: the time since the last sign of life is at most R plus the time held up, together with: the timer expires by then, and while something waits in readCh only held-up time has passed since (induction on runs).
* C90, C91: the program tree of Dial is taken apart into its possible runs once (`shaken`, `connect_runs`, `dial_runs`); options by induction over the list.
* C52: iteration of the back-off function.

Statements the code violates are proved as `..._refuted` with a concrete witness, next to the
strongest positive theorem that does hold (`..._partial` where it is weaker than the property).

## Trusted base

* Coq 8.16.1's kernel (with its `vm_compute`, used for the concrete witnesses).
* std++ is the only library used besides Coq's own; it is axiom free as used here.  `Print Assumptions` is issued below
  every property theorem and answers "Closed under the global context" for each of them: no axiom, standard or other, is used.
  (A listing of all axioms in *loaded* modules, as coqchk prints it, mentions `Coq.ssr.ssrunder` fields and the like; no theorem depends on them.)
* The faithfulness of the model to the Go sources.  The code was read, not run.
* What is assumed of the Go runtime and libraries (not part of /repo): int is 64 bits; bufio.Reader/Writer and strings.Replacer behave as transcribed in `BufioModel`;
  a connection Read returns at least one byte or an error; a short Write reports an error; channels are FIFO, mutexes exclude, sync/atomic operations are atomic and
  sequentially consistent, sync.Once and sync.Cond as documented; map iteration order is arbitrary; the regexp package implements the three patterns used; integer parsing as in strconv; net.SplitHostPort as transcribed in `DialModel`.

### Not modelled

* Texts of error values (except those the server puts into ERROR frames, C65) and log messages; which error value a failing call returns is modelled only where a property speaks of it.
* TLS, net.Dial itself (an operation that succeeds or fails), stompd/main.go, signal handling, testutil, the logger packages.
* Memory exhaustion (for instance a content-length of 4 GB is simply allocated).
* Storages that give back other frames than they were given; a Validator other than the default one, which accepts everything.
* The read-timeout multiplier of `HeartBeatGracePeriodMultiplier` is taken to be 1.0, its default, wherever the negotiated read timeout itself is used as the timer (C15, C67). What conn.go:318 makes of another one is `GraceModel` (C105), with IEEE 754 rounding written out over integers; `AliveModel` takes any timer.
* `Conn.ACK/NACK` after transactions (`Transaction.Ack`) are frames like any other in the concurrent model.
* Scheduling fairness: every run without input is finite (C68, C70), so every schedule that runs a goroutine that can move ends in a state where none can (C69, C71); nothing is assumed about which goroutine is chosen. While input keeps arriving waiting is bounded in turns of the processor and of the loops (C103); the choice of `select` between channels is not assumed to be fair.

### Simplifications inside the modelled parts (each repeated at its definition)

* A nil and an empty body or header are the same frame outside `HeapModel`.
* A server handler's requests to the processor are collected and then pushed one by one; the code pushes them while the handler runs, and what the handler
  does after a push reads nothing the processor writes.  The processor computes the effects of one request, then performs its channel sends one by one.
* The client model treats a request frame as a value after it was put on the write channel.  Timeouts may fire at any moment while armed.
  Network errors have a fixed text.  closeMutex of a subscription is left out (see the header of ClientModel.v).
* Ghost fields: `g_uid` (serial number of a client frame), `y_blog`, `y_fin`, `y_lost`, `n_log`, `c_log`, `b_by`, `b_read`, `q_by`.  No step looks at them.
* `NetModel`: a reader takes a whole frame from its stream at once; an end may see its stream fail at any moment; after a failed write the later writes of that writer fail.
* `TimerModel`: handlers take no time, a loop waiting in select reacts at once; time during which a loop is blocked elsewhere is counted separately (`busy`) and appears in the bounds.

## Departures of the code from the properties

Each is proved as a `_refuted` theorem with a concrete run, and the strongest positive statement that holds is proved next to it.

* C15: an option strictly between 0 and 1 ms is announced as 0 but used as a time-out.  C16: a read time-out stays armed although the server declined.
* C21, C58: SUBSCRIBE with a receipt header: the RECEIPT ends the subscription's channel, the next MESSAGE panics processLoop.
* C25: requests still in the write channel when processLoop ends are never answered.  C26: a receipt arriving after its waiter timed out blocks processLoop for ever.
* C71: Subscribe, Disconnect or sendFrame waiting for room in writeCh hold closeMutex; if the connection fails then, processLoop waits for that mutex in MustDisconnect: a deadlock.
* C27: Unsubscribe on a closed connection closes C while the reader may still send on it.  C28: lost wake-up in Unsubscribe.
* C29: one map for receipt ids and subscription ids, so they collide.
* C102: Unsubscribe marks the subscription as closing before it looks at its options; an option error leaves it so, and it can never be unsubscribed.
* C104: the queue and topic managers never remove an object, so any number of destinations is kept for ever by one client that sends one message to each.
* C105: `HeartBeatGracePeriodMultiplier` accepts multipliers below 1, which make the client give up on a server that is in time.
* C106: the server has no read deadline before CONNECT; the client does not notice a dead server while a Write is in progress.
* C34: receipts asked for by SUBSCRIBE and UNSUBSCRIBE are never sent.  C41: cumulative and individual ACK compare with a field that is never assigned.
* C38: a message whose write fails, or that is handed to a connection after its cleanup, is lost.  C46: several returned messages come back reversed.
* C42: three ways for a client to panic the server.  C47: two deadlocks.  C50: the connection goes on after DISCONNECT.
* C45: the client acknowledges with an `id` header (version 1.2); the server looks only at `ack` and `message-id`, and ends the connection.
* C48: a Header option with an empty key makes a frame the receiver cannot read; so does a body of 2^32 bytes or more.
* C51: both timers are restarted by events that transmit nothing; the client sends no heart-beats while its program is slow to take messages.
* C67: heart-beats waiting in readCh do not help a client whose Write was slow; the server's read deadline is for a whole frame, so a frame that keeps arriving can be cut off.
* C60, C63: an id subscribed again while a message for its first use is under way gets that message; the first subscription is then put back on the queue's ready list
  and stays there after its connection is gone, and the next message for the queue is given to it and to nobody else.
* C72: a body sent with NoContentLength and containing a NUL byte is read by the server as the end of the frame and the beginning of further ones.
* C75: the server writes the RECEIPT before it looks at the transaction header, so Send can return nil for a frame that was refused.
* C76: since the server never confirms UNSUBSCRIBE (C34), Unsubscribe against this server waits until its timeout, or until the connection is lost, and then returns nil.
* C79: Read answers ErrCompletedSubscription while messages and the server's error are still in the channel; a Read on a subscription whose SUBSCRIBE was never taken from writeCh waits for ever.
* C81: an Unsubscribe that waits when the server ends the connection with an ERROR returns nil.
* C88: errors of a queue storage are dropped: a refused message is lost after its RECEIPT, a subscriber met by a failing Dequeue is forgotten; Start and Stop are never called.
* C89: WritesSent counts a message whose Send gave up at the full write channel (`C89_sent_refuted`; the statement of C89 says so).
* C90: a Dial whose handshake fails leaves its network connection open; the context's deadline limits the wait for CONNECTED only, not net.Dial and not the write of CONNECT.
* C91: WriteBufferSize(n) makes the writer use the size of the read buffer.
* C93: two concurrent Commit calls of one Transaction both send COMMIT and both return nil; a CommitWithReceipt whose receipt does not come in time leaves the Transaction usable although COMMIT was written.
* C56: the client does not compare the server's version with its offer.
* C95: Send and Transaction.Send keep the slice they are given until processLoop has written the frame; the documentation does not say so.
* C96: the server confirms a SEND before it hands the message to its processor; so a confirmed message can be overtaken by one that another program sends later, and Subscribe returns before the server has the subscription.
* C97: a failed write to a client ends its session at once, and frames of that client that were already read are dropped; a client that sends and closes may so lose messages that had arrived. MustDisconnect closes the connection under frames that Send has accepted and processLoop has not yet written.
* C98: readLoop blocks for ever if 17 frames arrive that nobody takes (server; the client keeps 21, and heart-beats count): its send into the channel has no alternative. No login is needed, so a stranger can make the server keep any number of goroutines and frames.
* C99: MsgSendTimeout does not bound Send: closeMutex is taken before the timer is started, and other calls hold it while they wait, a Send for its own timeouts, Subscribe, Ack and the like without limit if the write channel is full.
* C100: the example program's receiver does not look whether sub.C was closed: if its connection is lost it compares the text of the error message and then dereferences nil. If its connection attempt fails, `subscribed` is never closed and main waits for ever.
* Seen but not the subject of a property: an option error inside
  Unsubscribe leaves the subscription in state "closing"; the ERROR branch of processLoop sets closed without closing writeCh.
