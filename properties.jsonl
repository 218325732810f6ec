{"id": "C01", "title": "Frame stream round trip", "statement": "If a program writes any sequence of frames and heart-beats with frame.Writer, then frame.Reader on the other end returns exactly that sequence: same commands, same header entries in the same order (duplicates included), same body bytes, one nil frame per heart-beat, and leaves any following bytes untouched. A frame qualifies when its command is a STOMP command, no header name is empty, and its first content-length entry (if any) is the decimal length of the body (without one, the body contains no NUL).", "quantifier": "all finite sequences of qualifying frames and heart-beats, all header names/values/bodies over all 256 byte values, all trailing bytes", "why_tests_cant": "infinite set of byte strings; escapes, CR/LF stripping, content-length and NUL termination interact at boundaries", "anchors": ["frame/writer.go: Writer.Write", "frame/reader.go: Reader.Read, readLine", "frame/encode.go: unencodeValue"]}
{"id": "C02", "title": "Packetisation independence", "statement": "What frame.Reader returns depends only on the concatenation of the bytes delivered by the network, never on how they were split into read calls.", "quantifier": "all byte streams and all ways of cutting them into non-empty reads, any final error", "why_tests_cant": "the number of ways to cut a stream is exponential; tests sample four iotest readers", "anchors": ["frame/reader.go: Reader.Read (body loop, readLine)"]}
{"id": "C03", "title": "Reader accepts exactly the STOMP frame grammar", "statement": "frame.Reader.Read returns a frame f and leaves the rest r exactly when the input is an encoding of f according to the STOMP frame grammar (LF or CRLF line ends, first colon splits, \\r \\n \\c \\\\ unescaped, content-length or NUL delimited body) followed by r; it returns a nil frame exactly on an empty line.", "quantifier": "all byte strings", "why_tests_cant": "an if-and-only-if over every input", "anchors": ["frame/reader.go: Reader.Read, readLine", "frame/encode.go: unencodeValue", "frame/header.go: ContentLength"]}
{"id": "C04", "title": "A truncated frame is never delivered", "statement": "If the peer dies after sending any proper prefix of a written frame, the reader reports an error and returns no frame for those bytes.", "quantifier": "all qualifying frames, every cut point strictly inside the encoding", "why_tests_cant": "every crash point of the peer for every frame", "anchors": ["frame/reader.go: Reader.Read", "frame/writer.go: Writer.Write"]}
{"id": "C05", "title": "Writer crash-point contract", "statement": "Whatever byte the underlying connection fails at, the bytes that reached it are a prefix of the concatenated encodings; a Write that returned nil has put its whole frame (and all earlier ones) on the wire; after the first error every later Write fails and sends nothing.", "quantifier": "all frame sequences, all buffer sizes, all failure points", "why_tests_cant": "every combination of buffer boundary and failure byte", "anchors": ["frame/writer.go: Writer.Write, NewWriterSize"]}
{"id": "C06", "title": "Header text cannot break framing", "statement": "Encoding of a header name or value never contains a raw CR, LF or colon, and decoding an encoded text gives back the original; so distinct texts have distinct encodings.", "quantifier": "all byte strings as header names and values", "why_tests_cant": "unbounded strings including adversarial escapes", "anchors": ["frame/encode.go: replacerForEncodeValue, replacerForUnencodeValue", "frame/writer.go: Writer.Write"]}
{"id": "C07", "title": "Reader is total and always makes progress", "statement": "On any input the reader never panics; each successful Read consumes at least one byte; each returned frame has one of the fifteen STOMP commands, non-empty header names and, if content-length is present, a body of exactly that length.", "quantifier": "all byte strings", "why_tests_cant": "robustness against arbitrary (hostile) bytes", "anchors": ["frame/reader.go: Reader.Read"]}
{"id": "C08", "title": "Relay fidelity", "statement": "Any frame accepted by the reader can be written again and will be read back identical; a broker can forward what it read without corrupting it.", "quantifier": "all byte strings accepted by the reader", "why_tests_cant": "ranges over everything the reader accepts, not just frames built by the library", "anchors": ["frame/reader.go: Reader.Read", "frame/writer.go: Writer.Write"]}
{"id": "C09", "title": "Header collection is an ordered multimap", "statement": "Through any sequence of Add, AddHeader, Set, Del and Clone, Get/Contains return the first entry for a key, GetAll returns all of them in order, Set changes only the first entry with that key (or appends), Del removes all entries with that key and nothing else, Len counts entries, and no call panics. frame.New makes the entries out of its arguments two by two, in order, and panics exactly if their number is odd.", "quantifier": "all operation sequences, keys and values", "why_tests_cant": "unbounded histories of updates on one header", "anchors": ["frame/header.go: Add, AddHeader, Set, Get, GetAll, GetAt, Contains, Del, Len, Clone, NewHeader"]}
{"id": "C10", "title": "content-length parsing is exact", "statement": "Header.ContentLength reports absent when there is no entry, the value n exactly when the first entry is a non-empty decimal digit string with value n < 2^32, and an error for every other text.", "quantifier": "all header collections and all entry texts", "why_tests_cant": "every text, including overflow and signs", "anchors": ["frame/header.go: ContentLength"]}
{"id": "C11", "title": "Heart-beat header parsing is exact and never overflows", "statement": "ParseHeartBeat succeeds exactly on two non-empty digit strings separated by one comma whose values in milliseconds fit a time.Duration, and returns exactly those durations; every other text gives ErrInvalidHeartBeat.", "quantifier": "all strings", "why_tests_cant": "every text, including values at and beyond 2^63", "anchors": ["frame/heartbeat.go: ParseHeartBeat"]}
{"id": "C12", "title": "Cloned frames and topic copies are independent", "statement": "A cloned frame has the same contents as the original, and no later header update on one is visible through the other; each subscriber of a topic gets its own copy.", "quantifier": "all frames, all later sequences of header updates, all numbers of subscribers", "why_tests_cant": "aliasing bugs appear only for particular update sequences and subscriber counts", "anchors": ["frame/frame.go: Frame.Clone", "frame/header.go: Clone", "server/topic/topic.go: Enqueue"]}
{"id": "C13", "title": "SEND frames carry the right destination and content-length", "statement": "For any destination, content type, body and any list of SendOpt options, the SEND frame's effective destination is the one given, its effective content-length (unless NoContentLength is used) is the body length, options never alter the body, and a receiving reader decodes exactly the same frame. With NoContentLength the body survives exactly when it has no NUL byte.", "quantifier": "all destinations, content types, bodies and option lists", "why_tests_cant": "unbounded option lists and bodies", "anchors": ["conn.go: createSendFrame, Conn.Send", "send_options.go: SendOpt"]}
{"id": "C14", "title": "Connect negotiates only supported versions and reports server data", "statement": "Connect succeeds only if the server's first frame is CONNECTED with a supported (or absent, meaning 1.0) version and a valid heart-beat header; the connection then reports that version, session and server; every other reply yields an error and no connection.", "quantifier": "all server replies", "why_tests_cant": "all possible first frames from the server", "anchors": ["conn.go: ConnectWithContext", "version.go: CheckSupported", "conn_options.go: NewFrame"]}
{"id": "C15", "title": "Negotiated heart-beats keep a quiet connection alive", "statement": "With any heart-beat options, a client of this library connected to this library's server sends at intervals no longer than half the server's read deadline, and the server sends at intervals no longer than the client's read timeout; one side never times out while the other never sends.", "quantifier": "all client timeout options and server heart-beat settings accepted in the handshake", "why_tests_cant": "four independent timing parameters over the whole duration range", "anchors": ["conn.go: ConnectWithContext", "conn_options.go: NewFrame", "server/client/conn.go: handleConnect, readLoop", "server/client/util.go: asMilliseconds"]}
{"id": "C16", "title": "A server that declines heart-beats is not timed out", "statement": "If the server answers heart-beat:0,y (it will not send heart-beats), the client must not arm a read timeout.", "quantifier": "all client options and server replies", "why_tests_cant": "depends on the combination of client option and server reply", "anchors": ["conn.go: ConnectWithContext (heart-beat negotiation)"]}
{"id": "C17", "title": "Ack and Nack frames follow the negotiated version", "statement": "Ack/Nack produce: nothing for an auto subscription (Nack: an error), subscription+message-id headers for 1.0/1.1, the id header copied from the message's ack header for 1.2, ErrNackNotSupported for Nack under 1.0, and an error when the message did not come from a server or lacks the needed header.", "quantifier": "all messages, versions and ack modes", "why_tests_cant": "every combination of version, mode and headers", "anchors": ["conn.go: createAckNackFrame, Ack, Nack", "version.go: SupportsNack"]}
{"id": "C18", "title": "A transaction is used at most once", "statement": "After Commit/Abort (with or without receipt) returned nil, every further operation on that transaction returns ErrCompletedTransaction and sends nothing; before that every Send/Ack/Nack of the transaction carries exactly its own transaction id, and at most one COMMIT or ABORT frame is sent successfully.", "quantifier": "all sequences of operations on a transaction, with any pattern of send failures", "why_tests_cant": "unbounded histories with failures at any point", "anchors": ["transaction.go: Transaction.*"]}
{"id": "C19", "title": "Allocated identifiers are unique", "statement": "Identifiers allocated for subscriptions, receipts and transactions are pairwise distinct texts for every interleaving, for up to 2^64-1 allocations.", "quantifier": "all histories of allocations by any number of goroutines", "why_tests_cant": "uniqueness over unbounded histories and schedules", "anchors": ["id.go: allocateId"]}
{"id": "C20", "title": "Message body reads deliver each byte once", "statement": "Any sequence of Message.Read and ReadByte calls with any buffer sizes returns the body bytes in order, each exactly once, and then io.EOF.", "quantifier": "all bodies and all sequences of calls and buffer sizes", "why_tests_cant": "unbounded call sequences", "anchors": ["message.go: Read, ReadByte"]}
{"id": "C21", "title": "Messages are routed to the right subscription in order", "statement": "Each subscription receives exactly the MESSAGE frames whose subscription header equals its id that the server sent between its SUBSCRIBE and its UNSUBSCRIBE receipt (or the end of the connection), in wire order, none duplicated, none from another subscription.", "quantifier": "all interleavings of client requests and server frames, with distinct identifiers", "why_tests_cant": "all histories of subscribes, unsubscribes, receipts and messages", "anchors": ["conn.go: processLoop", "subscription.go: readLoop"]}
{"id": "C22", "title": "A receipted Send succeeds only on its receipt", "statement": "Conn.Send with a receipt option returns nil only if the server sent a RECEIPT whose receipt-id equals the receipt header of that frame, after the frame had been written; an ERROR frame or connection failure makes it return an error.", "quantifier": "all schedules of senders and server frames", "why_tests_cant": "ordering over all interleavings", "anchors": ["conn.go: Send, readReceiptWithTimeout, processLoop"]}
{"id": "C23", "title": "No API schedule panics on the write channel", "statement": "For any number of goroutines calling Send, Subscribe, Unsubscribe, Ack, Begin, Disconnect and MustDisconnect concurrently, and any moment at which the connection fails, no goroutine sends on or closes an already closed write channel.", "quantifier": "all schedules of any number of goroutines", "why_tests_cant": "thread interleavings cannot be enumerated by tests", "anchors": ["conn.go: Send, sendFrame, Subscribe, Disconnect, MustDisconnect, processLoop"]}
{"id": "C24", "title": "Closed connections stay closed", "statement": "Once Disconnect returned nil or timed out waiting for its receipt, or MustDisconnect returned, or the goroutine serving the connection has ended because the connection failed or the server sent ERROR, every later Send returns ErrAlreadyClosed, every later Subscribe/Ack/Begin returns ErrClosedUnexpectedly, further Disconnect calls return nil, and no later call adds a frame to the outgoing stream.", "quantifier": "all schedules and all later API calls", "why_tests_cant": "all histories after close", "anchors": ["conn.go: Send, sendFrame, Subscribe, Disconnect, MustDisconnect"]}
{"id": "C25", "title": "Connection failure reaches every waiter", "statement": "When the connection ends (read error, ERROR frame, read timeout, write error), every active subscription and every pending receipt waiter is sent an ERROR before the connection is closed.", "quantifier": "all connection states and all causes of failure", "why_tests_cant": "all sets of waiters and failure moments", "anchors": ["conn.go: processLoop, sendError"]}
{"id": "C26", "title": "A late receipt does not wedge the connection", "statement": "If a receipt arrives after the caller's timeout expired, the connection keeps processing frames.", "quantifier": "all schedules in which a timeout precedes the receipt", "why_tests_cant": "timing race", "anchors": ["conn.go: processLoop (RECEIPT case), readReceiptWithTimeout"]}
{"id": "C27", "title": "A subscription's channel is closed once and never sent to afterwards", "statement": "Under every schedule of server frames, connection failure, Unsubscribe and consumer reads, Subscription.C is closed at most once, no goroutine sends on it after it is closed, and an error message (if any) is the last message.", "quantifier": "all schedules", "why_tests_cant": "thread interleavings", "anchors": ["subscription.go: readLoop, closeChannel, Unsubscribe"]}
{"id": "C28", "title": "Unsubscribe returns once its receipt has arrived", "statement": "After the server's receipt for the UNSUBSCRIBE has been processed, the pending Unsubscribe call returns nil without waiting for its timeout.", "quantifier": "all schedules", "why_tests_cant": "lost-wakeup races need a specific interleaving", "anchors": ["subscription.go: Unsubscribe, waitWithTimeout, closeChannel"]}
{"id": "C29", "title": "Identifiers of different kinds never interfere", "statement": "A user-chosen subscription id, a receipt id and a reply-to name never capture each other's frames.", "quantifier": "all histories of API calls with user-chosen ids and headers", "why_tests_cant": "collisions appear only for particular histories", "anchors": ["conn.go: processLoop (channels map)", "id.go: allocateId", "subscribe_options.go: SubscribeOpt.Id"]}
{"id": "C30", "title": "Server picks the highest common version", "statement": "The server selects the highest of 1.0, 1.1 and 1.2 listed in accept-version in any order and multiplicity, 1.0 for CONNECT without the header, and rejects everything else; a session is established only for 1.1 and 1.2 (1.0 is refused as unsupported).", "quantifier": "all CONNECT/STOMP frames and accept-version texts", "why_tests_cant": "all texts and orderings", "anchors": ["server/client/frame.go: determineVersion"]}
{"id": "C31", "title": "Server heart-beat handling is exact", "statement": "The server accepts exactly heart-beat values of two 1-9 digit numbers, raises non-zero values to its configured minimum, announces the resulting values, and uses exactly these values for its own write interval and (doubled) read deadline.", "quantifier": "all heart-beat texts and server settings", "why_tests_cant": "all texts; two separately computed values must agree", "anchors": ["server/client/frame.go: getHeartBeat", "server/client/conn.go: handleConnect, readLoop", "server/client/util.go: asMilliseconds"]}
{"id": "C32", "title": "Nothing happens before an authenticated CONNECT", "statement": "Until a client has completed a CONNECT/STOMP with accepted credentials and a supported version, no message, subscription or acknowledgement of that client reaches the broker, whatever frames it sends.", "quantifier": "all frame sequences and all authenticators", "why_tests_cant": "all histories of client frames", "anchors": ["server/client/conn.go: connecting, handleConnect, processLoop", "server/processor.go: config.Authenticate"]}
{"id": "C33", "title": "Protocol errors produce one ERROR and end the session", "statement": "When a client frame is rejected, the server sends exactly one ERROR frame (with receipt-id when the frame still carries a receipt header), sends nothing to that client afterwards, and processes no further frame from it.", "quantifier": "all frame sequences", "why_tests_cant": "all histories", "anchors": ["server/client/conn.go: processLoop, sendErrorImmediately"]}
{"id": "C34", "title": "Receipts are sent for every frame that asks", "statement": "Every accepted client frame with a receipt header is answered by exactly one RECEIPT with that id, in order, before any later answer; frames without one get none.", "quantifier": "all frame sequences after connect", "why_tests_cant": "all histories and all commands", "anchors": ["server/client/conn.go: sendReceiptImmediately, handleSubscribe, handleUnsubscribe"]}
{"id": "C35", "title": "Server transactions are all-or-nothing and ordered", "statement": "Frames sent inside a transaction have no effect before COMMIT; COMMIT applies all of them in the order sent and cannot stop half way; ABORT and disconnect discard all; transactions with different names do not affect each other; unknown or duplicate names are errors.", "quantifier": "all interleavings of operations on any number of transactions", "why_tests_cant": "unbounded interleavings of transactions", "anchors": ["server/client/tx_store.go", "server/client/conn.go: handleBegin, handleCommit, handleAbort, handleSend"]}
{"id": "C36", "title": "Queues are FIFO and work conserving", "statement": "Messages sent to a queue are handed to subscribers in the order they arrived, ready subscribers are served in the order they became ready, and a message never waits while a subscriber is ready.", "quantifier": "all histories of sends, subscriptions and unsubscriptions on any number of queues", "why_tests_cant": "unbounded histories", "anchors": ["server/queue/queue.go", "server/queue/memory_queue.go", "server/client/subscription_list.go"]}
{"id": "C37", "title": "Queue messages are neither duplicated nor invented", "statement": "At every moment each message accepted for a queue is in exactly one place: waiting, assigned to one subscriber, in transit between components, finally delivered, or lost with a dead connection; no subscriber receives a message nobody sent.", "quantifier": "all schedules of all connections and the broker", "why_tests_cant": "concurrent schedules and connection failures at any point", "anchors": ["server/queue/queue.go", "server/client/conn.go: processLoop, cleanupConn", "server/processor.go: Serve"]}
{"id": "C38", "title": "Unacknowledged queue messages survive a disconnect", "statement": "When a connection ends for any reason, every queue message it had received but not acknowledged (and every one in transit to it) goes back to its queue.", "quantifier": "all schedules and all moments of failure", "why_tests_cant": "crash points and interleavings", "anchors": ["server/client/conn.go: cleanupConn, cleanupSubChannel, processLoop", "server/processor.go: Serve"]}
{"id": "C39", "title": "Topic messages reach exactly the current subscribers", "statement": "A message sent to a topic is handed exactly once to each subscription present when the broker processes it, in subscription order, and to nobody else; subscriptions added later never see it.", "quantifier": "all histories", "why_tests_cant": "unbounded histories and subscriber sets", "anchors": ["server/topic/topic.go: Enqueue, Subscribe, Unsubscribe"]}
{"id": "C40", "title": "Destinations are isolated", "statement": "A message is only ever handed to subscriptions whose destination equals the message's destination; destinations starting with /queue behave as queues and all others as topics, and operations on one destination never change another.", "quantifier": "all histories over any number of destinations", "why_tests_cant": "unbounded histories", "anchors": ["server/processor.go: Serve, isQueueDestination", "server/queue/manager.go", "server/topic/manager.go"]}
{"id": "C41", "title": "ACK and NACK acknowledge the right messages", "statement": "On the server an ACK in client mode acknowledges that message and earlier ones of its subscription; in client-individual mode exactly that message; a NACK returns exactly that message to its queue.", "quantifier": "all outstanding message sets and ids", "why_tests_cant": "all histories of deliveries and acknowledgements", "anchors": ["server/client/subscription.go: IsAckedBy, IsNackedBy", "server/client/subscription_list.go: Ack, Nack", "server/client/conn.go: allocateMessageId, handleAck, handleNack"]}
{"id": "C42", "title": "No client can crash the server", "statement": "No sequence of frames from any set of clients makes the server process panic.", "quantifier": "all frame sequences of all clients and all schedules", "why_tests_cant": "hostile inputs and interleavings", "anchors": ["server/processor.go: Serve", "server/client/subscription.go", "server/client/subscription_list.go: Add, Ack"]}
{"id": "C43", "title": "Message ids are unique and increasing per connection", "statement": "Every MESSAGE frame a server connection transmits carries a message-id that is strictly larger than all earlier ones on that connection, and an ack header equal to it exactly when the subscription requires acknowledgement.", "quantifier": "all schedules, up to 2^64-1 messages", "why_tests_cant": "unbounded histories", "anchors": ["server/client/conn.go: allocateMessageId"]}
{"id": "C44", "title": "At most one unacknowledged message per subscription", "statement": "The server never transmits a queue message on a subscription that still has an unacknowledged one, and never assigns a message to a subscription that already holds one.", "quantifier": "all schedules", "why_tests_cant": "concurrent hand-over of subscriptions between goroutines", "anchors": ["server/queue/queue.go", "server/client/subscription.go: SendQueueFrame, setSubscriptionHeader", "server/client/conn.go: processLoop"]}
{"id": "C45", "title": "The library's client can acknowledge to the library's server", "statement": "For every negotiated version, the ACK/NACK frame the client builds for a message received from this server is accepted by this server's connection handler.", "quantifier": "all versions, messages and subscriptions", "why_tests_cant": "composition of two independently written halves over all inputs", "anchors": ["conn.go: createAckNackFrame", "server/client/conn.go: handleAck, handleNack, allocateMessageId"]}
{"id": "C46", "title": "Requeued messages keep their order", "statement": "When several unacknowledged messages of one queue are returned because a connection ends, they are redelivered in their original order, before later messages.", "quantifier": "all sets of returned messages", "why_tests_cant": "depends on number and order of outstanding messages", "anchors": ["server/client/conn.go: cleanupConn", "server/queue/memory_queue.go: Requeue"]}
{"id": "C47", "title": "The server never deadlocks", "statement": "From every reachable server state some goroutine can make progress as long as requests or frames are pending and clients keep reading.", "quantifier": "all schedules", "why_tests_cant": "bounded channels in a cycle; needs specific fill levels", "anchors": ["server/client/conn.go: processLoop", "server/processor.go: Serve", "server/client/subscription.go: SendTopicFrame"]}
{"id": "C48", "title": "End-to-end payload integrity", "statement": "The body, destination and content type passed to Conn.Send are exactly those of the Message received by a subscriber of this library's server, for queues and topics, inside and outside transactions.", "quantifier": "all destinations, content types, bodies and send options without NoContentLength", "why_tests_cant": "composition of client, codec, server handling and codec again", "anchors": ["conn.go: Send, createSendFrame", "server/client/conn.go: handleSend, allocateMessageId", "server/client/subscription.go: setSubscriptionHeader", "subscription.go: readLoop"]}
{"id": "C49", "title": "Unsubscribing stops queue deliveries", "statement": "After the server has processed UNSUBSCRIBE for an id, it transmits no further queue message for that id unless the client subscribes with it again; a message already assigned to it goes back to the queue.", "quantifier": "all schedules", "why_tests_cant": "race between assignment and unsubscription", "anchors": ["server/client/conn.go: handleUnsubscribe, processLoop"]}
{"id": "C50", "title": "Nothing follows the receipt of a DISCONNECT", "statement": "After a client's DISCONNECT the server sends at most the requested RECEIPT and then nothing more on that connection.", "quantifier": "all schedules and histories", "why_tests_cant": "race between disconnect and deliveries", "anchors": ["server/client/conn.go: handleDisconnect"]}
{"id": "C51", "title": "Heart-beats are sent in time", "statement": "Whenever a write heart-beat interval is negotiated, the time between consecutive transmissions of client and server never exceeds that interval (given a responsive scheduler).", "quantifier": "all event timings", "why_tests_cant": "continuous time and arbitrary event orders", "anchors": ["conn.go: processLoop (writeTimer)", "server/client/conn.go: processLoop (timer)"]}
{"id": "C52", "title": "Accept failures back off within bounds", "statement": "On repeated temporary accept failures the server waits 5ms, doubling up to 5s, never more, and starts again at 5ms after a success.", "quantifier": "all sequences of accept outcomes", "why_tests_cant": "unbounded sequences", "anchors": ["server/processor.go: Listen"]}
{"id": "C53", "title": "Subscription ids are unique per server connection", "statement": "A server connection never holds two live subscriptions with the same id; a second SUBSCRIBE with a live id is rejected, and an UNSUBSCRIBE removes exactly the named one.", "quantifier": "all frame sequences", "why_tests_cant": "unbounded histories", "anchors": ["server/client/conn.go: handleSubscribe, handleUnsubscribe"]}
{"id": "C54", "title": "In-memory queue storage is a family of independent deques", "statement": "Enqueue appends, Requeue prepends, Dequeue removes the head or reports empty, for each queue name independently of all others.", "quantifier": "all operation sequences on all queue names", "why_tests_cant": "unbounded histories", "anchors": ["server/queue/memory_queue.go"]}
{"id": "C55", "title": "Client and server of this library complete the handshake", "statement": "For every client option set whose credentials the server accepts, and every server heart-beat setting, the CONNECT frame sent by Connect makes the server answer CONNECTED, the client accepts that answer, and both sides agree on the version: the highest of the offered ones that the server supports (1.1 or 1.2).", "quantifier": "all client option lists, server settings and authenticators", "why_tests_cant": "composition of client, codec, server over all option values", "anchors": ["conn.go: ConnectWithContext", "conn_options.go: newConnOptions, NewFrame", "server/client/conn.go: handleConnect"]}
{"id": "C56", "title": "The negotiated version is one the client offered", "statement": "A connection returned by Connect has a version among those listed in the client's AcceptVersion options.", "quantifier": "all client options and server replies", "why_tests_cant": "all replies of a misbehaving server", "anchors": ["conn.go: ConnectWithContext"]}
{"id": "C57", "title": "SUBSCRIBE frames carry what the caller asked for", "statement": "For any destination, ack mode and options, the SUBSCRIBE frame's effective destination and ack headers are the given ones and its effective id is exactly the id Subscription.Id() reports.", "quantifier": "all destinations, ack modes and option lists", "why_tests_cant": "unbounded option lists", "anchors": ["conn.go: Subscribe", "subscribe_options.go", "subscription.go: Id"]}
{"id": "C58", "title": "Nothing the program or the server does crashes a client goroutine", "statement": "Under every schedule of API calls, server frames, timeouts and network failures, no goroutine of the client (callers, processLoop, subscription goroutines) panics on a closed channel or a nil response.", "quantifier": "all schedules, any number of goroutines and subscriptions", "why_tests_cant": "the crashing schedules need races between several goroutines and timers", "anchors": ["conn.go: processLoop, Send, sendFrame, Disconnect, MustDisconnect", "subscription.go: Unsubscribe, readLoop, closeChannel"]}
{"id": "C59", "title": "CONNECT frames carry what the caller asked for", "statement": "For any list of connect options, the CONNECT or STOMP frame carries exactly the host, heart-beats, login, passcode, accepted versions and custom headers asked for (the last option of a kind counts, versions and headers accumulate, defaults otherwise); options naming an unsupported version make Connect fail before anything is sent. The timeouts of the connection follow from the options and the server's answer: read timeout is the larger of the two plus the tolerance asked for (5 s by default), the write interval is the answer's less the tolerance.", "quantifier": "all option lists and remote hosts", "why_tests_cant": "unbounded option lists", "anchors": ["conn_options.go: newConnOptions, NewFrame, ConnOpt", "conn.go: ConnectWithContext"]}
{"id": "C60", "title": "A MESSAGE answers a SUBSCRIBE of that client", "statement": "Every MESSAGE the server writes to a connection carries a subscription id and a destination for which this connection had an accepted SUBSCRIBE before. (It need not be the SUBSCRIBE in force: an id given to another destination while a message is under way is a proved counterexample to the stronger reading.)", "quantifier": "all reachable states, any number of clients and any interleaving", "why_tests_cant": "needs unsubscription to overtake messages inside the server's channels", "anchors": ["server/client/conn.go: handleSubscribe, processLoop", "server/topic/topic.go", "server/queue/queue.go"]}
{"id": "C61", "title": "A client's frames take effect in the order it sent them", "statement": "Each connection handles frames in arrival order; the messages a client sends reach the processor in the order it sent them, none skipped or repeated, whatever other connections do; a topic subscriber is sent the messages of one sender in that sender's order.", "quantifier": "all reachable states, any number of clients and any interleaving", "why_tests_cant": "reordering would need a particular interleaving of several goroutines and channels", "anchors": ["server/client/conn.go: readLoop, processLoop, enqueue", "server/processor.go: Listen", "server/topic/topic.go"]}
{"id": "C62", "title": "Topic messages arrive completely and in order between subscription and unsubscription", "statement": "The MESSAGE frames written to a client under a topic subscription's id (used once) are, in order, without gaps, repetitions or strangers, an initial part of the messages to that topic the processor handled between that subscription and its unsubscription; they are all of them when the connection runs and nothing is under way. A topic subscription is requested once and dropped at most once.", "quantifier": "all reachable states, any number of clients, topics and messages", "why_tests_cant": "end-to-end over two goroutines and three channels", "anchors": ["server/processor.go: Listen", "server/topic/topic.go: Enqueue, Subscribe, Unsubscribe", "server/client/conn.go: SendTopic handling in processLoop"]}
{"id": "C63", "title": "A finished subscription is forgotten", "statement": "When a connection is gone, or has unsubscribed, and the processor has dealt with its requests, none of its subscriptions is left on the ready list of a queue or in the list of a topic.", "quantifier": "all reachable states, all topics and queues", "why_tests_cant": "the leftover needs an UNSUBSCRIBE and a SUBSCRIBE with the same id while a delivery is under way", "anchors": ["server/client/conn.go: cleanupConn, cleanupSubChannel, handleUnsubscribe", "server/processor.go", "server/queue/queue.go: Unsubscribe", "server/topic/topic.go: Unsubscribe"]}
{"id": "C64", "title": "No message waits while a subscriber could take it", "statement": "If a running connection has a live subscription to a queue, nothing is under way between it and the processor, and a message waits in that queue, then the subscription holds a message it has not acknowledged; with automatic acknowledgement nothing waits.", "quantifier": "all reachable states, any number of subscriptions", "why_tests_cant": "a lost wake-up shows up only in particular interleavings", "anchors": ["server/queue/queue.go: Subscribe, Enqueue, Requeue", "server/client/conn.go: processLoop, handleAck, handleNack", "server/processor.go: Listen"]}
{"id": "C65", "title": "The server refuses a frame exactly for a documented reason, and says which", "statement": "After any history of a connection, a client frame ends the session if and only if one of a fixed list of reasons applies to it (negotiation failure, frame before CONNECT, unexpected or unknown command, missing header, duplicate or unknown transaction, unparsable acknowledgement id, duplicate or unknown subscription id); at most one applies, and the ERROR frame written last carries the text of that reason. The only other way for a frame to end the session is a RECEIPT that cannot be written (not for DISCONNECT).", "quantifier": "all server configurations, all histories of one connection (client frames, broker input, failing writes), all frames", "why_tests_cant": "the set of refusals is over unboundedly many histories and arbitrary frames; tests sample a few errors and never show that nothing else is refused or that no refusal is missed", "anchors": ["server/client/conn.go:427-463", "server/client/conn.go:86-104", "server/client/conn.go:465-771", "server/client/errors.go", "server/client/tx_store.go"]}
{"id": "C66", "title": "A delivery is written once, and decides what is asked of the broker next", "statement": "A message handed to a queue subscription is returned unwritten if its id is not subscribed at that moment; otherwise it is written exactly once, unchanged except for message-id, id and ack. After a successful write an auto subscription drops the message and asks for exactly one more; a subscription with acknowledgement keeps it and asks for nothing. A failed write ends the connection. A topic message is written once and asks nothing of the broker.", "quantifier": "all histories of one connection, all subscription objects and messages, all write outcomes", "why_tests_cant": "a test sees one order of subscribe, unsubscribe and delivery; the statement is about every history and every failing write", "anchors": ["server/client/conn.go:204-222", "server/client/conn.go:246-312", "server/client/conn.go:408-424"]}
{"id": "C67", "title": "A peer that keeps transmitting is not given up", "statement": "A station that hears something (a frame or a heart-beat) at least once per read timeout does not end the connection for silence; a client and a server of this library whose heart-beats come within the negotiated intervals do not cut each other off.", "quantifier": "all read timeouts, all arrival times of bytes, all interleavings of the client's goroutines, any time spent in writes or on full channels", "why_tests_cant": "depends on exact arrival times, slow writes and races between an expired timer and a non-empty channel", "anchors": ["conn.go:306-361", "server/client/conn.go:112-180", "conn.go:212-234"]}
{"id": "C68", "title": "Bounded work", "statement": "In any run of the server the number of moves of its goroutines other than heart-beats is at most n*(13n+20)+20c, where n frames arrived from c clients; in particular, once the clients are silent only boundedly many moves are left, however the goroutines are scheduled.", "quantifier": "all runs of the whole server, any number of connections, frames and messages, all schedules", "why_tests_cant": "a message or subscription that goes round forever between a connection and the broker shows only in particular interleavings, and a test cannot tell a long run from an endless one", "anchors": ["server/client/conn.go: processLoop, cleanupConn, cleanupSubChannel", "server/processor.go: Listen", "server/queue/queue.go", "server/topic/topic.go"]}
{"id": "C69", "title": "Left alone, the server comes to rest with its work done", "statement": "From any state, without further input, the server's goroutines come to a stop (or one panics, which polite clients cannot cause). Then it is either in the deadlock of C47 or all requests are served, the connections of departed clients are cleaned up, no message waits in a queue with a connected subscriber that has nothing unacknowledged, topic subscribers have received everything sent during their subscription, and the messages sent to a queue are exactly those waiting, unacknowledged, finally delivered, failed in transmission or left in the channel of a closed connection.", "quantifier": "all reachable states of the whole server, all schedules", "why_tests_cant": "needs termination from every reachable state and an account of every message in the final state", "anchors": ["server/client/conn.go: processLoop, cleanupConn", "server/processor.go: Listen", "server/queue/queue.go", "server/topic/topic.go"]}
{"id": "C70", "title": "Bounded work of the client", "statement": "In any run of a client connection the number of moves of its goroutines, of its API calls and of the program's receives, heart-beats aside, is at most 25 per API call plus 4 per frame from the server plus 4; in particular after the last call and the last frame only boundedly many moves are left, however the goroutines are scheduled.", "quantifier": "all runs of a client connection, any number of concurrent API calls, frames and subscriptions, all schedules and timeouts", "why_tests_cant": "a request or response that goes round forever between goroutines shows only in particular interleavings, and a test cannot tell a long run from an endless one", "anchors": ["conn.go:306-461", "conn.go:477-694", "subscription.go:65-230"]}
{"id": "C71", "title": "Every API call returns", "statement": "If all timeouts are configured, the program receives from its subscriptions and no further input comes, then the client comes to rest (or panics), and then every API call has returned, every message received for a subscription has been handed to the program, and the connection is either open and idle or, if the server has gone, closed.", "quantifier": "all reachable states of a client connection, all schedules", "why_tests_cant": "termination from every reachable state of several goroutines; the exceptions need a full write channel together with a failing connection or a late receipt", "anchors": ["conn.go:306-461", "conn.go:477-523", "conn.go:534-694", "conn.go:697-761", "subscription.go:65-162"]}
{"id": "C72", "title": "Client and server together behave as their parts", "statement": "When clients of this library are connected to the server, each client and the server run as they do alone, with the timers the handshake negotiated; the frames a client has read are in order the first ones the server wrote to it, and the frames the server has read from a client are in order the first ones that client's calls asked for, all of them when nothing is on the way.", "quantifier": "any number of clients and other programs, all interleavings, failures of reads and writes at any byte", "why_tests_cant": "unit tests exercise each side against a scripted peer; that no frame is invented, lost or reordered between the two concurrent programs is a statement about all interleavings and all byte strings", "anchors": ["conn.go:100-302", "frame/reader.go", "frame/writer.go", "server/client/conn.go: readLoop, processLoop", "server/server.go: Serve"]}
{"id": "C73", "title": "A program receives only what a program sent", "statement": "Every message a Subscription hands to the program is a copy (body, and headers except those the server sets) of a SEND frame the server accepted, and if that came from a client of this library, one of its API calls asked for exactly that frame.", "quantifier": "all runs of any number of clients with the server", "why_tests_cant": "requires following a message through two clients, the server's connections, broker and channels under every interleaving", "anchors": ["conn.go: Send, Subscribe, processLoop", "subscription.go: readLoop", "server/client/conn.go", "server/processor.go", "server/topic/topic.go", "server/queue/queue.go"]}
{"id": "C74", "title": "Topic delivery from client to client", "statement": "The messages a program receives from its subscription to a topic are copies, in order and without gap or repetition, of the first messages the server's processor handled for that topic while the subscription was in force; when nothing is on the way and it was not unsubscribed, of all of them.", "quantifier": "all runs of any number of clients with the server; subscription made without a receipt header under an id no other call uses", "why_tests_cant": "order and completeness over arbitrary interleavings of both programs and all buffers between them", "anchors": ["conn.go: Subscribe, processLoop", "subscription.go: readLoop", "server/topic/topic.go: Enqueue", "server/client/conn.go: processLoop"]}
{"id": "C75", "title": "A call confirmed by a receipt has been carried out", "statement": "If a call that waits for a receipt returns nil, then the server has accepted its frame after everything the client wrote before it: a SEND outside a transaction has been passed to the broker; after Disconnect everything sent before has been accepted.", "quantifier": "all runs of any number of clients with the server; receipt id used by one call; no write of the server failed", "why_tests_cant": "the receipt must be matched with the right call through concurrent processing on both sides; a test sees only lucky orders", "anchors": ["conn.go: Send, sendFrame, Disconnect, processLoop", "server/client/conn.go: sendReceiptImmediately, handleSend, handleDisconnect"]}
{"id": "C76", "title": "Unsubscribe is confirmed", "statement": "Against this library's server, a call of Unsubscribe returns nil once the server has ended the subscription, and the server answers the receipt it asks for.", "quantifier": "all runs of a client with the server", "why_tests_cant": "client tests script the RECEIPT themselves, server tests never wait for it; only the two together show that it is missing", "anchors": ["subscription.go:65-116", "conn.go:426-443", "server/client/conn.go:640-657"]}
{"id": "C77", "title": "Left alone, clients and server come to rest", "statement": "When no program calls, connects or sends anything new, clients and server together do only finitely many things and, unless a goroutine panics, reach a state in which nothing happens any more without any timeout passing. Unless the server is deadlocked (C47), everything written on a working connection has then been read and handled by the other end, no client waits for the reply to CONNECT, and every topic subscriber has received exactly the messages handled for the topic while it was subscribed.", "quantifier": "all reachable states of any number of clients with the server, all schedules", "why_tests_cant": "termination and completeness of delivery over every interleaving of two concurrent programs; a test that waits long enough sees one of them", "anchors": ["conn.go:306-461", "subscription.go", "server/client/conn.go: readLoop, processLoop, cleanupConn", "server/processor.go"]}
{"id": "C78", "title": "Against this server every call returns", "statement": "When clients and server have come to rest on a working connection without any timeout, every API call has returned; a Send has returned nil unless it ran into a configured timeout before or the program disconnected, and a Send that returned nil outside a transaction has been passed to the broker.", "quantifier": "all runs of any number of clients with the server; receipt ids used by one call each", "why_tests_cant": "the answer of the server must find the waiting call through both programs under every schedule; client tests script the server", "anchors": ["conn.go: Send, sendFrame, Disconnect, processLoop", "server/client/conn.go: sendReceiptImmediately, processLoop", "subscription.go: Unsubscribe"]}
{"id": "C79", "title": "Read returns the subscription's messages once and in order", "statement": "However many goroutines call Subscription.Read, every message and error that leaves a subscription's channel is returned by exactly one call; with one Read at a time the calls return them in the order in which the server sent them, none lost, repeated or taken from another subscription. ErrCompletedSubscription is returned only once the subscription is no longer active and nothing is left to read, and no Read stays waiting after the connection has ended.", "quantifier": "for every number of subscriptions and Read calls, every interleaving of the Read calls with the connection's goroutines, other API calls, timeouts and the server", "why_tests_cant": "The state check and the channel receive are two steps; what happens between them, and what a finished subscription still holds, depends on the schedule.", "anchors": ["subscription.go: Active, Read, closeChannel, readLoop", "conn.go: processLoop"]}
{"id": "C80", "title": "A queue message is transmitted again only after it was given back", "statement": "Over all connections together, the server writes a message sent to a queue at most once more often than connections gave it back (by NACK, when it arrived for a subscription that had ended, or when the connection ended). A message that was acknowledged, written to an auto subscription or lost in a failed write is never written to anyone again.", "quantifier": "all reachable states of the server with any number of connections, all later runs", "why_tests_cant": "duplicates need particular races between delivery, acknowledgement, unsubscription and the end of connections", "anchors": ["server/client/conn.go: processLoop, cleanupConn", "server/processor.go", "server/queue/queue.go"]}
{"id": "C81", "title": "The error a program gets says why", "statement": "Against this server, an error made of an ERROR frame that Connect, an API call or a subscription hands to the program has as its text either one of the client's own reasons (connection closed, timeout, failed write) or exactly the reason for which the server refused a frame that this client had sent, the last one it took from it. When the server's ERROR ends the connection, every call that waits for its receipt returns that error, and it is the last thing every subscription yields.", "quantifier": "all reachable states of any number of clients with the server, all schedules; frames that are well-formed, receipt ids used by one call each", "why_tests_cant": "the text passes through the server's handlers, both codecs, the broadcast to an unordered map of channels and newError; which of several waiting goroutines gets it depends on the schedule", "anchors": ["errors.go: newError", "subscription.go: readLoop", "conn.go: Connect, processLoop, Send, sendFrame, Disconnect", "server/client/conn.go: sendErrorImmediately"]}
{"id": "C82", "title": "A queue message reaches one program", "statement": "All programs connected to the server together receive a message sent to a queue at most once more often than connections gave it back, and only if a client sent it. When clients and server have come to rest, every subscription to the queue is in auto mode and belongs to a program on a working connection that did not unsubscribe, and there is at least one, the programs have together received every message sent to the queue exactly once.", "quantifier": "all reachable states of any number of clients with the server, all schedules, any number of subscriptions per client; subscription ids used by one call each", "why_tests_cant": "which program gets which message depends on the schedule; a duplicate or a loss needs a race between delivery, acknowledgement and the end of a connection on one of several machines", "anchors": ["conn.go: processLoop, Subscribe, Send", "subscription.go: readLoop", "server/client/conn.go: processLoop, cleanupConn", "server/processor.go", "server/queue/queue.go"]}
{"id": "C83", "title": "What the client does with every frame", "statement": "A RECEIPT or MESSAGE frame the client reads is handed, before anything else, to the call waiting for this receipt or the subscription with this id, and to nobody if there is none; heart-beats, frames with other commands and MESSAGE frames without subscription header do nothing. The client ends a connection only when it reads an ERROR frame or a RECEIPT without receipt-id, when a write fails, the network connection ends, the program disconnects or the read timer expires; then every waiting call and every subscription gets the ERROR frame (the server's, or one with the reason), each exactly once, and nothing more is read or written.", "quantifier": "all reachable states of a client connection, any frames from the server, all schedules", "why_tests_cant": "needs all combinations of waiting calls, subscriptions and frames, including frames a correct server never sends", "anchors": ["conn.go: processLoop, sendError", "subscription.go: readLoop"]}
{"id": "C84", "title": "A program's frames are written once each and in its order", "statement": "Every frame a client writes after the handshake is the frame of one API call, unchanged except for the receipt header added to UNSUBSCRIBE; no call's frame is written twice. If one call had returned before another was made, its frame is never written after the other's. A call that returned ErrAlreadyClosed, a send timeout, an option's error or ErrCompletedSubscription never writes anything; a call that returned nil or a subscription has its frame written or waiting to be written.", "quantifier": "all reachable states and later runs, any number of goroutines using the connection", "why_tests_cant": "reordering or duplication needs particular schedules of the goroutines around the write channel and the timers", "anchors": ["conn.go: Send, sendFrame, Subscribe, processLoop", "subscription.go: Unsubscribe"]}
{"id": "C85", "title": "A subscription's channel shows its messages, then the error, then the end", "statement": "The channel C of a subscription carries, in order and without loss, the MESSAGE frames handed to the subscription, followed by the ERROR if it was told one (a reply-to subscription ended by the program gets an error of the client's own instead), and nothing else. C is closed after a RECEIPT or an ERROR or the end of a reply-to subscription and for no other reason; by then everything is on C and Active() is false. Once a client is at rest the program has received all of it and C is closed exactly in these cases; in particular, when a connection ends every subscription still in force receives the frame that ended it as its last item and then the end. Exempt are subscriptions whose Unsubscribe found the connection closed or timed out (C27).", "quantifier": "all reachable states, any number of subscriptions and calls, any reason for the end", "why_tests_cant": "the end of a subscription races with messages in flight, and an error lost or a channel left open blocks a receiver for ever", "anchors": ["subscription.go: readLoop, closeChannel, Unsubscribe", "conn.go: processLoop, sendError"]}
{"id": "C86", "title": "Queue messages keep their order", "statement": "As long as no message for a queue was given back to the server (by NACK, by unsubscribing or by a connection's end), each subscriber of the queue is sent messages in the order in which the server was asked to distribute them, so the messages of one sender in the order it sent them; a program that is the only subscriber receives the first ones without gap, and once everything is at rest (auto mode, working connection) all of them in order. A message that was given back may be overtaken.", "quantifier": "all reachable states of the server and of any number of clients with it, all schedules, any number of queues, subscriptions and senders", "why_tests_cant": "messages pass four channels and two lists with independent goroutines; reordering needs a particular schedule or several subscribers", "anchors": ["server/queue/queue.go", "server/processor.go", "server/client/conn.go: processLoop", "server/queue/memory_queue.go", "conn.go: processLoop", "subscription.go: readLoop"]}
{"id": "C87", "title": "Queue storages are interchangeable", "statement": "A server given its own queue storage, one whose Enqueue, Requeue and Dequeue act on each queue name as on an independent double-ended queue and do not fail, behaves exactly as a server with the in-memory storage: every state one server can be in (connections, channels, subscriptions, what was written to whom, crashes) the other can be in too, with the same messages waiting in each queue, step by step in both directions. In particular no message is lost or doubled in the storage.", "quantifier": "all storages keeping the contract (any state, any non-determinism), all schedules, any number of clients and queues", "why_tests_cant": "a test can try a few storages; that the server depends on nothing but the contract quantifies over all of them", "anchors": ["server/queue/queue.go", "server/queue/storage.go", "server/queue_storage.go", "server/processor.go: newRequestProcessor, Serve", "server/queue/memory_queue.go"]}
{"id": "C88", "title": "Storage failures are not silent", "statement": "If a queue storage returns an error, no message is lost and no subscriber is forgotten without somebody being told. Storage calls name queues only, store a message under the destination it was sent to, and Start is called before any other.", "quantifier": "all storages that may fail, all schedules", "why_tests_cant": "needs a storage failing at a particular call while messages and subscribers are in particular states", "anchors": ["server/processor.go: Serve", "server/queue/queue.go: Subscribe, Enqueue, Requeue", "server/queue_storage.go"]}
{"id": "C89", "title": "Connection statistics add up", "statement": "With WithStats, WritesSent is at every moment the number of frames given to the network connection, plus those kept in the client because of reply-to, plus those in the write channel, plus the calls waiting for room in it, plus the calls that gave up waiting; so once all calls have returned without a send timeout it is the number of frames sent. ReadsReceived is the number of frames and heart-beats processed, plus those in the read channel, plus the one just read. The channel sizes reported never exceed the capacities. Without WithStats both counters stay 0, and counting never changes what the connection does. (That WritesSent is always the number of frames sent is false: a message given up at the write channel is counted.)", "quantifier": "all reachable states, any number of concurrent calls, any schedule, any capacities", "why_tests_cant": "the counters are updated far from where frames are sent; a miscount on a rare path (timeout, closed connection, reply-to) shows only as a wrong number", "anchors": ["conn.go: Stats, readLoop, Disconnect, Send, sendFrame, Subscribe", "conn_options.go: WithStats"]}
{"id": "C90", "title": "Dial and Connect do one handshake and leave nothing behind", "statement": "Connect writes exactly one frame, the CONNECT (or STOMP) frame made of its options, then reads exactly one; it returns a connection, and starts its goroutines, if and only if that frame is an acceptable CONNECTED; otherwise it returns the reason. Without a Host option the host header is the host part of the peer's address (also of the form [IPv6]:port), else default; Dial does the same with the connection it made, and an unparsable peer address ends it. A deadline of the context limits the wait for the reply and is lifted before the connection is used. If Dial fails, the network connection it made is closed, and the deadline limits everything Dial waits for.", "quantifier": "all options, all replies and read errors, all write failures, all peer addresses, at every point of the run", "why_tests_cant": "connection leaks and unlimited waits appear only if the peer is silent, slow or refuses at particular points; addresses range over all strings", "anchors": ["stomp.go: Connect, ConnectWithContext, Dial, DialWithContext", "conn.go: Dial, DialWithContext, Connect, ConnectWithContext", "conn_options.go: newConnOptions, NewFrame"]}
{"id": "C91", "title": "Tuning options take effect", "statement": "A connection runs with what its options asked for. Of each kind of option the last one counts. Channel capacities and buffer sizes that are not positive mean the default (20 and 4096 bytes), so both channels always have room; the timeout of Send, of receipts and of Disconnect exists exactly if its duration is positive, that of Unsubscribe exactly if it is not zero, and by default all four do; statistics are kept exactly with WithStats. The last ResponseHeaders callback is called once, with the headers of the CONNECTED frame, before the connection's goroutines start, and never if the connection fails. The only option that can be refused is AcceptVersion with an unsupported version, and then nothing is written.", "quantifier": "all lists of options, all replies", "why_tests_cant": "option lists are unbounded, and an option that is silently ignored only shows in memory use or timing", "anchors": ["conn_options.go: newConnOptions, init", "conn.go: ConnectWithContext"]}
{"id": "C92", "title": "A transaction is invisible to others until it is committed, and then complete", "statement": "No client of the server is ever written, and no program ever receives, a message that was sent inside a transaction unless that transaction was committed afterwards, by the same connection, without an ABORT in between; if the sender is a client of this library, one of its calls asked for that COMMIT. A message of a transaction that is aborted, left open or lost with its connection never leaves its connection. The messages of a committed transaction stand together and in order among the messages of that client that the processor is given. If a Commit with receipt returns nil, everything the program had written in that transaction since BEGIN has been passed on, and for a Transaction object that is exactly what its Send calls sent.", "quantifier": "all reachable states of any number of clients and one server, all interleavings of transactions and connections, all frames", "why_tests_cant": "atomicity towards other clients depends on where all connections are at the moment of COMMIT, ABORT or connection loss; tests see single schedules", "anchors": ["transaction.go", "server/client/tx_store.go", "server/client/conn.go: handleBegin, handleCommit, handleAbort, handleSend, cleanupConn", "server/processor.go", "conn.go: sendFrame"]}
{"id": "C93", "title": "What a Transaction object sends on a running connection", "statement": "Every frame a Transaction method hands to the connection has that method's command and carries the transaction's name, and is written only after the transaction's BEGIN was written, also if Begin's error was ignored. The names of a program's transactions differ. A method called after a Commit or Abort returned nil sends nothing and returns ErrCompletedTransaction. At most one COMMIT or ABORT of a transaction is ever written, and it is the last frame of the transaction, so that the server holds, at the COMMIT, exactly what the Send, Ack and Nack calls wrote.", "quantifier": "all reachable states of a connection used by any number of goroutines and transactions, any schedule, timeouts and failures included", "why_tests_cant": "completed is an unsynchronised flag that is only set after sendFrame returned; whether two methods pass it depends on schedule and on receipt timeouts", "anchors": ["transaction.go", "conn.go: Begin, BeginWithError, sendFrame, createSendFrame, createAckNackFrame"]}
{"id": "C94", "title": "A frame that was read keeps its contents", "statement": "A frame returned by Reader.Read shows for ever what was encoded in the stream: command, headers and body, in the order of the stream. No later Read, of this reader or another, changes it, although readers reuse their buffers and header strings are made from byte slices without copying. The body belongs to the program: writing into it changes exactly the bytes written, of that frame only, and no later Read. A reader fails only at bytes that begin with no frame and no heart-beat.", "quantifier": "all byte streams in all divisions into network reads, all buffer sizes, any number of readers, all sequences of Reads and of writes into bodies", "why_tests_cant": "aliasing shows only if a later Read happens to overwrite the part of the buffer a frame still points to, which depends on sizes and packetisation", "anchors": ["frame/reader.go: Read, readLine", "frame/encode.go: bytesToString, unencodeValue"]}
{"id": "C95", "title": "Bodies passed to Send", "statement": "A SEND frame is written with the body the slice had when Send or Transaction.Send was called, even if the program stores into the slice afterwards. (False of the code after a nil return without a receipt, and after a receipt timeout: the slice is not copied and is read when the frame is written, so the changed, or a partly changed, body is sent.) It holds if the program stores only after the call returned an error that says that nothing was sent, or after that call, or a call made after it returned, got its receipt or an ERROR. Whatever the program does, frames are written in the order processLoop took them, with command and header as called and a body of the same length.", "quantifier": "all client schedules, any number of slices and calls, stores at any moment including between two bytes of a write", "why_tests_cant": "the slice is read by another goroutine at a time that depends on the write channel and the network; a store shows only if it falls between call and write", "anchors": ["conn.go: Send, createSendFrame, sendFrame, processLoop", "transaction.go: Send", "frame/writer.go: Write"]}
{"id": "C96", "title": "Calls of different programs, one after the other", "statement": "If a call returned before another call was made, by the same or by another program, the server acts on their frames in that order: messages are distributed and reach queue consumers in that order, and a subscriber gets what is sent after its Subscribe returned. (False of the code between programs: the server writes RECEIPT before it passes the message on, so a Send that was confirmed can be overtaken by another program's later Send, and Subscribe returns before the server knows of it.) It holds between calls of one program, and between programs if the first one made another call after the first had returned, and that call was confirmed by a receipt before the second program called: everything of the earlier calls is then in the hands of the server's processor.", "quantifier": "all configurations, any number of programs, all runs in which connections and processes may fail, any two calls", "why_tests_cant": "the order shows only across processes and depends on which of two connection goroutines reaches the request channel first", "anchors": ["server/client/conn.go: processLoop, sendReceiptImmediately, handleSend, handleSubscribe", "server/processor.go: Serve", "conn.go: Send, Subscribe, Disconnect"]}
{"id": "C97", "title": "Frames sent before the connection is closed are handled", "statement": "The server gives up a session for one of three reasons: nothing more can be read and all that was read has been handled, a frame was refused, or a write to the client failed. So every frame a client wrote before it closed its connection, and that arrived, is handled in order, and exactly its messages reach the processor, also if the client did not wait for receipts. (False of the code if a write to the client fails first, as it may once the client has closed: frames already read are then dropped. And a program that calls MustDisconnect after Send returned nil may lose the message before it is written.)", "quantifier": "all reachable states of server and clients, all interleavings of reading, processing, deliveries to the closing client, and failures", "why_tests_cant": "whether a delivery to a client that is closing is attempted before or after the frames still in the read channel is a race of a select statement", "anchors": ["server/client/conn.go: readLoop, processLoop, cleanupConn, sendErrorImmediately", "conn.go: Send, MustDisconnect, processLoop"]}
{"id": "C98", "title": "The goroutines of a connection end with it", "statement": "When processLoop of a connection has returned and the connection is closed, its readLoop returns too, on the server and in the client, and nothing is kept of the frames it read. (False of the code: readLoop's send into the read channel has no alternative. It stays for ever, with the frames, exactly if one frame more than the channel holds has been read and not taken; this can be brought about for any number of connections without logging in, with any frames.) If fewer frames are left over, at most two steps of readLoop itself end it, which nothing can hold up, and it never keeps more than capacity plus one frames.", "quantifier": "all reachable states of the server with any number of connections and of the client, every continuation of every run", "why_tests_cant": "a goroutine that stays behind has no visible effect; it needs a certain number of frames in flight at the moment processLoop gives up", "anchors": ["server/client/conn.go: readLoop, processLoop, cleanupConn", "conn.go: readLoop, processLoop"]}
{"id": "C99", "title": "Calls keep to their timeouts", "statement": "A call that reports a timeout has lasted at least that long: ErrMsgSendTimeout msgSendTimeout, ErrMsgReceiptTimeout rcvReceiptTimeout, ErrDisconnectReceiptTimeout and ErrUnsubscribeReceiptTimeout theirs. With all timeouts set a Send lasts at most msgSendTimeout plus, if it asks for a receipt, rcvReceiptTimeout, whatever server, network and the other goroutines do. (False of the code: the timer is started after closeMutex was taken, which is held by other calls: k Sends that wait last k times as long, and behind a Subscribe or Ack that finds the write channel full there is no limit.) As long as no call other than Send waits for room in the write channel, a call other than Unsubscribe lasts at most the sum of what the Sends and Disconnects in progress at the same time may use, itself included, plus writeTimeout for Ack, Nack and Begin with a receipt; without other calls just its own timeouts.", "quantifier": "all schedules of the client, any number of concurrent calls of all kinds, all durations, a network that may stall for any time", "why_tests_cant": "needs a stalled connection, a full write channel and several callers at once, and measures time", "anchors": ["conn.go: Send, sendDataToWriteChWithTimeout, readReceiptWithTimeout, sendFrame, Subscribe, Disconnect", "subscription.go: Unsubscribe, waitWithTimeout"]}
{"id": "C100", "title": "The example program does what it checks", "statement": "Run against this server, on a queue nobody else uses, the receiver of examples/client_test reads exactly the texts Message #1 to Message #n in this order, whatever the schedule, and the program ends. (False of the code if a connection is lost or was not made: the receiver then compares an error message and dereferences nil from the closed channel, or main waits for ever.) As far as it reads messages that are no errors, the i-th one is always the i-th text, also after a loss; an error message is the last thing it reads; if both connections work when nothing is left to do, it has read all of them, unless a Send reported a timeout; and there is no endless run.", "quantifier": "all message counts below 2^63, all queue names, all configurations of the server, all interleavings of the two goroutines, the two clients, the network and the server, failures of connections at any point", "why_tests_cant": "the example is itself such a test, of one schedule", "anchors": ["examples/client_test/main.go: main, sendMessages, recvMessages"]}
{"id": "C101", "title": "The answers to a client depend only on its own frames", "statement": "What the server writes to a client other than messages and heart-beats (CONNECTED, RECEIPT, ERROR), which messages it publishes for it, with headers and bodies, when it ends the session over a frame and which of its subscription ids are live is determined by the frames of this client it has handled: two connections on which the same frames were handled agree in all of this, and if the frames of one are the start of those of the other so are the answers and the publications, provided the RECEIPTs could be written. Other clients, deliveries, the order of events and the number of the connection make no difference.", "quantifier": "all pairs of reachable states of servers with the same configuration, any number of other connections, all schedules, all frame sequences", "why_tests_cant": "relates any two runs; a test compares a few", "anchors": ["server/client/conn.go: processLoop, stateFunc, handleConnect, handleBegin, handleCommit, handleAbort, handleSend, handleSubscribe, handleUnsubscribe, handleAck, handleNack, sendReceiptImmediately, sendErrorImmediately", "server/client/tx_store.go"]}
{"id": "C102", "title": "A refused call changes nothing", "statement": "When Send, Subscribe or Unsubscribe returns ErrAlreadyClosed, the error of one of its options or ErrCompletedSubscription, the connection, its subscriptions and all other calls are as they were, so the call can be repeated with better arguments. (False of Unsubscribe with a bad option: the subscription is left inactive for ever, no later Unsubscribe of it does anything, and its messages keep arriving.)", "quantifier": "all reachable states of a client connection, all calls, all schedules, all later behaviour", "why_tests_cant": "a test looks at one state and at the parts it thinks of; this compares whole states in every schedule and speaks about all later calls", "anchors": ["conn.go: Send, createSendFrame, Subscribe", "subscription.go: Unsubscribe, Active"]}
{"id": "C103", "title": "Waiting for one's turn is bounded while input keeps arriving", "statement": "A request waiting for the server's processor with k others before it (k < 128) is the one served at the processor's (k+1)-th turn, and moves up by one at each turn before, whatever clients connect, send or disconnect meanwhile; between two turns the processor makes at most one channel send per subscription ever made, so the wait is bounded in its own steps. The same holds for what waits in each of the three channels of a connection (k < 16), counted in turns of its loop at that channel, as long as the connection is not being closed.", "quantifier": "all reachable states, all runs from them with any number of inputs, all positions in the channels", "why_tests_cant": "no finite test exhausts what may arrive while something waits", "anchors": ["server/processor.go: Serve", "server/client/subscription.go: SendQueueFrame, SendTopicFrame", "server/client/conn.go: readLoop, processLoop"]}
{"id": "C104", "title": "A destination nobody uses is forgotten", "statement": "With all clients gone, every request handled and nothing waiting, the server keeps nothing for any destination. (False: it has an object for every destination a client ever subscribed to or sent an accepted message to, and for no other; none is ever given up; one client can make it keep any number of them.)", "quantifier": "all reachable states, all runs, all lists of destinations", "why_tests_cant": "a leak shows only after many destinations, and no test can show that none is ever given up", "anchors": ["server/queue/manager.go: Find", "server/topic/manager.go: Find", "server/processor.go: Serve"]}
{"id": "C105", "title": "The grace period only ever lengthens the read timeout", "statement": "The client's read timer is its read timeout times HeartBeatGracePeriodMultiplier, to within the rounding of the product to a float64 and less than a nanosecond, and exactly the read timeout for the default 1.0. With any multiplier the option accepts, the client gives up on its server only when it has heard nothing for its read timeout. (The last part holds for multipliers of at least 1; the option also accepts smaller ones, 0 and negative ones, and ones whose product is no Duration.)", "quantifier": "all read timeouts below 2^53 ns (2^63 with an error of 512 ns), all finite float64 multipliers, all runs of the client", "why_tests_cant": "there are 2^64 multipliers, and a rounding error shows for few of them", "anchors": ["conn.go: processLoop", "conn_options.go: HeartBeatGracePeriodMultiplier, newConnOptions"]}
{"id": "C106", "title": "A silent peer is given up", "statement": "A client with read timeout R gives up at the latest R after it last heard something; what it sends itself does not put this off. A server gives up on a client from which nothing arrives within twice the read timeout that the client's CONNECT frame promises. (False in full: the client's loop does not look at its timer while a Write is in progress, so the bound is R plus the time the loop was held up; the server has no read deadline at all until a CONNECT frame is complete.)", "quantifier": "all runs of the client with all timings; all byte streams with all arrival times at the server", "why_tests_cant": "dead peers have to be simulated with real time, and only a few timings can be tried", "anchors": ["conn.go: processLoop", "server/client/conn.go: readLoop"]}
