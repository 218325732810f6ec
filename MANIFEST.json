{
 "claims": [
  {
   "property": "C01",
   "status": "proved",
   "theorems": [
    "C01_round_trip"
   ],
   "note": "Writer over bufio.Writer (any buffer size) and Reader over bufio.Reader (any buffer size, any cutting of the bytes)."
  },
  {
   "property": "C02",
   "status": "proved",
   "theorems": [
    "C02_packetisation_independence"
   ],
   "note": "Connection reads return at least one byte or an error."
  },
  {
   "property": "C03",
   "status": "proved",
   "theorems": [
    "C03_reader_grammar",
    "C03_grammar_unambiguous"
   ],
   "note": "Iff with the inductive grammar of GrammarSpec."
  },
  {
   "property": "C04",
   "status": "proved",
   "theorems": [
    "C04_truncation"
   ],
   "note": "The error is the connection error; complete items before the cut are delivered."
  },
  {
   "property": "C05",
   "status": "proved",
   "theorems": [
    "C05_crash_points"
   ],
   "note": "Arbitrary script of results of the connection Write calls."
  },
  {
   "property": "C06",
   "status": "proved",
   "theorems": [
    "C06_escaping"
   ],
   "note": ""
  },
  {
   "property": "C07",
   "status": "proved",
   "theorems": [
    "C07_total_progress"
   ],
   "note": "Memory exhaustion by a huge content-length is not modelled; 64-bit int."
  },
  {
   "property": "C08",
   "status": "proved",
   "theorems": [
    "C08_relay"
   ],
   "note": ""
  },
  {
   "property": "C09",
   "status": "proved",
   "theorems": [
    "C09_ordered_multimap",
    "C09_spec_deterministic",
    "C09_new"
   ],
   "note": "Flat slice representation refines the list of entries."
  },
  {
   "property": "C10",
   "status": "proved",
   "theorems": [
    "C10_content_length"
   ],
   "note": ""
  },
  {
   "property": "C11",
   "status": "proved",
   "theorems": [
    "C11_heart_beat_text"
   ],
   "note": ""
  },
  {
   "property": "C13",
   "status": "proved",
   "theorems": [
    "C13_send_frame",
    "C13_send_frame_received"
   ],
   "note": "Bodies below 2^32 bytes (the reader refuses larger content-length)."
  },
  {
   "property": "C14",
   "status": "proved",
   "theorems": [
    "C14_connect_reply"
   ],
   "note": ""
  },
  {
   "property": "C15",
   "status": "partial",
   "theorems": [
    "C15_heart_beat_safety_partial",
    "C15_sub_millisecond_refuted"
   ],
   "note": "The full statement is false for a client HeartBeat option whose receive interval is strictly between 0 and 1 ms (refutation proved); proved for all other options."
  },
  {
   "property": "C16",
   "status": "partial",
   "theorems": [
    "C16_no_timeout_partial",
    "C16_declined_heart_beats_refuted"
   ],
   "note": "The statement is false of the code: the client arms a read timeout although the server announced 0. Proved: which replies do leave the timeout unarmed."
  },
  {
   "property": "C17",
   "status": "proved",
   "theorems": [
    "C17_ack_nack"
   ],
   "note": ""
  },
  {
   "property": "C18",
   "status": "proved",
   "theorems": [
    "C18_transaction_once",
    "C18_operation",
    "C18_begin"
   ],
   "note": "Operations on one Transaction are sequential (the type is not documented as concurrent); any pattern of send failures."
  },
  {
   "property": "C19",
   "status": "proved",
   "theorems": [
    "C19_unique_ids"
   ],
   "note": ""
  },
  {
   "property": "C20",
   "status": "proved",
   "theorems": [
    "C20_message_reads"
   ],
   "note": ""
  },
  {
   "property": "C30",
   "status": "proved",
   "theorems": [
    "C30_highest_version",
    "C30_session_established"
   ],
   "note": ""
  },
  {
   "property": "C31",
   "status": "proved",
   "theorems": [
    "C31_heart_beat_text",
    "C31_heart_beats_used"
   ],
   "note": ""
  },
  {
   "property": "C55",
   "status": "proved",
   "theorems": [
    "C55_handshake"
   ],
   "note": ""
  },
  {
   "property": "C56",
   "status": "partial",
   "theorems": [
    "C56_unoffered_version_refuted",
    "C14_connect_reply"
   ],
   "note": "False of the code: the client does not compare the reply with its offer. C14 shows that the version is at least a supported one."
  },
  {
   "property": "C57",
   "status": "proved",
   "theorems": [
    "C57_subscribe_frame"
   ],
   "note": ""
  },
  {
   "property": "C12",
   "status": "proved",
   "theorems": [
    "C12_clone_independent",
    "C12_topic_copies"
   ],
   "note": "Memory model with shared backing arrays: a clone (and each topic copy) is affected only by operations on itself."
  },
  {
   "property": "C36",
   "status": "proved",
   "theorems": [
    "C36_queue_fifo",
    "C36_queue_step"
   ],
   "note": "Over every history of requests handled by the broker loop."
  },
  {
   "property": "C39",
   "status": "proved",
   "theorems": [
    "C39_topic_exact",
    "C39_no_replay"
   ],
   "note": "NoDup premise: a subscription object is submitted to a topic at most once (what conn.go does)."
  },
  {
   "property": "C40",
   "status": "proved",
   "theorems": [
    "C40_right_place",
    "C40_isolated"
   ],
   "note": ""
  },
  {
   "property": "C52",
   "status": "proved",
   "theorems": [
    "C52_listen",
    "C52_bounds",
    "C52_return"
   ],
   "note": ""
  },
  {
   "property": "C54",
   "status": "proved",
   "theorems": [
    "C54_storage_deques"
   ],
   "note": ""
  },
  {
   "property": "C32",
   "status": "proved",
   "theorems": [
    "C32_connect_first"
   ],
   "note": "Every history of a server connection with arbitrary client, broker and network."
  },
  {
   "property": "C33",
   "status": "proved",
   "theorems": [
    "C33_one_error",
    "C33_error_last"
   ],
   "note": ""
  },
  {
   "property": "C34",
   "status": "partial",
   "theorems": [
    "C34_receipts_partial",
    "C34_subscribe_receipt_refuted"
   ],
   "note": "False of the code for SUBSCRIBE and UNSUBSCRIBE, whose receipts are never sent (refutation proved). Proved exactly for all other commands."
  },
  {
   "property": "C35",
   "status": "proved",
   "theorems": [
    "C35_no_early_effect",
    "C35_transaction_waits",
    "C35_commit_all",
    "C35_names"
   ],
   "note": ""
  },
  {
   "property": "C41",
   "status": "partial",
   "theorems": [
    "C41_released_partial",
    "C41_individual_ack_refuted",
    "C41_client_ack_refuted"
   ],
   "note": "False of the code (Subscription.msgId is never assigned); refutations proved, with an exact description of what ACK and NACK do."
  },
  {
   "property": "C43",
   "status": "proved",
   "theorems": [
    "C43_message_ids",
    "C43_ack_header"
   ],
   "note": "Below 2^64 messages per connection."
  },
  {
   "property": "C50",
   "status": "partial",
   "theorems": [
    "C50_disconnect_partial",
    "C50_more_after_disconnect_refuted"
   ],
   "note": "False of the code: the connection goes on after DISCONNECT (refutation proved)."
  },
  {
   "property": "C53",
   "status": "proved",
   "theorems": [
    "C53_subscribe",
    "C53_unsubscribe",
    "C53_refused",
    "C53_object"
   ],
   "note": ""
  },
  {
   "property": "C37",
   "status": "proved",
   "theorems": [
    "C37_conservation",
    "C37_sent_once",
    "C37_one_place",
    "C37_not_invented",
    "C37_finished"
   ],
   "note": "Whole-server interleaving model with any number of connections."
  },
  {
   "property": "C38",
   "status": "partial",
   "theorems": [
    "C38_given_back_partial",
    "C38_unacknowledged",
    "C38_refuted"
   ],
   "note": "False of the code (a message whose write fails, and one the processor hands to a connection whose cleanup has ended, are lost: refutation proved). Proved: everything with the connection when its processing loop has ended goes back to the processor."
  },
  {
   "property": "C42",
   "status": "partial",
   "theorems": [
    "C42_causes_partial",
    "C42_polite_partial",
    "C42_refuted"
   ],
   "note": "False of the code in three ways (refutation proved). Proved: these are the only causes, and clients that avoid them never crash the server."
  },
  {
   "property": "C44",
   "status": "proved",
   "theorems": [
    "C44_transmit",
    "C44_assign",
    "C44_no_pending_panic"
   ],
   "note": ""
  },
  {
   "property": "C46",
   "status": "partial",
   "theorems": [
    "C46_front_partial",
    "C46_refuted"
   ],
   "note": "False of the code: several returned messages come back reversed (refutation proved). Proved: they do come before all waiting ones."
  },
  {
   "property": "C47",
   "status": "partial",
   "theorems": [
    "C47_only_then_partial",
    "C47_refuted"
   ],
   "note": "False of the code in two ways (refutation proved). Proved: every deadlock is one of these two."
  },
  {
   "property": "C49",
   "status": "proved",
   "theorems": [
    "C49_unsubscribed",
    "C49_dead_id"
   ],
   "note": ""
  },
  {
   "property": "C21",
   "status": "partial",
   "theorems": [
    "C21_messages_partial",
    "C21_refuted"
   ],
   "note": "Proved exactly (every schedule) for SUBSCRIBE frames without a receipt header and names used by no other call; with a receipt header the RECEIPT ends the subscription and the next message crashes processLoop (refutation proved)."
  },
  {
   "property": "C22",
   "status": "proved",
   "theorems": [
    "C22_receipt"
   ],
   "note": "Every interleaving of the client model."
  },
  {
   "property": "C23",
   "status": "proved",
   "theorems": [
    "C23_write_channel"
   ],
   "note": ""
  },
  {
   "property": "C24",
   "status": "proved",
   "theorems": [
    "C24_stays_closed",
    "C24_returns"
   ],
   "note": "Disconnect that timed out counts as well."
  },
  {
   "property": "C25",
   "status": "partial",
   "theorems": [
    "C25_told_partial",
    "C25_subscriptions_partial",
    "C25_waiters_partial",
    "C25_refuted"
   ],
   "note": "False of the code for requests still in the write channel when processLoop ends (refutation proved). Proved for all requests processLoop has taken."
  },
  {
   "property": "C26",
   "status": "partial",
   "theorems": [
    "C26_progress_partial",
    "C26_no_timeouts_partial",
    "C26_refuted"
   ],
   "note": "False of the code: a late receipt blocks processLoop for ever (refutation proved). Proved: a call that gave up by timeout is the only cause."
  },
  {
   "property": "C27",
   "status": "partial",
   "theorems": [
    "C27_closed_once",
    "C27_late_sends_partial",
    "C27_error_last_partial",
    "C27_refuted"
   ],
   "note": "Closed at most once: proved. Sends after close and messages after the error exist (refutation proved); proved: only with an Unsubscribe call on a closed connection or one whose timeout expired."
  },
  {
   "property": "C28",
   "status": "partial",
   "theorems": [
    "C28_wakes_partial",
    "C28_refuted"
   ],
   "note": "False of the code: lost wake-up between loading the state and registering on the condition (refutation proved). Proved for calls that wait when C is closed."
  },
  {
   "property": "C29",
   "status": "partial",
   "theorems": [
    "C29_named_partial",
    "C29_refuted"
   ],
   "note": "False of the code: one map for all identifiers (refutation proved). Proved: frames only reach calls that use their name."
  },
  {
   "property": "C58",
   "status": "partial",
   "theorems": [
    "C58_crashes_partial",
    "C58_no_unsubscribe",
    "C58_refuted"
   ],
   "note": "False of the code (refutation proved). Proved: the only crash without receipts on SUBSCRIBE is a send on a closed C next to an Unsubscribe call; none without Unsubscribe."
  },
  {
   "property": "C45",
   "status": "partial",
   "theorems": [
    "C45_accepted_partial",
    "C45_built_partial",
    "C45_always_rejected",
    "C45_refuted"
   ],
   "note": "False of the code: with version 1.2 the client sends an id header the server does not look at, so every 1.2 ACK/NACK ends the connection (refutation and the general negative statement proved). Proved for 1.0 and 1.1."
  },
  {
   "property": "C48",
   "status": "partial",
   "theorems": [
    "C48_relayed",
    "C48_end_to_end_partial",
    "C48_refuted"
   ],
   "note": "Through client call, wire codec, server handling, wire codec and client message. False in full: a Header option with an empty key, or a body of 2^32 bytes and more, makes a frame the other side cannot read (refutation proved for the empty key)."
  },
  {
   "property": "C51",
   "status": "partial",
   "theorems": [
    "C51_server_partial",
    "C51_server_now_partial",
    "C51_client_partial",
    "C51_client_now_partial",
    "C51_refuted_client_reply",
    "C51_refuted_client_slow",
    "C51_refuted_server"
   ],
   "note": "False of the code: both timers are restarted by events that transmit nothing, and the client does not beat while its program is slow (refutations proved). Proved: the exact bound, one more interval per such event plus the time the loop was blocked."
  },
  {
   "property": "C59",
   "status": "proved",
   "theorems": [
    "C59_connect_frame",
    "C59_timeouts"
   ],
   "note": ""
  },
  {
   "property": "C60",
   "status": "proved",
   "theorems": [
    "C60_subscribed",
    "C60_latest_refuted"
   ],
   "note": "The stronger reading, that the SUBSCRIBE is the one in force, is false (refutation proved)."
  },
  {
   "property": "C61",
   "status": "proved",
   "theorems": [
    "C61_frames",
    "C61_processor",
    "C61_topic"
   ],
   "note": ""
  },
  {
   "property": "C62",
   "status": "proved",
   "theorems": [
    "C62_topic_end_to_end",
    "C62_once"
   ],
   "note": ""
  },
  {
   "property": "C63",
   "status": "partial",
   "theorems": [
    "C63_told",
    "C63_dropped_partial",
    "C63_unsubscribed_partial",
    "C63_refuted"
   ],
   "note": "False of the code when an id is used again while a message for it is under way (refutation proved, with a lost message). Proved: the processor is always told, and every subscription is dropped except an automatically acknowledged one to a queue whose id was used again."
  },
  {
   "property": "C64",
   "status": "proved",
   "theorems": [
    "C64_work_conserved",
    "C64_auto"
   ],
   "note": ""
  },
  {
   "property": "C65",
   "status": "proved",
   "theorems": [
    "C65_reason",
    "C65_unique",
    "C65_failed_receipt"
   ],
   "note": "Reasons are an independent inductive list over the frame and the frames accepted before. The text of strconv errors is abbreviated."
  },
  {
   "property": "C66",
   "status": "proved",
   "theorems": [
    "C66_delivery",
    "C66_topic"
   ],
   "note": ""
  },
  {
   "property": "C67",
   "status": "partial",
   "theorems": [
    "C67_client_partial",
    "C67_server_partial",
    "C67_item",
    "C67_server_with_client_partial",
    "C67_client_with_server_partial",
    "C67_refuted_client",
    "C67_refuted_server"
   ],
   "note": "False of the code in two cases (both refutations proved): heart-beats waiting in readCh while a Write of the client is slow, and a frame that arrives slowly at the server, whose deadline is for the whole frame. Proved: the client gives up only after a full timeout without hearing anything, or on coming out of a slow Write; the server only if a whole item is complete more than two timeouts after the one before."
  },
  {
   "property": "C68",
   "status": "proved",
   "theorems": [
    "C68_bounded",
    "C68_silence"
   ],
   "note": "A potential function over all channels, lists and stored transactions; heart-beats (the only thing a running connection can do for ever) are not counted."
  },
  {
   "property": "C69",
   "status": "proved",
   "theorems": [
    "C69_settles",
    "C69_polite",
    "C69_rest",
    "C69_queue",
    "C69_topic",
    "C69_accounted"
   ],
   "note": "The exceptions in the statement are real: C42 (panics), C47 (deadlock), C38 (messages left in or failed on a closed connection)."
  },
  {
   "property": "C70",
   "status": "proved",
   "theorems": [
    "C70_bounded",
    "C70_silence"
   ],
   "note": "A potential function over the calls, subscriptions, channels and the table of processLoop; heart-beats are not counted."
  },
  {
   "property": "C71",
   "status": "partial",
   "theorems": [
    "C71_settles",
    "C71_rest_partial",
    "C71_returns_partial",
    "C71_hang_partial",
    "C71_messages_partial",
    "C71_closes_partial",
    "C71_refuted",
    "C71_hang_refuted"
   ],
   "note": "False as stated: Subscribe, Disconnect and the calls through sendFrame wait for room in writeCh without a timeout and with closeMutex held. If the connection fails meanwhile, processLoop waits for that mutex in its deferred MustDisconnect and nothing reads writeCh: both hang for ever (C71_refuted). The same after a late receipt (C71_hang_refuted). The partial theorems show that these are the only ways."
  },
  {
   "property": "C72",
   "status": "partial",
   "theorems": [
    "C72_parts",
    "C72_from_server",
    "C72_to_server_partial",
    "C72_calls",
    "C72_refuted"
   ],
   "note": "Towards the server it holds for calls that ask for frames the codec can carry (C48 says which do). False in general: NoContentLength with a NUL byte in the body makes the server read frames nobody sent (C72_refuted)."
  },
  {
   "property": "C73",
   "status": "proved",
   "theorems": [
    "C73_origin"
   ],
   "note": "The last part assumes that the sending client asked for frames the codec can carry (see C72)."
  },
  {
   "property": "C74",
   "status": "proved",
   "theorems": [
    "C74_topic",
    "C74_object"
   ],
   "note": "For the positions of the subscription in the history of the processor; SUBSCRIBE with a receipt header is C21/C58."
  },
  {
   "property": "C75",
   "status": "partial",
   "theorems": [
    "C75_handled_partial",
    "C75_send",
    "C75_disconnect",
    "C75_refuted"
   ],
   "note": "Proved for SEND outside a transaction and for Disconnect. In general false: the server writes the receipt before it checks the transaction (C75_refuted); what holds for every such call is that the server has handled its frame in order (C75_handled_partial)."
  },
  {
   "property": "C76",
   "status": "partial",
   "theorems": [
    "C76_receipts_partial",
    "C76_unconfirmed",
    "C76_refuted"
   ],
   "note": "False: no RECEIPT for UNSUBSCRIBE is ever sent. Proved instead: a RECEIPT is only for other frames, and Unsubscribe does not return nil while the connection works."
  },
  {
   "property": "C77",
   "status": "proved",
   "theorems": [
    "C77_finite",
    "C77_settles",
    "C77_server",
    "C77_streams",
    "C77_connected",
    "C77_topic"
   ],
   "note": "Rest, \"working connection\" and the hypotheses on subscriptions are spelled out in NetRestSpec.v; the deadlock of C47 and panics are excluded or named."
  },
  {
   "property": "C78",
   "status": "partial",
   "theorems": [
    "C78_returned_partial",
    "C78_send",
    "C78_published",
    "C78_refuted"
   ],
   "note": "Unsubscribe is the exception: the server does not confirm it, so it waits for its timeout (C78_refuted, cf. C76). Every other call is covered."
  },
  {
   "property": "C79",
   "status": "partial",
   "theorems": [
    "C79_order",
    "C79_sequential",
    "C79_messages_partial",
    "C79_completed",
    "C79_returns_partial",
    "C79_refuted",
    "C79_hang_refuted"
   ],
   "note": "Each message to exactly one Read, order, and when ErrCompletedSubscription may be returned: proved. False: that nothing is left when it is returned (C79_refuted: Read looks at the state first, so buffered messages and the error are lost to it), and that no Read stays waiting (C79_hang_refuted: the SUBSCRIBE was still in the write channel, cf. C25)."
  },
  {
   "property": "C80",
   "status": "proved",
   "theorems": [
    "C80_again",
    "C80_bound",
    "C80_final",
    "C80_auto"
   ],
   "note": "Counted on the frames written for queue subscriptions, failed writes included; messages are identified by the SEND they came from."
  },
  {
   "property": "C81",
   "status": "partial",
   "theorems": [
    "C81_call",
    "C81_subscription",
    "C81_dial",
    "C81_waiting_partial",
    "C81_last",
    "C81_refuted"
   ],
   "note": "Texts: proved for Connect, calls and subscriptions (where a RECEIPT could not be written before the ERROR the reason is that of the failed write). Every waiting call gets the error: proved for all calls but Unsubscribe, which returns nil (C81_refuted)."
  },
  {
   "property": "C82",
   "status": "proved",
   "theorems": [
    "C82_once",
    "C82_all"
   ],
   "note": "Received means taken from the channel of the subscription; hypotheses in NetQueueSpec.v."
  },
  {
   "property": "C83",
   "status": "proved",
   "theorems": [
    "C83_frame",
    "C83_ignored",
    "C83_ends",
    "C83_end"
   ],
   "note": "Stated on the log of processLoop: frames taken, requests taken and written, frames handed to response channels. Who waits is defined from the log (ReactSpec.waiters, ClientEnd.listens)."
  },
  {
   "property": "C84",
   "status": "proved",
   "theorems": [
    "C84_written",
    "C84_once",
    "C84_order",
    "C84_refused",
    "C84_accepted"
   ],
   "note": "The frames of Disconnect calls count like the others; Disconnect and MustDisconnect return nil for a closed connection without writing. SUBSCRIBE and UNSUBSCRIBE with reply-to are not written."
  },
  {
   "property": "C85",
   "status": "proved",
   "theorems": [
    "C85_stream",
    "C85_closed",
    "C85_rest",
    "C85_error"
   ],
   "note": "What was handed to a subscription is read off the log of processLoop. The exemption is the hypothesis ~ meddles: an Unsubscribe call of this subscription that closes C or puts an error there itself."
  },
  {
   "property": "C86",
   "status": "proved",
   "theorems": [
    "C86_server",
    "C86_single",
    "C86_sender",
    "C86_program",
    "C86_first",
    "C86_all"
   ],
   "note": "none_back: no RRequeue for the queue so far. Example C86_given_back shows a message overtaken after its connection ended. Received means written by the server in C86_server, taken from the channel of the subscription in C86_program."
  },
  {
   "property": "C87",
   "status": "proved",
   "theorems": [
    "C87_same",
    "C87_every",
    "C87_steps",
    "C87_memory",
    "C87_conserved"
   ],
   "note": "The contract is StorageSpec.deques; a storage that gives back another frame than it was given (e.g. one that sets message-id) is outside it."
  },
  {
   "property": "C88",
   "status": "partial",
   "theorems": [
    "C88_conserved_partial",
    "C88_calls",
    "C88_lost_refuted",
    "C88_deaf_refuted"
   ],
   "note": "False of the code: the errors of queue.Subscribe, Enqueue and Requeue are dropped by the processor, so a refused message vanishes after its RECEIPT and a subscriber met by a failing Dequeue is never served; Start and Stop are never called. Proved: nothing but the refused messages is lost."
  },
  {
   "property": "C89",
   "status": "proved",
   "theorems": [
    "C89_writes",
    "C89_kept",
    "C89_exact",
    "C89_reads",
    "C89_off",
    "C89_sizes",
    "C89_same",
    "C89_sent_refuted"
   ],
   "note": "Counters are natural numbers. CONNECT and CONNECTED are exchanged before the counting starts. C89_sent_refuted proves the negative part of the statement."
  },
  {
   "property": "C90",
   "status": "partial",
   "theorems": [
    "C90_connect",
    "C90_connect_bytes",
    "C90_connected",
    "C90_failed",
    "C90_deadline",
    "C90_dial",
    "C90_dial_host",
    "C90_closed_refuted",
    "C90_closed_partial",
    "C90_limited_refuted",
    "C90_limited_partial"
   ],
   "note": "False of the code: Dial closes the connection only if the peer address cannot be parsed, so a refused handshake leaks it; the context deadline limits neither net.Dial nor the write of CONNECT. All else is proved; C90_closed_partial says exactly which failures leave the connection open."
  },
  {
   "property": "C91",
   "status": "partial",
   "theorems": [
    "C91_settings",
    "C91_room",
    "C91_default",
    "C91_rejected",
    "C91_callback",
    "C91_wbuf_refuted",
    "C91_wbuf_partial"
   ],
   "note": "False of the code: WriteBufferSize makes the writer use the read buffer size. C91_wbuf_partial says what the size is; all else is proved."
  },
  {
   "property": "C92",
   "status": "proved",
   "theorems": [
    "C92_server",
    "C92_uncommitted",
    "C92_numbers",
    "C92_together",
    "C92_program",
    "C92_confirmed",
    "C92_api"
   ],
   "note": "A message is identified across the server by its ghost number; C92_numbers proves the number determines the frame. C92_confirmed assumes, as C75, that no other call uses the receipt id and that writes to this client did not fail. Messages of other clients may come between those of a transaction."
  },
  {
   "property": "C93",
   "status": "partial",
   "theorems": [
    "C93_after",
    "C93_begin",
    "C93_carries",
    "C93_frame",
    "C93_result",
    "C93_names",
    "C93_once_refuted",
    "C93_retry_refuted",
    "C93_once_partial",
    "C93_order_partial",
    "C93_commit_partial"
   ],
   "note": "False of the code: two concurrent Commit calls both send COMMIT and both return nil (completed is checked, then set after sendFrame); and a CommitWithReceipt that times out leaves the transaction usable though COMMIT was written. Proved for calls on one transaction that do not overlap, up to a Commit or Abort that returned an error. C93_names: until the 64-bit id counter wraps."
  },
  {
   "property": "C94",
   "status": "proved",
   "theorems": [
    "C94_kept",
    "C94_written",
    "C94_read",
    "C94_own"
   ],
   "note": "Assumes bufio and the allocations of Go as transcribed in MemModel; whether strings.Replacer copies is left open. The array of strings inside a Header is treated in HeapModel (C12)."
  },
  {
   "property": "C95",
   "status": "partial",
   "theorems": [
    "C95_partial",
    "C95_rest",
    "C95_refuted",
    "C95_timeout_refuted"
   ],
   "note": "False of the code: Send keeps the slice of the caller until processLoop writes the frame. C95_partial gives a rule that is enough (store only after a refusal or after an answer of the server to this or a later call)."
  },
  {
   "property": "C96",
   "status": "partial",
   "theorems": [
    "C96_same",
    "C96_handed",
    "C96_order_partial",
    "C96_received",
    "C96_topic_partial",
    "C96_receipt_refuted",
    "C96_subscribe_refuted"
   ],
   "note": "False of the code: RECEIPT is written before the request reaches the processor, and Subscribe does not wait for the server. Proved within one program, and between programs after a later confirmed call of the first one."
  },
  {
   "property": "C97",
   "status": "partial",
   "theorems": [
    "C97_reason",
    "C97_open",
    "C97_kept_partial",
    "C97_closed_partial",
    "C97_messages_partial",
    "C97_refuted",
    "C97_must_refuted"
   ],
   "note": "False of the code: a failed write (for instance of a message for a subscription of the client that has just closed) ends processLoop and drops frames that were read but not handled; MustDisconnect drops frames that were not written. Proved if no write of the server to this client failed and it sent no ERROR."
  },
  {
   "property": "C98",
   "status": "partial",
   "theorems": [
    "C98_server_partial",
    "C98_server_forever",
    "C98_server_unbounded",
    "C98_server_refuted",
    "C98_client_partial",
    "C98_client_forever",
    "C98_client_refuted"
   ],
   "note": "False of the code: a readLoop that holds a frame while the channel is full stays for ever once processLoop is over. C98_server_forever and C98_client_forever say exactly when; C98_server_unbounded is the leak for any number of connections; the partial theorems give the rest."
  },
  {
   "property": "C99",
   "status": "partial",
   "theorems": [
    "C99_early",
    "C99_clock",
    "C99_time_partial",
    "C99_alone_partial",
    "C99_send_refuted",
    "C99_unbounded_refuted"
   ],
   "note": "False of the code: callers wait for closeMutex without a timeout. C99_early is the lower bound. C99_time_partial bounds the time of a call by the timeouts of the calls it overlaps, if only Sends wait for room in the write channel."
  },
  {
   "property": "C100",
   "status": "partial",
   "theorems": [
    "C100_compare_partial",
    "C100_error",
    "C100_all_partial",
    "C100_ends",
    "C100_stuck",
    "C100_refuted"
   ],
   "note": "False of the code if a connection is lost (C100_refuted: nil dereference) or the receiver cannot connect (C100_stuck). C100_compare_partial holds in every run; C100_all_partial assumes that both connections still work at the end."
  },
  {
   "property": "C101",
   "status": "proved",
   "theorems": [
    "C101_answers",
    "C101_same",
    "C101_machine"
   ],
   "note": ""
  },
  {
   "property": "C102",
   "status": "partial",
   "theorems": [
    "C102_nothing_partial",
    "C102_lost",
    "C102_refuted"
   ],
   "note": "False of Unsubscribe with a bad option (C102_refuted; C102_lost: for ever). C102_nothing_partial is the statement for every other refusal, and says exactly what that one changes. That nothing is sent for a refused call is C84_refused."
  },
  {
   "property": "C103",
   "status": "proved",
   "theorems": [
    "C103_requests",
    "C103_processor",
    "C103_channels"
   ],
   "note": "Bounds in turns, not in time: that a goroutine gets its turn is not assumed, and select may prefer another channel of the connection any number of times."
  },
  {
   "property": "C104",
   "status": "partial",
   "theorems": [
    "C104_refuted",
    "C104_unbounded",
    "C104_only_named",
    "C104_exactly",
    "C104_for_ever",
    "C104_lists"
   ],
   "note": "False (C104_refuted; C104_unbounded: any finite set of topics, from one client). C104_only_named, C104_exactly and C104_for_ever say exactly which destinations have an object, and that none is ever given up. C104_lists: the same of the lists in MemoryQueueStorage."
  },
  {
   "property": "C105",
   "status": "partial",
   "theorems": [
    "C105_default",
    "C105_rounding",
    "C105_exact",
    "C105_product",
    "C105_longer",
    "C105_client_partial",
    "C105_client_with_server_partial",
    "C105_refuted"
   ],
   "note": "The full statement is false: the option accepts multipliers below 1 (C105_refuted). For multipliers of at least 1 it holds (C105_client_partial; C105_client_with_server_partial against this library's server), with the exception of C67 for slow writes. Rounding is IEEE 754 to nearest, written out over integers."
  },
  {
   "property": "C106",
   "status": "partial",
   "theorems": [
    "C106_runs",
    "C106_client_partial",
    "C106_client_then",
    "C106_server_partial",
    "C106_refuted_server",
    "C106_refuted_client"
   ],
   "note": "The full statement is false: a server has no read deadline before a complete CONNECT frame (C106_refuted_server) and a client inside a Write does not look at its read timer (C106_refuted_client). The client bound holds with the time its loop was held up added (C106_client_partial, C106_client_then); the server bound holds after a CONNECT frame that promises heart-beats (C106_server_partial)."
  }
 ]
}