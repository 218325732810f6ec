(** Why the server refuses a frame, written out from the protocol's point of
    view: reasons depend on the frame and on the frames accepted before. *)
From Verif Require Import GoBase HeaderModel FrameModel GrammarSpec NegotiationModel NegotiationSpec NegotiationLemmas
  BrokerModel ServerConnModel ServerConnSpec.

(** Reasons to refuse a CONNECT or STOMP frame that comes first. *)
Inductive connect_refused (cfg : scfg) (f : frame) : str -> Prop :=
| cr_receipt r : first_entry (f_hdr f) (lit "receipt") r ->
    connect_refused cfg f (lit "receipt header prohibited in CONNECT or STOMP frame")
| cr_credentials : no_entry (f_hdr f) (lit "receipt") -> ~ accepted_credentials cfg f ->
    connect_refused cfg f (lit "authentication failed")
| cr_silent : no_entry (f_hdr f) (lit "receipt") -> accepted_credentials cfg f ->
    f_cmd f = lit "CONNECT" -> no_entry (f_hdr f) (lit "accept-version") ->
    connect_refused cfg f (lit "unsupported version")
| cr_missing : no_entry (f_hdr f) (lit "receipt") -> accepted_credentials cfg f ->
    f_cmd f = lit "STOMP" -> no_entry (f_hdr f) (lit "accept-version") ->
    connect_refused cfg f (lit "missing header: accept-version")
| cr_unknown av : no_entry (f_hdr f) (lit "receipt") -> accepted_credentials cfg f ->
    first_entry (f_hdr f) (lit "accept-version") av -> (forall v, ~ highest_version (comma_item av) v) ->
    connect_refused cfg f (lit "incompatible version")
| cr_old av : no_entry (f_hdr f) (lit "receipt") -> accepted_credentials cfg f ->
    first_entry (f_hdr f) (lit "accept-version") av -> highest_version (comma_item av) (lit "1.0") ->
    connect_refused cfg f (lit "unsupported version")
| cr_heart_beat v : no_entry (f_hdr f) (lit "receipt") -> accepted_credentials cfg f -> session_version f v ->
    (forall cx cy, ~ requested f cx cy) ->
    connect_refused cfg f (lit "invalid format for heart-beat").

(** Has a session been established? *)
Definition established (log : list cev) : Prop := exists e m, e ∈ log /\ accepted e = Some m.

(** The text by which an ACK or NACK names a message. *)
Definition ack_text (m : msg) : option str :=
  match hget_of m (lit "ack") with Some v => Some v | None => hget_of m (lit "message-id") end.

(** Reasons to refuse a frame after the history [log].  (The text of the
    number error is strconv's; "strconv.ParseUint" stands for it.) *)
Inductive refused (cfg : scfg) (log : list cev) (m : msg) : str -> Prop :=
| rf_connect txt : ~ established log -> cmd_of m ∈ [lit "CONNECT"; lit "STOMP"] -> connect_refused cfg (g_frame m) txt ->
    refused cfg log m txt
| rf_first : ~ established log -> cmd_of m ∉ [lit "CONNECT"; lit "STOMP"] ->
    refused cfg log m (lit "expected CONNECT or STOMP frame")
| rf_unexpected : established log ->
    cmd_of m ∈ [lit "CONNECT"; lit "STOMP"; lit "MESSAGE"; lit "RECEIPT"; lit "ERROR"] ->
    refused cfg log m (lit "unexpected frame command")
| rf_unknown : established log ->
    cmd_of m ∉ [lit "CONNECT"; lit "STOMP"; lit "MESSAGE"; lit "RECEIPT"; lit "ERROR"; lit "DISCONNECT"; lit "BEGIN"; lit "COMMIT";
                lit "ABORT"; lit "SEND"; lit "SUBSCRIBE"; lit "UNSUBSCRIBE"; lit "ACK"; lit "NACK"] ->
    refused cfg log m (lit "unknown command")
| rf_no_transaction : established log -> cmd_of m ∈ [lit "BEGIN"; lit "COMMIT"; lit "ABORT"] ->
    hget_of m (lit "transaction") = None ->
    refused cfg log m (lit "missing header: transaction")
| rf_open t l : established log -> cmd_of m = lit "BEGIN" -> hget_of m (lit "transaction") = Some t ->
    collected t log = Some l ->
    refused cfg log m (lit "transaction already in progress")
| rf_not_open t : established log -> cmd_of m ∈ [lit "COMMIT"; lit "ABORT"; lit "SEND"] ->
    hget_of m (lit "transaction") = Some t -> collected t log = None ->
    refused cfg log m (lit "unknown transaction")
| rf_no_message : established log -> cmd_of m ∈ [lit "ACK"; lit "NACK"] -> ack_text m = None ->
    refused cfg log m (lit "missing header: message-id")
| rf_number v : established log -> cmd_of m ∈ [lit "ACK"; lit "NACK"] -> ack_text m = Some v -> parse_uint 64 v = None ->
    refused cfg log m (lit "strconv.ParseUint")
| rf_ack_not_open t n : established log -> cmd_of m ∈ [lit "ACK"; lit "NACK"] -> names m n ->
    hget_of m (lit "transaction") = Some t -> collected t log = None ->
    refused cfg log m (lit "unknown transaction")
| rf_no_id : established log -> cmd_of m ∈ [lit "SUBSCRIBE"; lit "UNSUBSCRIBE"] -> hget_of m (lit "id") = None ->
    refused cfg log m (lit "missing header: id")
| rf_no_destination id : established log -> cmd_of m = lit "SUBSCRIBE" -> hget_of m (lit "id") = Some id ->
    hget_of m (lit "destination") = None ->
    refused cfg log m (lit "missing header: destination")
| rf_taken id d s : established log -> cmd_of m = lit "SUBSCRIBE" -> hget_of m (lit "id") = Some id ->
    hget_of m (lit "destination") = Some d -> live id log = Some s ->
    refused cfg log m (lit "subscription already exists")
| rf_not_taken id : established log -> cmd_of m = lit "UNSUBSCRIBE" -> hget_of m (lit "id") = Some id ->
    live id log = None ->
    refused cfg log m (lit "subscription not found").

(** A MESSAGE as it is passed on: only message-id, id and ack may differ. *)
Definition same_message (a b : msg) : Prop :=
  cmd_of b = cmd_of a /\ g_uid b = g_uid a /\ f_body (g_frame b) = f_body (g_frame a) /\
  forall k, k ∉ [lit "message-id"; lit "id"; lit "ack"] -> hget_of b k = hget_of a k.
