(** Specifications of the client API frames. *)
From Verif Require Import GoBase HeaderModel FrameModel GrammarSpec NegotiationModel ClientApiModel.

(** Header entries contributed by SendOpt.Header options, in order. *)
Fixpoint custom_entries (os : list sopt) : header :=
  match os with
  | [] => []
  | SoHeader k v :: os' => (k, v) :: custom_entries os'
  | _ :: os' => custom_entries os'
  end.

(** The same for SubscribeOpt.Header. *)
Fixpoint sub_entries (os : list subopt) : header :=
  match os with
  | [] => []
  | SubHeader k v :: os' => (k, v) :: sub_entries os'
  | _ :: os' => sub_entries os'
  end.
(** [i] is the argument of the last SubscribeOpt.Id option. *)
Definition last_id (os : list subopt) (i : str) : Prop :=
  exists pre post, os = pre ++ SubId i :: post /\ forall j, SubId j ∉ post.
(** A header without the entries of one name. *)
Definition without (k : str) (h : header) : header := filter (fun e => fst e <> k) h.

(** What Ack/Nack must do (STOMP 1.0-1.2). *)
Inductive ack_spec (version : str) (msg : message) : bool -> ares -> Prop :=
| as_nack10 : version = lit "1.0" -> ack_spec version msg false (AErr ErrNackNotSupported)
| as_foreign ack : (ack = false -> version <> lit "1.0") ->
    m_header msg = None \/ m_sub msg = None \/ m_conn msg = false ->
    ack_spec version msg ack (AErr ErrNotReceivedMessage)
| as_auto_ack h sid : m_header msg = Some h -> m_sub msg = Some (sid, AckAuto) -> m_conn msg = true ->
    ack_spec version msg true ANothing
| as_auto_nack h sid : version <> lit "1.0" ->
    m_header msg = Some h -> m_sub msg = Some (sid, AckAuto) -> m_conn msg = true ->
    ack_spec version msg false (AErr ErrCannotNackAutoSub)
| as_old ack h sid mode mid : version = lit "1.1" \/ version = lit "1.0" /\ ack = true ->
    m_header msg = Some h -> m_sub msg = Some (sid, mode) -> mode <> AckAuto -> m_conn msg = true ->
    first_entry h (lit "message-id") mid ->
    ack_spec version msg ack (AFrame (mkFrame (if ack then lit "ACK" else lit "NACK")
                                        [(lit "subscription", sid); (lit "message-id", mid)] []))
| as_old_missing ack h sid mode : version = lit "1.1" \/ version = lit "1.0" /\ ack = true ->
    m_header msg = Some h -> m_sub msg = Some (sid, mode) -> mode <> AckAuto -> m_conn msg = true ->
    no_entry h (lit "message-id") ->
    ack_spec version msg ack (AErr (ErrMissingHeader (lit "message-id")))
| as_new ack h sid mode a : version = lit "1.2" ->
    m_header msg = Some h -> m_sub msg = Some (sid, mode) -> mode <> AckAuto -> m_conn msg = true ->
    first_entry h (lit "ack") a ->
    ack_spec version msg ack (AFrame (mkFrame (if ack then lit "ACK" else lit "NACK") [(lit "id", a)] []))
| as_new_missing ack h sid mode : version = lit "1.2" ->
    m_header msg = Some h -> m_sub msg = Some (sid, mode) -> mode <> AckAuto -> m_conn msg = true ->
    no_entry h (lit "ack") ->
    ack_spec version msg ack (AErr (ErrMissingHeader (lit "ack"))).

(** What an operation of a transaction puts on the wire when it does: the
    command, and for Send the body and the destination. *)
Definition tx_frame_ok (op : txop) (f : frame) : Prop :=
  match op with
  | TxSend d c b os => f_cmd f = lit "SEND" /\ f_body f = b /\ first_entry (f_hdr f) (lit "destination") d
  | TxAck _ => f_cmd f = lit "ACK"
  | TxNack _ => f_cmd f = lit "NACK"
  | TxCommit r => f_cmd f = lit "COMMIT" /\ f_body f = [] /\ (r = true <-> exists i, first_entry (f_hdr f) (lit "receipt") i)
  | TxAbort r => f_cmd f = lit "ABORT" /\ f_body f = [] /\ (r = true <-> exists i, first_entry (f_hdr f) (lit "receipt") i)
  end.
(** Operations that succeed without sending: Ack of a message received on an
    auto subscription. *)
Definition tx_needs_no_frame (op : txop) : Prop :=
  exists m sid h, op = TxAck m /\ m_sub m = Some (sid, AckAuto) /\ m_header m = Some h /\ m_conn m = true.

Definition is_finish (op : txop) : bool := match op with TxCommit _ | TxAbort _ => true | _ => false end.

(** bytes contained in the outcomes of reads *)
Fixpoint delivered (os : list rout) : str :=
  match os with
  | [] => []
  | GotBytes bs :: r => bs ++ delivered r
  | GotByte b :: r => b :: delivered r
  | GotEOF :: r => delivered r
  end.
