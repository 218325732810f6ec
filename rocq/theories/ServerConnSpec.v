(** Histories of one server connection, in any environment. *)
From Verif Require Import GoBase HeaderModel FrameModel NegotiationModel NegotiationSpec NegotiationLemmas
  BrokerModel ServerConnModel.

(** One iteration of the processing loop: what it was given, what it tried to
    write, what it asked of the broker, whether it ended the loop. *)
Record cev := mkCev { v_in : cin; v_wr : list wr; v_push : list request; v_stop : bool }.

(** Subscription objects keep their id and ack mode, and nobody assigns msgId. *)
Definition keeps (id_of ack_of : nat -> str) (hp : sheap) : Prop :=
  forall s sb, hp !! s = Some sb -> s_id sb = id_of s /\ s_ack sb = ack_of s /\ s_msgid sb = 0%N.

(** The broker only sends MESSAGE frames. *)
Definition from_broker (hp : sheap) (i : cin) : Prop :=
  match i with
  | InTopic m => f_cmd (g_frame m) = MESSAGE
  | InSub s => forall sb m, hp !! s = Some sb -> s_frame sb = Some m -> f_cmd (g_frame m) = MESSAGE
  | _ => True
  end.

(** A history from the start of the connection, oldest first.  Everything else
    (client, broker, other connections, the network) is arbitrary: each
    iteration finds arbitrary input and arbitrary subscription objects. *)
Inductive cexec (cfg : scfg) (cid : nat) (id_of ack_of : nat -> str) : list cev -> cst -> bool -> Prop :=
| ce_init : cexec cfg cid id_of ack_of [] cst_init false
| ce_step log c hp nx w1 w2 i o :
    cexec cfg cid id_of ack_of log c false ->
    keeps id_of ack_of hp -> from_broker hp i ->
    conn_iter cfg cid w1 w2 c hp nx i = Fine o ->
    keeps id_of ack_of (i_hp o) ->
    cexec cfg cid id_of ack_of (log ++ [mkCev i (i_wr o) (i_push o) (i_stop o)]) (i_c o) (i_stop o).

(** Reading a history. *)
Definition cmd_of (m : msg) : str := f_cmd (g_frame m).
Definition hget_of (m : msg) (k : str) : option str := hd_contains (f_hdr (g_frame m)) k.
(** the client frame handled by this iteration *)
Definition client_frame (e : cev) : option msg := match v_in e with InFrame m => Some m | _ => None end.
(** ... if it was accepted *)
Definition accepted (e : cev) : option msg := if v_stop e then None else client_frame e.
Definition wire (log : list cev) : list wr := concat (v_wr <$> log).
(** attempted frames with a given command *)
Definition frames_with (cmd : str) (l : list wr) : list msg :=
  omap (fun x : wr => match fst x with Some m => if bool_decide (cmd_of m = cmd) then Some m else None | None => None end) l.

(** Commands whose RECEIPT the server sends. *)
Definition answers (cmd : str) : bool :=
  bool_decide (cmd ∈ [SEND; ACK; NACK; BEGIN; COMMIT; ABORT; DISCONNECT]).
Definition asked (e : cev) : option str :=
  match accepted e with
  | Some m => if answers (cmd_of m) then hget_of m (lit "receipt") else None
  | None => None
  end.

(** A CONNECT or STOMP frame with accepted credentials that lists a version the
    server supports (NegotiationLemmas). *)
Definition session_ok (cfg : scfg) (m : msg) : Prop :=
  accepted_credentials cfg (g_frame m) /\ exists v, session_version (g_frame m) v.

(** Transactions: the frames collected so far by an open transaction. *)
Definition in_tx (m : msg) : bool := bool_decide (cmd_of m ∈ [SEND; ACK; NACK]).
Definition tx_event (t : str) (st : option (list msg)) (e : cev) : option (list msg) :=
  match accepted e with
  | Some m =>
      if decide (hget_of m (lit "transaction") = Some t) then
        if decide (cmd_of m = BEGIN) then Some []
        else if decide (cmd_of m = COMMIT \/ cmd_of m = ABORT) then None
        else if in_tx m then (fun l => l ++ [m]) <$> st
        else st
      else st
  | None => st
  end.
Definition collected (t : str) (log : list cev) : option (list msg) := fold_left (tx_event t) log None.
(** a frame as it is handled at COMMIT *)
Definition stripped (m : msg) : msg :=
  mkMsg (g_uid m) (mkFrame (cmd_of m) (hd_del (hd_del (f_hdr (g_frame m)) (lit "receipt")) (lit "transaction")) (f_body (g_frame m))).

(** Frames handled one after the other, all accepted: requests made. *)
Fixpoint one_by_one (cfg : scfg) (cid : nat) (c : cst) (hp : sheap) (nx : nat) (l : list msg) : pres (option (cst * sheap * nat * list request)) :=
  match l with
  | [] => Fine (Some (c, hp, nx, []))
  | m :: l' =>
      match conn_iter cfg cid true true c hp nx (InFrame m) with
      | Panicked p => Panicked p
      | Fine o =>
          if i_stop o then Fine None
          else match one_by_one cfg cid (i_c o) (i_hp o) (i_next o) l' with
               | Fine (Some (c', hp', nx', rs)) => Fine (Some (c', hp', nx', i_push o ++ rs))
               | r => r
               end
      end
  end.

(** Subscriptions: the object of the live subscription with this id. *)
Definition sub_event (id : str) (st : option nat) (e : cev) : option nat :=
  match accepted e with
  | Some m =>
      if decide (hget_of m (lit "id") = Some id) then
        if decide (cmd_of m = SUBSCRIBE) then match v_push e with [RSubscribe s] => Some s | _ => st end
        else if decide (cmd_of m = UNSUBSCRIBE) then None
        else st
      else st
  | None => st
  end.
Definition live (id : str) (log : list cev) : option nat := fold_left (sub_event id) log None.

(** The message a SEND frame becomes. *)
Definition delivered (m : msg) : msg :=
  mkMsg (g_uid m) (mkFrame MESSAGE (hd_del (hd_del (f_hdr (g_frame m)) (lit "receipt")) (lit "transaction")) (f_body (g_frame m))).
Definition sends (l : list msg) : list msg := omap (fun m => if decide (cmd_of m = SEND) then Some (delivered m) else None) l.
(** Messages given to the broker by a request list, and those an iteration
    should give to the broker after the history [log]. *)
Definition enqueues (l : list request) : list msg := omap (fun r => match r with REnqueue m => Some m | _ => None end) l.
Definition due (log : list cev) (e : cev) : list msg :=
  match accepted e with
  | Some m =>
      match hget_of m (lit "transaction") with
      | None => sends [m]
      | Some t => if decide (cmd_of m = COMMIT) then default [] (sends <$> collected t log) else []
      end
  | None => []
  end.

(** Deliveries awaiting acknowledgement, oldest first: queue messages written
    on subscriptions that require acknowledgement, less those the connection
    released (it asks the broker for the next message) on ACK, NACK or COMMIT. *)
Definition released (l : list request) (s : nat) : bool :=
  existsb (fun r => match r with RSubscribe s' => s' =? s | _ => false end) l.
Definition out_event (ack_of : nat -> str) (l : list nat) (e : cev) : list nat :=
  match v_in e with
  | InSub s => if decide (ack_of s <> lit "auto" /\ v_wr e <> [] /\ v_stop e = false) then l ++ [s] else l
  | InFrame m =>
      match accepted e with
      | Some _ => if decide (cmd_of m ∈ [ACK; NACK; COMMIT]) then filter (fun s => released (v_push e) s = false) l else l
      | None => l
      end
  | _ => l
  end.
Definition outstanding (ack_of : nat -> str) (log : list cev) : list nat := fold_left (out_event ack_of) log [].

(** The id named by an ACK or NACK. *)
Definition names (m : msg) (n : N) : Prop :=
  exists v, parse_uint 64 v = Some n /\
    (hget_of m (lit "ack") = Some v \/ hget_of m (lit "ack") = None /\ hget_of m (lit "message-id") = Some v).
