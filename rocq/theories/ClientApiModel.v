(** Sequential parts of the client API: frames built by Send, Subscribe,
    Ack/Nack and transactions (conn.go, transaction.go, send_options.go,
    subscribe_options.go), identifiers (id.go) and Message reads (message.go).
    Delivery through the connection is an oracle here; see ClientModel. *)
From Verif Require Import GoBase HeaderModel FrameModel NegotiationModel.

(* ---------------- identifiers ---------------- *)

(** id.go:14-17: atomic.AddUint64 (wraps at 2^64) then FormatUint. *)
Definition next_id (last : N) : N := ((last + 1) mod 2 ^ 64)%N.
Definition allocate_id (last : N) : N * str := (next_id last, format_uint (next_id last)).

(** allocateId called by any number of goroutines: the atomic addition and the
    local formatting are separate steps; [al_pending] holds the number a
    goroutine has obtained and not yet returned. *)
Record alloc := mkAlloc { al_last : N; al_pending : list (nat * N); al_returned : list (nat * str) }.
Inductive alloc_run : nat -> alloc -> Prop :=       (* number of AddUint64 calls so far *)
| al_init : alloc_run 0 (mkAlloc 0 [] [])
| al_add k g a : alloc_run k a ->
    alloc_run (S k) (mkAlloc (next_id (al_last a)) ((g, next_id (al_last a)) :: al_pending a) (al_returned a))
| al_ret k g n p1 p2 a : alloc_run k a -> al_pending a = p1 ++ (g, n) :: p2 ->
    alloc_run k (mkAlloc (al_last a) (p1 ++ p2) ((g, format_uint n) :: al_returned a)).

(* ---------------- options ---------------- *)

(** SendOpt, send_options.go:28-55; nil options are skipped (conn.go:623). *)
Inductive sopt := SoNil | SoReceipt | SoNoContentLength | SoHeader (k v : str).
(** An option applied to a frame; [None] = ErrInvalidCommand. *)
Definition apply_sopt (last : N) (f : frame) (o : sopt) : option (N * frame) :=
  match o with
  | SoNil => Some (last, f)
  | SoReceipt =>
      if decide (f_cmd f = SEND) then
        let '(l, id) := allocate_id last in
        Some (l, mkFrame (f_cmd f) (hd_set (f_hdr f) h_receipt id) (f_body f))
      else None
  | SoNoContentLength =>
      if decide (f_cmd f = SEND) then Some (last, mkFrame (f_cmd f) (hd_del (f_hdr f) h_content_length) (f_body f))
      else None
  | SoHeader k v =>
      if decide (f_cmd f = SEND) then Some (last, mkFrame (f_cmd f) (hd_add (f_hdr f) k v) (f_body f))
      else None
  end.
Fixpoint apply_sopts (last : N) (f : frame) (os : list sopt) : option (N * frame) :=
  match os with
  | [] => Some (last, f)
  | o :: os' => match apply_sopt last f o with
                | Some (l, f') => apply_sopts l f' os'
                | None => None
                end
  end.

(** conn.go:612-632 (createSendFrame) *)
Definition create_send_frame (last : N) (dest ctype body : str) (os : list sopt) : option (N * frame) :=
  let h0 := [(h_content_length, format_uint (N.of_nat (length body)))] in
  let h1 := hd_set h0 h_destination dest in
  let h2 := if decide (ctype = []) then h1 else hd_set h1 h_content_type ctype in
  apply_sopts last (mkFrame SEND h2 body) os.

(* ---------------- Ack / Nack ---------------- *)

(** ack.go:37-48 *)
Inductive ackmode := AckAuto | AckClient | AckClientIndividual.
Global Instance ackmode_eq_dec : EqDecision ackmode.
Proof. solve_decision. Defined.
(** ack.go:12-22 (AckMode.String); the panic on other integers is outside the
    type. *)
Definition ack_text (m : ackmode) : str :=
  match m with
  | AckAuto => lit "auto" | AckClient => lit "client" | AckClientIndividual => lit "client-individual"
  end.

(** conn.go:33 *)
Definition h_reply_to := lit "reply-to".
(** SubscribeOpt, subscribe_options.go:21-42 *)
Inductive subopt := SubNil | SubId (id : str) | SubHeader (k v : str).
Definition apply_subopt (h : header) (o : subopt) : header :=
  match o with SubNil => h | SubId id => hd_set h h_id id | SubHeader k v => hd_add h k v end.
(** conn.go:697-739 (Subscribe, up to the request): new id counter, frame,
    subscription id, reply-to given. The options never fail on a SUBSCRIBE
    frame. *)
Definition create_subscribe (last : N) (dest : str) (mode : ackmode) (os : list subopt) : N * frame * str * bool :=
  let h := fold_left apply_subopt os [(h_destination, dest); (h_ack, ack_text mode)] in
  let '(h1, rt) := match hd_contains h h_reply_to with
                   | Some r => (hd_set h h_id r, true)
                   | None => (h, false)
                   end in
  match hd_contains h1 h_id with
  | Some id => (last, mkFrame SUBSCRIBE h1 [], id, rt)
  | None => let '(l, id) := allocate_id last in (l, mkFrame SUBSCRIBE (hd_add h1 h_id id) [], id, rt)
  end.

(** message.go:13-39; nil fields are [None]/[false]. *)
Record message := mkMessage {
  m_dest : str; m_ctype : str; m_conn : bool; m_sub : option (str * ackmode);
  m_header : option header; m_body : str }.

Inductive aerr := ErrNackNotSupported | ErrNotReceivedMessage | ErrCannotNackAutoSub | ErrMissingHeader (n : str).
Inductive ares := AErr (e : aerr) | ANothing | AFrame (f : frame).

(** conn.go:813-859 (createAckNackFrame).  Other versions than the three are
    excluded by Connect. *)
Definition create_ack_nack (version : str) (msg : message) (ack : bool) : ares :=
  if negb ack && negb (supports_nack version) then AErr ErrNackNotSupported
  else
    match m_header msg, m_sub msg, m_conn msg with
    | Some h, Some (sid, mode), true =>
        if decide (mode = AckAuto) then (if ack then ANothing else AErr ErrCannotNackAutoSub)
        else
          let cmd := if ack then ACK else NACK in
          if decide (version = V10 \/ version = V11) then
            match hd_contains h h_message_id with
            | Some mid => AFrame (mkFrame cmd [(h_subscription, sid); (h_message_id, mid)] [])
            | None => AErr (ErrMissingHeader h_message_id)
            end
          else if decide (version = V12) then
            match hd_contains h h_ack with
            | Some a => AFrame (mkFrame cmd [(h_id, a)] [])
            | None => AErr (ErrMissingHeader h_ack)
            end
          else AFrame (mkFrame cmd [] [])
    | _, _, _ => AErr ErrNotReceivedMessage
    end.

(* ---------------- transactions ---------------- *)

(** What Conn.sendFrame does with a frame (conn.go:634-691): refuse it, accept
    it and return nil, or accept it and return an error (no receipt in time,
    ERROR answer). *)
Inductive sendres := SendRefused | SendOk | SendFailed.

Inductive txop :=
| TxSend (dest ctype body : str) (os : list sopt)
| TxAck (msg : message)
| TxNack (msg : message)
| TxCommit (receipt : bool)
| TxAbort (receipt : bool).
Inductive txres := TxNil | TxCompleted | TxError.
Record tx := mkTx { tx_id : str; tx_completed : bool; tx_last : N }.

Definition sent_frames (o : sendres) (f : frame) : list frame :=
  match o with SendRefused => [] | _ => [f] end.
Definition send_result (o : sendres) : txres := match o with SendOk => TxNil | _ => TxError end.

(** transaction.go:47-66, 82-101 (abort, commit) *)
Definition tx_finish (cmd : str) (receipt : bool) (o : sendres) (t : tx) : tx * list frame * txres :=
  let h := [(h_transaction, tx_id t)] in
  let '(last, h') := if receipt then let '(l, id) := allocate_id (tx_last t) in (l, hd_set h h_receipt id)
                     else (tx_last t, h) in
  let f := mkFrame cmd h' [] in
  (mkTx (tx_id t) (match o with SendOk => true | _ => false end) last, sent_frames o f, send_result o).

(** transaction.go:113-178 (Send, Ack, Nack) and the completed check in every
    operation. *)
Definition tx_step (t : tx) (op : txop) (o : sendres) (version : str) : tx * list frame * txres :=
  if tx_completed t then (t, [], TxCompleted)
  else
    match op with
    | TxCommit r => tx_finish COMMIT r o t
    | TxAbort r => tx_finish ABORT r o t
    | TxSend d c b os =>
        match create_send_frame (tx_last t) d c b os with
        | None => (t, [], TxError)
        | Some (l, f) =>
            let f' := mkFrame (f_cmd f) (hd_set (f_hdr f) h_transaction (tx_id t)) (f_body f) in
            (mkTx (tx_id t) (tx_completed t) l, sent_frames o f', send_result o)
        end
    | TxAck m | TxNack m =>
        match create_ack_nack version m (match op with TxAck _ => true | _ => false end) with
        | AErr _ => (t, [], TxError)
        | ANothing => (t, [], TxNil)
        | AFrame f =>
            let f' := mkFrame (f_cmd f) (hd_set (f_hdr f) h_transaction (tx_id t)) (f_body f) in
            (t, sent_frames o f', send_result o)
        end
    end.
(** A history: each operation with the behaviour of the connection; the trace
    lists operation, frames accepted by the connection and result. *)
Fixpoint tx_run (version : str) (t : tx) (ops : list (txop * sendres)) : list (txop * list frame * txres) :=
  match ops with
  | [] => []
  | (op, o) :: rest =>
      let '(t', fs, r) := tx_step t op o version in (op, fs, r) :: tx_run version t' rest
  end.
(** conn.go:805-810 (BeginWithError): the BEGIN frame and the new transaction. *)
Definition begin_tx (last : N) : frame * tx :=
  let '(l, id) := allocate_id last in (mkFrame BEGIN [(h_transaction, id)] [], mkTx id false l).

(* ---------------- message reads ---------------- *)

(** message.go:52-68; the buffer length of Read, and the outcome. *)
Inductive rop := OpRead (n : nat) | OpReadByte.
Inductive rout := GotBytes (bs : str) | GotByte (b : ascii) | GotEOF.
Definition read_op (body : str) (op : rop) : str * rout :=
  match body with
  | [] => ([], GotEOF)
  | b :: t =>
      match op with
      | OpRead n => (drop (min n (length body)) body, GotBytes (take (min n (length body)) body))
      | OpReadByte => (t, GotByte b)
      end
  end.
Fixpoint read_ops (body : str) (ops : list rop) : str * list rout :=
  match ops with
  | [] => (body, [])
  | op :: ops' => let '(b1, o) := read_op body op in
                  let '(b2, os) := read_ops b1 ops' in (b2, o :: os)
  end.
