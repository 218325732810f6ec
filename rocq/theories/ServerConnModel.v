(** Model of one server connection: server/client/conn.go (processLoop and all
    handlers) and server/client/tx_store.go.

    One call of [conn_iter] is one iteration of processLoop.  Its results are
    the attempted writes to the network, the requests for the broker, and
    whether the loop ends.  In the code a handler pushes requests one by one on
    a bounded channel while it runs; here they are collected in order and the
    system model (SystemModel) pushes them one by one before the next
    iteration.  All writes of an iteration precede all its pushes, except the
    ERROR frame, which is only written when nothing was pushed
    (ServerConnProofs.conn_iter_shape). *)
From Verif Require Import GoBase HeaderModel FrameModel NegotiationModel BrokerModel.

(** Connection fields used by processLoop (conn.go:26-44).  [k_tx] is
    txStore.transactions; a nil and an empty map behave alike. *)
Record cst := mkCst {
  k_connected : bool;                   (* stateFunc = connected *)
  k_version : str;
  k_wt : Z;                             (* writeTimeout, ns *)
  k_tx : gmap str (list msg);
  k_last : N;                           (* lastMsgId, uint64 *)
  k_sublist : list nat;
  k_subs : gmap str nat
}.
Definition cst_init : cst := mkCst false [] 0 ∅ 0 [] ∅.
Definition set_tx (c : cst) (t : gmap str (list msg)) : cst :=
  mkCst (k_connected c) (k_version c) (k_wt c) t (k_last c) (k_sublist c) (k_subs c).
Definition set_sublist (c : cst) (l : list nat) : cst :=
  mkCst (k_connected c) (k_version c) (k_wt c) (k_tx c) (k_last c) l (k_subs c).
Definition set_subs (c : cst) (m : gmap str nat) : cst :=
  mkCst (k_connected c) (k_version c) (k_wt c) (k_tx c) (k_last c) (k_sublist c) m.
Definition set_last (c : cst) (n : N) : cst :=
  mkCst (k_connected c) (k_version c) (k_wt c) (k_tx c) n (k_sublist c) (k_subs c).

(** An attempted write: a frame (None: heart-beat) and whether it succeeded.
    When it did not, the peer may have received any prefix of its bytes.  The
    ghost number of a reply is that of the client frame it answers. *)
Notation wr := (option msg * bool)%type.

(** What a handler did: new state, subscription objects, next free pointer,
    writes, requests, the (modified) frame and the error returned. *)
Record hout := mkHout {
  o_c : cst; o_hp : sheap; o_next : nat;
  o_wr : list wr; o_push : list request; o_msg : msg; o_err : option str
}.
Definition with_hdr (m : msg) (h : header) : msg := mkMsg (g_uid m) (mkFrame (f_cmd (g_frame m)) h (f_body (g_frame m))).
Definition hdr (m : msg) : header := f_hdr (g_frame m).

(** Texts of errors made by strconv and by failed writes are not modelled. *)
Definition e_number := lit "strconv.ParseUint".
Definition e_write := lit "write failed".

(** server/client/conn.go:539-551 (sendReceiptImmediately); [w]: would the
    write succeed.  Result: frame without the header, writes, success. *)
Definition send_receipt (w : bool) (m : msg) : msg * list wr * bool :=
  match hd_contains (hdr m) h_receipt with
  | Some r => (with_hdr m (hd_del (hdr m) h_receipt), [(Some (mkMsg (g_uid m) (mkFrame RECEIPT [(h_receipt_id, r)] [])), w)], w)
  | None => (m, [], true)
  end.

(** server/client/tx_store.go:58-65 (Add); None = unknown transaction *)
Definition tx_add (c : cst) (t : str) (m : msg) : option cst :=
  match k_tx c !! t with
  | Some l => Some (set_tx c (<[t := l ++ [with_hdr m (hd_del (hdr m) h_transaction)]]> (k_tx c)))
  | None => None
  end.

(** server/client/subscription_list.go:71-81 (Ack) with the callback of
    conn.go:688-696: (objects, remaining list, requests) *)
Fixpoint sl_ack (hp : sheap) (l : list nat) (id : N) : pres (sheap * list nat * list request) :=
  match l with
  | [] => Fine (hp, [], [])
  | s :: l' =>
      match hp !! s with
      | None => Panicked PanicNil
      | Some sb =>
          match is_acked_by sb id with
          | None => Panicked PanicBadAck
          | Some true =>
              match sl_ack (<[s := set_frame sb None]> hp) l' id with
              | Fine (hp', rest, rs) => Fine (hp', rest, RSubscribe s :: rs)
              | Panicked p => Panicked p
              end
          | Some false =>
              match sl_ack hp l' id with
              | Fine (hp', rest, rs) => Fine (hp', s :: rest, rs)
              | Panicked p => Panicked p
              end
          end
      end
  end.
(** server/client/subscription_list.go:87-97 (Nack) with the callback of
    conn.go:731-741.  A nil frame would be requeued as nil and panic in the
    processor; here it panics at once (unreachable: C44). *)
Fixpoint sl_nack (hp : sheap) (l : list nat) (id : N) : pres (sheap * list nat * list request) :=
  match l with
  | [] => Fine (hp, [], [])
  | s :: l' =>
      match hp !! s with
      | None => Panicked PanicNil
      | Some sb =>
          if is_nacked_by sb id then
            match s_frame sb with
            | None => Panicked PanicNil
            | Some m =>
                match sl_nack (<[s := set_frame sb None]> hp) l' id with
                | Fine (hp', rest, rs) => Fine (hp', rest, RRequeue m :: RSubscribe s :: rs)
                | Panicked p => Panicked p
                end
            end
          else
            match sl_nack hp l' id with
            | Fine (hp', rest, rs) => Fine (hp', s :: rest, rs)
            | Panicked p => Panicked p
            end
      end
  end.

Section handlers.
  Context (cfg : scfg) (cid : nat).

  Definition fail (c : cst) (hp : sheap) (nx : nat) (wr : list wr) (m : msg) (e : str) : pres hout :=
    Fine (mkHout c hp nx wr [] m (Some e)).
  Definition done_ (c : cst) (hp : sheap) (nx : nat) (wr : list wr) (m : msg) : pres hout :=
    Fine (mkHout c hp nx wr [] m None).

  (** conn.go:465-534 (handleConnect; the negotiation is
      NegotiationModel.handle_connect).  A failed write of CONNECTED is ignored. *)
  Definition h_connect (w : bool) (c : cst) (hp : sheap) (nx : nat) (m : msg) : pres hout :=
    match handle_connect cfg (g_frame m) with
    | inl e => fail c hp nx [] m e
    | inr r => Fine (mkHout (mkCst true (sc_version r) (sc_write r) (k_tx c) (k_last c) (k_sublist c) (k_subs c)) hp nx
                       [(Some (mkMsg (g_uid m) (sc_response r)), w)] [RConnected cid] m None)
    end.

  (** conn.go:553-561 (handleDisconnect) *)
  Definition h_disconnect (w : bool) (c : cst) (hp : sheap) (nx : nat) (m : msg) : pres hout :=
    let '(m', ws, _) := send_receipt w m in done_ c hp nx ws m'.

  (** conn.go:563-576 (handleBegin), tx_store.go:18-29 *)
  Definition h_begin (w : bool) (c : cst) (hp : sheap) (nx : nat) (m : msg) : pres hout :=
    match hd_contains (hdr m) h_transaction with
    | None => fail c hp nx [] m (e_missingHeader h_transaction)
    | Some t =>
        let '(m', ws, ok) := send_receipt w m in
        if negb ok then fail c hp nx ws m' e_write
        else match k_tx c !! t with
             | Some _ => fail c hp nx ws m' e_txAlreadyInProgress
             | None => done_ (set_tx c (<[t := []]> (k_tx c))) hp nx ws m'
             end
    end.

  (** conn.go:597-609 (handleAbort), tx_store.go:31-38 *)
  Definition h_abort (w : bool) (c : cst) (hp : sheap) (nx : nat) (m : msg) : pres hout :=
    match hd_contains (hdr m) h_transaction with
    | None => fail c hp nx [] m (e_missingHeader h_transaction)
    | Some t =>
        let '(m', ws, ok) := send_receipt w m in
        if negb ok then fail c hp nx ws m' e_write
        else match k_tx c !! t with
             | None => fail c hp nx ws m' e_txUnknown
             | Some _ => done_ (set_tx c (delete t (k_tx c))) hp nx ws m'
             end
    end.

  (** conn.go:611-638 (handleSubscribe): no receipt is ever sent. *)
  Definition h_subscribe (c : cst) (hp : sheap) (nx : nat) (m : msg) : pres hout :=
    match hd_contains (hdr m) h_id with
    | None => fail c hp nx [] m (e_missingHeader h_id)
    | Some id =>
        match hd_contains (hdr m) h_destination with
        | None => fail c hp nx [] m (e_missingHeader h_destination)
        | Some dest =>
            let ack := default ack_auto (hd_contains (hdr m) h_ack) in
            match k_subs c !! id with
            | Some _ => fail c hp nx [] m e_subscriptionExists
            | None => Fine (mkHout (set_subs c (<[id := nx]> (k_subs c))) (<[nx := new_sub cid dest id ack]> hp) (S nx)
                              [] [RSubscribe nx] m None)
            end
        end
    end.

  (** conn.go:640-657 (handleUnsubscribe): no receipt is ever sent. *)
  Definition h_unsubscribe (c : cst) (hp : sheap) (nx : nat) (m : msg) : pres hout :=
    match hd_contains (hdr m) h_id with
    | None => fail c hp nx [] m (e_missingHeader h_id)
    | Some id =>
        match k_subs c !! id with
        | None => fail c hp nx [] m e_subscriptionNotFound
        | Some s => Fine (mkHout (set_subs c (delete id (k_subs c))) hp nx [] [RUnsubscribe s] m None)
        end
    end.

  (** conn.go:662-672 / 706-716: the id named by an ACK or NACK *)
  Definition ack_id (m : msg) : str + N :=
    match (match hd_contains (hdr m) h_ack with Some v => Some v | None => hd_contains (hdr m) h_message_id end) with
    | None => inl (e_missingHeader h_message_id)
    | Some v => match parse_uint 64 v with Some n => inr n | None => inl e_number end
    end.

  (** conn.go:659-700 (handleAck), 702-745 (handleNack): [sl] is the list
      operation. *)
  Definition h_acknack (sl : sheap -> list nat -> N -> pres (sheap * list nat * list request))
      (w : bool) (c : cst) (hp : sheap) (nx : nat) (m : msg) : pres hout :=
    match ack_id m with
    | inl e => fail c hp nx [] m e
    | inr n =>
        let '(m', ws, ok) := send_receipt w m in
        if negb ok then fail c hp nx ws m' e_write
        else
          match hd_contains (hdr m') h_transaction with
          | Some t => match tx_add c t m' with
                      | Some c' => done_ c' hp nx ws m'
                      | None => fail c hp nx ws m' e_txUnknown
                      end
          | None =>
              match sl hp (k_sublist c) n with
              | Panicked p => Panicked p
              | Fine (hp', rest, rs) => Fine (mkHout (set_sublist c rest) hp' nx ws rs m' None)
              end
          end
    end.

  (** conn.go:750-771 (handleSend) *)
  Definition as_message (m : msg) : msg := mkMsg (g_uid m) (mkFrame MESSAGE (hdr m) (f_body (g_frame m))).
  Definition h_send (w : bool) (c : cst) (hp : sheap) (nx : nat) (m : msg) : pres hout :=
    let '(m', ws, ok) := send_receipt w m in
    if negb ok then fail c hp nx ws m' e_write
    else
      match hd_contains (hdr m') h_transaction with
      | Some t => match tx_add c t m' with
                  | Some c' => done_ c' hp nx ws m'
                  | None => fail c hp nx ws m' e_txUnknown
                  end
      | None => Fine (mkHout c hp nx ws [REnqueue (as_message m')] m' None)
      end.

  (** conn.go:427-463 (connecting, connected) for every command except
      COMMIT. *)
  Definition state_plain (w : bool) (c : cst) (hp : sheap) (nx : nat) (m : msg) : pres hout :=
    let cmd := f_cmd (g_frame m) in
    if negb (k_connected c) then
      if decide (cmd = CONNECT \/ cmd = STOMP) then h_connect w c hp nx m
      else fail c hp nx [] m e_notConnected
    else if decide (cmd = CONNECT \/ cmd = STOMP) then fail c hp nx [] m e_unexpectedCommand
    else if decide (cmd = DISCONNECT) then h_disconnect w c hp nx m
    else if decide (cmd = BEGIN) then h_begin w c hp nx m
    else if decide (cmd = ABORT) then h_abort w c hp nx m
    else if decide (cmd = SEND) then h_send w c hp nx m
    else if decide (cmd = SUBSCRIBE) then h_subscribe c hp nx m
    else if decide (cmd = UNSUBSCRIBE) then h_unsubscribe c hp nx m
    else if decide (cmd = ACK) then h_acknack sl_ack w c hp nx m
    else if decide (cmd = NACK) then h_acknack sl_nack w c hp nx m
    else if decide (cmd = MESSAGE \/ cmd = RECEIPT \/ cmd = ERROR) then fail c hp nx [] m e_unexpectedCommand
    else fail c hp nx [] m e_unknownCommand.

  (** tx_store.go:44-56 (Commit): the stored frames go through stateFunc one by
      one; an error stops the loop.  Only SEND, ACK and NACK frames without
      transaction header are ever stored (ServerConnProofs.tx_ok), so a stored
      COMMIT, and a change of this list while it is walked, do not occur. *)
  Fixpoint commit_loop (w : bool) (t : str) (l : list msg) (c : cst) (hp : sheap) (nx : nat) : pres hout :=
    match l with
    | [] => Fine (mkHout (set_tx c (delete t (k_tx c))) hp nx [] [] (mkMsg 0 (mkFrame [] [] [])) None)
    | m :: l' =>
        match state_plain w (set_tx c (<[t := l']> (k_tx c))) hp nx m with
        | Panicked p => Panicked p
        | Fine o =>
            match o_err o with
            | Some _ => Fine o
            | None =>
                match commit_loop w t l' (o_c o) (o_hp o) (o_next o) with
                | Panicked p => Panicked p
                | Fine o' => Fine (mkHout (o_c o') (o_hp o') (o_next o') (o_wr o ++ o_wr o') (o_push o ++ o_push o') (o_msg o') (o_err o'))
                end
            end
        end
    end.

  (** conn.go:578-595 (handleCommit) *)
  Definition h_commit (w : bool) (c : cst) (hp : sheap) (nx : nat) (m : msg) : pres hout :=
    match hd_contains (hdr m) h_transaction with
    | None => fail c hp nx [] m (e_missingHeader h_transaction)
    | Some t =>
        let '(m', ws, ok) := send_receipt w m in
        if negb ok then fail c hp nx ws m' e_write
        else match k_tx c !! t with
             | None => fail c hp nx ws m' e_txUnknown
             | Some l =>
                 match commit_loop w t l c hp nx with
                 | Panicked p => Panicked p
                 | Fine o => Fine (mkHout (o_c o) (o_hp o) (o_next o) (ws ++ o_wr o) (o_push o) m' (o_err o))
                 end
             end
    end.

  (** conn.go:427-463 *)
  Definition state_func (w : bool) (c : cst) (hp : sheap) (nx : nat) (m : msg) : pres hout :=
    if k_connected c && bool_decide (f_cmd (g_frame m) = COMMIT) then h_commit w c hp nx m
    else state_plain w c hp nx m.

  (** conn.go:408-424 (allocateMessageId): [ack] is the subscription's mode,
      None for topic frames.  uint64 arithmetic. *)
  Definition alloc_id (last : N) (ack : option str) (m : msg) : N * msg :=
    if decide (f_cmd (g_frame m) = MESSAGE \/ f_cmd (g_frame m) = ACK) then
      let n := ((last + 1) mod 2 ^ 64)%N in
      let v := format_uint n in
      let h1 := hd_set (hd_set (hdr m) h_message_id v) h_id v in
      let h2 := if decide (ack = None \/ ack = Some ack_auto) then hd_del h1 h_ack else hd_set h1 h_ack v in
      (n, with_hdr m h2)
    else (last, m).

  (** conn.go:86-104 (sendErrorImmediately) *)
  Definition error_frame (e : str) (m : msg) : msg :=
    mkMsg (g_uid m)
      (mkFrame ERROR ((h_message, e) :: match hd_contains (hdr m) h_receipt with Some r => [(h_receipt_id, r)] | None => [] end) []).

  (** What one of the channels delivers to processLoop. *)
  Inductive cin := InFrame (m : msg) | InClosed | InTopic (m : msg) | InSub (s : nat) | InTimer.
  Record iout := mkIout {
    i_c : cst; i_hp : sheap; i_next : nat; i_wr : list wr; i_push : list request; i_stop : bool
  }.

  (** conn.go:195-325: one iteration.  [w1]: do writes other than ERROR
      succeed, [w2]: does the ERROR write.  The validator (conn.go:247-254)
      accepts every frame (validator.go). *)
  Definition conn_iter (w1 w2 : bool) (c : cst) (hp : sheap) (nx : nat) (i : cin) : pres iout :=
    match i with
    | InTopic m =>
        let '(n, m') := alloc_id (k_last c) None m in
        Fine (mkIout (set_last c n) hp nx [(Some m', w1)] []
                (negb w1 || bool_decide (f_cmd (g_frame m') = ERROR)))
    | InClosed => Fine (mkIout c hp nx [] [] true)
    | InFrame m =>
        match state_func w1 c hp nx m with
        | Panicked p => Panicked p
        | Fine o =>
            match o_err o with
            | None => Fine (mkIout (o_c o) (o_hp o) (o_next o) (o_wr o) (o_push o) false)
            | Some e => Fine (mkIout (o_c o) (o_hp o) (o_next o) (o_wr o ++ [(Some (error_frame e (o_msg o)), w2)]) (o_push o) true)
            end
        end
    | InSub s =>
        match hp !! s with
        | None => Panicked PanicNil
        | Some sb =>
            match s_frame sb with
            | None => Panicked PanicNil
            | Some m =>
                match k_subs c !! s_id sb with
                | Some _ =>
                    let '(n, m') := alloc_id (k_last c) (Some (s_ack sb)) m in
                    let c1 := set_last c n in
                    let sb1 := set_frame sb (Some m') in
                    if negb w1 then Fine (mkIout c1 (<[s := sb1]> hp) nx [(Some m', false)] [] true)
                    else if decide (s_ack sb = ack_auto) then
                      Fine (mkIout c1 (<[s := set_frame sb1 None]> hp) nx [(Some m', true)] [RSubscribe s] false)
                    else
                      match sl_add (<[s := sb1]> hp) (k_sublist c) s with
                      | Panicked p => Panicked p
                      | Fine (hp', l) => Fine (mkIout (set_sublist c1 l) hp' nx [(Some m', true)] [] false)
                      end
                | None => Fine (mkIout c hp nx [] [RRequeue m] false)
                end
            end
        end
    | InTimer => Fine (mkIout c hp nx [(None, w1)] [] (negb w1))
    end.
End handlers.
