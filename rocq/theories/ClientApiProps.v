(** Property theorems of the sequential client API: C13, C17-C20, C57. *)
From Verif Require Import GoBase HeaderModel FrameModel GrammarSpec HeaderProofs CodecProofs
  NegotiationModel NegotiationProofs NegotiationLemmas ClientApiModel ClientApiSpec ClientApiProofs.

(* ------------------------------------------------------------------ *)
(** C13: contents of the SEND frame ... *)
Theorem C13_send_frame : forall last dest ctype body os,
  exists l f, create_send_frame last dest ctype body os = Some (l, f) /\
    f_cmd f = lit "SEND" /\ f_body f = body /\
    first_entry (f_hdr f) (lit "destination") dest /\
    (ctype <> [] -> first_entry (f_hdr f) (lit "content-type") ctype) /\
    (ctype = [] -> (forall v, SoHeader (lit "content-type") v ∉ os) -> no_entry (f_hdr f) (lit "content-type")) /\
    (SoNoContentLength ∉ os -> exists t, first_entry (f_hdr f) (lit "content-length") t /\ dec_text t (N.of_nat (length body))) /\
    (SoNoContentLength ∈ os -> (forall v, SoHeader (lit "content-length") v ∉ os) -> no_entry (f_hdr f) (lit "content-length")) /\
    (SoReceipt ∈ os -> exists t, first_entry (f_hdr f) (lit "receipt") t /\ dec_text t l) /\ (SoReceipt ∉ os -> l = last) /\
    (SoReceipt ∉ os -> SoNoContentLength ∉ os ->
       f_hdr f = (lit "content-length", format_uint (N.of_nat (length body))) :: (lit "destination", dest) ::
                 (if decide (ctype = []) then [] else [(lit "content-type", ctype)]) ++ custom_entries os).
Proof. exact send_frame_spec. Qed.
Print Assumptions C13_send_frame.
(** ... and what the receiving reader makes of it. *)
Theorem C13_send_frame_received : forall last dest ctype body os l f rest,
  create_send_frame last dest ctype body os = Some (l, f) ->
  (forall k v, SoHeader k v ∈ os -> k <> []) ->
  (SoNoContentLength ∉ os -> (N.of_nat (length body) < 2 ^ 32)%N ->
     read_stream (write_frame f ++ rest) = RFrame f rest) /\
  (SoNoContentLength ∈ os -> (forall v, SoHeader (lit "content-length") v ∉ os) ->
     (read_stream (write_frame f ++ rest) = RFrame f rest <-> NUL ∉ body)).
Proof. exact send_frame_readable. Qed.
Print Assumptions C13_send_frame_received.
Example C13_case :
  create_send_frame 6 (lit "/queue/a") (lit "text/plain") [NUL; LF] [SoHeader (lit "destination") (lit "x"); SoReceipt; SoNil]
  = Some (7%N, mkFrame SEND [(h_content_length, lit "2"); (h_destination, lit "/queue/a");
      (h_content_type, lit "text/plain"); (lit "destination", lit "x"); (h_receipt, lit "7")] [NUL; LF]) /\
  create_send_frame 6 (lit "d") [] [NUL] [SoNoContentLength] = Some (6%N, mkFrame SEND [(h_destination, lit "d")] [NUL]).
Proof. by vm_compute. Qed.

(* ------------------------------------------------------------------ *)
(** C17: [ack_spec] is the decision table of the STOMP versions; Connect only
    yields supported versions (C14). *)
Theorem C17_ack_nack : forall version msg ack r, supported version ->
  (create_ack_nack version msg ack = r <-> ack_spec version msg ack r).
Proof. exact create_ack_nack_spec. Qed.
Print Assumptions C17_ack_nack.
Definition sample_msg (mode : ackmode) : message :=
  mkMessage (lit "/queue/a") [] true (Some (lit "sub-1", mode)) (Some [(h_message_id, lit "17"); (h_ack, lit "a-17")]) [].
Example C17_case :
  create_ack_nack V12 (sample_msg AckClient) false = AFrame (mkFrame NACK [(h_id, lit "a-17")] []) /\
  create_ack_nack V10 (sample_msg AckClientIndividual) true =
    AFrame (mkFrame ACK [(h_subscription, lit "sub-1"); (h_message_id, lit "17")] []) /\
  create_ack_nack V10 (sample_msg AckAuto) false = AErr ErrNackNotSupported /\
  create_ack_nack V11 (sample_msg AckAuto) true = ANothing.
Proof. by vm_compute. Qed.

(* ------------------------------------------------------------------ *)
(** C18: in any history of a transaction that began uncompleted, with any
    behaviour of the connection: after a Commit/Abort that returned nil
    everything is refused and sends nothing, before it none returned nil; and
    every frame carries the transaction's id. *)
Theorem C18_transaction_once : forall version t ops, tx_completed t = false ->
  (forall pre op fs post,
     tx_run version t ops = pre ++ (op, fs, TxNil) :: post -> is_finish op = true ->
     Forall (fun e => snd e = TxCompleted /\ snd (fst e) = []) post /\
     Forall (fun e => ~ (is_finish (fst (fst e)) = true /\ snd e = TxNil) /\ snd e <> TxCompleted) pre) /\
  Forall (fun e => forall f, f ∈ snd (fst e) -> first_entry (f_hdr f) (lit "transaction") (tx_id t)) (tx_run version t ops).
Proof. exact (fun version t ops H => conj (fun pre op fs post => tx_run_split version ops t pre op fs post H) (tx_run_frames version ops t)). Qed.
Print Assumptions C18_transaction_once.
(** ... and what one operation on a transaction that is not completed does:
    it sends at most one frame, of its own kind and with the transaction's id;
    it returns nil exactly when that frame was sent successfully, or no frame is
    needed; and Send, Commit and Abort always try to send. *)
Theorem C18_operation : forall version t op o t' fs r, supported version -> tx_completed t = false -> tx_step t op o version = (t', fs, r) ->
  (forall f, f ∈ fs -> fs = [f] /\ o <> SendRefused /\ tx_frame_ok op f /\ first_entry (f_hdr f) (lit "transaction") (tx_id t)) /\
  (r = TxNil <-> (fs <> [] /\ o = SendOk) \/ tx_needs_no_frame op) /\ (tx_needs_no_frame op -> fs = []) /\
  (fs = [] -> o <> SendRefused -> exists m, op = TxAck m \/ op = TxNack m).
Proof. exact tx_step_result. Qed.
Print Assumptions C18_operation.
(** ... and how it begins. *)
Theorem C18_begin : forall last f t, begin_tx last = (f, t) ->
  f_cmd f = lit "BEGIN" /\ f_body f = [] /\ first_entry (f_hdr f) (lit "transaction") (tx_id t) /\ tx_completed t = false /\ dec_text (tx_id t) (tx_last t) /\
  tx_last t = ((last + 1) mod 2 ^ 64)%N.
Proof. exact begin_spec. Qed.
Print Assumptions C18_begin.
Example C18_case :
  (fun e => snd e) <$> tx_run V12 (snd (begin_tx 0))
    [(TxSend (lit "/q") [] (lit "x") [SoHeader (lit "transaction") (lit "other")], SendOk); (TxCommit true, SendFailed);
     (TxAck (sample_msg AckClient), SendRefused); (TxCommit false, SendOk); (TxAbort false, SendOk); (TxNack (sample_msg AckClient), SendOk)]
  = [TxNil; TxError; TxError; TxNil; TxCompleted; TxCompleted].
Proof. by vm_compute. Qed.

(* ------------------------------------------------------------------ *)
(** C19: in any interleaving of allocations by any goroutines, as long as
    fewer than 2^64 were made, no text is returned twice. *)
Theorem C19_unique_ids : forall k a, alloc_run k a -> (N.of_nat k < 2 ^ 64)%N ->
  NoDup (snd <$> al_returned a).
Proof. exact alloc_unique. Qed.
Print Assumptions C19_unique_ids.
Example C19_case : alloc_run 2 (mkAlloc 2 [] [(1, lit "1"); (2, lit "2")]).
Proof.
  apply (al_ret 2 1 1%N [] [] (mkAlloc 2 [(1, 1%N)] [(2, lit "2")])); [|done].
  apply (al_ret 2 2 2%N [] [(1, 1%N)] (mkAlloc 2 [(2, 2%N); (1, 1%N)] [])); [|done].
  apply (al_add 1 2 (mkAlloc 1 [(1, 1%N)] [])). apply (al_add 0 1 (mkAlloc 0 [] [])). constructor.
Qed.
(** At the wrap-around the property really ends: the id after 2^64-1 is "0",
    and then "1" again. *)
Example C19_wrap : allocate_id (2 ^ 64 - 1) = (0%N, lit "0") /\ allocate_id 0 = (1%N, lit "1").
Proof. by vm_compute. Qed.

(* ------------------------------------------------------------------ *)
(** C20: what was delivered plus what is left is the body; each call delivers
    as much as it can; EOF exactly when nothing is left. *)
Theorem C20_message_reads : forall body ops,
  (forall rest outs, read_ops body ops = (rest, outs) ->
     delivered outs ++ rest = body /\ length outs = length ops) /\
  (forall b op, (snd (read_op b op) = GotEOF <-> b = []) /\
     (b <> [] -> match op with
       | OpRead n => exists bs, snd (read_op b op) = GotBytes bs /\ length bs = min n (length b)
       | OpReadByte => exists x, snd (read_op b op) = GotByte x
       end)).
Proof. exact (fun body ops => conj (read_ops_spec ops body) read_op_spec). Qed.
Print Assumptions C20_message_reads.
Example C20_case : read_ops (lit "hello") [OpRead 2; OpReadByte; OpRead 0; OpRead 10; OpReadByte; OpRead 1]
  = ([], [GotBytes (lit "he"); GotByte "l"%char; GotBytes []; GotBytes (lit "lo"); GotEOF; GotEOF]).
Proof. by vm_compute. Qed.

(* ------------------------------------------------------------------ *)
(** C57: the SUBSCRIBE frame names destination, ack mode and exactly the id
    that Subscription.Id reports, whatever options are given. *)
Definition mode_text (m : ackmode) : str :=
  match m with AckAuto => lit "auto" | AckClient => lit "client" | AckClientIndividual => lit "client-individual" end.
Theorem C57_subscribe_frame : forall last dest mode os l f id rt,
  create_subscribe last dest mode os = (l, f, id, rt) ->
  f_cmd f = lit "SUBSCRIBE" /\ f_body f = [] /\
  first_entry (f_hdr f) (lit "destination") dest /\
  first_entry (f_hdr f) (lit "ack") (mode_text mode) /\
  first_entry (f_hdr f) (lit "id") id /\
  without (lit "id") (f_hdr f) = (lit "destination", dest) :: (lit "ack", mode_text mode) :: without (lit "id") (sub_entries os) /\
  (rt = true <-> exists r, first_entry (sub_entries os) (lit "reply-to") r) /\
  (forall r, first_entry (sub_entries os) (lit "reply-to") r -> id = r /\ l = last) /\
  (no_entry (sub_entries os) (lit "reply-to") ->
     (forall i, last_id os i -> id = i /\ l = last) /\
     ((forall i, SubId i ∉ os) -> forall i, first_entry (sub_entries os) (lit "id") i -> id = i /\ l = last) /\
     ((forall i, SubId i ∉ os) -> no_entry (sub_entries os) (lit "id") -> dec_text id l /\ l = ((last + 1) mod 2 ^ 64)%N)).
Proof. exact subscribe_frame_spec. Qed.
Print Assumptions C57_subscribe_frame.
Example C57_case :
  create_subscribe 4 (lit "/topic/t") AckClient [SubHeader (lit "id") (lit "mine"); SubHeader (lit "id") (lit "other")]
  = (4%N, mkFrame SUBSCRIBE [(h_destination, lit "/topic/t"); (h_ack, lit "client"); (h_id, lit "mine"); (h_id, lit "other")] [], lit "mine", false) /\
  (exists f, create_subscribe 4 (lit "/topic/t") AckAuto [] = (5%N, f, lit "5", false)).
Proof. split; [by vm_compute|]. eexists. vm_compute. reflexivity. Qed.
