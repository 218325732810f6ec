(** C53, C65, C66: why a frame is refused, what a SUBSCRIBE creates, and what
    the connection does with a delivery. *)
From Verif Require Import GoBase HeaderModel FrameModel GrammarSpec NegotiationModel NegotiationSpec NegotiationLemmas
  BrokerModel ServerConnModel ServerConnSpec ServerConnProofs ServerConnProps RefusalSpec RefusalProofs.

(* ------------------------------------------------------------------ *)
(** C53: the subscription made by an accepted SUBSCRIBE belongs to this
    connection and has the destination, the id and the acknowledgement mode of
    the frame, auto when the frame names none. *)
Theorem C53_object : forall cfg cid id_of ack_of log c hp nx w1 w2 m o,
  cexec cfg cid id_of ack_of log c false ->
  conn_iter cfg cid w1 w2 c hp nx (InFrame m) = Fine o -> cmd_of m = lit "SUBSCRIBE" -> i_stop o = false ->
  exists id d, hget_of m (lit "id") = Some id /\ hget_of m (lit "destination") = Some d /\
    i_push o = [RSubscribe nx] /\ i_wr o = [] /\
    i_hp o = <[nx := mkSub cid d id (default (lit "auto") (hget_of m (lit "ack"))) 0 false None]> hp.
Proof. exact subscribe_object. Qed.
Print Assumptions C53_object.
Example C53_object_case : exists o,
  conn_iter any_cfg 7 true true (mkCst true (lit "1.2") 0 ∅ 0 [] ∅) ∅ 4
    (InFrame (mkMsg 1 (mkFrame SUBSCRIBE [(lit "id", lit "a"); (lit "destination", lit "/queue/q")] []))) = Fine o /\
  i_push o = [RSubscribe 4] /\ i_hp o !! 4 = Some (mkSub 7 (lit "/queue/q") (lit "a") (lit "auto") 0 false None).
Proof. eexists. split; [by vm_compute|]. by vm_compute. Qed.

(* ------------------------------------------------------------------ *)
(** C65: the server refuses a frame exactly when one of the reasons of
    RefusalSpec applies, and says so: the last thing it writes is an ERROR
    frame with that text.  (If the RECEIPT of the frame cannot be written the
    session ends for that reason instead, below.) *)
Theorem C65_reason : forall cfg cid id_of ack_of pre e post c st m,
  cexec cfg cid id_of ack_of (pre ++ e :: post) c st -> v_in e = InFrame m ->
  (forall x ok, (Some x, ok) ∈ v_wr e -> cmd_of x = lit "RECEIPT" -> ok = true) ->
  (v_stop e = true <-> exists txt, refused cfg pre m txt) /\
  (forall txt, refused cfg pre m txt -> exists before err w, v_wr e = before ++ [(Some err, w)] /\
     cmd_of err = lit "ERROR" /\ hget_of err (lit "message") = Some txt).
Proof. exact refused_exact. Qed.
Print Assumptions C65_reason.
(** At most one reason applies. *)
Theorem C65_unique : forall cfg cid id_of ack_of log c m t1 t2,
  cexec cfg cid id_of ack_of log c false -> refused cfg log m t1 -> refused cfg log m t2 -> t1 = t2.
Proof. exact refused_unique. Qed.
Print Assumptions C65_unique.
(** A RECEIPT that cannot be written ends the session, except the one for
    DISCONNECT. *)
Theorem C65_failed_receipt : forall cfg cid id_of ack_of pre e post c st m rc,
  cexec cfg cid id_of ack_of (pre ++ e :: post) c st -> v_in e = InFrame m ->
  (Some rc, false) ∈ v_wr e -> cmd_of rc = lit "RECEIPT" -> cmd_of m <> lit "DISCONNECT" -> v_stop e = true.
Proof. exact failed_receipt. Qed.
Print Assumptions C65_failed_receipt.
(** A session that ends because of an ACK inside an unknown transaction. *)
Example C65_case : exists log c,
  cexec any_cfg 7 ids autos log c true /\
  (fun x : wr => (fun y => hget_of y (lit "message")) <$> fst x) <$> last (wire log) = Some (Some (Some (lit "unknown transaction"))) /\
  exists pre e m, log = pre ++ [e] /\ v_in e = InFrame m /\ refused any_cfg pre m (lit "unknown transaction").
Proof.
  destruct (crun any_cfg 7 ids autos [] cst_init ∅ 0
    [hello 1; fr 2 BEGIN [(lit "transaction", lit "t")] []; fr 3 ABORT [(lit "transaction", lit "t")] [];
     fr 4 ACK [(lit "message-id", lit "5"); (lit "transaction", lit "t"); (lit "receipt", lit "r")] []]) as [[[log c] st]|] eqn:E;
    [|by vm_compute in E].
  pose proof (crun_cexec _ _ _ _ _ _ _ _ _ _ _ _ (ce_init _ _ _ _) E) as H. vm_compute in E. injection E as <- <- <-.
  eexists _, _. split; [exact H|]. split; [by vm_compute|].
  match goal with |- context [[?a; ?b; ?c0; ?d]] => exists [a; b; c0], d end. eexists. split; [done|]. split; [done|].
  eapply (rf_ack_not_open _ _ _ (lit "t") 5).
  - eexists _, _. split; [left|]. by vm_compute.
  - left.
  - eexists (lit "5"). split; [by vm_compute|]. right. by vm_compute.
  - by vm_compute.
  - by vm_compute.
Qed.

(* ------------------------------------------------------------------ *)
(** C66: what the connection does with a message handed to one of its queue
    subscriptions.  If the id is not subscribed (any more) nothing is written
    and the message goes back to the broker.  Otherwise it is written once.  If
    the write fails the connection ends and keeps the message (its cleanup
    decides what happens to it, C38).  If it succeeds, a subscription in auto
    mode forgets the message and asks for the next one, any other keeps the
    message and asks for nothing. *)
Theorem C66_delivery : forall cfg cid id_of ack_of log c hp nx w1 w2 s sb m o,
  cexec cfg cid id_of ack_of log c false ->
  hp !! s = Some sb -> s_frame sb = Some m -> cmd_of m = lit "MESSAGE" ->
  conn_iter cfg cid w1 w2 c hp nx (InSub s) = Fine o ->
  match live (s_id sb) log with
  | None => i_wr o = [] /\ i_push o = [RRequeue m] /\ i_stop o = false
  | Some _ => exists m', same_message m m' /\ i_wr o = [(Some m', w1)] /\ i_stop o = negb w1 /\
      if w1 then
        if decide (s_ack sb = lit "auto") then i_push o = [RSubscribe s] /\ s_frame <$> i_hp o !! s = Some None
        else i_push o = [] /\ s_frame <$> i_hp o !! s = Some (Some m')
      else i_push o = [] /\ s_frame <$> i_hp o !! s = Some (Some m')
  end.
Proof. exact delivery_exact. Qed.
Print Assumptions C66_delivery.
(** A topic message is written once; a failed write ends the connection. *)
Theorem C66_topic : forall cfg cid w1 w2 c hp nx m o,
  cmd_of m = lit "MESSAGE" -> conn_iter cfg cid w1 w2 c hp nx (InTopic m) = Fine o ->
  exists m', same_message m m' /\ i_wr o = [(Some m', w1)] /\ i_push o = [] /\ i_stop o = negb w1 /\ i_hp o = hp.
Proof. exact topic_exact. Qed.
Print Assumptions C66_topic.
Example C66_case : exists log c,
  cexec any_cfg 7 ids autos log c false /\
  (fun e => (length (v_wr e), v_push e)) <$> log =
    [(1, [RConnected 7]); (0, [RSubscribe 0]); (1, [RSubscribe 0]); (1, []); (1, [RSubscribe 0])] /\
  g_uid <$> frames_with MESSAGE (wire log) = [10; 12; 11].
Proof.
  destruct (crun any_cfg 7 ids autos [] cst_init ∅ 0
    [hello 1; fr 2 SUBSCRIBE [(lit "id", lit "s0"); (lit "destination", lit "/queue/a")] []; give 0 10 (lit "s0");
     (None, true, InTopic (mkMsg 12 (mkFrame MESSAGE [] []))); give 0 11 (lit "s0")])
    as [[[log c] st]|] eqn:E; [|by vm_compute in E].
  pose proof (crun_cexec _ _ _ _ _ _ _ _ _ _ _ _ (ce_init _ _ _ _) E) as H. vm_compute in E. injection E as <- <- <-.
  eexists _, _. split; [exact H|]. by vm_compute.
Qed.
