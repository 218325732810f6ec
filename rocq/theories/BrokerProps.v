(** C36, C39, C40, C52, C54: the broker (queues, topics, storage, accept loop). *)
From Verif Require Import GoBase HeaderModel FrameModel GrammarSpec BrokerModel BrokerSpec BrokerProofs.

(** Over every history of the broker, for every queue: a message and a ready
    subscription never wait at the same time; as long as nothing is returned
    to the queue, the messages handed out are, in order, the first messages
    that arrived and the waiting ones are the rest; as long as nobody
    unsubscribes, the subscriptions served are the first that became ready and
    the ready ones are the rest (in general a subsequence); and no message is
    lost or duplicated: what was sent or returned is what was handed out plus
    what is waiting. *)
Theorem C36_queue_fifo : forall conn_of dest_of id_of log b d rest,
  bexec conn_of dest_of id_of log b -> d = lit "/queue" ++ rest ->
  (waiting b d = [] \/ ready b d = []) /\
  (returned d log = [] -> exists given, arrivals d log = given ++ waiting b d /\
     Forall2 (fun m sm => copy_for (id_of (fst sm)) m (snd sm)) given (handed dest_of d log)) /\
  (unsubscribed log = [] -> readied dest_of d log = (fst <$> handed dest_of d log) ++ ready b d) /\
  ((fst <$> handed dest_of d log) ++ ready b d) `sublist_of` readied dest_of d log /\
  (g_uid <$> arrivals d log ++ returned d log) ≡ₚ (g_uid ∘ snd <$> handed dest_of d log) ++ (g_uid <$> waiting b d).
Proof.
  intros conn_of dest_of id_of log b d rest He Hd. apply (queue_fifo _ _ _ _ _ _ He).
  apply is_queue_prefix. by exists rest.
Qed.
Print Assumptions C36_queue_fifo.

(** Each request acts on the queue it concerns exactly as the reference
    machine [qstep]; in particular a returned message goes to the head. *)
Theorem C36_queue_step : forall conn_of dest_of id_of log b hp r b' hp' outs d rest,
  bexec conn_of dest_of id_of log b -> agrees conn_of dest_of id_of hp -> serve b hp r = Fine (b', hp', outs) ->
  concerns dest_of d r = true -> d = lit "/queue" ++ rest ->
  qstep id_of (waiting b d, ready b d) r (omap (out_handed dest_of d) outs) (waiting b' d, ready b' d).
Proof.
  intros conn_of dest_of id_of log b hp r b' hp' outs d rest He Ha Hs Hc Hd. apply (queue_step _ _ _ _ _ _ _ _ _ _ _ He Ha Hs Hc).
  apply is_queue_prefix. by exists rest.
Qed.
Print Assumptions C36_queue_step.

(** A message sent to a topic is handed, once each and in subscription order,
    to the subscriptions present at that moment, and to nobody else. *)
Theorem C39_topic_exact : forall conn_of dest_of id_of log m outs b' d,
  bexec conn_of dest_of id_of (log ++ [(REnqueue m, outs)]) b' ->
  ~ (exists rest, d = lit "/queue" ++ rest) -> sent_to m d = true -> NoDup (readied dest_of d log) ->
  outs = (fun s => OutTopic (conn_of s) (set_sub m (id_of s))) <$> present dest_of d log.
Proof.
  intros conn_of dest_of id_of log m outs b' d He Hq. apply (topic_exact _ _ _ _ _ _ b'); [done|].
  apply not_true_is_false. by rewrite is_queue_prefix.
Qed.
Print Assumptions C39_topic_exact.
(** Nothing but a SEND produces a topic delivery: later subscribers never see
    earlier messages. *)
Theorem C39_no_replay : forall conn_of dest_of id_of log b r outs c m,
  bexec conn_of dest_of id_of log b -> (r, outs) ∈ log -> OutTopic c m ∈ outs ->
  exists m0 s, r = REnqueue m0 /\ c = conn_of s /\ sent_to m0 (dest_of s) = true /\ m = set_sub m0 (id_of s).
Proof.
  intros conn_of dest_of id_of log b r outs c m He Hin Ho. destruct (bexec_places _ _ _ _ _ He) as (_ & _ & HF).
  rewrite Forall_forall in HF. specialize (HF _ Hin). rewrite Forall_forall in HF.
  destruct (HF _ Ho) as (m0 & s & H1 & H2 & _ & H3 & H4). exists m0, s. split_and!; [done|done| |done].
  apply bool_decide_eq_true_2. exact H3.
Qed.
Print Assumptions C39_no_replay.

(** Every delivery, in every history, goes to a subscription whose destination
    is the message's, through the owner's connection; by way of a queue exactly
    when the destination starts with /queue. *)
Theorem C40_right_place : forall conn_of dest_of id_of log b r outs o,
  bexec conn_of dest_of id_of log b -> (r, outs) ∈ log -> o ∈ outs ->
  match o with
  | OutSub c s m => c = conn_of s /\ (exists rest, dest_of s = lit "/queue" ++ rest) /\ sent_to m (dest_of s) = true
  | OutTopic c m => exists s, c = conn_of s /\ ~ (exists rest, dest_of s = lit "/queue" ++ rest) /\ sent_to m (dest_of s) = true
  end.
Proof.
  intros conn_of dest_of id_of log b r outs o He Hin Ho. destruct (bexec_places _ _ _ _ _ He) as (_ & _ & HF).
  rewrite Forall_forall in HF. specialize (HF _ Hin). rewrite Forall_forall in HF. specialize (HF _ Ho).
  destruct o as [c s m|c m].
  - destruct HF as (H1 & H2 & H3). split_and!; [done|by apply is_queue_prefix|by apply bool_decide_eq_true_2].
  - destruct HF as (m0 & s & H1 & H2 & H3 & H4 & ->). exists s. split_and!; [done| |].
    + rewrite <-is_queue_prefix. by rewrite H3.
    + apply bool_decide_eq_true_2. by apply dest_with_sub.
Qed.
Print Assumptions C40_right_place.
(** A request about other destinations leaves this one's waiting messages and
    subscriptions alone. *)
Theorem C40_isolated : forall conn_of dest_of id_of log b hp r b' hp' outs d,
  bexec conn_of dest_of id_of log b -> agrees conn_of dest_of id_of hp -> serve b hp r = Fine (b', hp', outs) ->
  concerns dest_of d r = false ->
  waiting b' d = waiting b d /\ ready b' d = ready b d /\ members b' d = members b d.
Proof. exact isolated. Qed.
Print Assumptions C40_isolated.

(** Whatever happened before, the k-th failure after a success (or the start)
    waits 5ms * 2^k, at most 5s; a connection is served; a permanent failure
    ends the loop. *)
Theorem C52_listen : forall pre k x post, AccPermanent ∉ pre -> (pre = [] \/ last pre = Some AccOk) ->
  listen 0 (pre ++ replicate k AccTemporary ++ x :: post) !! (length pre + k) =
  Some match x with AccOk => LServe | AccTemporary => LSleep (backoff k) | AccPermanent => LReturn end.
Proof. exact listen_spec. Qed.
Print Assumptions C52_listen.
Theorem C52_bounds : forall l d, LSleep d ∈ listen 0 l -> (5000000 <= d <= 5000000000)%N.
Proof. intros l d. apply (listen_bound 0); [done|by left]. Qed.
Print Assumptions C52_bounds.
Theorem C52_return : forall pre post, AccPermanent ∉ pre -> listen 0 (pre ++ AccPermanent :: post) = listen 0 pre ++ [LReturn].
Proof. exact listen_return. Qed.
Print Assumptions C52_return.
Example C52_case : listen 0 (replicate 12 AccTemporary ++ [AccOk; AccTemporary; AccTemporary; AccPermanent; AccOk]) =
  (LSleep <$> [5000000; 10000000; 20000000; 40000000; 80000000; 160000000; 320000000; 640000000; 1280000000; 2560000000;
               5000000000; 5000000000]%N) ++ [LServe; LSleep 5000000; LSleep 10000000; LReturn].
Proof. by vm_compute. Qed.

(** The storage, seen from any queue name, is a deque driven by the operations
    naming it. *)
Theorem C54_storage_deques : forall ops st rs q, storage_run ∅ ops = (st, rs) ->
  deque_run [] (on_queue q ops) = (mq_list st q, on_queue q rs).
Proof.
  intros ops st rs q H. apply (storage_deques _ _ _ _ q) in H. unfold mq_list at 1 in H. by rewrite lookup_empty in H.
Qed.
Print Assumptions C54_storage_deques.

(* ------------------------------------------------------------------ *)
(** Cases. *)
Definition sample_msg (u : nat) (d : str) (body : str) : msg :=
  mkMsg u (mkFrame MESSAGE [(lit "destination", d)] body).
Definition sample_q := lit "/queue/a".
Definition sample_t := lit "/topic/a".
Example C54_case : let a := sample_msg 1 sample_q [] in let b := sample_msg 2 sample_q [] in let c := sample_msg 3 sample_t [] in
  snd (storage_run ∅ [(sample_q, SEnqueue a); (sample_q, SEnqueue b); (sample_q, SDequeue); (sample_t, SEnqueue c);
    (sample_q, SRequeue a); (sample_q, SDequeue); (sample_t, SDequeue); (sample_q, SDequeue); (sample_q, SDequeue)]) =
  [(sample_q, Some a); (sample_q, Some a); (sample_t, Some c); (sample_q, Some b); (sample_q, None)].
Proof. by vm_compute. Qed.

(** Subscriptions 0, 1 on the queue (connections 7 and 8), 2 and 3 on the topic. *)
Definition sample_conn (s : nat) : nat := if decide (s = 0) then 7 else 8.
Definition sample_dest (s : nat) : str := if decide (s < 2) then sample_q else sample_t.
Definition sample_id (s : nat) : str := lit "s" ++ format_uint (N.of_nat s).
Definition sample_heap : sheap := list_to_map ((fun s => (s, new_sub (sample_conn s) (sample_dest s) (sample_id s) ack_auto)) <$> seq 0 4).
Lemma sample_agrees : agrees sample_conn sample_dest sample_id sample_heap.
Proof.
  intros s sb H. apply elem_of_list_to_map_2 in H. apply elem_of_list_fmap in H as (s' & [= -> ->] & _). done.
Qed.
Definition sample_reqs : list request :=
  [REnqueue (sample_msg 1 sample_q (lit "one")); REnqueue (sample_msg 2 sample_q (lit "two")); RSubscribe 0; RSubscribe 2; RSubscribe 3;
   REnqueue (sample_msg 3 sample_t (lit "t")); RUnsubscribe 2; REnqueue (sample_msg 4 sample_t (lit "u"));
   RSubscribe 1; RSubscribe 0; RSubscribe 1; RUnsubscribe 0; REnqueue (sample_msg 5 sample_q (lit "three")); RRequeue (sample_msg 2 sample_q (lit "two"))].
(** A history with two queue subscribers and two topic subscribers, to which
    all of the above apply with non-empty lists. *)
Example C36_C39_C40_case : exists b log,
  brun broker_init sample_heap sample_reqs = Fine (b, log) /\ bexec sample_conn sample_dest sample_id log b /\
  ((fun sm : nat * msg => (fst sm, g_uid (snd sm))) <$> handed sample_dest sample_q log) = [(0, 1); (1, 2); (1, 5)] /\
  (g_uid <$> waiting b sample_q) = [2] /\
  (snd <$> log) !! 5 = Some [OutTopic 8 (set_sub (sample_msg 3 sample_t (lit "t")) (lit "s2"));
                             OutTopic 8 (set_sub (sample_msg 3 sample_t (lit "t")) (lit "s3"))] /\
  (snd <$> log) !! 7 = Some [OutTopic 8 (set_sub (sample_msg 4 sample_t (lit "u")) (lit "s3"))].
Proof.
  eexists _, _. split; [vm_compute; reflexivity|]. split.
  - eapply (brun_bexec _ _ _ [] broker_init sample_heap sample_reqs); [constructor|exact sample_agrees|vm_compute; reflexivity].
  - vm_compute. by split_and!.
Qed.
