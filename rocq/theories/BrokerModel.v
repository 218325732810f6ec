(** Model of the broker side of the server: server/queue/*.go, server/topic/*.go,
    server/processor.go, and the subscription objects they share with the
    connections (server/client/subscription.go, subscription_list.go,
    request.go). *)
From stdpp Require Export gmap.
From Verif Require Import GoBase HeaderModel FrameModel.

(** A MESSAGE frame travelling through the server.  [g_uid] is a ghost: the
    serial number of the client frame it came from (topic copies share it); the
    code has no such field and never looks at it. *)
Record msg := mkMsg { g_uid : nat; g_frame : frame }.
Global Instance msg_eq_dec : EqDecision msg.
Proof. solve_decision. Defined.

(** frame/ack.go:5-9 *)
Definition ack_auto := lit "auto".
Definition ack_client := lit "client".
Definition ack_individual := lit "client-individual".

(** server/client/subscription.go:7-15.  Subscriptions are shared by pointer:
    a pointer is a number, the objects are in a [heap].  [s_inlist]: subList is
    non-nil (it is only ever compared with nil).  [s_msgid] is never assigned
    by non-test code, newSubscription leaves it 0. *)
Record sub := mkSub {
  s_conn : nat; s_dest : str; s_id : str; s_ack : str; s_msgid : N;
  s_inlist : bool; s_frame : option msg
}.
Notation sheap := (gmap nat sub).
(** server/client/subscription.go:17-24 (newSubscription) *)
Definition new_sub (conn : nat) (dest id ack : str) : sub := mkSub conn dest id ack 0 false None.
Definition set_inlist (s : sub) (b : bool) : sub :=
  mkSub (s_conn s) (s_dest s) (s_id s) (s_ack s) (s_msgid s) b (s_frame s).
Definition set_frame (s : sub) (m : option msg) : sub :=
  mkSub (s_conn s) (s_dest s) (s_id s) (s_ack s) (s_msgid s) (s_inlist s) m.

(** Go panics that end the process. *)
Inductive panic := PanicMissingDestination | PanicAlreadyInList | PanicFramePending
  | PanicBadAck | PanicNil.
Inductive pres (A : Type) := Panicked (p : panic) | Fine (a : A).
Global Arguments Panicked {A} p.
Global Arguments Fine {A} a.

(* ------------------------------------------------------------------ *)
(** server/client/subscription_list.go over a list of pointers, front first. *)

(** :22-28 (Add) *)
Definition sl_add (hp : sheap) (l : list nat) (s : nat) : pres (sheap * list nat) :=
  match hp !! s with
  | None => Panicked PanicNil
  | Some sb => if s_inlist sb then Panicked PanicAlreadyInList
               else Fine (<[s := set_inlist sb true]> hp, l ++ [s])
  end.
(** :33-42 (Get) *)
Definition sl_get (hp : sheap) (l : list nat) : option (nat * sheap * list nat) :=
  match l with
  | [] => None
  | s :: l' => Some (s, alter (fun sb => set_inlist sb false) s hp, l')
  end.
(** :45-53 (Remove): the first element equal to s; subList is cleared only if found. *)
Fixpoint remove_first (s : nat) (l : list nat) : option (list nat) :=
  match l with
  | [] => None
  | x :: l' => if decide (x = s) then Some l' else match remove_first s l' with Some r => Some (x :: r) | None => None end
  end.
Definition sl_remove (hp : sheap) (l : list nat) (s : nat) : sheap * list nat :=
  match remove_first s l with
  | Some l' => (alter (fun sb => set_inlist sb false) s hp, l')
  | None => (hp, l)
  end.

(** server/client/subscription.go:38-51 (IsAckedBy); None = panic *)
Definition is_acked_by (sb : sub) (id : N) : option bool :=
  if decide (s_ack sb = ack_auto) then Some true
  else if decide (s_ack sb = ack_client) then Some (s_msgid sb <=? id)%N
  else if decide (s_ack sb = ack_individual) then Some (id =? s_msgid sb)%N
  else None.
(** server/client/subscription.go:53-57 (IsNackedBy) *)
Definition is_nacked_by (sb : sub) (id : N) : bool := (id =? s_msgid sb)%N.

(* ------------------------------------------------------------------ *)
(** server/queue/memory_queue.go:10-58.  A missing map entry and an empty list
    are different Go values. *)
Notation store := (gmap str (list msg)).
Definition mq_list (st : store) (q : str) : list msg := match st !! q with Some l => l | None => [] end.
(** :19-28 (Enqueue) *)
Definition mq_enqueue (st : store) (q : str) (m : msg) : store := <[q := mq_list st q ++ [m]]> st.
(** :33-42 (Requeue) *)
Definition mq_requeue (st : store) (q : str) (m : msg) : store := <[q := m :: mq_list st q]> st.
(** :46-58 (Dequeue) *)
Definition mq_dequeue (st : store) (q : str) : store * option msg :=
  match st !! q with
  | None => (st, None)
  | Some [] => (st, None)
  | Some (m :: l) => (<[q := l]> st, Some m)
  end.

(* ------------------------------------------------------------------ *)
(** The processor's state: queue storage, the ready subscriptions of each
    queue (queue.Manager.queues / Queue.subs) and the subscriptions of each
    topic (topic.Manager.topics / Topic.subs).  Find (queue/manager.go:16-23,
    topic/manager.go:17-24) creates on demand: a missing entry reads as the
    empty list. *)
Record broker := mkBroker {
  b_store : store;
  b_ready : gmap str (list nat);
  b_topics : gmap str (list nat)
}.
Definition broker_init : broker := mkBroker ∅ ∅ ∅.
Definition ready (b : broker) (d : str) : list nat := match b_ready b !! d with Some l => l | None => [] end.
Definition members (b : broker) (d : str) : list nat := match b_topics b !! d with Some l => l | None => [] end.
Definition waiting (b : broker) (d : str) : list msg := mq_list (b_store b) d.

(** What the processor puts on a connection's channels: a subscription holding
    its frame on subChannel (the message is repeated here for the logs; the
    channel carries the pointer only), or a topic frame on writeChannel. *)
Inductive pout :=
| OutSub (conn : nat) (s : nat) (m : msg)
| OutTopic (conn : nat) (m : msg).

(** server/client/subscription.go:79-84 (setSubscriptionHeader) on the frame. *)
Definition with_sub (m : msg) (id : str) : msg :=
  mkMsg (g_uid m) (mkFrame (f_cmd (g_frame m)) (hd_set (f_hdr (g_frame m)) h_subscription id) (f_body (g_frame m))).

(** server/client/subscription.go:59-66 (SendQueueFrame), up to the channel send *)
Definition send_queue_frame (hp : sheap) (s : nat) (m : msg) : pres (sheap * pout) :=
  match hp !! s with
  | None => Panicked PanicNil
  | Some sb =>
      match s_frame sb with
      | Some _ => Panicked PanicFramePending
      | None => let m' := with_sub m (s_id sb) in
                Fine (<[s := set_frame sb (Some m')]> hp, OutSub (s_conn sb) s m')
      end
  end.
(** server/client/subscription.go:71-77 (SendTopicFrame), up to the channel send *)
Definition send_topic_frame (hp : sheap) (s : nat) (m : msg) : pres pout :=
  match hp !! s with
  | None => Panicked PanicNil
  | Some sb => match s_frame sb with
               | Some _ => Panicked PanicFramePending
               | None => Fine (OutTopic (s_conn sb) (with_sub m (s_id sb)))
               end
  end.

Definition presult := (broker * sheap * list pout)%type.

(** server/queue/queue.go:31-46 (Subscribe) *)
Definition queue_subscribe (b : broker) (hp : sheap) (d : str) (s : nat) : pres presult :=
  match mq_dequeue (b_store b) d with
  | (st, None) =>
      match sl_add hp (ready b d) s with
      | Fine (hp', l) => Fine (mkBroker st (<[d := l]> (b_ready b)) (b_topics b), hp', [])
      | Panicked p => Panicked p
      end
  | (st, Some m) =>
      match send_queue_frame hp s m with
      | Fine (hp', o) => Fine (mkBroker st (b_ready b) (b_topics b), hp', [o])
      | Panicked p => Panicked p
      end
  end.
(** server/queue/queue.go:49-51 (Unsubscribe) *)
Definition queue_unsubscribe (b : broker) (hp : sheap) (d : str) (s : nat) : presult :=
  let '(hp', l) := sl_remove hp (ready b d) s in
  (mkBroker (b_store b) (<[d := l]> (b_ready b)) (b_topics b), hp', []).
(** server/queue/queue.go:57-68 (Enqueue), 75-86 (Requeue): [put] is the storage
    operation used when no subscription is ready. *)
Definition queue_send (put : store -> str -> msg -> store) (b : broker) (hp : sheap) (d : str) (m : msg) : pres presult :=
  match sl_get hp (ready b d) with
  | None => Fine (mkBroker (put (b_store b) d m) (b_ready b) (b_topics b), hp, [])
  | Some (s, hp', l) =>
      match send_queue_frame hp' s m with
      | Fine (hp'', o) => Fine (mkBroker (b_store b) (<[d := l]> (b_ready b)) (b_topics b), hp'', [o])
      | Panicked p => Panicked p
      end
  end.
Definition queue_enqueue := queue_send mq_enqueue.
Definition queue_requeue := queue_send mq_requeue.

(** server/topic/topic.go:31-33 (Subscribe) *)
Definition topic_subscribe (b : broker) (d : str) (s : nat) : broker :=
  mkBroker (b_store b) (b_ready b) (<[d := members b d ++ [s]]> (b_topics b)).
(** server/topic/topic.go:36-43 (Unsubscribe) *)
Definition topic_unsubscribe (b : broker) (d : str) (s : nat) : broker :=
  mkBroker (b_store b) (b_ready b)
    (<[d := match remove_first s (members b d) with Some l => l | None => members b d end]> (b_topics b)).
(** server/topic/topic.go:47-73 (Enqueue).  Frames are values here: that every
    subscription gets its own copy is HeapModel's business (C12). *)
Fixpoint topic_send_all (hp : sheap) (l : list nat) (m : msg) : pres (list pout) :=
  match l with
  | [] => Fine []
  | s :: l' => match send_topic_frame hp s m with
               | Panicked p => Panicked p
               | Fine o => match topic_send_all hp l' m with Fine os => Fine (o :: os) | Panicked p => Panicked p end
               end
  end.

(* ------------------------------------------------------------------ *)
(** server/client/request.go:16-31 *)
Inductive request :=
| RSubscribe (s : nat) | RUnsubscribe (s : nat) | REnqueue (m : msg) | RRequeue (m : msg)
| RConnected (c : nat) | RDisconnected (c : nat).

(** server/server.go:21 QueuePrefix; processor.go:98-100 (isQueueDestination) *)
Definition queue_prefix := lit "/queue".
Definition is_queue (d : str) : bool := bool_decide (take (length queue_prefix) d = queue_prefix).

(** server/processor.go:39-96 (Serve): one iteration. *)
Definition serve (b : broker) (hp : sheap) (r : request) : pres presult :=
  match r with
  | RSubscribe s =>
      match hp !! s with
      | None => Panicked PanicNil
      | Some sb => if is_queue (s_dest sb) then queue_subscribe b hp (s_dest sb) s
                   else Fine (topic_subscribe b (s_dest sb) s, hp, [])
      end
  | RUnsubscribe s =>
      match hp !! s with
      | None => Panicked PanicNil
      | Some sb => if is_queue (s_dest sb) then Fine (queue_unsubscribe b hp (s_dest sb) s)
                   else Fine (topic_unsubscribe b (s_dest sb) s, hp, [])
      end
  | REnqueue m =>
      match hd_contains (f_hdr (g_frame m)) h_destination with
      | None => Panicked PanicMissingDestination
      | Some d => if is_queue d then queue_enqueue b hp d m
                  else match topic_send_all hp (members b d) m with
                       | Fine os => Fine (b, hp, os)
                       | Panicked p => Panicked p
                       end
      end
  | RRequeue m =>
      match hd_contains (f_hdr (g_frame m)) h_destination with
      | None => Panicked PanicMissingDestination
      | Some d => if is_queue d then queue_requeue b hp d m else Fine (b, hp, [])
      end
  | RConnected _ | RDisconnected _ => Fine (b, hp, [])
  end.

(* ------------------------------------------------------------------ *)
(** server/processor.go:102-130 (Listen): outcomes of Accept and what the loop
    does; durations in nanoseconds.  After a permanent error it returns. *)
Inductive accept := AccOk | AccTemporary | AccPermanent.
Inductive listen_act := LServe | LSleep (d : N) | LReturn.
Definition ms_ns : N := 1000000.
Definition listen_sleep (timeout : N) : N :=
  let t := if (timeout =? 0)%N then (5 * ms_ns)%N else (timeout * 2)%N in
  if (5000 * ms_ns <? t)%N then (5000 * ms_ns)%N else t.
Fixpoint listen (timeout : N) (l : list accept) : list listen_act :=
  match l with
  | [] => []
  | AccOk :: l' => LServe :: listen 0 l'
  | AccTemporary :: l' => let t := listen_sleep timeout in LSleep t :: listen t l'
  | AccPermanent :: _ => [LReturn]
  end.
