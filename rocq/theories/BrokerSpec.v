(** Histories of the broker and what they must satisfy. *)
From Verif Require Import GoBase HeaderModel FrameModel GrammarSpec BrokerModel.

(** One handled request together with what it made the broker hand out. *)
Definition bev := (request * list pout)%type.

(** The subscription objects have the owner, destination and id given. *)
Definition agrees (conn_of : nat -> nat) (dest_of id_of : nat -> str) (hp : sheap) : Prop :=
  forall s sb, hp !! s = Some sb -> s_conn sb = conn_of s /\ s_dest sb = dest_of s /\ s_id sb = id_of s.

(** A history of the broker, from start-up, oldest request first.  Between two
    requests the connections may change the subscription objects in any way,
    except for the owner, destination and id, which are fixed by [conn_of],
    [dest_of], [id_of]. *)
Inductive bexec (conn_of : nat -> nat) (dest_of id_of : nat -> str) : list bev -> broker -> Prop :=
| be_init : bexec conn_of dest_of id_of [] broker_init
| be_serve log b hp r b' hp' outs :
    bexec conn_of dest_of id_of log b ->
    agrees conn_of dest_of id_of hp ->
    serve b hp r = Fine (b', hp', outs) ->
    bexec conn_of dest_of id_of (log ++ [(r, outs)]) b'.

(** The destination named by a message. *)
Definition sent_to (m : msg) (d : str) : bool :=
  bool_decide (hd_contains (f_hdr (g_frame m)) (lit "destination") = Some d).

(** Messages sent to d / returned to d, in the order the broker handled them. *)
Definition arrivals (d : str) (log : list bev) : list msg :=
  omap (fun e : bev => match fst e with REnqueue m => if sent_to m d then Some m else None | _ => None end) log.
Definition returned (d : str) (log : list bev) : list msg :=
  omap (fun e : bev => match fst e with RRequeue m => if sent_to m d then Some m else None | _ => None end) log.
(** "Subscription ready" requests for d, in order. *)
Definition readied (dest_of : nat -> str) (d : str) (log : list bev) : list nat :=
  omap (fun e : bev => match fst e with RSubscribe s => if bool_decide (dest_of s = d) then Some s else None | _ => None end) log.
Definition unsubscribed (log : list bev) : list nat :=
  omap (fun e : bev => match fst e with RUnsubscribe s => Some s | _ => None end) log.
(** Messages handed to subscriptions of d, in order. *)
Definition out_handed (dest_of : nat -> str) (d : str) (o : pout) : option (nat * msg) :=
  match o with OutSub _ s m => if bool_decide (dest_of s = d) then Some (s, m) else None | OutTopic _ _ => None end.
Definition handed (dest_of : nat -> str) (d : str) (log : list bev) : list (nat * msg) :=
  concat ((fun e : bev => omap (out_handed dest_of d) (snd e)) <$> log).

(** The frame a subscription is handed for message m: the same frame with the
    subscription header set to its id. *)
Definition copy_for (id : str) (m m' : msg) : Prop :=
  g_uid m' = g_uid m /\ f_cmd (g_frame m') = f_cmd (g_frame m) /\ f_body (g_frame m') = f_body (g_frame m) /\
  f_hdr (g_frame m') = hd_set (f_hdr (g_frame m)) (lit "subscription") id.

(** Subscriptions of topic d present after the history: those that subscribed
    and have not unsubscribed since, in subscription order. *)
Fixpoint present (dest_of : nat -> str) (d : str) (log : list bev) : list nat :=
  match log with
  | [] => []
  | (RSubscribe s, _) :: log' =>
      if decide (dest_of s = d /\ s ∉ unsubscribed log') then s :: present dest_of d log' else present dest_of d log'
  | _ :: log' => present dest_of d log'
  end.

(** Requests concerning destination d. *)
Definition concerns (dest_of : nat -> str) (d : str) (r : request) : bool :=
  match r with
  | RSubscribe s | RUnsubscribe s => bool_decide (dest_of s = d)
  | REnqueue m | RRequeue m => sent_to m d
  | _ => false
  end.
(** m with the subscription header set. *)
Definition set_sub (m : msg) (id : str) : msg :=
  mkMsg (g_uid m) (mkFrame (f_cmd (g_frame m)) (hd_set (f_hdr (g_frame m)) (lit "subscription") id) (f_body (g_frame m))).
(** Effect of one request on queue d: waiting messages and ready subscriptions. *)
Inductive qstep (id_of : nat -> str) : list msg * list nat -> request -> list (nat * msg) -> list msg * list nat -> Prop :=
| qs_sub_wait rd s : qstep id_of ([], rd) (RSubscribe s) [] ([], rd ++ [s])
| qs_sub_get m w rd s : qstep id_of (m :: w, rd) (RSubscribe s) [(s, set_sub m (id_of s))] (w, rd)
| qs_unsub w l1 s l2 : s ∉ l1 -> qstep id_of (w, l1 ++ s :: l2) (RUnsubscribe s) [] (w, l1 ++ l2)
| qs_unsub_none w rd s : s ∉ rd -> qstep id_of (w, rd) (RUnsubscribe s) [] (w, rd)
| qs_enq_wait w m : qstep id_of (w, []) (REnqueue m) [] (w ++ [m], [])
| qs_enq_hand w s rd m : qstep id_of (w, s :: rd) (REnqueue m) [(s, set_sub m (id_of s))] (w, rd)
| qs_req_wait w m : qstep id_of (w, []) (RRequeue m) [] (m :: w, [])
| qs_req_hand w s rd m : qstep id_of (w, s :: rd) (RRequeue m) [(s, set_sub m (id_of s))] (w, rd).

(** Back-off: the n-th consecutive failure waits 5ms * 2^n, at most 5s. *)
Definition backoff (n : nat) : N := N.min (5000000 * 2 ^ N.of_nat n) 5000000000.

(** Operations on the queue storage, each naming a queue. *)
Inductive sop := SEnqueue (m : msg) | SRequeue (m : msg) | SDequeue.
(** The storage driven by a sequence of operations; results of the dequeues. *)
Fixpoint storage_run (st : store) (ops : list (str * sop)) : store * list (str * option msg) :=
  match ops with
  | [] => (st, [])
  | (q, SEnqueue m) :: ops' => storage_run (mq_enqueue st q m) ops'
  | (q, SRequeue m) :: ops' => storage_run (mq_requeue st q m) ops'
  | (q, SDequeue) :: ops' =>
      let '(st', o) := mq_dequeue st q in
      let '(st'', rs) := storage_run st' ops' in (st'', (q, o) :: rs)
  end.
(** One double-ended queue. *)
Fixpoint deque_run (l : list msg) (ops : list sop) : list msg * list (option msg) :=
  match ops with
  | [] => (l, [])
  | SEnqueue m :: ops' => deque_run (l ++ [m]) ops'
  | SRequeue m :: ops' => deque_run (m :: l) ops'
  | SDequeue :: ops' =>
      match l with
      | [] => let '(l', rs) := deque_run [] ops' in (l', None :: rs)
      | m :: l0 => let '(l', rs) := deque_run l0 ops' in (l', Some m :: rs)
      end
  end.
(** The part of a sequence that names queue q. *)
Definition on_queue {A} (q : str) (l : list (str * A)) : list A :=
  omap (fun x : str * A => if bool_decide (fst x = q) then Some (snd x) else None) l.
