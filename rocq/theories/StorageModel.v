(** The server over any queue storage (server/server.go:45, Server.QueueStorage;
    server/queue/storage.go:12-34, server/queue_storage.go:11-30).  SystemModel
    has the in-memory storage built in; here the storage is whatever the program
    supplies: its own state and, for every call, the outcomes it may have. *)
From Verif Require Import GoBase HeaderModel FrameModel NegotiationModel BrokerModel ServerConnModel SystemModel.

(** server/queue/storage.go:16, 21, 25, 29, 33 *)
Inductive scall := CEnqueue (d : str) (m : msg) | CRequeue (d : str) (m : msg) | CDequeue (d : str) | CStart | CStop.
(** What a call returns: Done (nil error from Enqueue and Requeue), the frame
    or nil from Dequeue, or a non-nil error. *)
Inductive sans := Done | Got (o : option msg) | Failed.
Global Instance scall_eq_dec : EqDecision scall.
Proof. solve_decision. Defined.
Global Instance sans_eq_dec : EqDecision sans.
Proof. solve_decision. Defined.

(** An implementation of the interface.  [so_call st k st' a]: in state st the
    call k may leave st' and return a. *)
Record storage := mkStorage {
  so_state : Type; so_init : so_state;
  so_call : so_state -> scall -> so_state -> sans -> Prop
}.

(** server/queue/queue.go:31-46 (Subscribe): what it does with the answer of
    Dequeue.  The error is returned (queue.go:34-36) and dropped by the caller
    (processor.go:47-49, "todo error handling"). *)
Definition subscribe_with (a : sans) (b : broker) (hp : sheap) (d : str) (s : nat) : pres presult :=
  match a with
  | Got None =>
      match sl_add hp (ready b d) s with
      | Fine (hp', l) => Fine (mkBroker (b_store b) (<[d := l]> (b_ready b)) (b_topics b), hp', [])
      | Panicked p => Panicked p
      end
  | Got (Some m) =>
      match send_queue_frame hp s m with
      | Fine (hp', o) => Fine (b, hp', [o])
      | Panicked p => Panicked p
      end
  | _ => Fine (b, hp, [])
  end.
(** queue.go:57-68 (Enqueue), 75-86 (Requeue): a ready subscription takes the
    message, else the storage is called, and the error, if any, returned and
    dropped (processor.go:76, 91). *)
Definition send_with (b : broker) (hp : sheap) (d : str) (m : msg) : pres presult :=
  match sl_get hp (ready b d) with
  | None => Fine (b, hp, [])
  | Some (s, hp', l) =>
      match send_queue_frame hp' s m with
      | Fine (hp'', o) => Fine (mkBroker (b_store b) (<[d := l]> (b_ready b)) (b_topics b), hp'', [o])
      | Panicked p => Panicked p
      end
  end.
(** The storage call a request leads to, if any (processor.go:44-95,
    queue.go:33, 62, 80).  Start and Stop are called from nowhere. *)
Definition call_of (b : broker) (hp : sheap) (r : request) : option scall :=
  match r with
  | RSubscribe s =>
      match hp !! s with
      | Some sb => if is_queue (s_dest sb) then Some (CDequeue (s_dest sb)) else None
      | None => None
      end
  | REnqueue m =>
      match hd_contains (f_hdr (g_frame m)) h_destination with
      | Some d => if is_queue d then match ready b d with [] => Some (CEnqueue d m) | _ => None end else None
      | None => None
      end
  | RRequeue m =>
      match hd_contains (f_hdr (g_frame m)) h_destination with
      | Some d => if is_queue d then match ready b d with [] => Some (CRequeue d m) | _ => None end else None
      | None => None
      end
  | _ => None
  end.
(** One iteration of Serve (processor.go:39-96) given the answer of its storage
    call ([Done] if it makes none).  [b_store] plays no part. *)
Definition serve_with (a : sans) (b : broker) (hp : sheap) (r : request) : pres presult :=
  match r with
  | RSubscribe s =>
      match hp !! s with
      | None => Panicked PanicNil
      | Some sb => if is_queue (s_dest sb) then subscribe_with a b hp (s_dest sb) s
                   else Fine (topic_subscribe b (s_dest sb) s, hp, [])
      end
  | REnqueue m =>
      match hd_contains (f_hdr (g_frame m)) h_destination with
      | None => Panicked PanicMissingDestination
      | Some d => if is_queue d then send_with b hp d m
                  else match topic_send_all hp (members b d) m with
                       | Fine os => Fine (b, hp, os)
                       | Panicked p => Panicked p
                       end
      end
  | RRequeue m =>
      match hd_contains (f_hdr (g_frame m)) h_destination with
      | None => Panicked PanicMissingDestination
      | Some d => if is_queue d then send_with b hp d m else Fine (b, hp, [])
      end
  | RUnsubscribe _ | RConnected _ | RDisconnected _ => serve b hp r
  end.

(** The server with its storage.  [w_calls] (ghost): the calls made and their
    answers.  The field [b_store] of the broker stays empty. *)
Record gsys (ST : storage) := mkGsys { w_st : so_state ST; w_sys : sys; w_calls : list (scall * sans) }.
Global Arguments mkGsys {ST} w_st w_sys w_calls.
Global Arguments w_st {ST} _.
Global Arguments w_sys {ST} _.
Global Arguments w_calls {ST} _.

Section Storage.
  Context (ST : storage) (cfg : scfg).

  (** The processor takes request r and, if that needs the storage, calls it. *)
  Inductive asks (w : gsys ST) (r : request) : so_state ST -> sans -> list (scall * sans) -> Prop :=
  | ask_none : call_of (y_broker (w_sys w)) (y_heap (w_sys w)) r = None -> asks w r (w_st w) Done []
  | ask_call k st a : call_of (y_broker (w_sys w)) (y_heap (w_sys w)) r = Some k -> so_call ST (w_st w) k st a -> asks w r st a [(k, a)].
  Definition proc_with (y : sys) (rs : list request) (r : request) (x : presult) : sys :=
    let '(b, hp, outs) := x in
    mkSys (y_conns y) hp (y_next y) (y_uid y) rs b outs (y_blog y ++ [(r, outs)]) (y_fin y) (y_lost y).
  (** Actions are those of SystemModel.step; only AProc involves the storage. *)
  Inductive gstep (w : gsys ST) : act -> pres (gsys ST) -> Prop :=
  | gs_other a y : a <> AProc -> step cfg (w_sys w) a = Some (Fine y) -> gstep w a (Fine (mkGsys (w_st w) y (w_calls w)))
  | gs_other_panic a p : a <> AProc -> step cfg (w_sys w) a = Some (Panicked p) -> gstep w a (Panicked p)
  | gs_proc r rs st a ks x : y_pout (w_sys w) = [] -> y_req (w_sys w) = r :: rs -> asks w r st a ks ->
      serve_with a (y_broker (w_sys w)) (y_heap (w_sys w)) r = Fine x ->
      gstep w AProc (Fine (mkGsys st (proc_with (w_sys w) rs r x) (w_calls w ++ ks)))
  | gs_proc_panic r rs st a ks p : y_pout (w_sys w) = [] -> y_req (w_sys w) = r :: rs -> asks w r st a ks ->
      serve_with a (y_broker (w_sys w)) (y_heap (w_sys w)) r = Panicked p -> gstep w AProc (Panicked p).

  (** processor.go:24-37 (newRequestProcessor): the storage is used as it is
      given; nothing is called. *)
  Definition gsys_init : gsys ST := mkGsys (so_init ST) sys_init [].
  Inductive greach : gsys ST -> Prop :=
  | gr_init : greach gsys_init
  | gr_step w a w' : greach w -> gstep w a (Fine w') -> greach w'.
End Storage.

(** server/queue/memory_queue.go:10-70 (NewMemoryQueueStorage) as such a
    storage. *)
Inductive memory_call : store -> scall -> store -> sans -> Prop :=
| mc_enqueue st d m : memory_call st (CEnqueue d m) (mq_enqueue st d m) Done
| mc_requeue st d m : memory_call st (CRequeue d m) (mq_requeue st d m) Done
| mc_dequeue st d st' o : mq_dequeue st d = (st', o) -> memory_call st (CDequeue d) st' (Got o)
| mc_start st : memory_call st CStart ∅ Done
| mc_stop st : memory_call st CStop ∅ Done.
Definition memory : storage := mkStorage store ∅ memory_call.
