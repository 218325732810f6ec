(** The managers of queues and topics: one Queue or Topic object for every
    destination the processor was asked about (server/queue/manager.go:4-23,
    server/topic/manager.go:6-24, server/processor.go:42-93), on top of
    SystemModel, which has what is in these objects but not which exist.

    What is simplified: an object is its name; newQueue (server/queue/queue.go)
    and newTopic (server/topic/topic.go) only set empty fields. *)
From Verif Require Import GoBase HeaderModel FrameModel NegotiationModel BrokerModel ServerConnModel SystemModel.

(** queue.Manager.queues (manager.go:6) and topic.Manager.topics (manager.go:7) *)
Record ksys := mkK { k_sys : sys; k_queues : gset str; k_topics : gset str }.
Definition k_init : ksys := mkK sys_init ∅ ∅.
(** server/queue/manager.go:16-23, server/topic/manager.go:17-24 (Find) *)
Definition find (objects : gset str) (d : str) : gset str := if decide (d ∈ objects) then objects else objects ∪ {[d]}.
(** processor.go:46-53, 56-63, 72-78: which manager is asked *)
Definition find_either (q t : gset str) (d : str) : gset str * gset str := if is_queue d then (find q d, t) else (q, find t d).
(** processor.go:44-92: the Find of each kind of request; RequeueOp asks only
    for queues (87-91) *)
Definition find_for (hp : sheap) (q t : gset str) (r : request) : gset str * gset str :=
  match r with
  | RSubscribe s | RUnsubscribe s => match hp !! s with Some sb => find_either q t (s_dest sb) | None => (q, t) end
  | REnqueue m => match hd_contains (f_hdr (g_frame m)) h_destination with Some d => find_either q t d | None => (q, t) end
  | RRequeue m => match hd_contains (f_hdr (g_frame m)) h_destination with
                  | Some d => if is_queue d then (find q d, t) else (q, t)
                  | None => (q, t)
                  end
  | RConnected _ | RDisconnected _ => (q, t)
  end.
Definition kstep (cfg : scfg) (k : ksys) (a : act) : option ksys :=
  match step cfg (k_sys k) a with
  | Some (Fine y) =>
      match a, y_req (k_sys k) with
      | AProc, r :: _ => let '(q, t) := find_for (y_heap (k_sys k)) (k_queues k) (k_topics k) r in Some (mkK y q t)
      | _, _ => Some (mkK y (k_queues k) (k_topics k))
      end
  | _ => None
  end.
Inductive kreach (cfg : scfg) : ksys -> Prop :=
| kr_init : kreach cfg k_init
| kr_step k a k' : kreach cfg k -> kstep cfg k a = Some k' -> kreach cfg k'.
Fixpoint krun (cfg : scfg) (k : ksys) (l : list act) : option ksys :=
  match l with
  | [] => Some k
  | a :: l' => match kstep cfg k a with Some k' => krun cfg k' l' | None => None end
  end.
