(** What the server expects of a queue storage, and what two servers with
    different storages have in common. *)
From Verif Require Import GoBase HeaderModel FrameModel NegotiationModel BrokerModel ServerConnModel SystemModel SystemSpec StorageModel.

(** The contract of storage.go:13-25 for the three calls the server makes:
    [contents st d] is what is stored for queue d in state st, front first. *)
Record deques (ST : storage) (contents : so_state ST -> str -> list msg) : Prop := mkDeques {
  dq_init : forall d, contents (so_init ST) d = [];
  dq_enqueue : forall st d m st' a, so_call ST st (CEnqueue d m) st' a ->
    a = Done /\ contents st' d = contents st d ++ [m] /\ forall e, e <> d -> contents st' e = contents st e;
  dq_requeue : forall st d m st' a, so_call ST st (CRequeue d m) st' a ->
    a = Done /\ contents st' d = m :: contents st d /\ forall e, e <> d -> contents st' e = contents st e;
  dq_dequeue : forall st d st' a, so_call ST st (CDequeue d) st' a ->
    a = Got (head (contents st d)) /\ contents st' d = tail (contents st d) /\ forall e, e <> d -> contents st' e = contents st e
}.
(** Every call returns. *)
Definition returns (ST : storage) : Prop := forall st k, exists st' a, so_call ST st k st' a.

(** Two states of the server differ at most in what their brokers store. *)
Definition same_but_store (y1 y2 : sys) : Prop :=
  y_conns y1 = y_conns y2 /\ y_heap y1 = y_heap y2 /\ y_next y1 = y_next y2 /\ y_uid y1 = y_uid y2 /\ y_req y1 = y_req y2 /\
  y_pout y1 = y_pout y2 /\ y_blog y1 = y_blog y2 /\ y_fin y1 = y_fin y2 /\ y_lost y1 = y_lost y2 /\
  b_ready (y_broker y1) = b_ready (y_broker y2) /\ b_topics (y_broker y1) = b_topics (y_broker y2).
(** Server w on its storage and server y on the in-memory one: the same, and
    the same messages wait in every queue. *)
Definition twins {ST} (contents : so_state ST -> str -> list msg) (w : gsys ST) (y : sys) : Prop :=
  same_but_store (w_sys w) y /\ forall d, contents (w_st w) d = waiting (y_broker y) d.

(** A storage that may fail: a call either works or returns an error and
    changes nothing. *)
Record fallible (ST : storage) (contents : so_state ST -> str -> list msg) : Prop := mkFallible {
  fa_init : forall d, contents (so_init ST) d = [];
  fa_error : forall st k st', so_call ST st k st' Failed -> forall d, contents st' d = contents st d;
  fa_enqueue : forall st d m st' a, so_call ST st (CEnqueue d m) st' a -> a <> Failed ->
    a = Done /\ contents st' d = contents st d ++ [m] /\ forall e, e <> d -> contents st' e = contents st e;
  fa_requeue : forall st d m st' a, so_call ST st (CRequeue d m) st' a -> a <> Failed ->
    a = Done /\ contents st' d = m :: contents st d /\ forall e, e <> d -> contents st' e = contents st e;
  fa_dequeue : forall st d st' a, so_call ST st (CDequeue d) st' a -> a <> Failed ->
    a = Got (head (contents st d)) /\ contents st' d = tail (contents st d) /\ forall e, e <> d -> contents st' e = contents st e
}.
(** The messages whose Enqueue or Requeue for queue d was refused. *)
Definition refused (d : str) (ks : list (scall * sans)) : list msg :=
  omap (fun k : scall * sans => match k with
    | (CEnqueue e m, Failed) | (CRequeue e m, Failed) => if decide (e = d) then Some m else None
    | _ => None
    end) ks.
(** Messages for d handed to subscriptions, in the order of the history. *)
Definition given (d : str) (log : list (request * list pout)) : list msg := filter (to_dest d) (pmsgs (concat (log.*2))).
