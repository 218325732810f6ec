(** What happens to messages and subscriptions on their way through the
    channels of the server: order, completeness, ends of subscriptions. *)
From Verif Require Import GoBase HeaderModel FrameModel NegotiationModel BrokerModel BrokerSpec ServerConnModel ServerConnSpec SystemModel SystemSpec.

(** Client frames a connection has handled. *)
Definition frames_of (log : list cev) : list msg := omap client_frame log.
(** Messages a connection gave to the processor, in the order it did. *)
Definition client_sent (n : sconn) : list msg := concat ((fun e => enqueues (v_push e)) <$> n_log n).
(** m was sent by this connection (ghost numbers are unique, C37). *)
Definition sent_by (n : sconn) (m : msg) : Prop := g_uid m ∈ (g_uid <$> client_sent n).
Global Instance sent_by_dec n m : Decision (sent_by n m).
Proof. unfold sent_by. apply _. Defined.

(** Topic frames the processor addressed to connection c. *)
Definition topics_to (c : nat) (os : list pout) : list msg :=
  omap (fun o => match o with OutTopic c' m => if decide (c' = c) then Some m else None | OutSub _ _ _ => None end) os.
Definition topics_out (c : nat) (log : list bev) : list msg := topics_to c (concat (snd <$> log)).
(** Topic frames connection n took for writing, in order. *)
Definition topics_in (n : sconn) : list msg := omap (fun e => match v_in e with InTopic m => Some m | _ => None end) (n_log n).

(** The requests about subscription object s, in order. *)
Definition about (s : nat) (r : request) : Prop := r = RSubscribe s \/ r = RUnsubscribe s.
Global Instance request_eq_dec : EqDecision request.
Proof. solve_decision. Defined.
Global Instance about_dec s r : Decision (about s r).
Proof. unfold about. apply _. Defined.

(** Object s is the only one its connection ever made with this id. *)
Definition only_of_id (y : sys) (s : nat) (sb : sub) : Prop :=
  forall s' sb', y_heap y !! s' = Some sb' -> s_conn sb' = s_conn sb -> s_id sb' = s_id sb -> s' = s.

(** The messages for d among those handled while s was subscribed, by the
    requests alone. *)
Fixpoint during (s : nat) (d : str) (on : bool) (rs : list request) : list msg :=
  match rs with
  | [] => []
  | RSubscribe s' :: l => during s d (on || bool_decide (s' = s)) l
  | RUnsubscribe s' :: l => during s d (on && negb (bool_decide (s' = s))) l
  | REnqueue m :: l => if on && sent_to m d then m :: during s d on l else during s d on l
  | _ :: l => during s d on l
  end.
(** MESSAGE frames with this subscription id the connection tried to write, in
    order. *)
Definition received (id : str) (n : sconn) : list msg :=
  filter (fun m => hget_of m (lit "subscription") = Some id) (frames_with (lit "MESSAGE") (written n)).
(** Event e is an accepted SUBSCRIBE for id and destination d, which the
    processor is asked for as subscription object s. *)
Definition subscribes (e : cev) (id d : str) (s : nat) : Prop :=
  exists m, accepted e = Some m /\ cmd_of m = SUBSCRIBE /\ hget_of m (lit "id") = Some id /\ hget_of m (lit "destination") = Some d /\ v_push e = [RSubscribe s].
