(** C60 to C64: messages and subscriptions on their way through the channels
    of the server. *)
From Coq Require Import Sorted.
From Verif Require Import GoBase HeaderModel FrameModel GrammarSpec HeaderProofs NegotiationModel NegotiationSpec NegotiationLemmas
  BrokerModel BrokerSpec BrokerProofs ServerConnModel ServerConnSpec ServerConnProofs SystemModel SystemLemmas SystemSpec SystemProofs SystemTokens
  SystemMessages SystemUids SystemHistory SystemPanics SystemCleanup SystemProgress SystemProps FlowSpec FlowProofs FlowTopics FlowSubs FlowLists.

Definition p : str := lit "/queue/b".
(** A connection of a concrete run. *)
Definition conn_at (y : sys) (c : nat) (P : sconn -> bool) : bool := match y_conns y !! c with Some n => P n | None => false end.
Lemma conn_at_ok y c P : conn_at y c P = true -> exists n, y_conns y !! c = Some n /\ P n = true.
Proof. unfold conn_at. destruct (y_conns y !! c) as [n|]; [|done]. eauto. Qed.
Definition sub_at (y : sys) (s : nat) (P : sub -> bool) : bool := match y_heap y !! s with Some sb => P sb | None => false end.
Lemma sub_at_ok y s P : sub_at y s P = true -> exists sb, y_heap y !! s = Some sb /\ P sb = true.
Proof. unfold sub_at. destruct (y_heap y !! s) as [sb|]; [|done]. eauto. Qed.
Definition tail_of (m : msg) : option str * option str * str := (hget_of m (lit "subscription"), hget_of m (lit "destination"), f_body (g_frame m)).

(* ------------------------------------------------------------------ *)
(** C60.  Every MESSAGE a client is sent answers a SUBSCRIBE the server
    accepted from this client before, with the same id and destination. *)
Theorem C60_subscribed : forall cfg y c n pre e post m w, reach cfg y -> y_conns y !! c = Some n -> n_log n = pre ++ e :: post ->
  (Some m, w) ∈ v_wr e -> cmd_of m = MESSAGE ->
  exists e0 s id d, e0 ∈ pre /\ subscribes e0 id d s /\ hget_of m (lit "subscription") = Some id /\ hget_of m (lit "destination") = Some d.
Proof. intros cfg y c n pre e post m w Hr Hn Hl Hin Hc. exact (message_origin _ _ Hr _ _ _ _ _ Hn Hl m w Hin Hc). Qed.
Print Assumptions C60_subscribed.
Definition c60_case : list act :=
  join 0 ++ ask1 0 (f_sub (lit "x") q (lit "auto")) ++ ask1 0 (f_sub (lit "y") t (lit "auto")) ++ ask1 0 (f_send q (lit "one")) ++ deliver 0 ++ [APush 0; AProc] ++
  ask1 0 (f_send t (lit "two")) ++ [AOut; ATake 0 SelWrite true true].
Example C60_case : exists y, reach cfg0 y /\ exists n, y_conns y !! 0 = Some n /\
  tail_of <$> frames_with MESSAGE (written n) = [(Some (lit "x"), Some q, lit "one"); (Some (lit "y"), Some t, lit "two")].
Proof.
  pose proof (after_reach c60_case (fun y => conn_at y 0 (fun n => bool_decide (tail_of <$> frames_with MESSAGE (written n) = [(Some (lit "x"), Some q, lit "one"); (Some (lit "y"), Some t, lit "two")])))) as HA.
  witness HA. destruct HA as (y & Hr & (n & Hn & Hy)%conn_at_ok). apply bool_decide_eq_true in Hy. exists y. eauto.
Qed.
(** It need not be the SUBSCRIBE that is in force: a message on its way when
    the client gives the id to another destination arrives under that id. *)
Definition c60_run : list act :=
  join 0 ++ ask1 0 (f_sub (lit "x") q (lit "auto")) ++ ask1 0 (f_send q (lit "one")) ++ [AOut] ++ ask1 0 (f_unsub (lit "x")) ++
  ask1 0 (f_sub (lit "x") p (lit "auto")) ++ [ATake 0 SelSub true true].
Theorem C60_latest_refuted : exists y n pre e s sb m, reach cfg0 y /\ y_conns y !! 0 = Some n /\ n_log n = pre ++ [e] /\
  live (lit "x") pre = Some s /\ y_heap y !! s = Some sb /\ s_dest sb = p /\
  v_wr e = [(Some m, true)] /\ cmd_of m = MESSAGE /\ hget_of m (lit "subscription") = Some (lit "x") /\ hget_of m (lit "destination") = Some q.
Proof.
  pose proof (after_reach c60_run (fun y => conn_at y 0 (fun n => match rev (n_log n) with
    | e :: l => match v_wr e, live (lit "x") (rev l) with
        | [(Some m, true)], Some s => sub_at y s (fun sb => bool_decide (s_dest sb = p /\ cmd_of m = MESSAGE /\ hget_of m (lit "subscription") = Some (lit "x") /\ hget_of m (lit "destination") = Some q))
        | _, _ => false end
    | [] => false end))) as HA. witness HA. destruct HA as (y & Hr & (n & Hn & Hy)%conn_at_ok).
  destruct (rev (n_log n)) as [|e l] eqn:El; [done|]. destruct (v_wr e) as [|[[m|] [|]] [|]] eqn:Ew; try done. destruct (live (lit "x") (rev l)) as [s|] eqn:Es; [|done].
  apply sub_at_ok in Hy as (sb & Hs & Hy). apply bool_decide_eq_true in Hy as (H1 & H2 & H3 & H4). exists y, n, (rev l), e, s, sb, m. split_and!; try done.
  rewrite <-(rev_involutive (n_log n)), El. done.
Qed.
Print Assumptions C60_latest_refuted.

(* ------------------------------------------------------------------ *)
(** C61.  The frames of a client are handled in the order it sent them, and
    the messages it sends reach the processor in that order too, whatever the
    other connections do. *)
Theorem C61_frames : forall cfg y c n, reach cfg y -> y_conns y !! c = Some n -> StronglySorted lt (g_uid <$> frames_of (n_log n) ++ n_read n).
Proof. intros cfg y c n Hr Hn. apply (reach_sorted _ _ Hr _ _ Hn). Qed.
Print Assumptions C61_frames.
Theorem C61_processor : forall cfg y c n, reach cfg y -> y_conns y !! c = Some n ->
  filter (sent_by n) (enqueues (handed y)) ++ enqueues (n_out n) = client_sent n.
Proof. intros cfg y c n Hr Hn. by apply (or_eq _ (reach_ordered _ _ Hr) c). Qed.
Print Assumptions C61_processor.
(** A topic subscriber is sent the messages of one sender in the order the
    sender sent them. *)
Theorem C61_topic : forall cfg y c n s sb c' n', reach cfg y -> y_conns y !! c = Some n -> y_conns y !! c' = Some n' ->
  y_heap y !! s = Some sb -> s_conn sb = c -> is_queue (s_dest sb) = false -> only_of_id y s sb ->
  (payload <$> filter (sent_by n') (received (s_id sb) n)) `sublist_of` (payload <$> client_sent n').
Proof. intros cfg y c n s sb c' n' Hr Hn Hn'. by apply (topic_order cfg y c n s sb c'). Qed.
Print Assumptions C61_topic.
Definition c61_run : list act :=
  join 0 ++ join 1 ++ ask1 0 (f_sub (lit "x") t (lit "auto")) ++ ask 1 (f_send t (lit "one")) ++ ask 0 (f_send t (lit "two")) ++ ask 1 (f_send t (lit "three")) ++
  [AProc; AOut; AProc; AOut; AProc; AOut] ++ times 3 [ATake 0 SelWrite true true].
Example C61_case : exists y n n', reach cfg0 y /\ y_conns y !! 0 = Some n /\ y_conns y !! 1 = Some n' /\
  bodies (received (lit "x") n) = lit <$> ["one"; "two"; "three"]%string /\ bodies (client_sent n') = lit <$> ["one"; "three"]%string /\
  bodies (filter (sent_by n') (received (lit "x") n)) = lit <$> ["one"; "three"]%string.
Proof.
  pose proof (after_reach c61_run (fun y => conn_at y 0 (fun n => conn_at y 1 (fun n' => bool_decide (
    bodies (received (lit "x") n) = lit <$> ["one"; "two"; "three"]%string /\ bodies (client_sent n') = lit <$> ["one"; "three"]%string /\
    bodies (filter (sent_by n') (received (lit "x") n)) = lit <$> ["one"; "three"]%string))))) as HA. witness HA.
  destruct HA as (y & Hr & (n & Hn & (n' & Hn' & Hy)%conn_at_ok)%conn_at_ok). apply bool_decide_eq_true in Hy. by exists y, n, n'.
Qed.

(* ------------------------------------------------------------------ *)
(** C62.  What a topic subscriber is sent under its id is, in order and
    without gaps or repetitions, what the processor handled for the topic
    between its subscription and its unsubscription; all of it, when the
    connection is running and nothing is under way. *)
Theorem C62_topic_end_to_end : forall cfg y c n s sb, reach cfg y -> y_conns y !! c = Some n -> y_heap y !! s = Some sb -> s_conn sb = c ->
  is_queue (s_dest sb) = false -> only_of_id y s sb ->
  (payload <$> received (s_id sb) n) `prefix_of` (payload <$> during s (s_dest sb) false (y_blog y).*1) /\
  (n_phase n = Running -> n_write n = [] -> y_pout y = [] -> payload <$> received (s_id sb) n = payload <$> during s (s_dest sb) false (y_blog y).*1).
Proof. exact topic_received. Qed.
Print Assumptions C62_topic_end_to_end.
(** The requests about a topic subscription: one subscription, and one
    unsubscription once it is over. *)
Theorem C62_once : forall cfg y n s sb, reach cfg y -> y_heap y !! s = Some sb -> y_conns y !! s_conn sb = Some n -> is_queue (s_dest sb) = false ->
  exists l, filter (about s) (handed y ++ n_out n) = RSubscribe s :: l /\ (l = [] \/ l = [RUnsubscribe s]) /\
    (n_phase n = Running -> (l = [] <-> live (s_id sb) (n_log n) = Some s)).
Proof.
  intros cfg y n s sb Hr Hs Hn Hq. destruct (en_seq _ (reach_ends _ _ Hr) _ _ _ Hs Hn) as (_ & _ & S3 & _). rewrite filter_app, (S3 Hq).
  eexists. split; [reflexivity|]. split; [destruct (decide _); auto|]. intros Hp. rewrite <-(run_live _ _ _ _ Hr Hn Hp). by destruct (decide _).
Qed.
Print Assumptions C62_once.
Definition c62_run : list act :=
  join 0 ++ join 1 ++ ask1 1 (f_send t (lit "early")) ++ ask1 0 (f_sub (lit "x") t (lit "auto")) ++ ask1 1 (f_send t (lit "one")) ++ [AOut] ++ ask1 1 (f_send (lit "/topic/b") (lit "no")) ++
  ask1 1 (f_send t (lit "two")) ++ [AOut] ++ ask1 0 (f_unsub (lit "x")) ++ ask1 1 (f_send t (lit "late")) ++ times 2 [ATake 0 SelWrite true true].
Example C62_case : exists y n, reach cfg0 y /\ y_conns y !! 0 = Some n /\ bodies (received (lit "x") n) = lit <$> ["one"; "two"]%string /\
  bodies (during 0 t false (y_blog y).*1) = lit <$> ["one"; "two"]%string /\ length (enqueues (y_blog y).*1) = 5.
Proof.
  pose proof (after_reach c62_run (fun y => conn_at y 0 (fun n => bool_decide (bodies (received (lit "x") n) = lit <$> ["one"; "two"]%string /\
    bodies (during 0 t false (y_blog y).*1) = lit <$> ["one"; "two"]%string /\ length (enqueues (y_blog y).*1) = 5)))) as HA. witness HA.
  destruct HA as (y & Hr & (n & Hn & Hy)%conn_at_ok). apply bool_decide_eq_true in Hy. by exists y, n.
Qed.

(* ------------------------------------------------------------------ *)
(** C63.  By the time a connection is gone the processor has been told to drop
    every subscription it ever made. *)
Theorem C63_told : forall cfg y n s sb, reach cfg y -> y_heap y !! s = Some sb -> y_conns y !! s_conn sb = Some n -> n_phase n = Dead -> RUnsubscribe s ∈ handed y.
Proof. exact told. Qed.
Print Assumptions C63_told.
(** ... and it has dropped it when it has dealt with that, unless the
    subscription is to a queue, is acknowledged automatically and its id was
    used again. *)
Theorem C63_dropped_partial : forall cfg y n s sb d, reach cfg y -> y_heap y !! s = Some sb -> y_conns y !! s_conn sb = Some n -> n_phase n = Dead ->
  (is_queue (s_dest sb) = true -> s_ack sb = lit "auto" -> only_of_id y s sb) ->
  RUnsubscribe s ∉ y_req y -> s ∉ ready (y_broker y) d ++ members (y_broker y) d.
Proof.
  intros cfg y n s sb d Hr Hs Hn Hp Hau Hreq Hin. destruct (reach_phase _ _ Hr _ _ Hn) as [_ P2 _ P4]. specialize (P2 Hp).
  destruct (listed _ _ _ _ _ _ Hr Hin Hs Hn Hau) as [H|H].
  - unfold lv in H. rewrite P4 in H by (rewrite Hp; done). by rewrite lookup_empty in H.
  - rewrite P2 in H. done.
Qed.
Print Assumptions C63_dropped_partial.
(** The same for a client that unsubscribes and stays. *)
Theorem C63_unsubscribed_partial : forall cfg y n s sb d, reach cfg y -> y_heap y !! s = Some sb -> y_conns y !! s_conn sb = Some n -> n_phase n = Running ->
  (is_queue (s_dest sb) = true -> s_ack sb = lit "auto" -> only_of_id y s sb) ->
  s ∈ ready (y_broker y) d ++ members (y_broker y) d -> live (s_id sb) (n_log n) = Some s \/ RUnsubscribe s ∈ n_out n ++ y_req y.
Proof.
  intros cfg y n s sb d Hr Hs Hn Hp Hau Hin. rewrite <-(run_live _ _ _ _ Hr Hn Hp). by eapply listed.
Qed.
Print Assumptions C63_unsubscribed_partial.
Definition gone0 : list act := [AEof 0; ATake 0 SelRead true true; AClean 0 []].
Definition finish0 : list act := [AClean 0 []; AClean 0 []; AClean 0 []; AClean 0 []; AClean 0 []; APush 0; AProc; AClean 0 []; AClean 0 []].
Definition c63_case : list act :=
  join 0 ++ ask1 0 (f_sub (lit "x") t (lit "auto")) ++ ask1 0 (f_sub (lit "y") q (lit "auto")) ++ gone0 ++
  [AClean 0 (lit "x"); APush 0; AProc; AClean 0 (lit "y"); APush 0; AProc] ++ finish0.
Example C63_case : exists y n, reach cfg0 y /\ y_conns y !! 0 = Some n /\ n_phase n = Dead /\ y_req y = [] /\
  ready (y_broker y) q = [] /\ members (y_broker y) t = [] /\ RUnsubscribe 0 ∈ handed y /\ RUnsubscribe 1 ∈ handed y.
Proof.
  pose proof (after_reach c63_case (fun y => conn_at y 0 (fun n => bool_decide (n_phase n = Dead /\ y_req y = [] /\
    ready (y_broker y) q = [] /\ members (y_broker y) t = [] /\ RUnsubscribe 0 ∈ handed y /\ RUnsubscribe 1 ∈ handed y)))) as HA. witness HA.
  destruct HA as (y & Hr & (n & Hn & Hy)%conn_at_ok). apply bool_decide_eq_true in Hy. by exists y, n.
Qed.
(** The id "x" used twice, in client mode; the first was being sent "one" when it
    ended.  The processor has both off its list and "one" back in the queue. *)
Definition c63_client : list act :=
  join 0 ++ join 1 ++ ask1 0 (f_sub (lit "x") q (lit "client")) ++ ask1 1 (f_send q (lit "one")) ++ [AOut; ATake 0 SelSub true true] ++ ask1 0 (f_unsub (lit "x")) ++
  ask1 0 (f_sub (lit "x") p (lit "client")) ++ gone0 ++ [AClean 0 (lit "x"); APush 0; AProc; AClean 0 []; AClean 0 []; APush 0; AProc] ++ tail finish0.
Example C63_client_case : exists y n, reach cfg0 y /\ y_conns y !! 0 = Some n /\ n_phase n = Dead /\ y_req y = [] /\
  (s_id <$> y_heap y !! 0) = Some (lit "x") /\ (s_id <$> y_heap y !! 1) = Some (lit "x") /\
  ready (y_broker y) q = [] /\ ready (y_broker y) p = [] /\ bodies (waiting (y_broker y) q) = [lit "one"].
Proof.
  pose proof (after_reach c63_client (fun y => conn_at y 0 (fun n => bool_decide (n_phase n = Dead /\ y_req y = [] /\
    (s_id <$> y_heap y !! 0) = Some (lit "x") /\ (s_id <$> y_heap y !! 1) = Some (lit "x") /\
    ready (y_broker y) q = [] /\ ready (y_broker y) p = [] /\ bodies (waiting (y_broker y) q) = [lit "one"])))) as HA. witness HA.
  destruct HA as (y & Hr & (n & Hn & Hy)%conn_at_ok). apply bool_decide_eq_true in Hy. by exists y, n.
Qed.
(** C63 as stated fails when an id is used again: the message under way to the
    first subscription "x" is written for the second, the first is put back on
    the list and stays there after the connection is gone; the next message
    for the queue is given to it and to nobody else. *)
Definition c63_run : list act :=
  join 0 ++ join 1 ++ ask1 0 (f_sub (lit "x") q (lit "auto")) ++ ask1 1 (f_send q (lit "one")) ++ [AOut] ++ ask1 0 (f_unsub (lit "x")) ++ ask1 0 (f_sub (lit "x") q (lit "auto")) ++
  [ATake 0 SelSub true true; APush 0; AProc] ++ gone0 ++ [AClean 0 (lit "x"); APush 0; AProc] ++ finish0.
Theorem C63_refuted :
  (exists y n, reach cfg0 y /\ y_conns y !! 0 = Some n /\ n_phase n = Dead /\ y_req y = [] /\ y_pout y = [] /\ RUnsubscribe 0 ∈ (y_blog y).*1 /\ ready (y_broker y) q = [0]) /\
  (exists y n n', reach cfg0 y /\ y_conns y !! 0 = Some n /\ n_phase n = Dead /\ y_conns y !! 1 = Some n' /\ live (lit "z") (n_log n') = Some 2 /\
     y_req y = [] /\ y_pout y = [] /\ bodies (client_sent n') = lit <$> ["one"; "two"]%string /\ waiting (y_broker y) q = [] /\ n_sub n = [0] /\
     bodies (assigned y) = [lit "two"] /\ ready (y_broker y) q = [2] /\ received (lit "z") n' = []).
Proof.
  split.
  - pose proof (after_reach c63_run (fun y => conn_at y 0 (fun n => bool_decide (n_phase n = Dead /\ y_req y = [] /\ y_pout y = [] /\ RUnsubscribe 0 ∈ (y_blog y).*1 /\ ready (y_broker y) q = [0])))) as HA. witness HA.
    destruct HA as (y & Hr & (n & Hn & Hy)%conn_at_ok). apply bool_decide_eq_true in Hy. by exists y, n.
  - pose proof (after_reach (c63_run ++ ask1 1 (f_sub (lit "z") q (lit "auto")) ++ ask1 1 (f_send q (lit "two")) ++ [AOut]) (fun y => conn_at y 0 (fun n => conn_at y 1 (fun n' => 
      bool_decide (n_phase n = Dead /\ live (lit "z") (n_log n') = Some 2 /\
     y_req y = [] /\ y_pout y = [] /\ bodies (client_sent n') = lit <$> ["one"; "two"]%string /\ waiting (y_broker y) q = [] /\ n_sub n = [0] /\
     bodies (assigned y) = [lit "two"] /\ ready (y_broker y) q = [2] /\ received (lit "z") n' = []))))) as HA. witness HA.
    destruct HA as (y & Hr & (n & Hn & (n' & Hn' & Hy)%conn_at_ok)%conn_at_ok). apply bool_decide_eq_true in Hy. exists y, n, n'. tauto.
Qed.
Print Assumptions C63_refuted.

(* ------------------------------------------------------------------ *)
(** C64.  No message waits for a subscriber that could have it: when a running
    connection has a live subscription to a queue, nothing is under way
    between it and the processor, and messages wait in the queue, then the
    subscription has been sent a message it has not acknowledged. *)
Theorem C64_work_conserved : forall cfg y n s sb id_of ack_of, reach cfg y -> keeps id_of ack_of (y_heap y) -> y_heap y !! s = Some sb ->
  y_conns y !! s_conn sb = Some n -> n_phase n = Running -> live (s_id sb) (n_log n) = Some s -> is_queue (s_dest sb) = true ->
  n_out n = [] -> n_sub n = [] -> y_req y = [] -> y_pout y = [] -> waiting (y_broker y) (s_dest sb) <> [] -> s ∈ outstanding ack_of (n_log n).
Proof. exact work_conserved. Qed.
Print Assumptions C64_work_conserved.
(** So with an automatically acknowledged subscription nothing waits. *)
Theorem C64_auto : forall cfg y n s sb, reach cfg y -> y_heap y !! s = Some sb ->
  y_conns y !! s_conn sb = Some n -> n_phase n = Running -> live (s_id sb) (n_log n) = Some s -> is_queue (s_dest sb) = true -> s_ack sb = lit "auto" ->
  n_out n = [] -> n_sub n = [] -> y_req y = [] -> y_pout y = [] -> waiting (y_broker y) (s_dest sb) = [].
Proof. exact work_auto. Qed.
Print Assumptions C64_auto.

(** One subscription of each kind: "one" and "two" were written, "three" waits
    behind the unacknowledged "two". *)
Definition c64_run : list act :=
  join 0 ++ ask1 0 (f_sub (lit "x") q (lit "client")) ++ ask1 0 (f_sub (lit "y") p (lit "auto")) ++ ask1 0 (f_send p (lit "one")) ++ deliver 0 ++ [APush 0; AProc] ++
  ask1 0 (f_send q (lit "two")) ++ deliver 0 ++ ask1 0 (f_send q (lit "three")).
Example C64_case : exists y n, reach cfg0 y /\ y_conns y !! 0 = Some n /\ n_phase n = Running /\ n_out n = [] /\ n_sub n = [] /\ y_req y = [] /\ y_pout y = [] /\
  bodies (waiting (y_broker y) q) = [lit "three"] /\ waiting (y_broker y) p = [] /\ ready (y_broker y) p = [1] /\
  live (lit "x") (n_log n) = Some 0 /\ live (lit "y") (n_log n) = Some 1 /\ outstanding (ack_in y) (n_log n) = [0].
Proof.
  pose proof (after_reach c64_run (fun y => conn_at y 0 (fun n => bool_decide (n_phase n = Running /\ n_out n = [] /\ n_sub n = [] /\ y_req y = [] /\ y_pout y = [] /\
    bodies (waiting (y_broker y) q) = [lit "three"] /\ waiting (y_broker y) p = [] /\ ready (y_broker y) p = [1] /\
    live (lit "x") (n_log n) = Some 0 /\ live (lit "y") (n_log n) = Some 1 /\ outstanding (ack_in y) (n_log n) = [0])))) as HA. witness HA.
  destruct HA as (y & Hr & (n & Hn & Hy)%conn_at_ok). apply bool_decide_eq_true in Hy. by exists y, n.
Qed.
