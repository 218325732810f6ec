(** C86: the order of a queue's messages, from program to program. *)
From stdpp Require Import gmap.
From Verif Require Import GoBase GoBaseProofs HeaderModel HeaderProofs FrameModel GrammarSpec NegotiationModel ClientApiModel ClientModel ClientSpec ClientReady ClientRestSpec ClientRest.
From Verif Require Import BrokerModel BrokerSpec ServerConnModel ServerConnSpec SystemModel SystemSpec FlowSpec RestSpec PeerSpec
  NetModel NetSpec NetLinks NetProofs NetProps NetRestSpec NetRest NetSettled NetRestProps OnceSpec OnceProofs SystemMessages QueueServer NetQueueSpec NetQueue NetQueueProps QueueOrderSpec QueueOrderServer QueueOrderNet.

(** As long as no message for queue d was given back, the messages that a
    program received from its subscription to d are copies, in order, of some
    of the messages for d in the order in which the server's processor was
    asked to distribute them. *)
Theorem C86_program : forall cfg x c s0 f fs d, nreach cfg x -> takes x c s0 f fs -> hd_contains (f_hdr f) h_destination = Some d -> is_queue d = true ->
  none_back d (x_sys x) -> exists ms, ms `sublist_of` asked_for d (x_sys x) /\ Forall2 copy_of ms fs.
Proof. exact takes_order. Qed.
Print Assumptions C86_program.
(** ... of the first ones, if d had no other subscription. *)
Theorem C86_first : forall cfg x c s0 f fs d, nreach cfg x -> takes x c s0 f fs -> hd_contains (f_hdr f) h_destination = Some d -> is_queue d = true ->
  none_back d (x_sys x) ->
  (forall s sb s' sb', y_heap (x_sys x) !! s = Some sb -> y_heap (x_sys x) !! s' = Some sb' -> s_dest sb = d -> s_dest sb' = d -> s' = s) ->
  exists ms, ms `prefix_of` asked_for d (x_sys x) /\ Forall2 copy_of ms fs.
Proof. exact takes_single. Qed.
Print Assumptions C86_first.
(** When everything is at rest, on a working connection, in auto mode and not
    unsubscribed: of all of them, and that is as many as clients sent. *)
Theorem C86_all : forall cfg x c s0 f fs d, rested cfg x -> consumes x c s0 f fs -> hd_contains (f_hdr f) h_destination = Some d -> is_queue d = true ->
  none_back d (x_sys x) ->
  (exists s sb, y_heap (x_sys x) !! s = Some sb /\ s_dest sb = d /\ s_ack sb = lit "auto" /\ s_conn sb = c /\ s_id sb = sub_key f /\
     forall s' sb', y_heap (x_sys x) !! s' = Some sb' -> s_dest sb' = d -> s' = s) ->
  Forall2 copy_of (asked_for d (x_sys x)) fs /\ length (asked_for d (x_sys x)) = length (filter (to_dest d) (sent (x_sys x))).
Proof. exact consumes_in_order. Qed.
Print Assumptions C86_all.

(** Program 0 consumes three messages of program 2. *)
Definition order_run : list nact := dial 0 ++ dial 1 ++ dial 2 ++ consume 0 ++ produce 0 (lit "one") ++ pass 0 ++ produce 1 (lit "two") ++ pass 0 ++ produce 2 (lit "six") ++ pass 0.
Definition sole_check (hp : sheap) : bool :=
  bool_decide ((map_to_list hp).*1 = [0]) && match hp !! 0 with Some sb => bool_decide (s_dest sb = que /\ s_ack sb = lit "auto" /\ s_conn sb = 0 /\ s_id sb = lit "1") | None => false end.
Example C86_rest : exists x fs, rested cfg0 x /\ consumes x 0 0 (fsub (lit "1") que) fs /\ none_back que (x_sys x) /\
  (exists s sb, y_heap (x_sys x) !! s = Some sb /\ s_dest sb = que /\ s_ack sb = lit "auto" /\ s_conn sb = 0 /\ s_id sb = sub_key (fsub (lit "1") que) /\
     forall s' sb', y_heap (x_sys x) !! s' = Some sb' -> s_dest sb' = que -> s' = s) /\
  f_body <$> fs = lit <$> ["one"; "two"; "six"]%string.
Proof.
  pose proof (nafter_reach order_run (fun x => rest_check cfg0 x && consumer_check x 0 (lit <$> ["one"; "two"; "six"]%string) && bool_decide (none_back que (x_sys x)) && sole_check (y_heap (x_sys x)))) as HA. witness HA.
  destruct HA as (x & Hr & Hx). rewrite !andb_true_iff in Hx. destruct Hx as [[[H0 H1] H2] H3]. apply rest_check_ok in H0. apply bool_decide_eq_true in H2. apply consumer_check_ok in H1 as (fs & C0 & B0).
  unfold sole_check in H3. apply andb_true_iff in H3 as [H3 H4]. apply bool_decide_eq_true in H3. destruct (y_heap (x_sys x) !! 0) as [sb|] eqn:Hs; [|done]. apply bool_decide_eq_true in H4 as (S1 & S2 & S3 & S4).
  exists x, fs. split_and!; try done. exists 0, sb. split_and!; try done. intros s' sb' Hs' _. apply elem_of_map_to_list in Hs'. apply (elem_of_list_fmap_1 fst) in Hs'. rewrite H3 in Hs'. by apply elem_of_list_singleton in Hs'.
Qed.
