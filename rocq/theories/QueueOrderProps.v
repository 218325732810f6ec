(** C86: the order in which a queue's messages are distributed (the server). *)
From stdpp Require Import gmap.
From Verif Require Import GoBase HeaderModel FrameModel GrammarSpec HeaderProofs NegotiationModel NegotiationSpec NegotiationLemmas
  BrokerModel BrokerSpec BrokerProofs ServerConnModel ServerConnSpec ServerConnProofs SystemModel SystemLemmas SystemSpec SystemProofs SystemTokens
  SystemMessages SystemUids SystemHistory SystemProps FlowSpec FlowSubs FlowProofs OnceSpec OnceProofs QueueOrderSpec QueueOrderServer.

(* ------------------------------------------------------------------ *)
(** C86.  As long as no message for queue d was given back, the MESSAGE frames
    that a connection was written with the id of its subscription to d (an id
    it used once) are, in order, some of the messages for d in the order in
    which the processor was asked to distribute them. *)
Theorem C86_server : forall cfg y s sb n, reach cfg y -> y_heap y !! s = Some sb -> y_conns y !! s_conn sb = Some n ->
  is_queue (s_dest sb) = true -> only_of_id y s sb -> none_back (s_dest sb) y ->
  (payload <$> received (s_id sb) n) `sublist_of` (payload <$> asked_for (s_dest sb) y).
Proof. intros cfg y s sb n Hr Hs Hn Hq Ho Hb. rewrite (received_tried _ _ _ _ _ Hr Hs Hn Hq Ho). by eapply tried_order. Qed.
Print Assumptions C86_server.
(** If it is the only subscription d ever had, the first ones. *)
Theorem C86_single : forall cfg y s sb n, reach cfg y -> y_heap y !! s = Some sb -> y_conns y !! s_conn sb = Some n ->
  is_queue (s_dest sb) = true -> none_back (s_dest sb) y -> (forall s' sb', y_heap y !! s' = Some sb' -> s_dest sb' = s_dest sb -> s' = s) -> only_of_id y s sb ->
  (payload <$> received (s_id sb) n) `prefix_of` (payload <$> asked_for (s_dest sb) y).
Proof. intros cfg y s sb n Hr Hs Hn Hq Hb Hone Ho. rewrite (received_tried _ _ _ _ _ Hr Hs Hn Hq Ho). by eapply tried_single. Qed.
Print Assumptions C86_single.
(** In particular the messages of one sender arrive in the order it sent them. *)
Theorem C86_sender : forall cfg y s sb n c' n', reach cfg y -> y_heap y !! s = Some sb -> y_conns y !! s_conn sb = Some n -> y_conns y !! c' = Some n' ->
  is_queue (s_dest sb) = true -> only_of_id y s sb -> none_back (s_dest sb) y ->
  (payload <$> filter (sent_by n') (received (s_id sb) n)) `sublist_of` (payload <$> client_sent n').
Proof.
  intros cfg y s sb n c' n' Hr Hs Hn Hn' Hq Ho Hb. rewrite filter_payload. transitivity (filter (sent_by n') (payload <$> asked_for (s_dest sb) y)).
  - apply filter_sublist. by eapply C86_server.
  - rewrite <-filter_payload. apply fmap_sublist. rewrite <-(or_eq _ (reach_ordered _ _ Hr) _ _ Hn'). apply sublist_inserts_r. apply filter_sublist. apply filter_sublist_self.
Qed.
Print Assumptions C86_sender.

(** Three messages for two subscribers. *)
Definition sub_got (y : sys) (c s : nat) : list str := match y_heap y !! s, y_conns y !! c with Some sb, Some n => if decide (s_conn sb = c) then bodies (received (s_id sb) n) else [] | _, _ => [] end.
Definition c86_run : list act := join 0 ++ join 1 ++ ask1 0 (f_sub (lit "x") q (lit "client-individual")) ++ ask1 1 (f_send q (lit "one")) ++ deliver 0 ++
  ask1 1 (f_sub (lit "y") q (lit "auto")) ++ ask1 1 (f_send q (lit "two")) ++ deliver 1 ++ [APush 1; AProc].
Example C86_example : exists y, reach cfg0 y /\ none_back q y /\ bodies (asked_for q y) = lit <$> ["one"; "two"; "six"]%string /\ sub_got y 0 0 = [lit "one"] /\ sub_got y 1 1 = [lit "two"; lit "six"].
Proof.
  pose proof (after_reach (c86_run ++ ask1 0 (f_send q (lit "six")) ++ deliver 1) (fun y => bool_decide (none_back q y /\ bodies (asked_for q y) = lit <$> ["one"; "two"; "six"]%string /\ sub_got y 0 0 = [lit "one"] /\ sub_got y 1 1 = [lit "two"; lit "six"]))) as HA.
  witness HA. destruct HA as (y & Hr & Hy). apply bool_decide_eq_true in Hy. by exists y.
Qed.
(** A message that is given back can be overtaken: client 0 leaves without
    acknowledging "one", which then reaches client 1 after "two". *)
Example C86_given_back : exists y, reach cfg0 y /\ bodies (given_back y) = [lit "one"] /\ bodies (asked_for q y) = lit <$> ["one"; "two"]%string /\ sub_got y 1 1 = [lit "two"; lit "one"].
Proof.
  pose proof (after_reach (c86_run ++ [AEof 0; ATake 0 SelRead true true] ++ cleanup0 ++ [AProc; AProc] ++ deliver 1) (fun y => bool_decide (bodies (given_back y) = [lit "one"] /\ bodies (asked_for q y) = lit <$> ["one"; "two"]%string /\ sub_got y 1 1 = [lit "two"; lit "one"]))) as HA.
  witness HA. destruct HA as (y & Hr & Hy). apply bool_decide_eq_true in Hy. by exists y.
Qed.
