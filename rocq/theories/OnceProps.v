(** C80: how often the server transmits a queue message. *)
From Verif Require Import GoBase HeaderModel FrameModel GrammarSpec HeaderProofs NegotiationModel NegotiationSpec NegotiationLemmas
  BrokerModel BrokerSpec BrokerProofs ServerConnModel ServerConnSpec ServerConnProofs SystemModel SystemLemmas SystemSpec SystemProofs SystemTokens
  SystemMessages SystemUids SystemHistory SystemProps OnceSpec OnceProofs.

(* ------------------------------------------------------------------ *)
(** C80.  In every reachable state of the server, a message sent to a queue was
    written to subscribers (all connections together, failed writes included)
    at most once more often than connections gave it back to the processor: it
    is transmitted again only after it was given back. *)
Theorem C80_again : forall cfg y d m, reach cfg y -> is_queue d = true -> hget_of m h_destination = Some d ->
  times m (attempts y) <= 1 + times m (given_back y).
Proof. exact attempts_once. Qed.
Print Assumptions C80_again.
(** What was never accepted from a client is written to nobody unless given
    back, and what was given back was accepted. *)
Theorem C80_bound : forall cfg y d m, reach cfg y -> is_queue d = true -> hget_of m h_destination = Some d ->
  times m (attempts y) <= times m (sent y) + times m (given_back y).
Proof. exact attempts_bound. Qed.
Print Assumptions C80_bound.
(** A message that is finished (acknowledged, written to an auto subscription,
    or lost in a failed write) is transmitted to nobody afterwards, whatever
    clients, connections and the processor do. *)
Theorem C80_final : forall cfg y d m l y', reach cfg y -> is_queue d = true -> hget_of m h_destination = Some d ->
  m ∈ finished y -> run cfg y l = Some (Fine y') -> times m (attempts y') = times m (attempts y).
Proof.
  intros cfg y d m l y' Hr Hq Hd Hf Hl. rewrite !times_pc. eapply fin_run; try done.
  - by rewrite payload_dest.
  - unfold pc. apply cnt_elem. by apply elem_of_list_fmap_1.
Qed.
Print Assumptions C80_final.
(** In particular a message written to a subscription in auto mode. *)
Theorem C80_auto : forall cfg y c n e s m d sb l y',
  reach cfg y -> y_conns y !! c = Some n -> e ∈ n_log n -> v_in e = InSub s -> v_wr e = [(Some m, true)] ->
  y_heap y !! s = Some sb -> s_ack sb = lit "auto" -> is_queue d = true -> hget_of m h_destination = Some d ->
  run cfg y l = Some (Fine y') -> times m (attempts y') = times m (attempts y).
Proof.
  intros cfg y c n e s m d sb l y' Hr Hn He Hi Hw Hs Ha Hq Hd Hl. rewrite !times_pc. eapply fin_run; try done.
  - by rewrite payload_dest.
  - pose proof (auto_fin _ _ _ _ _ _ _ _ Hr Hn He Hi Hw Hs Ha). unfold finished. rewrite pc_app. lia.
Qed.
Print Assumptions C80_auto.

(** One client reads a message and goes away without acknowledging it; it is
    given back and written to the next subscriber, who takes it in auto mode. *)
Definition c80_run : list act := c38_run ++ cleanup0 ++ [AProc; AProc; AProc] ++ join 1 ++ ask1 1 (f_sub (lit "y") q (lit "auto")) ++ deliver 1.
Example C80_case : exists y, reach cfg0 y /\ bodies (attempts y) = [lit "one"; lit "one"] /\ bodies (given_back y) = [lit "one"] /\ bodies (finished y) = [lit "one"] /\
  exists n e m sb, y_conns y !! 1 = Some n /\ e ∈ n_log n /\ v_in e = InSub 1 /\ v_wr e = [(Some m, true)] /\ y_heap y !! 1 = Some sb /\ s_ack sb = lit "auto" /\
    hget_of m h_destination = Some q.
Proof.
  pose proof (after_reach c80_run (fun y => bool_decide (bodies (attempts y) = [lit "one"; lit "one"] /\ bodies (given_back y) = [lit "one"] /\ bodies (finished y) = [lit "one"]) &&
    match y_conns y !! 1 with Some n => match n_log n !! 2, y_heap y !! 1 with
      | Some (mkCev (InSub 1) [(Some m, true)] _ _), Some sb => bool_decide (s_ack sb = lit "auto" /\ hget_of m h_destination = Some q) | _, _ => false end | None => false end)) as HA.
  witness HA. destruct HA as (y & Hr & Hy). apply andb_prop in Hy as [H1 H2]. apply bool_decide_eq_true in H1 as (? & ? & ?). exists y. split_and!; try done.
  destruct (y_conns y !! 1) as [n|]; [|done]. destruct (n_log n !! 2) as [e|] eqn:E; [|done]. destruct e as [i w pu st]. destruct i as [| | |s|]; try done.
  destruct s as [|[|s]]; try done. destruct w as [|[[m|] []] [|]]; try done. destruct (y_heap y !! 1) as [sb|]; [|done]. apply bool_decide_eq_true in H2 as [? ?].
  exists n, (mkCev (InSub 1) [(Some m, true)] pu st), m, sb. split_and!; try done. by eapply elem_of_list_lookup_2.
Qed.
