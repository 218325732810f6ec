(** C82: queue messages from program to program. *)
From stdpp Require Import gmap.
From Verif Require Import GoBase GoBaseProofs HeaderModel HeaderProofs FrameModel GrammarSpec NegotiationModel ClientApiModel ClientModel ClientSpec ClientReady ClientRestSpec ClientRest.
From Verif Require Import BrokerModel BrokerSpec ServerConnModel ServerConnSpec SystemModel SystemSpec FlowSpec RestSpec PeerSpec
  NetModel NetSpec NetLinks NetProofs NetProps NetRestSpec NetRest NetSettled NetRestProps OnceSpec OnceProofs SystemMessages QueueServer NetQueueSpec NetQueue.

(* ------------------------------------------------------------------ *)
(** C82.  What programs receive from their subscriptions (any number of
    subscriptions, of one or many clients) are copies of messages of which each
    queue message occurs, all programs together, at most once more often than
    the server's connections gave it back, and was accepted from a client. *)
Theorem C82_once : forall cfg x subs fss, nreach cfg x -> NoDup subs -> Forall2 (fun p fs => exists f, takes x p.1 p.2 f fs) subs fss ->
  exists parts : list (list msg), Forall2 (Forall2 copy_of) parts fss /\
  forall d m, is_queue d = true -> hget_of m h_destination = Some d -> times m (concat parts) <= 1 + times m (given_back (x_sys x)) /\
    (0 < times m (concat parts) -> exists m', m' ∈ sent (x_sys x) /\ same_payload m m').
Proof.
  intros cfg x subs fss Hr Hnd HF. destruct (takes_once _ _ _ _ Hr Hnd HF) as (parts & H1 & H2). exists parts. split; [done|]. intros d m Hq Hd. destruct (H2 d m Hq Hd) as [H3 H4]. split; [done|].
  intros Hp. eapply attempts_sent; [apply (nreach_inv _ _ Hr)|lia].
Qed.
Print Assumptions C82_once.
(** At rest, when all subscriptions to queue d are in auto mode and belong to
    programs on working connections that did not unsubscribe, and there is one:
    the programs have together received every message sent to d exactly once. *)
Theorem C82_all : forall cfg x d subs fss, rested cfg x -> is_queue d = true -> NoDup subs ->
  Forall2 (fun p fs => exists f, consumes x p.1 p.2 f fs /\ hd_contains (f_hdr f) h_destination = Some d) subs fss ->
  (forall s sb, y_heap (x_sys x) !! s = Some sb -> s_dest sb = d -> s_ack sb = lit "auto" /\ exists p f fs, p ∈ subs /\ consumes x p.1 p.2 f fs /\ s_conn sb = p.1 /\ s_id sb = sub_key f) ->
  (exists s sb, y_heap (x_sys x) !! s = Some sb /\ s_dest sb = d) ->
  exists parts : list (list msg), Forall2 (Forall2 copy_of) parts fss /\ concat parts ≡ₚ filter (to_dest d) (sent (x_sys x)).
Proof. exact consumes_exactly. Qed.
Print Assumptions C82_all.

(** Programs 0 and 1 consume, program 2 sends three messages. *)
Definition que : str := lit "/queue/q".
Definition consume (c : nat) : list nact := call c 0 (OSubscribe (Some (fsub (lit "1") que, lit "1", false))) ++ handle c ++ process c.
Definition produce (g : nat) (body : str) : list nact := call 2 g (OSend (Some (fsend que body []))) ++ handle 2 ++ process 2.
Definition pass (c : nat) : list nact := [NServer AOut 0; NServer (ATake c SelSub true true) 0] ++ process c ++ arrive c ++ does c [XLoop 0; XConsume 0].
Definition queue_run : list nact := dial 0 ++ dial 1 ++ dial 2 ++ consume 0 ++ consume 1 ++ produce 0 (lit "one") ++ pass 0 ++ produce 1 (lit "two") ++ pass 1 ++ produce 2 (lit "six") ++ pass 0.
Definition consumer_check (x : net) (c : nat) (bs : list str) : bool :=
  client_at x c (fun l n y => healthy_check l n y && match c_subs y !! 0, c_gs y with
    | Some b, [r] => match g_op r with OSubscribe (Some (f, _, _)) => bool_decide (b_by b = 0 /\ hd_contains (f_hdr f) h_receipt = None /\ f = fsub (lit "1") que /\ f_body <$> msgs (b_read b) = bs) | _ => false end
    | _, _ => false end).
Lemma consumer_check_ok x c bs : consumer_check x c bs = true -> exists fs, consumes x c 0 (fsub (lit "1") que) fs /\ f_body <$> fs = bs.
Proof.
  intros (l & n & y & L & [K H]%andb_true_iff)%client_at_ok. destruct (healthy_ok _ _ _ _ _ L K) as [k Hh]. destruct (c_subs y !! 0) as [b|] eqn:Hb; [|done]. destruct (c_gs y) as [|r [|]] eqn:Eg; try done.
  destruct (g_op r) as [| |[[[f id] rt]|]| | |] eqn:Eo; try done. apply bool_decide_eq_true in H as (H1 & H2 & -> & H3). exists (msgs (b_read b)). split; [|done]. exists l, n, k, y, b. split_and!; [done| | |done].
  - split_and!; [done| |done|].
    + exists r, id, rt. rewrite Eg, H1. done.
    + intros [|j] r' f' Hr'; rewrite Eg in Hr'; [by rewrite H1|by rewrite lookup_cons, lookup_nil in Hr'].
  - intros [|g] r' s f' Hr'; rewrite Eg in Hr'; [injection Hr' as <-; congruence|by rewrite lookup_cons, lookup_nil in Hr'].
Qed.
Definition owner_check (hp : sheap) : bool :=
  forallb (fun p => bool_decide (s_ack p.2 = lit "auto" /\ s_conn p.2 < 2 /\ s_id p.2 = lit "1" /\ s_dest p.2 = que)) (map_to_list hp) && bool_decide (is_Some (hp !! 0)).
Example C82_example : exists x fs0 fs1, rested cfg0 x /\ consumes x 0 0 (fsub (lit "1") que) fs0 /\ consumes x 1 0 (fsub (lit "1") que) fs1 /\
  f_body <$> fs0 = [lit "one"; lit "six"] /\ f_body <$> fs1 = [lit "two"] /\ bodies (sent (x_sys x)) = [lit "one"; lit "two"; lit "six"] /\
  (forall s sb, y_heap (x_sys x) !! s = Some sb -> s_dest sb = que -> s_ack sb = lit "auto" /\ exists p f fs, p ∈ [(0, 0); (1, 0)] /\ consumes x p.1 p.2 f fs /\ s_conn sb = p.1 /\ s_id sb = sub_key f) /\
  exists s sb, y_heap (x_sys x) !! s = Some sb /\ s_dest sb = que.
Proof.
  pose proof (nafter_reach queue_run (fun x => rest_check cfg0 x && consumer_check x 0 [lit "one"; lit "six"] && consumer_check x 1 [lit "two"] && bool_decide (bodies (sent (x_sys x)) = [lit "one"; lit "two"; lit "six"]) && owner_check (y_heap (x_sys x)))) as HA. witness HA.
  destruct HA as (x & Hr & Hx). rewrite !andb_true_iff in Hx. destruct Hx as [[[[H0 H1] H2] H3] H4]. apply rest_check_ok in H0. apply bool_decide_eq_true in H3.
  apply consumer_check_ok in H1 as (fs0 & C0 & B0), H2 as (fs1 & C1 & B1). unfold owner_check in H4. apply andb_true_iff in H4 as [H4 [sb0 H5]%bool_decide_eq_true].
  assert (HO : forall s sb, y_heap (x_sys x) !! s = Some sb -> s_ack sb = lit "auto" /\ s_conn sb < 2 /\ s_id sb = lit "1" /\ s_dest sb = que).
  { intros s sb Hs. rewrite forallb_forall in H4. apply elem_of_map_to_list in Hs. apply elem_of_list_In, H4, bool_decide_eq_true in Hs. done. }
  exists x, fs0, fs1. split_and!; try done.
  - intros s sb Hs _. destruct (HO _ _ Hs) as (O1 & O2 & O3 & O4). split; [done|]. destruct (s_conn sb) as [|[|]] eqn:E; [exists (0, 0), (fsub (lit "1") que), fs0|exists (1, 0), (fsub (lit "1") que), fs1|lia]; (split_and!; [set_solver|done|done|by rewrite O3]).
  - exists 0, sb0. split; [done|]. by apply (HO 0).
Qed.
