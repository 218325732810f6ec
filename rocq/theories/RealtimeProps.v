(** C96: calls of different programs, one after the other. *)
From stdpp Require Import gmap.
From Verif Require Import GoBase HeaderModel FrameModel GrammarSpec NegotiationModel ClientApiModel ClientModel ClientSpec OrderSpec OrderProofs.
From Verif Require Import BrokerModel BrokerSpec ServerConnModel ServerConnSpec SystemModel SystemSpec FlowSpec NetModel NetSpec NetProps NetRestSpec NetSettled NetRestProps
  NetQueueSpec NetQueueProps QueueOrderSpec RealtimeSpec RealtimeProofs.

(* ------------------------------------------------------------------ *)
(** C96.  The processor distributes the messages of one program in the order
    of its calls: if Send call g had returned when j was made, it is asked for
    g's message before j's. *)
Theorem C96_same : forall cfg x0 r x2 c g v j mg mj, nreach cfg x0 -> nrun cfg x0 r = Some x2 -> returns x0 c g v -> ~ called x0 c j ->
  message_of x2 c g mg -> message_of x2 c j mj -> plain_send mg -> plain_send mj -> delivered mj ∈ asked (x_sys x2) -> before (asked (x_sys x2)) (delivered mg) (delivered mj).
Proof. exact within. Qed.
Print Assumptions C96_same.
(** When a call returned nil after waiting for a receipt, the server has acted
    on everything that the program's earlier calls asked for successfully, and
    the processor was asked to. *)
Theorem C96_handed : forall cfg x0 r x1 c g f g2, nreach cfg x0 -> nrun cfg x0 r = Some x1 -> well_formed x1 c -> succeeded x0 c g f -> ~ stays f -> ~ called x0 c g2 -> confirmed x1 c g2 ->
  exists m n pre e post, message_of x1 c g m /\ sent_as f (g_frame m) /\ y_conns (x_sys x1) !! c = Some n /\ n_log n = pre ++ e :: post /\ ServerConnSpec.accepted e = Some m /\
    forall rq, rq ∈ v_push e -> rq ∈ handed (x_sys x1).
Proof.
  intros cfg x0 r x1 c g f g2 Hr Hrun Hw Hsu Hst Hn Hc. destruct (succeeded_message _ _ _ _ _ _ _ _ Hr Hrun Hsu Hst Hn Hw Hc) as (m & Hm & Hs). destruct (succeeded_returns _ _ _ _ Hsu) as [v Hret].
  destruct (handed_before _ _ _ _ _ _ (nrun_reach _ _ _ _ Hr Hrun) Hw Hc Hm) as (n & pre & e & post & H1 & H2 & H3 & H4); [|by exists m, n, pre, e, post].
  intros y i f' k f2 Hy Hi Hk. by eapply (earlier _ _ _ _ _ _ _ _ _ _ _ _ _ Hr Hrun Hret Hn Hy).
Qed.
Print Assumptions C96_handed.
(** So it is asked for the messages of those calls before any message of a
    call that any program makes after that. *)
Theorem C96_order_partial : forall cfg x0 r1 x1 r2 x2 a g v g2 b j mA mB, nreach cfg x0 -> nrun cfg x0 r1 = Some x1 -> nrun cfg x1 r2 = Some x2 -> well_formed x2 a -> well_formed x2 b ->
  returns x0 a g v -> ~ called x0 a g2 -> confirmed x1 a g2 -> ~ called x1 b j -> message_of x2 a g mA -> message_of x2 b j mB -> plain_send mA -> delivered mB ∈ asked (x_sys x2) ->
  before (asked (x_sys x2)) (delivered mA) (delivered mB).
Proof. exact across. Qed.
Print Assumptions C96_order_partial.
(** A program that takes messages from a queue receives them in the order the
    processor was asked for them. *)
Theorem C96_received : forall cfg x c s0 f fs d mA mB, nreach cfg x -> takes x c s0 f fs -> hd_contains (f_hdr f) h_destination = Some d -> is_queue d = true -> none_back d (x_sys x) ->
  before (asked (x_sys x)) mA mB ->
  exists ms, ms `sublist_of` asked_for d (x_sys x) /\ Forall2 copy_of ms fs /\ NoDup ms /\ (mA ∈ ms -> mB ∈ ms -> before ms mA mB).
Proof. exact taken. Qed.
Print Assumptions C96_received.
(** A program whose Subscribe to a topic returned, and a later call of which
    was confirmed, receives what any program sends to the topic after that. *)
Theorem C96_topic_partial : forall cfg x0 r1 x1 r2 x2 a s0 g f fs d g2 b j mB, nreach cfg x0 -> nrun cfg x0 r1 = Some x1 -> nrun cfg x1 r2 = Some x2 -> rested cfg x2 -> well_formed x2 b ->
  consumes x2 a s0 f fs -> made x2 a s0 g -> hd_contains (f_hdr f) h_destination = Some d -> is_queue d = false -> hd_contains (f_hdr f) h_reply_to = None ->
  succeeded x0 a g f -> ~ called x0 a g2 -> confirmed x1 a g2 -> ~ called x1 b j -> message_of x2 b j mB -> hget_of mB (lit "destination") = Some d -> delivered mB ∈ asked (x_sys x2) ->
  exists f', f' ∈ fs /\ copy_of (delivered mB) f'.
Proof. exact subscribed. Qed.
Print Assumptions C96_topic_partial.

(* ------------------------------------------------------------------ *)
(** Checks for the examples. *)
Lemma linked_of x c l n y : linked x c l n y -> client_of x c y.
Proof. intros (Hl & _ & o & h & k & Hp). by exists l, o, h, k. Qed.
Definition fresh_b (x : net) (c g : nat) : bool := client_at x c (fun l n y => bool_decide (length (c_gs y) <= g)).
Lemma fresh_ok x c g : fresh_b x c g = true -> ~ called x c g.
Proof. intros (l & n & y & L%linked_of & H%bool_decide_eq_true)%client_at_ok (y' & r & Hy & Hg). assert (y' = y) as -> by (by eapply client_of_eq). apply lookup_lt_Some in Hg. lia. Qed.
Definition formed_b (x : net) (c : nat) : bool := client_at x c (fun l n y => forallb (fun f => writable_check f) (peer_sent (l_peer l))).
Lemma formed_ok x c : formed_b x c = true -> well_formed x c.
Proof.
  intros (l & n & y & (Hl & _) & H)%client_at_ok l' Hl'. simplify_eq. apply Forall_forall. intros f Hf. rewrite forallb_forall in H. apply elem_of_list_In, H in Hf. by apply writable_check_ok.
Qed.
Definition sole_b (gs : list gor) (g : nat) (k : str) : bool :=
  forallb (fun p : nat * gor => match op_frame (g_op p.2) with Some f => if decide (ClientSpec.names f k) then bool_decide (p.1 = g) else true | None => true end) (imap pair gs).
Lemma sole_b_ok gs g k : sole_b gs g k = true -> sole gs g k.
Proof.
  intros H j r f Hj Ho Hn. unfold sole_b in H. rewrite forallb_forall in H. specialize (H (j, r)). cbn in H. rewrite Ho, decide_True in H by done. eapply bool_decide_eq_true, H.
  apply elem_of_list_In. apply elem_of_lookup_imap_2 with (f := pair) in Hj. done.
Qed.
Definition confirmed_b (x : net) (c g : nat) : bool := client_at x c (fun l n y => match c_gs y !! g with
  | Some r => match g_op r, g_pc r with OSend (Some f), GDone RNil => match hd_contains (f_hdr f) h_receipt with Some rid => sole_b (c_gs y) g rid | None => false end | _, _ => false end
  | None => false end).
Lemma confirmed_ok x c g : confirmed_b x c g = true -> confirmed x c g.
Proof.
  intros (l & n & y & L%linked_of & H)%client_at_ok. destruct (c_gs y !! g) as [r|] eqn:Hg; [|done]. destruct (g_op r) as [[f|]| | | | |] eqn:Eo; try done. destruct (g_pc r) as [| | | | | | | | | |res] eqn:Ep; try done. destruct res; try done.
  destruct (hd_contains (f_hdr f) h_receipt) as [rid|] eqn:Er; [|done]. exists y, r, f. split_and!; try done.
  - left. rewrite Eo. split; [by left|]. unfold wants_receipt. by rewrite Er.
  - intros rid' E. change (lit "receipt") with h_receipt in E. assert (rid' = rid) as -> by congruence. by apply sole_b_ok.
Qed.
Definition message_at (x : net) (c g : nat) : option msg :=
  match x_links x !! c, y_conns (x_sys x) !! c with
  | Some l, Some n => match l_peer l with
      | PeerClient _ _ _ y => match list_find (fun p : nat * frame => p.1 = g) (OrderSpec.written y) with
          | Some (i, (_, f)) => match (frames_of (n_log n) ++ n_read n) !! S i with Some m => if decide (g_frame m = f) then Some m else None | None => None end
          | None => None end
      | _ => None end
  | _, _ => None end.
Lemma message_at_ok x c g m : message_at x c g = Some m -> message_of x c g m.
Proof.
  unfold message_at. destruct (x_links x !! c) as [l|] eqn:Hl; [|done]. destruct (y_conns (x_sys x) !! c) as [n|] eqn:Hn; [|done]. destruct (l_peer l) as [| | |o h k y] eqn:Hp; try done.
  destruct (list_find _ _) as [[i [g' f]]|] eqn:Hf; [|done]. apply list_find_Some in Hf as (Hi & Hg & _). cbn in Hg. subst g'. destruct (_ !! S i) as [m'|] eqn:Hm; [|done].
  destruct (decide (g_frame m' = f)) as [<-|]; [|done]. intros [= ->]. exists y, n, i. split_and!; try done. by exists l, o, h, k.
Qed.
Definition sends_b (x : net) (c g : nat) (dest body : str) : bool :=
  match message_at x c g with Some m => bool_decide (cmd_of m = lit "SEND" /\ hget_of m (lit "transaction") = None /\ hget_of m (lit "destination") = Some dest /\ f_body (g_frame m) = body) | None => false end.
Lemma sends_ok x c g dest body : sends_b x c g dest body = true -> exists m, message_of x c g m /\ plain_send m /\ hget_of m (lit "destination") = Some dest /\ f_body (g_frame m) = body.
Proof.
  unfold sends_b. destruct (message_at x c g) as [m|] eqn:Hm; [|done]. intros (H1 & H2 & H3 & H4)%bool_decide_eq_true. exists m. split_and!; try done. by apply message_at_ok.
Qed.
Definition result_b (x : net) (c g : nat) (P : cres -> bool) : bool := client_at x c (fun l n y => match c_gs y !! g with Some r => match g_pc r with GDone v => P v | _ => false end | None => false end).
Lemma result_ok x c g P : result_b x c g P = true -> exists v, returns x c g v /\ P v = true.
Proof.
  intros (l & n & y & L%linked_of & H)%client_at_ok. destruct (c_gs y !! g) as [r|] eqn:Hg; [|done]. destruct (g_pc r) as [| | | | | | | | | |v] eqn:Ep; try done. exists v. split; [|done]. exists y. split; [done|]. by exists r.
Qed.
(** The only subscription of program c, asked for with f, not ended. *)
Definition consumes_b (x : net) (c : nat) (f : frame) (bs : list str) : bool :=
  client_at x c (fun l n y => healthy_check l n y && forallb (fun r => match g_op r with OUnsub _ _ => false | _ => true end) (c_gs y) && match c_subs y !! 0 with
    | Some b => match c_gs y !! b_by b with
        | Some r => match g_op r with OSubscribe (Some (f', _, _)) => sole_b (c_gs y) (b_by b) (sub_key f) && bool_decide (b_by b = 0 /\ hd_contains (f_hdr f) h_receipt = None /\ f' = f /\ f_body <$> msgs (b_read b) = bs) | _ => false end
        | None => false end
    | None => false end).
Lemma consumes_b_ok x c f bs : consumes_b x c f bs = true -> exists fs, consumes x c 0 f fs /\ made x c 0 0 /\ f_body <$> fs = bs.
Proof.
  intros (l & n & y & L & H)%client_at_ok. rewrite !andb_true_iff in H. destruct H as [[K HU] H]. destruct (healthy_ok _ _ _ _ _ L K) as [k Hh]. destruct (c_subs y !! 0) as [b|] eqn:Hb; [|done]. destruct (c_gs y !! b_by b) as [r|] eqn:Hg; [|done].
  destruct (g_op r) as [| |[[[f' id] rt]|]| | |] eqn:Eo; try done. apply andb_true_iff in H as [HS (H1 & H2 & -> & H3)%bool_decide_eq_true]. exists (msgs (b_read b)). split_and!; [|exists y, b; by split_and!; [eapply linked_of|..]|done].
  exists l, n, k, y, b. split_and!; [done| | |done].
  - split_and!; [done|by exists r, id, rt|done|by apply sole_b_ok].
  - intros g r' s f' Hr' Ho. rewrite forallb_forall in HU. apply elem_of_list_lookup_2, elem_of_list_In, HU in Hr'. by rewrite Ho in Hr'.
Qed.
Lemma two_runs r1 r2 (P1 P2 : net -> bool) : nafter r1 (fun x1 => P1 x1 && match nrun cfg0 x1 r2 with Some x2 => P2 x2 | None => false end) = true ->
  exists x1 x2, nreach cfg0 x1 /\ nrun cfg0 x1 r2 = Some x2 /\ P1 x1 = true /\ P2 x2 = true.
Proof. intros (x1 & Hr & [H1 H2]%andb_true_iff)%nafter_reach. destruct (nrun cfg0 x1 r2) as [x2|] eqn:E; [|done]. by exists x1, x2. Qed.
Lemma three_runs r0 r1 r2 (P0 P1 P2 : net -> bool) :
  nafter r0 (fun x0 => P0 x0 && match nrun cfg0 x0 r1 with Some x1 => P1 x1 && match nrun cfg0 x1 r2 with Some x2 => P2 x2 | None => false end | None => false end) = true ->
  exists x0 x1 x2, nreach cfg0 x0 /\ nrun cfg0 x0 r1 = Some x1 /\ nrun cfg0 x1 r2 = Some x2 /\ P0 x0 = true /\ P1 x1 = true /\ P2 x2 = true.
Proof.
  intros (x0 & Hr & [H0 H1]%andb_true_iff)%nafter_reach. destruct (nrun cfg0 x0 r1) as [x1|] eqn:E1; [|done]. apply andb_true_iff in H1 as [H1 H2]. destruct (nrun cfg0 x1 r2) as [x2|] eqn:E2; [|done]. by exists x0, x1, x2.
Qed.
Definition receipted_send (dest body : str) : op := OSend (Some (fsend dest body (ask_receipt (lit "r1")))).

(** Program 1 sends "one", then "two" with a receipt, then program 2 sends
    "six"; program 0 receives all of them. *)
Example C96_example : exists x0 r1 x1 r2 x2 m1 m2 m3 fs, nreach cfg0 x0 /\ nrun cfg0 x0 r1 = Some x1 /\ nrun cfg0 x1 r2 = Some x2 /\ well_formed x2 1 /\ well_formed x2 2 /\
  returns x0 1 0 RNil /\ ~ called x0 1 1 /\ confirmed x1 1 1 /\ ~ called x1 2 0 /\ message_of x2 1 0 m1 /\ message_of x2 1 1 m2 /\ message_of x2 2 0 m3 /\ plain_send m1 /\ plain_send m2 /\ plain_send m3 /\
  f_body <$> (g_frame <$> asked (x_sys x2)) = [lit "one"; lit "two"; lit "six"] /\ delivered m3 ∈ asked (x_sys x2) /\ delivered m2 ∈ asked (x_sys x2) /\
  consumes x2 0 0 (fsub (lit "1") que) fs /\ f_body <$> fs = [lit "one"; lit "two"; lit "six"].
Proof.
  pose proof (three_runs (dial 0 ++ dial 1 ++ dial 2 ++ consume 0 ++ call 1 0 (OSend (Some (fsend que (lit "one") []))))
    (call 1 1 (receipted_send que (lit "two")) ++ handle 1 ++ process 1 ++ pass 0 ++ handle 1 ++ process 1 ++ pass 0 ++ arrive 1)
    (call 2 0 (OSend (Some (fsend que (lit "six") []))) ++ handle 2 ++ process 2 ++ pass 0)
    (fun x => result_b x 1 0 (fun v => match v with RNil => true | _ => false end) && fresh_b x 1 1) (fun x => confirmed_b x 1 1 && fresh_b x 2 0)
    (fun x => formed_b x 1 && formed_b x 2 && sends_b x 1 0 que (lit "one") && sends_b x 1 1 que (lit "two") && sends_b x 2 0 que (lit "six") && consumes_b x 0 (fsub (lit "1") que) [lit "one"; lit "two"; lit "six"] &&
      bool_decide (f_body <$> (g_frame <$> asked (x_sys x)) = [lit "one"; lit "two"; lit "six"]) &&
      match message_at x 1 1, message_at x 2 0 with Some m2, Some m3 => bool_decide (delivered m2 ∈ asked (x_sys x)) && bool_decide (delivered m3 ∈ asked (x_sys x)) | _, _ => false end)) as HA. witness HA.
  destruct HA as (x0 & x1 & x2 & Hr & E1 & E2 & H0 & H1 & H2). assert (nreach cfg0 x2) as Hr2 by (eapply nrun_reach; [eapply nrun_reach; [exact Hr|exact E1]|exact E2]). cbn beta in H0, H1, H2. rewrite !andb_true_iff in *. destruct H0 as [(v & Hv & Ev)%result_ok F0%fresh_ok], H1 as [C1%confirmed_ok F1%fresh_ok].
  destruct H2 as [[[[[[[W1%formed_ok W2%formed_ok] S1] S2] S3] (fs & Cs & _ & Bs)%consumes_b_ok] B%bool_decide_eq_true] A]. unfold sends_b in S1, S2, S3.
  destruct (message_at x2 1 0) as [m1|] eqn:M1; [|done]. destruct (message_at x2 1 1) as [m2|] eqn:M2; [|done]. destruct (message_at x2 2 0) as [m3|] eqn:M3; [|done]. apply andb_true_iff in A as [A2%bool_decide_eq_true A3%bool_decide_eq_true].
  apply bool_decide_eq_true in S1 as (? & ? & _), S2 as (? & ? & _), S3 as (? & ? & _). destruct v; try done. eexists x0, _, x1, _, x2, m1, m2, m3, fs. split_and!; first [done|by apply message_at_ok|exact E1|exact E2].
Qed.
(** Program 0 subscribes to a topic (call 0), sends something else with a
    receipt, then program 1 sends "two". *)
Definition elsewhere : str := lit "/topic/u".
Definition subscribe_top : op := OSubscribe (Some (fsub (lit "1") top, lit "1", false)).
Example C96_topic_example : exists x0 r1 x1 r2 x2 m fs, nreach cfg0 x0 /\ nrun cfg0 x0 r1 = Some x1 /\ nrun cfg0 x1 r2 = Some x2 /\ rested cfg0 x2 /\ well_formed x2 1 /\
  consumes x2 0 0 (fsub (lit "1") top) fs /\ made x2 0 0 0 /\ succeeded x0 0 0 (fsub (lit "1") top) /\ ~ called x0 0 1 /\ confirmed x1 0 1 /\ ~ called x1 1 0 /\
  message_of x2 1 0 m /\ hget_of m (lit "destination") = Some top /\ delivered m ∈ asked (x_sys x2) /\ f_body <$> fs = [lit "two"].
Proof.
  pose proof (three_runs (dial 0 ++ dial 1 ++ does 0 [XCall subscribe_top; XRun 0; XRun 0]) (does 0 [XTakeWrite true] ++ call 0 1 (receipted_send elsewhere (lit "one")) ++ handle 0 ++ process 0 ++ handle 0 ++ arrive 0)
    (call 1 0 (OSend (Some (fsend top (lit "two") []))) ++ process 0 ++ handle 1 ++ process 1 ++ publish 0 ++ arrive 0 ++ does 0 [XLoop 0; XConsume 0])
    (fun x => client_at x 0 (fun l n y => match c_gs y with [r] => match g_op r, g_pc r with OSubscribe (Some (f, _, _)), GDone (RSub s) => bool_decide (f = fsub (lit "1") top) | _, _ => false end | _ => false end) && fresh_b x 0 1)
    (fun x => confirmed_b x 0 1 && fresh_b x 1 0)
    (fun x => rest_check cfg0 x && formed_b x 1 && consumes_b x 0 (fsub (lit "1") top) [lit "two"] &&
      match message_at x 1 0 with Some m => bool_decide (hget_of m (lit "destination") = Some top /\ delivered m ∈ asked (x_sys x)) | _ => false end)) as HA. witness HA.
  destruct HA as (x0 & x1 & x2 & Hr & E1 & E2 & H0 & H1 & H2). assert (nreach cfg0 x2) as Hr2 by (eapply nrun_reach; [eapply nrun_reach; [exact Hr|exact E1]|exact E2]). cbn beta in H0, H1, H2. rewrite !andb_true_iff in *. destruct H0 as [(l & n & y & L & H0)%client_at_ok F0%fresh_ok], H1 as [C1%confirmed_ok F1%fresh_ok].
  destruct H2 as [[[R W%formed_ok] (fs & Cs & Ms & Bs)%consumes_b_ok] A]. apply rest_check_ok in R as (R1 & R2 & R3). destruct (message_at x2 1 0) as [m|] eqn:M; [|done]. apply bool_decide_eq_true in A as [A1 A2].
  destruct (c_gs y) as [|r [|]] eqn:Eg; try done. destruct (g_op r) as [| |[[[f id] rt]|]| | |] eqn:Eo; try done. destruct (g_pc r) as [| | | | | | | | | |res] eqn:Ep; try done. destruct res as [|s|]; try done. apply bool_decide_eq_true in H0. subst f.
  eexists x0, _, x1, _, x2, m, fs. split_and!; try first [done|by apply message_at_ok|exact E1|exact E2]. exists y, r, (RSub s). split_and!; first [by eapply linked_of|by rewrite Eg|by rewrite Eo|done].
Qed.

(* ------------------------------------------------------------------ *)
(** Without the later call the receipt does not mean that the message was
    passed on: the server writes the receipt first.  Program 1's Send of "one"
    returned nil, then program 2 sends "two"; program 0 receives "two" first. *)
Theorem C96_receipt_refuted : exists x1 r x2 mA mB fs, nreach cfg0 x1 /\ confirmed x1 1 0 /\ ~ called x1 2 0 /\ nrun cfg0 x1 r = Some x2 /\ rested cfg0 x2 /\ well_formed x2 1 /\ well_formed x2 2 /\
  message_of x2 1 0 mA /\ message_of x2 2 0 mB /\ plain_send mA /\ plain_send mB /\ f_body (g_frame mA) = lit "one" /\ f_body (g_frame mB) = lit "two" /\ asked (x_sys x2) = [delivered mB; delivered mA] /\
  consumes x2 0 0 (fsub (lit "1") que) fs /\ f_body <$> fs = [lit "two"; lit "one"].
Proof.
  pose proof (two_runs (dial 0 ++ dial 1 ++ dial 2 ++ consume 0 ++ call 1 0 (receipted_send que (lit "one")) ++ handle 1 ++ arrive 1)
    (call 2 0 (OSend (Some (fsend que (lit "two") []))) ++ handle 2 ++ process 2 ++ pass 0 ++ process 1 ++ pass 0)
    (fun x => confirmed_b x 1 0 && fresh_b x 2 0)
    (fun x => rest_check cfg0 x && formed_b x 1 && formed_b x 2 && sends_b x 1 0 que (lit "one") && sends_b x 2 0 que (lit "two") && consumes_b x 0 (fsub (lit "1") que) [lit "two"; lit "one"] &&
      match message_at x 1 0, message_at x 2 0 with Some mA, Some mB => bool_decide (asked (x_sys x) = [delivered mB; delivered mA]) | _, _ => false end)) as HA. witness HA.
  destruct HA as (x1 & x2 & Hr & E & H1 & H2). assert (nreach cfg0 x2) as Hr2 by (eapply nrun_reach; [exact Hr|exact E]). cbn beta in H1, H2. rewrite !andb_true_iff in *. destruct H1 as [C1%confirmed_ok F1%fresh_ok].
  destruct H2 as [[[[[[R W1%formed_ok] W2%formed_ok] S1] S2] (fs & Cs & _ & Bs)%consumes_b_ok] A]. apply rest_check_ok in R as (R1 & R2 & R3). unfold sends_b in S1, S2.
  destruct (message_at x2 1 0) as [m1|] eqn:M1; [|done]. destruct (message_at x2 2 0) as [m2|] eqn:M2; [|done]. apply bool_decide_eq_true in A.
  apply bool_decide_eq_true in S1 as (? & ? & _ & ?), S2 as (? & ? & _ & ?). eexists x1, _, x2, m1, m2, fs. split_and!; first [done|by apply message_at_ok|exact E].
Qed.
Print Assumptions C96_receipt_refuted.
(** And a Subscribe that returned has not subscribed: what program 1 sends
    after that, even if the server has confirmed it, program 0 never gets. *)
Theorem C96_subscribe_refuted : exists x0 r1 x1 r2 x2 m, nreach cfg0 x0 /\ nrun cfg0 x0 r1 = Some x1 /\ nrun cfg0 x1 r2 = Some x2 /\ rested cfg0 x2 /\ well_formed x2 1 /\
  returns x0 0 0 (RSub 0) /\ ~ called x0 1 0 /\ confirmed x1 1 0 /\ consumes x2 0 0 (fsub (lit "1") top) [] /\ made x2 0 0 0 /\
  message_of x2 1 0 m /\ plain_send m /\ hget_of m (lit "destination") = Some top /\ delivered m ∈ asked (x_sys x2).
Proof.
  pose proof (three_runs (dial 0 ++ dial 1 ++ does 0 [XCall subscribe_top; XRun 0; XRun 0]) (call 1 0 (receipted_send top (lit "one")) ++ handle 1 ++ process 1 ++ arrive 1)
    (does 0 [XTakeWrite true] ++ handle 0 ++ process 0)
    (fun x => result_b x 0 0 (fun v => match v with RSub 0 => true | _ => false end) && fresh_b x 1 0) (fun x => confirmed_b x 1 0)
    (fun x => rest_check cfg0 x && formed_b x 1 && consumes_b x 0 (fsub (lit "1") top) [] && sends_b x 1 0 top (lit "one") &&
      match message_at x 1 0 with Some m => bool_decide (delivered m ∈ asked (x_sys x)) | _ => false end)) as HA. witness HA.
  destruct HA as (x0 & x1 & x2 & Hr & E1 & E2 & H0 & H1 & H2). assert (nreach cfg0 x2) as Hr2 by (eapply nrun_reach; [eapply nrun_reach; [exact Hr|exact E1]|exact E2]). cbn beta in H0, H1, H2. rewrite !andb_true_iff in *. destruct H0 as [(v & Hv & Ev)%result_ok F0%fresh_ok]. apply confirmed_ok in H1.
  destruct H2 as [[[[R W%formed_ok] (fs & Cs & Ms & Bs)%consumes_b_ok] S] A]. apply rest_check_ok in R as (R1 & R2 & R3). unfold sends_b in S. destruct (message_at x2 1 0) as [m|] eqn:M; [|done]. apply bool_decide_eq_true in A, S. destruct S as (? & ? & ? & _).
  destruct v as [|[|s]|]; try done. apply fmap_nil_inv in Bs. subst fs. eexists x0, _, x1, _, x2, m. split_and!; first [done|by apply message_at_ok|exact E1|exact E2].
Qed.
Print Assumptions C96_subscribe_refuted.
