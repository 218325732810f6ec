(** C37, C38, C42, C44, C46, C47, C49: the whole server.
    [reach] (SystemModel) ranges over every interleaving of any number of
    connections, the processor and the clients. *)
From Verif Require Import GoBase HeaderModel FrameModel GrammarSpec HeaderProofs NegotiationModel NegotiationSpec NegotiationLemmas
  BrokerModel BrokerSpec BrokerProofs ServerConnModel ServerConnSpec ServerConnProofs SystemModel SystemLemmas SystemSpec SystemProofs SystemTokens
  SystemMessages SystemUids SystemHistory SystemPanics SystemCleanup SystemProgress.

(* ------------------------------------------------------------------ *)
(** Concrete runs. *)
Definition cfg0 : scfg := mkScfg 0 None.
Definition f_connect : frame := mkFrame CONNECT [(lit "accept-version", lit "1.2")] [].
Definition f_sub (id dest ack : str) : frame := mkFrame SUBSCRIBE [(lit "id", id); (lit "destination", dest); (lit "ack", ack)] [].
Definition f_unsub (id : str) : frame := mkFrame UNSUBSCRIBE [(lit "id", id)] [].
Definition f_send (dest body : str) : frame := mkFrame SEND [(lit "destination", dest)] body.
Definition f_ack (n : str) : frame := mkFrame ACK [(lit "ack", n)] [].
Definition handle (c : nat) (f : frame) : list act := [ARecv c f; ATake c SelRead true true].
(** Handle a frame that makes one request, push it. *)
Definition ask (c : nat) (f : frame) : list act := handle c f ++ [APush c].
(** ... and have it served. *)
Definition ask1 (c : nat) (f : frame) : list act := ask c f ++ [AProc].
Definition deliver (c : nat) : list act := [AOut; ATake c SelSub true true].
Definition join (c : nat) : list act := AAccept :: ask1 c f_connect.
Definition q : str := lit "/queue/a".
Definition t : str := lit "/topic/a".

Definition after (l : list act) (P : sys -> bool) : bool := match run cfg0 sys_init l with Some (Fine y) => P y | _ => false end.
Lemma after_reach l P : after l P = true -> exists y, reach cfg0 y /\ P y = true.
Proof.
  unfold after. destruct (run cfg0 sys_init l) as [[p|y]|] eqn:E; try done. intros H. exists y. split; [|done]. eapply run_reach; [constructor|done].
Qed.
Local Instance panic_dec : EqDecision panic.
Proof. solve_decision. Defined.
Definition crashes (l : list act) (a : act) (p : panic) : bool :=
  match run cfg0 sys_init l with Some (Fine y) => match step cfg0 y a with Some (Panicked p') => bool_decide (p' = p) | _ => false end | _ => false end.
Lemma crashes_reach l a p : crashes l a p = true -> exists y, reach cfg0 y /\ step cfg0 y a = Some (Panicked p).
Proof.
  unfold crashes. destruct (run cfg0 sys_init l) as [[?|y]|] eqn:E; try done. destruct (step cfg0 y a) as [[p'|y']|] eqn:E'; try done.
  intros ->%bool_decide_eq_true. exists y. split; [|done]. eapply run_reach; [constructor|done].
Qed.
Ltac witness H := match type of H with ?A -> _ => let HB := fresh in assert A as HB by (vm_compute; reflexivity); specialize (H HB); clear HB end.
Definition bodies (l : list msg) : list str := (fun m => f_body (g_frame m)) <$> l.

(* ------------------------------------------------------------------ *)
(** C37.  For every queue d, the messages clients sent to it are exactly (as a
    multiset) those in the places listed by [whereabouts]: waiting, assigned
    to a subscription, in transit, finally delivered or lost. *)
Theorem C37_conservation : forall cfg y d, reach cfg y -> is_queue d = true ->
  payload <$> filter (to_dest d) (sent y) ≡ₚ payload <$> whereabouts d y.
Proof. exact conservation. Qed.
Print Assumptions C37_conservation.
(** Every message sent is a different one, and none is in two places. *)
Theorem C37_sent_once : forall cfg y, reach cfg y -> NoDup (g_uid <$> sent y).
Proof. exact sent_once. Qed.
Print Assumptions C37_sent_once.
Theorem C37_one_place : forall cfg y d, reach cfg y -> is_queue d = true -> NoDup (g_uid <$> whereabouts d y).
Proof. exact one_place. Qed.
Print Assumptions C37_one_place.
(** Every MESSAGE frame written to anyone was sent by a client. *)
Theorem C37_not_invented : forall cfg y c n m w, reach cfg y -> y_conns y !! c = Some n -> (Some m, w) ∈ written n -> cmd_of m = MESSAGE ->
  exists m0, m0 ∈ sent y /\ payload m = payload m0.
Proof.
  intros cfg y c n m w Hr Hn Hin Hc. unfold written, wire in Hin. apply elem_of_list_In, in_concat in Hin as (l & Hl & Hin).
  apply elem_of_list_In in Hin. apply elem_of_list_In, elem_of_list_fmap in Hl as (e & -> & He).
  apply elem_of_list_split in He as (pre & post & He). exact (messages_from_sent _ _ Hr _ _ _ _ _ _ _ Hn He Hin Hc).
Qed.
Print Assumptions C37_not_invented.
(** A message counts as finished only after it was written to a subscriber,
    as lost only after the write of it failed. *)
Theorem C37_finished : forall cfg y m, reach cfg y -> (m ∈ y_fin y -> transmitted y m true) /\ (m ∈ y_lost y -> transmitted y m false).
Proof. intros cfg y m Hr. split; [apply (dv_fin _ (reach_dlv _ _ Hr))|apply (dv_lost _ (reach_dlv _ _ Hr))]. Qed.
Print Assumptions C37_finished.
(** Two connections; "one" is delivered and finished, "two" unacknowledged,
    "three" assigned, "four" waiting, "five" in transit. *)
Definition c37_run : list act :=
  join 0 ++ join 1 ++ ask1 0 (f_sub (lit "x") q (lit "client-individual")) ++ ask1 1 (f_send q (lit "two")) ++ deliver 0 ++
  ask1 0 (f_sub (lit "y") q (lit "auto")) ++ ask1 1 (f_send q (lit "one")) ++ deliver 0 ++ [APush 0; AProc] ++
  ask1 1 (f_send q (lit "three")) ++ [AOut] ++ ask1 1 (f_send q (lit "four")) ++ ask 1 (f_send q (lit "five")).
Example C37_case : exists y, reach cfg0 y /\
  bodies (sent y) = lit <$> ["two"; "one"; "three"; "four"; "five"]%string /\
  bodies (waiting (y_broker y) q) = [lit "four"] /\ bodies (assigned y) = [lit "three"; lit "two"] /\ bodies (in_transit y) = [lit "five"] /\
  bodies (finished y) = [lit "one"].
Proof.
  pose proof (after_reach c37_run (fun y => bool_decide (bodies (sent y) = lit <$> ["two"; "one"; "three"; "four"; "five"]%string /\
    bodies (waiting (y_broker y) q) = [lit "four"] /\ bodies (assigned y) = [lit "three"; lit "two"] /\ bodies (in_transit y) = [lit "five"] /\
    bodies (finished y) = [lit "one"]))) as HA. witness HA. destruct HA as (y & Hr & Hy). apply bool_decide_eq_true in Hy. by exists y.
Qed.

(* ------------------------------------------------------------------ *)
(** C38, the part that holds.  When the processing loop of a connection has
    ended and its cleanup has not, every message with it (transmitted and not
    acknowledged, or in its channel) has been put back to the processor by
    the time cleanup ends. *)
Theorem C38_given_back_partial : forall cfg y c n s m l y' n',
  reach cfg y -> y_conns y !! c = Some n -> n_phase n <> Running -> n_phase n <> Dead ->
  s ∈ with_conn n -> holds (y_heap y) s = Some m ->
  run cfg y l = Some (Fine y') -> y_conns y' !! c = Some n' -> n_phase n' = Dead ->
  RRequeue m ∈ handed y'.
Proof. exact gives_back. Qed.
Print Assumptions C38_given_back_partial.
(** At the start of the cleanup, the messages with a connection include
    everything its history says is transmitted and unacknowledged. *)
Theorem C38_unacknowledged : forall cfg y c n id_of ack_of s, reach cfg y -> y_conns y !! c = Some n -> n_phase n = CDiscard1 ->
  keeps id_of ack_of (y_heap y) -> s ∈ outstanding ack_of (n_log n) -> s ∈ with_conn n /\ is_Some (holds (y_heap y) s).
Proof.
  intros cfg y c n id_of ack_of s Hr Hn Hp Hk Hs.
  rewrite <-(ph_first _ _ _ (reach_phase _ _ Hr _ _ Hn) (or_introl Hp) _ _ Hk) in Hs. assert (s ∈ with_conn n) as Hw by (unfold with_conn; set_solver).
  split; [done|]. destruct (held_frame y c n s (reach_wf _ _ Hr) (reach_tok _ _ Hr) Hn Hw) as [_ (sb & m & E1 & E2)]. exists m. unfold holds. rewrite E1. done.
Qed.
Print Assumptions C38_unacknowledged.
Definition c38_run : list act :=
  join 0 ++ ask1 0 (f_sub (lit "x") q (lit "client")) ++ ask1 0 (f_send q (lit "one")) ++ deliver 0 ++ [AEof 0; ATake 0 SelRead true true].
Definition cleanup0 : list act := [AClean 0 []; AClean 0 (lit "x"); APush 0; AClean 0 []; AClean 0 []; APush 0; AClean 0 []; AClean 0 []; AClean 0 []; AClean 0 []; APush 0; AClean 0 []; AClean 0 []].
Example C38_case : exists y, reach cfg0 y /\
  (exists n, y_conns y !! 0 = Some n /\ n_phase n = Dead /\ bodies (rmsgs (handed y)) = [lit "one"; lit "one"]) /\ length (handed y) = 6.
Proof.
  pose proof (after_reach (c38_run ++ cleanup0) (fun y => match y_conns y !! 0 with Some n => bool_decide (n_phase n = Dead /\ bodies (rmsgs (handed y)) = [lit "one"; lit "one"] /\ length (handed y) = 6) | None => false end)) as HA. witness HA. destruct HA as (y & Hr & Hy).
  destruct (y_conns y !! 0) as [n|] eqn:Hn; [|done]. apply bool_decide_eq_true in Hy as (H1 & H2 & H3). exists y. split_and!; [done| |done]. by exists n.
Qed.
(** C38 as stated fails: a message written to a broken connection is gone, and
    so is one the processor hands to a connection whose cleanup has ended. *)
Definition nowhere (y : sys) (b : str) : bool :=
  bool_decide (b ∈ bodies (sent y) /\ b ∉ bodies (waiting (y_broker y) q) /\ b ∉ bodies (in_transit y) /\ y_pout y = [] /\ y_fin y = [] /\
    Forall (fun n => n_phase n = Dead) (y_conns y)).
Theorem C38_refuted : 
  (exists y, reach cfg0 y /\ lit "one" ∈ bodies (sent y) /\ lit "one" ∉ bodies (waiting (y_broker y) q) /\ lit "one" ∉ bodies (in_transit y) /\
     y_pout y = [] /\ y_fin y = [] /\ Forall (fun n => n_phase n = Dead) (y_conns y) /\ bodies (y_lost y) = [lit "one"]) /\
  (exists y, reach cfg0 y /\ lit "one" ∈ bodies (sent y) /\ lit "one" ∉ bodies (waiting (y_broker y) q) /\ lit "one" ∉ bodies (in_transit y) /\
     y_pout y = [] /\ y_fin y = [] /\ Forall (fun n => n_phase n = Dead) (y_conns y) /\ bodies (y_lost y) = []).
Proof.
  assert (H : forall l b, after l (fun y => nowhere y (lit "one") && bool_decide (bodies (y_lost y) = b)) = true ->
    exists y, reach cfg0 y /\ lit "one" ∈ bodies (sent y) /\ lit "one" ∉ bodies (waiting (y_broker y) q) /\ lit "one" ∉ bodies (in_transit y) /\
     y_pout y = [] /\ y_fin y = [] /\ Forall (fun n => n_phase n = Dead) (y_conns y) /\ bodies (y_lost y) = b).
  { intros l b (y & Hr & Hy)%after_reach. unfold nowhere in Hy. rewrite andb_true_iff, !bool_decide_eq_true in Hy. exists y. tauto. }
  split.
  - apply (H (join 0 ++ ask1 0 (f_sub (lit "x") q (lit "auto")) ++ ask1 0 (f_send q (lit "one")) ++ [AOut; ATake 0 SelSub false false] ++
      [AClean 0 []; AClean 0 (lit "x"); APush 0; AClean 0 []; AClean 0 []; AClean 0 []; AClean 0 []; AClean 0 []; APush 0; AClean 0 []; AClean 0 []])).
    vm_compute; reflexivity.
  - apply (H (join 0 ++ ask1 0 (f_sub (lit "x") q (lit "auto")) ++ ask 0 (f_send q (lit "one")) ++ [AEof 0; ATake 0 SelRead true true] ++
      [AClean 0 []; AClean 0 (lit "x"); APush 0; AClean 0 []; AClean 0 []; AClean 0 []; AClean 0 []; AClean 0 []; APush 0; AClean 0 []; AClean 0 []] ++ [AProc; AOut])).
    vm_compute; reflexivity.
Qed.
Print Assumptions C38_refuted.

(* ------------------------------------------------------------------ *)
(** C42, the part that holds.  Every possible crash has one of three causes... *)
Theorem C42_causes_partial : forall cfg y a p, reach cfg y -> step cfg y a = Some (Panicked p) -> crash_cause y p.
Proof. exact panic_cause. Qed.
Print Assumptions C42_causes_partial.
(** ... so the server never crashes as long as every SEND has a destination
    and either nobody sends ACK or NACK, or every subscription uses automatic
    acknowledgement. *)
Theorem C42_polite_partial : forall b cfg y a p, reach_if (polite b) cfg y -> step cfg y a <> Some (Panicked p).
Proof. exact polite_no_panic. Qed.
Print Assumptions C42_polite_partial.
Fixpoint polite_b (b : bool) (l : list act) : bool :=
  match l with
  | [] => true
  | ARecv _ f :: l' =>
      (negb (bool_decide (f_cmd f = SEND)) || bool_decide (is_Some (hd_contains (f_hdr f) h_destination))) &&
      (if b then negb (bool_decide (f_cmd f = ACK)) && negb (bool_decide (f_cmd f = NACK))
       else negb (bool_decide (f_cmd f = SUBSCRIBE)) || bool_decide (hd_contains (f_hdr f) h_ack = None \/ hd_contains (f_hdr f) h_ack = Some ack_auto)) && polite_b b l'
  | _ :: l' => polite_b b l'
  end.
Lemma polite_b_ok b l c f : polite_b b l = true -> ARecv c f ∈ l -> polite b f.
Proof.
  induction l as [|a l IH]; [by intros _ ?%elem_of_nil|]. intros H [<-|Hin]%elem_of_cons.
  - cbn [polite_b] in H. rewrite !andb_true_iff in H. destruct H as [[H1 H2] _]. split.
    + intros E. rewrite (bool_decide_eq_true_2 _ E) in H1. cbn in H1. by apply bool_decide_eq_true in H1.
    + destruct b.
      * rewrite andb_true_iff, !negb_true_iff, !bool_decide_eq_false in H2. exact H2.
      * intros E. rewrite (bool_decide_eq_true_2 _ E) in H2. cbn in H2. by apply bool_decide_eq_true in H2.
  - apply IH; [|done]. destruct a; cbn [polite_b] in H; try done. rewrite !andb_true_iff in H. tauto.
Qed.
Lemma run_reach_if P cfg y l y' : reach_if P cfg y -> (forall c f, ARecv c f ∈ l -> P f) -> run cfg y l = Some (Fine y') -> reach_if P cfg y'.
Proof.
  revert y. induction l as [|a l IH]; intros y Hr HP; cbn [run]; [by intros [= <-]|]. destruct (step cfg y a) as [[p|y1]|] eqn:E; try done.
  apply IH; [|intros c f Hin; apply (HP c f); by right]. eapply ri_step; [done|done|]. intros c f ->. apply (HP c f). by left.
Qed.
(** Two such runs, with queue deliveries. *)
Example C42_case : forall b, exists y, reach_if (polite b) cfg0 y /\ length (y_blog y) = 5 /\ exists n e s, y_conns y !! 0 = Some n /\ e ∈ n_log n /\ v_in e = InSub s.
Proof.
  intros b. set (l := join 0 ++ join 1 ++ ask1 0 (f_sub (lit "x") q (if b then lit "client" else lit "auto")) ++ ask1 1 (f_send q (lit "one")) ++ deliver 0 ++
    (if b then [] else [APush 0] ++ handle 0 (f_ack (lit "1"))) ++ ask1 1 (f_send q (lit "two"))).
  assert (Hp : polite_b b l = true) by (destruct b; vm_compute; reflexivity).
  assert (Hn : match run cfg0 sys_init l with Some (Fine y) => bool_decide (length (y_blog y) = 5) &&
      match y_conns y !! 0 with Some n => existsb (fun e => match v_in e with InSub _ => true | _ => false end) (n_log n) | None => false end | _ => false end = true)
    by (destruct b; vm_compute; reflexivity).
  clearbody l. destruct (run cfg0 sys_init l) as [[p|y]|] eqn:E; try done. exists y. rewrite andb_true_iff, bool_decide_eq_true in Hn. destruct Hn as [Hl Hn]. split_and!; [|done|].
  - eapply run_reach_if; [constructor| |exact E]. intros c f Hin. by eapply polite_b_ok.
  - destruct (y_conns y !! 0) as [n|]; [|done]. apply existsb_exists in Hn as (e & He%elem_of_list_In & Hv). destruct (v_in e) as [m| |m|s|] eqn:Ev; try done. exists n, e, s. done.
Qed.
(** C42 as stated fails: a SEND without a destination; an ACK in client mode
    followed by the next request for a message; an ACK while a delivery with an
    unknown ack mode is outstanding. *)
Theorem C42_refuted :
  (exists y a, reach cfg0 y /\ step cfg0 y a = Some (Panicked PanicMissingDestination)) /\
  (exists y a, reach cfg0 y /\ step cfg0 y a = Some (Panicked PanicAlreadyInList)) /\
  (exists y a, reach cfg0 y /\ step cfg0 y a = Some (Panicked PanicBadAck)).
Proof.
  split_and!.
  - pose proof (crashes_reach (join 0 ++ ask 0 (mkFrame SEND [] (lit "one"))) AProc PanicMissingDestination) as HA. witness HA. destruct HA as (y & H1 & H2). by exists y, AProc.
  - pose proof (crashes_reach (join 0 ++ ask1 0 (f_sub (lit "x") q (lit "client")) ++ ask1 0 (f_send q (lit "one")) ++ deliver 0 ++ ask 0 (f_ack (lit "1")))
      AProc PanicAlreadyInList) as HA. witness HA. destruct HA as (y & H1 & H2). by exists y, AProc.
  - pose proof (crashes_reach (join 0 ++ ask1 0 (f_sub (lit "x") q (lit "none")) ++ ask1 0 (f_send q (lit "one")) ++ deliver 0 ++ [ARecv 0 (f_ack (lit "1"))])
      (ATake 0 SelRead true true) PanicBadAck) as HA. witness HA. destruct HA as (y & H1 & H2). by exists y, (ATake 0 SelRead true true).
Qed.
Print Assumptions C42_refuted.

(* ------------------------------------------------------------------ *)
(** C44.  A queue message is only taken up for transmission on a subscription
    that has no unacknowledged one, ... *)
Theorem C44_transmit : forall cfg y c n pre e post s id_of ack_of, reach cfg y -> y_conns y !! c = Some n -> n_log n = pre ++ e :: post ->
  v_in e = InSub s -> keeps id_of ack_of (y_heap y) -> s ∉ outstanding ack_of pre.
Proof. intros cfg y c n pre e post s id_of ack_of Hr Hn Hl Hi Hk. destruct (deliveries_ok _ _ Hr _ _ _ _ _ Hn Hl s Hi) as [H _]. by eapply H. Qed.
Print Assumptions C44_transmit.
(** ... and only assigned to one that holds none and has none in any channel
    or list; the server's own check of this never fails. *)
Theorem C44_assign : forall cfg y y' c s m, reach cfg y -> step cfg y AProc = Some (Fine y') -> OutSub c s m ∈ y_pout y' ->
  holds (y_heap y) s = None /\ forall c' n, y_conns y !! c' = Some n -> s ∉ with_conn n.
Proof.
  intros cfg y y' c s m Hr Hs Hin. pose proof (reach_wf _ _ Hr) as HW. pose proof (reach_tok _ _ Hr) as HT.
  cbn [step] in Hs. unfold do_proc in Hs. destruct (y_pout y) eqn:Hpo; [|done]. destruct (y_req y) as [|r rs] eqn:Hq; [done|].
  destruct (serve (y_broker y) (y_heap y) r) as [p|[[b hp] outs]] eqn:Hsv; [done|]. injection Hs as <-. cbn [y_pout] in Hin.
  assert (0 < free y s) as Hf.
  { apply serve_cases in Hsv. destruct Hsv; try (by apply elem_of_nil in Hin); try (apply elem_of_list_singleton in Hin; injection Hin as -> -> ->).
    - unfold free. rewrite Hq. cbn [rsub cnt]. rewrite decide_True by done. lia.
    - match goal with E : ready _ ?d = ?s0 :: _ |- _ => destruct (ready_free y d s0 HW) as (_ & _ & _ & ?); [rewrite E; by left|done] end.
    - exfalso. match goal with HF : Forall2 _ _ outs |- _ => clear -HF Hin; induction HF as [|s0 o l os (sb & _ & _ & ->) HF IH]; [by apply elem_of_nil in Hin|] end.
      apply elem_of_cons in Hin as [?|?]; [done|auto]. }
  split; [exact (tk_free _ HT s Hf)|]. intros c' n Hn Hw. destruct (held_frame y c' n s HW HT Hn Hw) as [Hh _]. pose proof (tk_one _ HT s). lia.
Qed.
Print Assumptions C44_assign.
Theorem C44_no_pending_panic : forall cfg y a, reach cfg y -> step cfg y a <> Some (Panicked PanicFramePending) /\ step cfg y a <> Some (Panicked PanicNil).
Proof. intros cfg y a Hr. split; intros Hs; apply (panic_cause _ _ _ _ Hr) in Hs; inversion Hs. Qed.
Print Assumptions C44_no_pending_panic.
(** Two messages, one subscription: the second waits until the first is done. *)
Example C44_case : exists y y' c s m, reach cfg0 y /\ step cfg0 y AProc = Some (Fine y') /\ y_pout y' = [OutSub c s m] /\ f_body (g_frame m) = lit "two" /\
  bodies (waiting (y_broker y) q) = [lit "two"].
Proof.
  set (l := join 0 ++ ask1 0 (f_sub (lit "x") q (lit "auto")) ++ ask1 0 (f_send q (lit "one")) ++ ask 0 (f_send q (lit "two")) ++ [AOut; AProc; ATake 0 SelSub true true; APush 0]).
  assert (H : match run cfg0 sys_init l with Some (Fine y) => match step cfg0 y AProc with Some (Fine y') =>
     match y_pout y' with [OutSub c s m] => bool_decide (f_body (g_frame m) = lit "two" /\ bodies (waiting (y_broker y) q) = [lit "two"]) | _ => false end | _ => false end | _ => false end = true)
    by (vm_compute; reflexivity).
  clearbody l. destruct (run cfg0 sys_init l) as [[p|y]|] eqn:E; try done. destruct (step cfg0 y AProc) as [[p|y']|] eqn:E'; try done.
  destruct (y_pout y') as [|[c s m|c m] [|]] eqn:Eo; try done. apply bool_decide_eq_true in H as [H1 H2]. exists y, y', c, s, m. split_and!; try done.
  eapply run_reach; [constructor|exact E].
Qed.

(* ------------------------------------------------------------------ *)
(** C49.  A queue message taken up by a connection carries the id of its
    subscription; if that id is not live (never subscribed or unsubscribed
    since, see [live]) nothing is written and it goes back to the queue,
    otherwise it is written. *)
Theorem C49_unsubscribed : forall cfg y c n pre e post s, reach cfg y -> y_conns y !! c = Some n -> n_log n = pre ++ e :: post -> v_in e = InSub s ->
  exists m id, hget_of m (lit "subscription") = Some id /\
    (live id pre = None /\ v_wr e = [] /\ v_push e = [RRequeue m] /\ v_stop e = false \/
     is_Some (live id pre) /\ exists w, v_wr e = [(Some m, w)]).
Proof.
  intros cfg y c n pre e post s Hr Hn Hl Hi. destruct (deliveries_ok _ _ Hr _ _ _ _ _ Hn Hl s Hi) as [_ (m & id & H1 & H2)]. exists m, id. split; [done|].
  destruct H2 as [H2|(H2 & w & H3 & _)]; [by left|right]. eauto.
Qed.
Print Assumptions C49_unsubscribed.
Definition c49_run : list act :=
  join 0 ++ ask1 0 (f_sub (lit "x") q (lit "auto")) ++ ask1 0 (f_send q (lit "one")) ++ [AOut] ++ ask1 0 (f_unsub (lit "x")) ++ [ATake 0 SelSub true true; APush 0; AProc].
Example C49_case : exists y, reach cfg0 y /\ bodies (waiting (y_broker y) q) = [lit "one"] /\
  exists n, y_conns y !! 0 = Some n /\ (cmd_of <$> omap fst (written n)) = [CONNECTED] /\ length (n_log n) = 5.
Proof.
  pose proof (after_reach c49_run (fun y => match y_conns y !! 0 with Some n => bool_decide (bodies (waiting (y_broker y) q) = [lit "one"] /\ (cmd_of <$> omap fst (written n)) = [CONNECTED] /\ length (n_log n) = 5) | None => false end)) as HA. witness HA. destruct HA as (y & Hr & Hy).
  destruct (y_conns y !! 0) as [n|] eqn:Hn; [|done]. apply bool_decide_eq_true in Hy as (H1 & H2 & H3). exists y. split_and!; [done|done|]. by exists n.
Qed.

(* ------------------------------------------------------------------ *)
(** C46, the part that holds: messages given back while nobody is ready for
    them come before all waiting ones, in the reverse of the order in which
    they are given back.  One message keeps its place. *)
Theorem C46_front_partial : forall b hp d ms, is_queue d = true -> ready b d = [] -> Forall (fun m => hget_of m (lit "destination") = Some d) ms ->
  exists b', serve_all b hp (RRequeue <$> ms) = Fine (b', hp, []) /\ waiting b' d = reverse ms ++ waiting b d /\
    (forall d', d' <> d -> waiting b' d' = waiting b d').
Proof. exact requeue_many. Qed.
Print Assumptions C46_front_partial.
(** C46 as stated fails: "one" and "two" were delivered in this order and are
    redelivered in the other. *)
Definition c46_run : list act :=
  join 0 ++ ask1 0 (f_sub (lit "x") q (lit "client")) ++ ask1 0 (f_sub (lit "y") q (lit "client")) ++ ask1 0 (f_send q (lit "one")) ++ deliver 0 ++
  ask1 0 (f_send q (lit "two")) ++ deliver 0 ++ ask1 0 (f_send q (lit "three")) ++ [AEof 0; ATake 0 SelRead true true] ++
  [AClean 0 []; AClean 0 (lit "x"); APush 0; AProc; AClean 0 (lit "y"); APush 0; AProc; AClean 0 []; AClean 0 []; APush 0; AProc; AClean 0 []; APush 0; AProc].
Theorem C46_refuted : exists y n, reach cfg0 y /\ y_conns y !! 0 = Some n /\
  bodies (filter (fun m => cmd_of m = MESSAGE) (omap fst (written n))) = [lit "one"; lit "two"] /\
  bodies (waiting (y_broker y) q) = [lit "two"; lit "one"; lit "three"].
Proof.
  pose proof (after_reach c46_run (fun y => match y_conns y !! 0 with Some n => bool_decide (bodies (filter (fun m => cmd_of m = MESSAGE) (omap fst (written n))) = [lit "one"; lit "two"] /\
     bodies (waiting (y_broker y) q) = [lit "two"; lit "one"; lit "three"]) | None => false end)) as HA. witness HA. destruct HA as (y & Hr & Hy).
  destruct (y_conns y !! 0) as [n|] eqn:Hn; [|done]. apply bool_decide_eq_true in Hy as (H1 & H2). by exists y, n.
Qed.
Print Assumptions C46_refuted.

(* ------------------------------------------------------------------ *)
(** C47, the part that holds: the server can only stop working with work left when
    the processor waits for room in a channel of a connection that is gone or
    that itself waits for room in the full request channel. *)
Theorem C47_only_then_partial : forall cfg y, reach cfg y -> stalled cfg y -> pending y ->
  exists n, processor_waits y n /\ (n_phase n = Dead \/ n_out n <> [] /\ length (y_req y) = cap_req).
Proof. exact stalled_reason. Qed.
Print Assumptions C47_only_then_partial.
(** C47 as stated fails in both ways.  First: a topic subscriber leaves while
    seventeen messages for it are queued ahead of its unsubscription. *)
Fixpoint times (n : nat) (l : list act) : list act := match n with 0 => [] | S n' => l ++ times n' l end.
Definition c47_dead : list act :=
  join 0 ++ join 1 ++ ask1 0 (f_sub (lit "x") t (lit "auto")) ++ times 17 (ask 1 (f_send t (lit "m"))) ++ [AEof 0; ATake 0 SelRead true true] ++
  [AClean 0 []; AClean 0 (lit "x"); APush 0; AClean 0 []; AClean 0 []; AClean 0 []; AClean 0 []; AClean 0 []; APush 0; AClean 0 []; AClean 0 []] ++
  times 16 [AProc; AOut] ++ [AProc].
(** Second: one client subscribed to a topic it publishes to. *)
Definition c47_busy : list act :=
  join 0 ++ ask1 0 (f_sub (lit "x") t (lit "auto")) ++ times 16 (ask1 0 (f_send t (lit "m")) ++ [AOut]) ++ ask1 0 (f_send t (lit "m")) ++
  times 128 (ask 0 (f_send t (lit "m"))) ++ handle 0 (f_send t (lit "m")).
Theorem C47_refuted :
  (exists y, reach cfg0 y /\ stuck cfg0 y /\ pending y /\ (exists n, y_conns y !! 1 = Some n /\ n_phase n = Running) /\ y_req y <> []) /\
  (exists y, reach cfg0 y /\ stuck cfg0 y /\ pending y /\ Forall (fun n => n_phase n = Running) (y_conns y)).
Proof.
  split.
  - pose proof (after_reach c47_dead (fun y => stuckb y && match y_conns y !! 1 with Some n => bool_decide (n_phase n = Running /\ y_req y <> []) | None => false end)) as HA. witness HA. destruct HA as (y & Hr & Hy). rewrite andb_true_iff in Hy. destruct Hy as [H1 H2].
    destruct (y_conns y !! 1) as [n|] eqn:Hn; [|done]. apply bool_decide_eq_true in H2 as [H2 H3]. exists y. split_and!; [done|by apply stuckb_ok|by left| |done]. by exists n.
  - pose proof (after_reach c47_busy (fun y => stuckb y && bool_decide (y_pout y <> [] /\ Forall (fun n => n_phase n = Running) (y_conns y)))) as HA. witness HA. destruct HA as (y & Hr & Hy). rewrite andb_true_iff, bool_decide_eq_true in Hy. destruct Hy as (H1 & H2 & H3).
    exists y. split_and!; [done|by apply stuckb_ok|right; by left|done].
Qed.
Print Assumptions C47_refuted.
