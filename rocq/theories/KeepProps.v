(** C104: which destinations the server remembers. *)
From Verif Require Import GoBase HeaderModel FrameModel NegotiationModel BrokerModel ServerConnModel ServerConnSpec SystemModel SystemLemmas SystemSpec SystemProofs SystemProps FlowProps
  RestSpec KeepModel KeepSpec KeepProofs.

(** The server has a Queue or Topic object only for destinations that a client
    named. *)
Theorem C104_only_named : forall cfg k d, kreach cfg k -> d ∈ remembered k -> named_by_client (k_sys k) d.
Proof. exact remembered_named. Qed.
Print Assumptions C104_only_named.
(** When it has handled everything it was asked, for exactly these; a queue
    object for those that begin with "/queue", a topic object for the others. *)
Theorem C104_exactly : forall cfg k, kreach cfg k -> y_req (k_sys k) = [] -> Forall (fun n => n_out n = []) (y_conns (k_sys k)) -> forall d,
  (d ∈ k_queues k <-> named_by_client (k_sys k) d /\ is_queue d = true) /\ (d ∈ k_topics k <-> named_by_client (k_sys k) d /\ is_queue d = false).
Proof.
  intros cfg k Hk Hq Hc d. destruct (objects _ _ Hk d) as [HQ HT]. pose proof (kreach_reach _ _ Hk) as Hr. split; split.
  - intros Hd. split; [eapply remembered_named; [done|by apply elem_of_union_l]|by apply HQ in Hd as [? _]].
  - intros [Hn Hd]. pose proof (named_remembered _ _ _ Hk Hq Hc Hn) as H. by rewrite Hd in H.
  - intros Hd. split; [eapply remembered_named; [done|by apply elem_of_union_r]|by apply HT in Hd as [? _]].
  - intros [Hn Hd]. pose proof (named_remembered _ _ _ Hk Hq Hc Hn) as H. by rewrite Hd in H.
Qed.
Print Assumptions C104_exactly.
(** Whatever happens, none is ever given up. *)
Theorem C104_for_ever : forall cfg k l k', krun cfg k l = Some k' -> remembered k ⊆ remembered k'.
Proof. intros cfg k l k' H. unfold remembered. destruct (krun_keeps _ _ _ _ H) as [H1 H2]. set_solver. Qed.
Print Assumptions C104_for_ever.

(** The storage's lists of messages: only for queues with an object, and never
    given up either, empty or not. *)
Theorem C104_lists : forall cfg k d, kreach cfg k -> is_Some (b_store (y_broker (k_sys k)) !! d) ->
  d ∈ k_queues k /\ forall l k', krun cfg k l = Some k' -> is_Some (b_store (y_broker (k_sys k')) !! d).
Proof. intros cfg k d Hk Hd. split; [by eapply lists_objects|]. intros l k' H. by eapply krun_lists. Qed.
Print Assumptions C104_lists.

(* ---------------- any number of them, with nobody there ---------------- *)
Lemma krun_app cfg k l1 l2 : krun cfg k (l1 ++ l2) = match krun cfg k l1 with Some k1 => krun cfg k1 l2 | None => None end.
Proof. revert k. induction l1 as [|a l1 IH]; intros k; [done|]. cbn [krun app]. destruct (kstep cfg k a); [apply IH|done]. Qed.
Lemma krun_reach cfg k l k' : kreach cfg k -> krun cfg k l = Some k' -> kreach cfg k'.
Proof. revert k. induction l as [|a l IH]; intros k Hr; cbn [krun]; [by intros [= <-]|]. destruct (kstep cfg k a) as [k1|] eqn:E; [|done]. apply IH. by eapply kr_step. Qed.
Definition kc : cst := match run cfg0 sys_init (join 0) with Some (Fine y) => match y_conns y with n :: _ => n_c n | [] => cst_init end | _ => cst_init end.
(** One client, connected, and nothing going on. *)
Definition calm (uid : nat) (bl : list (request * list pout)) (lg : list cev) (t : gset str) : ksys :=
  mkK (mkSys [mkSconn kc Running [] false [] [] [] lg] ∅ 0 uid [] broker_init [] bl [] []) ∅ t.
Lemma calm_start : exists uid bl lg, krun cfg0 k_init (join 0) = Some (calm uid bl lg ∅).
Proof. eexists _, _, _. vm_compute. reflexivity. Qed.
Definition accepted (u : nat) (d : str) : msg := mkMsg u (mkFrame MESSAGE [(lit "destination", d)] []).
Lemma send_iter hp nx u d : exists o, conn_iter cfg0 0 true true kc hp nx (InFrame (mkMsg u (f_send d []))) = Fine o /\
  i_c o = kc /\ i_hp o = hp /\ i_next o = nx /\ (exists m, i_push o = [REnqueue m] /\ hget_of m h_destination = Some d) /\ i_stop o = false.
Proof.
  destruct (conn_iter cfg0 0 true true kc hp nx (InFrame (mkMsg u (f_send d [])))) as [p|o] eqn:E; [vm_compute in E; discriminate E|].
  exists o. split; [done|]. vm_compute in E. injection E as <-. split_and!; try done. eexists. split; [reflexivity|]. vm_compute. reflexivity.
Qed.
Lemma calm_send uid bl lg t d : is_queue d = false ->
  exists bl' lg', krun cfg0 (calm uid bl lg t) (ask1 0 (f_send d [])) = Some (calm (S uid) bl' lg' (find t d)).
Proof.
  intros Hq. destruct (send_iter ∅ 0 uid d) as (o & Ho & E1 & E2 & E3 & (m & E4 & E5) & E6).
  unfold ask1, ask, handle, calm. cbn [app krun].
  unfold kstep at 1. cbn [k_sys k_queues k_topics step do_recv y_conns lookup list_lookup n_eof n_read length]. rewrite decide_True by (unfold cap_read; lia).
  cbn [fine y_req y_heap y_next y_uid y_broker y_pout y_blog y_fin y_lost app insert list_insert n_c n_phase n_write n_sub n_out n_log].
  unfold kstep at 1. cbn [k_sys k_queues k_topics step]. unfold do_take. cbn [y_conns lookup list_lookup n_phase idle n_out take_input n_read n_eof n_c n_write n_sub n_log y_heap y_next]. rewrite Ho, E1, E2, E3, E4, E6.
  cbn [fine y_req y_heap y_next y_uid y_broker y_pout y_blog y_fin y_lost app insert list_insert].
  unfold kstep at 1. cbn [k_sys k_queues k_topics step do_push y_conns lookup list_lookup n_out y_req length]. rewrite decide_True by (unfold cap_req; lia).
  cbn [fine y_req y_heap y_next y_uid y_broker y_pout y_blog y_fin y_lost app insert list_insert with_out].
  unfold kstep at 1. cbn [k_sys k_queues k_topics step do_proc y_pout y_req y_broker y_heap serve find_for]. change (hd_contains (f_hdr (g_frame m)) h_destination) with (hget_of m h_destination). rewrite E5. unfold find_either. rewrite Hq.
  eexists _, _. unfold members, broker_init. cbn [b_topics]. rewrite lookup_empty. cbn [topic_send_all]. reflexivity.
Qed.
Lemma calm_sends ds uid bl lg t : Forall (fun d => is_queue d = false) ds ->
  exists uid' bl' lg' t', krun cfg0 (calm uid bl lg t) (concat ((fun d => ask1 0 (f_send d [])) <$> ds)) = Some (calm uid' bl' lg' t') /\ t' = t ∪ list_to_set ds.
Proof.
  revert uid bl lg t. induction ds as [|d ds IH]; intros uid bl lg t Hf.
  { eexists _, _, _, _. split; [reflexivity|]. set_solver. }
  apply Forall_cons in Hf as [Hd Hf]. destruct (calm_send uid bl lg t d Hd) as (bl1 & lg1 & H1). destruct (IH (S uid) bl1 lg1 (find t d) Hf) as (uid' & bl' & lg' & t' & H2 & H3).
  exists uid', bl', lg', t'. cbn [fmap list_fmap concat]. rewrite krun_app, H1. split; [done|]. rewrite H3. apply set_eq. intros x. rewrite elem_of_union, find_elem. set_solver.
Qed.
Definition leaves : list act := gone0 ++ finish0.
Lemma calm_leave uid bl lg t : exists k, krun cfg0 (calm uid bl lg t) leaves = Some k /\ deserted (k_sys k) /\ k_queues k = ∅ /\ k_topics k = t.
Proof.
  assert (exists bl' lg', krun cfg0 (calm uid bl lg t) leaves = Some (mkK (mkSys [mkSconn kc Dead [] true [] [] [] lg'] ∅ 0 uid [] broker_init [] bl' [] []) ∅ t)) as (bl' & lg' & E).
  { eexists _, _. vm_compute. reflexivity. }
  eexists. split; [exact E|]. cbn [k_sys k_queues k_topics]. split_and!; [|done..]. split_and!; [done|done|repeat constructor|]. intros d.
  unfold waiting, mq_list, ready, members, broker_init. cbn [y_broker b_store b_ready b_topics]. split_and!; reflexivity.
Qed.
(** A destination nobody uses is forgotten: false.  Whichever topics it names,
    one client that sends a message to each and leaves makes the server remember
    them all, with nobody there and nothing waiting. *)
Theorem C104_unbounded : forall ds, Forall (fun d => is_queue d = false) ds -> exists k, kreach cfg0 k /\ deserted (k_sys k) /\ remembered k = list_to_set ds.
Proof.
  intros ds Hf. destruct calm_start as (uid & bl & lg & H0). destruct (calm_sends ds uid bl lg ∅ Hf) as (uid1 & bl1 & lg1 & t & H1 & Ht).
  destruct (calm_leave uid1 bl1 lg1 t) as (k & H2 & H3 & H4 & H5). exists k. split_and!; [|done|].
  - eapply (krun_reach _ k_init (join 0 ++ concat ((fun d => ask1 0 (f_send d [])) <$> ds) ++ leaves)); [constructor|]. by rewrite krun_app, H0, krun_app, H1.
  - unfold remembered. rewrite H4, H5, Ht. by rewrite !(left_id_L ∅ (∪)).
Qed.
Print Assumptions C104_unbounded.
Theorem C104_refuted : ~ forall cfg k, kreach cfg k -> deserted (k_sys k) -> remembered k = ∅.
Proof.
  intros H. destruct (C104_unbounded [lit "/topic/a"]) as (k & Hr & Hd & He); [by repeat constructor|]. rewrite (H _ _ Hr Hd) in He.
  assert (lit "/topic/a" ∈ (∅ : gset str)) as Hx; [rewrite He; set_solver|]. by apply elem_of_empty in Hx.
Qed.
Print Assumptions C104_refuted.

(** A client subscribes to a queue, sends to a topic, unsubscribes, leaves: both
    are remembered. *)
Definition c104_run : list act := join 0 ++ ask1 0 (f_sub (lit "1") q (lit "auto")) ++ ask1 0 (f_send t (lit "x")) ++ ask1 0 (f_unsub (lit "1")) ++ leaves.
Lemma all_empty {A} (m : gmap str (list A)) d : bool_decide (map_Forall (fun _ l => bool_decide (length l = 0) = true) m) = true -> match m !! d with Some l => l | None => [] end = [].
Proof. rewrite bool_decide_eq_true. intros H. destruct (m !! d) as [l|] eqn:E; [|done]. apply H in E. apply bool_decide_eq_true in E. by destruct l. Qed.
Definition c104_ok (k : ksys) : bool :=
  bool_decide (k_queues k = {[q]} /\ k_topics k = {[t]} /\ y_req (k_sys k) = [] /\ Forall (fun n => n_phase n = Dead /\ n_out n = []) (y_conns (k_sys k))) &&
  bool_decide (length (y_pout (k_sys k)) = 0) && bool_decide (map_Forall (fun _ l => bool_decide (length l = 0) = true) (b_store (y_broker (k_sys k)))) &&
  bool_decide (map_Forall (fun _ l => bool_decide (length l = 0) = true) (b_ready (y_broker (k_sys k)))) && bool_decide (map_Forall (fun _ l => bool_decide (length l = 0) = true) (b_topics (y_broker (k_sys k)))).
Example C104_case : exists k, kreach cfg0 k /\ deserted (k_sys k) /\ k_queues k = {[q]} /\ k_topics k = {[t]} /\ ~ named_by_client (k_sys k) (lit "/topic/b").
Proof.
  assert (match krun cfg0 k_init c104_run with Some k => c104_ok k | None => false end = true) as H by (vm_compute; reflexivity).
  destruct (krun cfg0 k_init c104_run) as [k|] eqn:Hk; [|done]. unfold c104_ok in H. rewrite !andb_true_iff in H. destruct H as [[[[H Hp] HA] HB] HC]. apply bool_decide_eq_true in H as (H1 & H2 & H3 & H4). apply bool_decide_eq_true, nil_length_inv in Hp.
  assert (kreach cfg0 k) as Hr by (eapply krun_reach; [constructor|exact Hk]). clear Hk. exists k. split_and!; [done| |done|done|].
  - split_and!; try done. intros d. unfold waiting, mq_list, ready, members. split_and!; by apply all_empty.
  - intros Hn. destruct (C104_exactly _ _ Hr H3) with (d := lit "/topic/b") as [_ HT]; [eapply Forall_impl; [exact H4|]; by intros n [_ ?]|].
    assert (lit "/topic/b" ∈ k_topics k) as Hx by (apply HT; done). rewrite H2 in Hx. by apply elem_of_singleton in Hx.
Qed.
(** A message waits in the queue, is taken by a subscriber, who leaves: the
    empty list stays. *)
Definition c104_lists_run : list act := join 0 ++ ask1 0 (f_send q (lit "x")) ++ ask1 0 (f_sub (lit "1") q (lit "auto")) ++ deliver 0 ++ [APush 0; AProc] ++ ask1 0 (f_unsub (lit "1")) ++ leaves.
Example C104_lists_case : exists k, kreach cfg0 k /\ k_queues k = {[q]} /\ b_store (y_broker (k_sys k)) !! q = Some [] /\ Forall (fun n => n_phase n = Dead) (y_conns (k_sys k)).
Proof.
  assert (match krun cfg0 k_init c104_lists_run with Some k => bool_decide (k_queues k = {[q]} /\ Forall (fun n => n_phase n = Dead) (y_conns (k_sys k))) &&
    match b_store (y_broker (k_sys k)) !! q with Some [] => true | _ => false end | None => false end = true) as H by (vm_compute; reflexivity).
  destruct (krun cfg0 k_init c104_lists_run) as [k|] eqn:Hk; [|done]. apply andb_prop in H as [H1 H2]. apply bool_decide_eq_true in H1 as [H0 H1].
  assert (kreach cfg0 k) as Hr by (eapply krun_reach; [constructor|exact Hk]). clear Hk. exists k. split_and!; [done|done| |done]. by destruct (b_store _ !! q) as [[|]|].
Qed.
