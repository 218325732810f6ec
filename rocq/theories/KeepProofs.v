(** Proofs about the managers' objects. *)
From Verif Require Import GoBase HeaderModel FrameModel GrammarSpec HeaderProofs NegotiationModel NegotiationSpec NegotiationLemmas
  BrokerModel BrokerSpec BrokerProofs ServerConnModel ServerConnSpec ServerConnProofs SystemModel SystemLemmas SystemSpec SystemProofs SystemTokens
  SystemMessages SystemUids SystemHistory SystemPanics SystemCleanup FlowSpec FlowProofs RestSpec KeepModel KeepSpec.

(* ---------------- requests ---------------- *)
(** Made, and handled or on the way. *)
Definition asked (y : sys) (r : request) : Prop := r ∈ handed y \/ exists c n, y_conns y !! c = Some n /\ r ∈ n_out n.
Lemma asked_move cfg y y' r : move cfg y y' -> asked y r -> asked y' r.
Proof.
  intros Hm [H|(c & n & Hn & H)]; [left; by eapply handed_mono|].
  assert (Hupd : forall c0 n0 n', y_conns y !! c0 = Some n0 -> n_out n' = n_out n0 -> exists c1 n1, <[c0 := n']> (y_conns y) !! c1 = Some n1 /\ r ∈ n_out n1).
  { intros c0 n0 n' H0 E. destruct (decide (c = c0)) as [->|Hne].
    - exists c0, n'. split; [apply list_lookup_insert; by eapply lookup_lt_Some|]. assert (n0 = n) as <- by congruence. by rewrite E.
    - exists c, n. by rewrite list_lookup_insert_ne. }
  assert (Hemp : forall c0 n0 n', y_conns y !! c0 = Some n0 -> n_out n0 = [] -> exists c1 n1, <[c0 := n']> (y_conns y) !! c1 = Some n1 /\ r ∈ n_out n1).
  { intros c0 n0 n' H0 E. exists c, n. rewrite list_lookup_insert_ne; [done|]. intros ->. assert (n0 = n) as -> by congruence. rewrite E in H. by apply elem_of_nil in H. }
  destruct Hm; unfold asked, handed, set_conn; cbn [y_conns y_blog y_req]; try (right; by eapply Hupd).
  - right. exists c, n. split; [|done]. by apply lookup_app_l_Some.
  - right. by eapply Hemp.
  - destruct (decide (c0 = c)) as [->|Hne].
    + assert (n0 = n) as -> by congruence. rewrite H1 in H. apply elem_of_cons in H as [->|H].
      * left. rewrite !elem_of_app, elem_of_list_singleton. auto.
      * right. exists c, (with_out n rs). split; [apply list_lookup_insert; by eapply lookup_lt_Some|done].
    + right. exists c, n. by rewrite list_lookup_insert_ne.
  - right. by eapply Hemp.
  - right. by exists c, n.
Qed.
(** Every subscription object was given to the processor or will be. *)
Lemma heap_asked cfg y : reach cfg y -> forall s sb, y_heap y !! s = Some sb -> asked y (RSubscribe s).
Proof.
  revert y. apply (reach_ind' cfg (fun y => forall s sb, y_heap y !! s = Some sb -> asked y (RSubscribe s))); [intros s sb H; cbn [sys_init y_heap] in H; by rewrite lookup_empty in H|]. intros y y' Hr IH Hm s sb Hs.
  pose proof (reach_wf _ _ Hr) as HW.
  destruct (y_heap y !! s) as [sb0|] eqn:E; [eapply asked_move; [done|by eapply IH]|].
  destruct Hm; cbn [y_heap] in Hs; try (exfalso; unfold set_conn in Hs; cbn [y_heap] in Hs; congruence).
  - assert (shape c (n_c n) (y_heap y) (y_next y) i o) as Hsh by (eapply conn_iter_shape; [apply (wf_conns _ HW _ _ H)|done]).
    assert (Hno : forall s0 sbx, y_heap y !! s0 <> None -> <[s0 := sbx]> (y_heap y) !! s = Some sb -> False).
    { intros s0 sbx Hx Hl. rewrite lookup_insert_Some in Hl. destruct Hl as [[-> _]|[_ Hl]]; congruence. }
    destruct Hsh.
    + exfalso. assert (Hd : y_heap y !! s = None -> i_hp o !! s = None); [|rewrite Hd in Hs; done].
      intros Hz. destruct (acks_tok _ _ _ _ _ H5 s) as (A1 & _ & A3 & _).
      destruct (decide (s ∈ k_sublist (n_c n))) as [Hin|Hin].
      * destruct (co_list _ _ _ (wf_conns _ HW _ _ H) _ Hin) as ((? & ? & _) & _). congruence.
      * rewrite A3; [done|]. intros Hx. apply Hin. apply cnt_elem. apply cnt_elem in Hx. lia.
    + congruence.
    + rewrite H6, lookup_insert_Some in Hs. destruct Hs as [[<- _]|[_ Hs]]; [|congruence].
      right. exists c, (taken n1 (InFrame m) o). split; [apply list_lookup_insert; by eapply lookup_lt_Some|]. cbn [taken n_out]. rewrite H10. by left.
    + congruence.
    + congruence.
    + exfalso. rewrite H6 in Hs. eapply Hno; [|done]. congruence.
    + exfalso. rewrite H6 in Hs. eapply Hno; [|done]. congruence.
    + exfalso. rewrite H6 in Hs. eapply Hno; [|done]. congruence.
  - exfalso. destruct H3; try congruence. rewrite lookup_insert_Some in Hs. destruct Hs as [[-> _]|[_ Hs]]; congruence.
  - exfalso. apply serve_cases in H1. destruct H1; try congruence;
      match type of Hs with <[_ := _]> _ !! _ = _ => rewrite lookup_insert_Some in Hs; destruct Hs as [[-> _]|[_ Hs]]; congruence end.
Qed.
(** Every accepted message likewise. *)
Lemma sent_asked cfg y m : reach cfg y -> m ∈ sent y -> asked y (REnqueue m).
Proof.
  intros Hr. unfold sent. rewrite elem_of_list_In, in_concat. intros (x & Hx & Hm). rewrite <- elem_of_list_In in Hx. rewrite <- elem_of_list_In in Hm.
  apply elem_of_list_fmap in Hx as (n & -> & Hn). apply elem_of_list_lookup in Hn as [c Hn].
  assert (Hm' : m ∈ client_sent n) by exact Hm. rewrite <- (or_eq _ (reach_ordered _ _ Hr) _ _ Hn) in Hm'.
  apply elem_of_app in Hm' as [Hm'|Hm'].
  - apply elem_of_list_filter in Hm' as [_ Hm']. left. apply elem_of_list_omap in Hm' as (r & H1 & H2). destruct r; try done. by injection H2 as ->.
  - right. exists c, n. split; [done|]. apply elem_of_list_omap in Hm' as (r & H1 & H2). destruct r; try done. by injection H2 as ->.
Qed.

(* ---------------- the managers ---------------- *)
Lemma kreach_reach cfg k : kreach cfg k -> reach cfg (k_sys k).
Proof.
  induction 1 as [|k a k' _ IH Hs]; [constructor|]. unfold kstep in Hs. destruct (step cfg (k_sys k) a) as [[p|y]|] eqn:E; try done.
  eapply reach_step; [done|]. replace (k_sys k') with y; [exact E|].
  destruct a; try (by injection Hs as <-). destruct (y_req (k_sys k)) as [|r rs]; [by injection Hs as <-|]. destruct (find_for _ _ _ r). by injection Hs as <-.
Qed.
Lemma find_elem o d x : x ∈ find o d <-> x ∈ o \/ x = d.
Proof. unfold find. destruct (decide (d ∈ o)); [|set_solver]. split; [auto|]. by intros [?| ->]. Qed.
(** The destination a request is about. *)
Definition about (hp : sheap) (r : request) (d : str) : Prop :=
  match r with
  | RSubscribe s | RUnsubscribe s => dst hp d s
  | REnqueue m => hget_of m h_destination = Some d
  | RRequeue m => hget_of m h_destination = Some d /\ is_queue d = true
  | _ => False
  end.
Lemma find_for_elem hp q t r q' t' : find_for hp q t r = (q', t') ->
  forall x, (x ∈ q' <-> x ∈ q \/ about hp r x /\ is_queue x = true) /\ (x ∈ t' <-> x ∈ t \/ about hp r x /\ is_queue x = false).
Proof.
  assert (He : forall d, find_either q t d = (q', t') -> forall x, (x ∈ q' <-> x ∈ q \/ d = x /\ is_queue x = true) /\ (x ∈ t' <-> x ∈ t \/ d = x /\ is_queue x = false)).
  { intros d. unfold find_either. destruct (is_queue d) eqn:Hq; intros [= <- <-] x; rewrite find_elem; split; split; try tauto; intros [?|[? ?]] || intros [?|?]; subst; auto; congruence. }
  assert (Hn : (q, t) = (q', t') -> forall (P Q : str -> Prop), (forall x, ~ P x) -> (forall x, ~ Q x) -> forall x, (x ∈ q' <-> x ∈ q \/ P x) /\ (x ∈ t' <-> x ∈ t \/ Q x)).
  { intros [= <- <-] P Q HP HQ x. specialize (HP x). specialize (HQ x). tauto. }
  destruct r as [s|s|m|m|c|c]; cbn [find_for about].
  1,2: (unfold dst; destruct (hp !! s) as [sb|] eqn:E; [|intros H; apply (Hn H); intros x [(sb & ? & _) _]; done];
    intros H x; destruct (He _ H x) as [-> ->]; split; (split; (intros [?|[H1 H2]]; [by left|right; split; [|done]])); [eauto|destruct H1 as (? & [= <-] & ?); done|eauto|destruct H1 as (? & [= <-] & ?); done]).
  - change (hget_of m h_destination) with (hd_contains (f_hdr (g_frame m)) h_destination). destruct (hd_contains _ _) as [d|]; [|intros H; apply (Hn H); by intros x [? _]].
    intros H x. destruct (He _ H x) as [-> ->]. split; (split; (intros [?|[H1 H2]]; [by left|right; split; [congruence|done]])).
  - change (hget_of m h_destination) with (hd_contains (f_hdr (g_frame m)) h_destination). destruct (hd_contains _ _) as [d|]; [|intros H; apply (Hn H); by intros x [[? _] _]].
    destruct (is_queue d) eqn:Hq.
    + intros [= <- <-] x. rewrite find_elem. split; (split; [|]); try tauto.
      * intros [?| ->]; auto.
      * intros [?|[[[= ->] _] _]]; auto.
      * intros [?|[[_ ?] ?]]; [done|congruence].
    + intros H. apply (Hn H); [intros x [[[= ->] ?] _]; congruence|intros x [[_ ?] ?]; congruence].
  - intros H. apply (Hn H); by intros x [? _].
  - intros H. apply (Hn H); by intros x [? _].
Qed.
Lemma kstep_cases cfg k a k' : kstep cfg k a = Some k' -> step cfg (k_sys k) a = Some (Fine (k_sys k')) /\
  ((k_queues k' = k_queues k /\ k_topics k' = k_topics k /\ y_blog (k_sys k') = y_blog (k_sys k)) \/
   exists r outs, r ∈ y_req (k_sys k) /\ y_blog (k_sys k') = y_blog (k_sys k) ++ [(r, outs)] /\
     find_for (y_heap (k_sys k)) (k_queues k) (k_topics k) r = (k_queues k', k_topics k')).
Proof.
  unfold kstep. destruct (step cfg (k_sys k) a) as [[p|y]|] eqn:E; try done. intros H.
  assert (Hl : a <> AProc -> y_blog y = y_blog (k_sys k)).
  { intros Ha. apply step_move in E as Em. destruct a as [|c f|c|c x w1 w2|c|c pick| |]; try done; cbn [step] in E.
    - by injection E as <-.
    - unfold do_recv in E. destruct (_ !! c); [|done]. destruct (n_eof _); [done|]. destruct (decide _); [|done]. by injection E as <-.
    - unfold do_eof in E. destruct (_ !! c); [|done]. destruct (n_eof _); [done|]. by injection E as <-.
    - unfold do_take in E. destruct (_ !! c) as [n|]; [|done]. destruct (n_phase n); try done. destruct (idle n); [|done]. destruct (take_input n x) as [[i n1]|]; [|done].
      destruct (conn_iter _ _ _ _ _ _ _ _); [done|]. by injection E as <-.
    - unfold do_push in E. destruct (_ !! c) as [n|]; [|done]. destruct (n_out n); [done|]. destruct (decide _); [|done]. by injection E as <-.
    - unfold do_clean in E. destruct (_ !! c) as [n|]; [|done]. destruct (idle n); [|done]. destruct (clean_step _ _ _ _) as [[?|[? ?]]|]; try done. by injection E as <-.
    - unfold do_out in E. destruct (y_pout _) as [|o os]; [done|]. destruct (_ !! _); [|done]. destruct o; (destruct (decide _); [|done]); by injection E as <-. }
  destruct a; try (injection H as <-; cbn [k_sys k_queues k_topics]; split; [done|left; split_and!; try done; by apply Hl]).
  cbn [step] in E. unfold do_proc in E. destruct (y_pout (k_sys k)); [|done]. destruct (y_req (k_sys k)) as [|r rs] eqn:Er; [done|].
  destruct (find_for _ _ _ r) as [q t] eqn:Ef. injection H as <-. cbn [k_sys k_queues k_topics]. split; [done|]. right.
  destruct (serve _ _ r) as [|[[b hp] outs]]; [done|]. injection E as <-. exists r, outs. split_and!; [by left|done|done].
Qed.
Lemma about_ext hp hp' r d : hext hp hp' -> about hp r d -> about hp' r d.
Proof. intros H. destruct r; cbn [about]; try done; by apply dst_ext. Qed.

(** An object is there exactly if a request about it was handled. *)
Lemma objects cfg k : kreach cfg k -> forall d,
  (d ∈ k_queues k <-> is_queue d = true /\ exists r, r ∈ (y_blog (k_sys k)).*1 /\ about (y_heap (k_sys k)) r d) /\
  (d ∈ k_topics k <-> is_queue d = false /\ exists r, r ∈ (y_blog (k_sys k)).*1 /\ about (y_heap (k_sys k)) r d).
Proof.
  (* requests handled so far are about objects that exist *)
  assert (Hex : forall y, reach cfg y -> forall r, r ∈ (y_blog y).*1 -> req_ok (y_heap y) r).
  { apply (reach_ind' cfg (fun y => forall r, r ∈ (y_blog y).*1 -> req_ok (y_heap y) r)); [intros r; by intros ?%elem_of_nil|].
    intros y y' Hr IH Hm r Hin. pose proof (reach_wf _ _ Hr) as HW. pose proof (move_hext _ _ _ HW Hm) as Hx. apply (req_ok_ext _ _ _ Hx).
    destruct Hm; cbn [y_blog set_conn] in Hin; try (by apply IH).
    rewrite fmap_app, elem_of_app in Hin. destruct Hin as [Hin|Hin]; [by apply IH|]. cbn in Hin. apply elem_of_list_singleton in Hin as ->.
    pose proof (wf_req _ HW) as Hq. rewrite H0 in Hq. by apply Forall_cons in Hq as [? _]. }
  (* the destination of a request does not change *)
  assert (Hback : forall y y' r d, wf y -> move cfg y y' -> req_ok (y_heap y) r -> about (y_heap y') r d -> about (y_heap y) r d).
  { intros y y' r d HW Hm Hok Ha. pose proof (move_hext _ _ _ HW Hm) as Hx.
    destruct r; cbn [about req_ok] in *; try done; destruct Hok as (c & sb & Hs & _); destruct (Hx _ _ Hs) as (sb' & Hs' & Et); destruct Ha as (sb2 & H2 & H3);
      exists sb; split; [done| |done|]; unfold attr in Et; congruence. }
  induction 1 as [|k a k' Hk IH Hs]; intros d.
  { cbn. split; (split; [by intros ?%elem_of_empty|]); intros [_ (r & Hr & _)]; by apply elem_of_nil in Hr. }
  pose proof (kreach_reach _ _ Hk) as Hr. pose proof (reach_wf _ _ Hr) as HW. destruct (kstep_cases _ _ _ _ Hs) as [Hst HC]. apply step_move in Hst as Hm. pose proof (move_hext _ _ _ HW Hm) as Hx.
  assert (Hsame : forall l, Forall (req_ok (y_heap (k_sys k))) l -> (exists r, r ∈ l /\ about (y_heap (k_sys k')) r d) <-> (exists r, r ∈ l /\ about (y_heap (k_sys k)) r d)).
  { intros l Hl. rewrite Forall_forall in Hl. split; intros (r & H1 & H2); exists r; (split; [done|]); [eapply Hback; eauto|by eapply about_ext]. }
  assert (Hall : Forall (req_ok (y_heap (k_sys k))) (y_blog (k_sys k)).*1) by (apply Forall_forall; by apply Hex).
  destruct (IH d) as [IQ IT]. destruct HC as [(-> & -> & ->)|(r & outs & Hin & -> & Hf)].
  - rewrite Hsame by done. done.
  - rewrite fmap_app. cbn [fmap list_fmap fst]. rewrite Hsame; [|apply Forall_app; split; [done|]; repeat constructor; pose proof (wf_req _ HW) as Hq; rewrite Forall_forall in Hq; by apply Hq].
    destruct (find_for_elem _ _ _ _ _ _ Hf d) as [-> ->]. rewrite IQ, IT.
    assert (Hsp : (exists r0, r0 ∈ (y_blog (k_sys k)).*1 ++ [r] /\ about (y_heap (k_sys k)) r0 d) <-> (exists r0, r0 ∈ (y_blog (k_sys k)).*1 /\ about (y_heap (k_sys k)) r0 d) \/ about (y_heap (k_sys k)) r d).
    { split.
      - intros (r0 & [H1|H1%elem_of_list_singleton]%elem_of_app & H2); [left; eauto|right; by subst].
      - intros [(r0 & H1 & H2)|H2]; [exists r0|exists r]; (split; [|done]); rewrite elem_of_app, elem_of_list_singleton; auto. }
    rewrite Hsp. tauto.
Qed.
(** Requests handled are about destinations clients named. *)
Lemma about_named cfg y0 : reach cfg y0 -> forall r d, r ∈ (y_blog y0).*1 -> about (y_heap y0) r d -> named_by_client y0 d.
Proof.
  assert (Hsub : forall y s d, dst (y_heap y) d s -> named_by_client y d) by (intros y s d (sb & H1 & H2); left; eauto).
  assert (Hfs : forall y m d, from_sent y m -> hget_of m h_destination = Some d -> named_by_client y d).
  { intros y m d (m0 & H1 & H2) Hd. right. exists m0. split; [done|]. by rewrite <- payload_dest, <- H2, payload_dest. }
  assert (Hinv : forall y, reach cfg y -> forall m, REnqueue m ∈ (y_blog y).*1 \/ RRequeue m ∈ (y_blog y).*1 -> from_sent y m).
  { apply (reach_ind' cfg (fun y => forall m, REnqueue m ∈ (y_blog y).*1 \/ RRequeue m ∈ (y_blog y).*1 -> from_sent y m)); [intros m [?|?]; by apply elem_of_nil in H|].
    intros y y' Hr IH Hm m Hin. apply (from_sent_mono _ _ _ _ Hm). destruct Hm; cbn [y_blog set_conn] in Hin; try (by apply IH).
    rewrite fmap_app, !elem_of_app in Hin. cbn [fmap list_fmap fst] in Hin. rewrite !elem_of_list_singleton in Hin.
    assert (r = REnqueue m \/ r = RRequeue m \/ REnqueue m ∈ (y_blog y).*1 \/ RRequeue m ∈ (y_blog y).*1) as [->|[->|?]] by (destruct Hin as [[?|?]|[?|?]]; auto); [..|by apply IH].
    - apply (tp_req _ (reach_topical _ _ Hr)). rewrite H0. by left.
    - pose proof (wf_req _ (reach_wf _ _ Hr)) as Hq. rewrite H0 in Hq. apply Forall_cons in Hq as [(_ & d & Hd & Hdq) _]. eapply conservation_in; [exact Hr|exact Hdq|].
      unfold whereabouts. apply elem_of_app. right. apply elem_of_list_filter. split; [exact Hd|]. unfold in_transit. rewrite !elem_of_app. right. left. right.
      rewrite H0. by left. }
  intros Hr r d Hin Ha. destruct r; cbn [about] in Ha; try done; try (by eapply Hsub); (eapply Hfs; [apply (Hinv _ Hr); eauto|]); [done|by destruct Ha].
Qed.
Lemma remembered_named cfg k d : kreach cfg k -> d ∈ remembered k -> named_by_client (k_sys k) d.
Proof.
  intros Hk Hd. destruct (objects _ _ Hk d) as [HQ HT]. pose proof (kreach_reach _ _ Hk) as Hr.
  apply elem_of_union in Hd as [Hd|Hd]; [apply HQ in Hd|apply HT in Hd]; destruct Hd as (_ & r & H1 & H2); by eapply about_named.
Qed.
Lemma settled_asked y r : y_req y = [] -> Forall (fun n => n_out n = []) (y_conns y) -> asked y r -> r ∈ (y_blog y).*1.
Proof.
  intros Hq Hc [H|(c & n & Hn & H)].
  - unfold handed in H. by rewrite Hq, app_nil_r in H.
  - rewrite (Forall_lookup_1 _ _ _ _ Hc Hn) in H. by apply elem_of_nil in H.
Qed.
Lemma named_remembered cfg k d : kreach cfg k -> y_req (k_sys k) = [] -> Forall (fun n => n_out n = []) (y_conns (k_sys k)) -> named_by_client (k_sys k) d ->
  d ∈ if is_queue d then k_queues k else k_topics k.
Proof.
  intros Hk Hq Hc Hn. pose proof (kreach_reach _ _ Hk) as Hr. destruct (objects _ _ Hk d) as [HQ HT].
  assert (exists r, r ∈ (y_blog (k_sys k)).*1 /\ about (y_heap (k_sys k)) r d) as He.
  { destruct Hn as [(s & sb & Hs & Hd)|(m & Hm & Hd)].
    - exists (RSubscribe s). split; [apply settled_asked; [done..|by eapply heap_asked]|]. cbn [about]. by exists sb.
    - exists (REnqueue m). split; [apply settled_asked; [done..|by eapply sent_asked]|done]. }
  destruct (is_queue d) eqn:E; [apply HQ|apply HT]; auto.
Qed.
Lemma krun_keeps cfg k l k' : krun cfg k l = Some k' -> k_queues k ⊆ k_queues k' /\ k_topics k ⊆ k_topics k'.
Proof.
  revert k. induction l as [|a l IH]; intros k; cbn [krun]; [by intros [= <-]|]. destruct (kstep cfg k a) as [k1|] eqn:E; [|done]. intros H. apply IH in H as [H1 H2].
  destruct (kstep_cases _ _ _ _ E) as [_ [(E1 & E2 & _)|(r & outs & _ & _ & Hf)]]; [by rewrite <- E1, <- E2|].
  assert (k_queues k ⊆ k_queues k1 /\ k_topics k ⊆ k_topics k1) as [? ?]; [|by split; etrans].
  split; intros d Hd; destruct (find_for_elem _ _ _ _ _ _ Hf d) as [HQ HT]; [apply HQ|apply HT]; by left.
Qed.

(* ---------------- the lists of MemoryQueueStorage ---------------- *)
Lemma queue_send_lists put b hp d m b' hp' outs : (forall st x, put st d x !! d <> None /\ forall d', d' <> d -> put st d x !! d' = st !! d') ->
  queue_send put b hp d m = Fine (b', hp', outs) -> forall x, (is_Some (b_store b !! x) -> is_Some (b_store b' !! x)) /\ (is_Some (b_store b' !! x) -> is_Some (b_store b !! x) \/ x = d).
Proof.
  intros Hput. unfold queue_send. destruct (sl_get hp (ready b d)) as [[[s hp1] l]|].
  - destruct (send_queue_frame hp1 s m) as [|[hp2 o]]; [done|]. intros [= <- <- <-] x. cbn [b_store]. auto.
  - intros [= <- <- <-] x. cbn [b_store]. destruct (Hput (b_store b) m) as [H1 H2]. destruct (decide (x = d)) as [->|Hne].
    + split; [|auto]. intros _. by apply not_eq_None_Some.
    + rewrite H2 by done. auto.
Qed.
Lemma puts_enqueue d st x : mq_enqueue st d x !! d <> None /\ forall d', d' <> d -> mq_enqueue st d x !! d' = st !! d'.
Proof. unfold mq_enqueue. split; [by rewrite lookup_insert|]. intros d' Hd. by rewrite lookup_insert_ne. Qed.
Lemma puts_requeue d st x : mq_requeue st d x !! d <> None /\ forall d', d' <> d -> mq_requeue st d x !! d' = st !! d'.
Proof. unfold mq_requeue. split; [by rewrite lookup_insert|]. intros d' Hd. by rewrite lookup_insert_ne. Qed.
Lemma serve_lists b hp r b' hp' outs : serve b hp r = Fine (b', hp', outs) ->
  forall x, (is_Some (b_store b !! x) -> is_Some (b_store b' !! x)) /\ (is_Some (b_store b' !! x) -> is_Some (b_store b !! x) \/ about hp r x /\ is_queue x = true).
Proof.
  destruct r as [s|s|m|m|c|c]; cbn [serve about].
  - destruct (hp !! s) as [sb|] eqn:Es; [|done]. destruct (is_queue (s_dest sb)) eqn:Hq; [|intros [= <- <- <-] x; unfold topic_subscribe; cbn [b_store]; auto].
    unfold queue_subscribe, mq_dequeue. intros H x. destruct (decide (x = s_dest sb)) as [->|Hne].
    + split; [|intros _; right; split; [by exists sb|done]]. destruct (b_store b !! s_dest sb) as [[|m l]|] eqn:E; [| |by intros []];
        (destruct (sl_add _ _ _) as [|[? ?]] || destruct (send_queue_frame _ _ _) as [|[? ?]]); try done; injection H as <- <- <-; cbn [b_store]; intros _; rewrite ?E, ?lookup_insert; eauto.
    + assert (b_store b' !! x = b_store b !! x) as ->; [|auto]. destruct (b_store b !! s_dest sb) as [[|m l]|] eqn:E;
        (destruct (sl_add _ _ _) as [|[? ?]] || destruct (send_queue_frame _ _ _) as [|[? ?]]); try done; injection H as <- <- <-; cbn [b_store]; rewrite ?lookup_insert_ne by done; done.
  - destruct (hp !! s) as [sb|] eqn:Es; [|done]. destruct (is_queue (s_dest sb)).
    + unfold queue_unsubscribe. destruct (sl_remove _ _ _) as [hp1 l]. intros [= <- <- <-] x. cbn [b_store]. auto.
    + intros [= <- <- <-] x. unfold topic_unsubscribe. cbn [b_store]. auto.
  - change (hget_of m h_destination) with (hd_contains (f_hdr (g_frame m)) h_destination). destruct (hd_contains _ _) as [d|]; [|done]. destruct (is_queue d) eqn:Hq.
    + intros H x. destruct (queue_send_lists _ _ _ _ _ _ _ _ (puts_enqueue d) H x) as [H1 H2].
      split; [done|]. intros Hx. destruct (H2 Hx) as [?| ->]; auto.
    + destruct (topic_send_all _ _ _); [done|]. intros [= <- <- <-] x. auto.
  - change (hget_of m h_destination) with (hd_contains (f_hdr (g_frame m)) h_destination). destruct (hd_contains _ _) as [d|]; [|done]. destruct (is_queue d) eqn:Hq.
    + intros H x. destruct (queue_send_lists _ _ _ _ _ _ _ _ (puts_requeue d) H x) as [H1 H2].
      split; [done|]. intros Hx. destruct (H2 Hx) as [?| ->]; auto.
    + intros [= <- <- <-] x. auto.
  - intros [= <- <- <-] x. auto.
  - intros [= <- <- <-] x. auto.
Qed.
Lemma kstep_lists cfg k a k' : kstep cfg k a = Some k' ->
  forall x, (is_Some (b_store (y_broker (k_sys k)) !! x) -> is_Some (b_store (y_broker (k_sys k')) !! x)) /\
    (is_Some (b_store (y_broker (k_sys k')) !! x) -> is_Some (b_store (y_broker (k_sys k)) !! x) \/ x ∈ k_queues k').
Proof.
  intros Hs x. unfold kstep in Hs. destruct (step cfg (k_sys k) a) as [[p|y]|] eqn:E; try done.
  assert (a <> AProc -> y_broker y = y_broker (k_sys k)) as Hb.
  { intros Ha. apply step_move in E as Em. destruct Em; try done. exfalso. apply (f_equal (fun o => match o with Some (Fine y1) => length (y_blog y1) | _ => 0 end)) in E. cbn [y_blog] in E. rewrite app_length in E. cbn [length] in E.
    destruct a; try done; revert E; cbn [step].
    - cbn [y_blog]. lia.
    - unfold do_recv. destruct (_ !! c); [|cbn; lia]. destruct (n_eof _); [cbn; lia|]. destruct (decide _); cbn; lia.
    - unfold do_eof. destruct (_ !! c); [|cbn; lia]. destruct (n_eof _); cbn; lia.
    - unfold do_take. destruct (_ !! c) as [n|]; [|lia]. destruct (n_phase n); try lia. destruct (idle n); [|lia]. destruct (take_input n x0) as [[i n1]|]; [|lia]. destruct (conn_iter _ _ _ _ _ _ _ _); [lia|]. cbn [y_blog]. lia.
    - unfold do_push. destruct (_ !! c) as [n|]; [|cbn; lia]. destruct (n_out n); [cbn; lia|]. destruct (decide _); cbn; lia.
    - unfold do_clean. destruct (_ !! c) as [n|]; [|lia]. destruct (idle n); [|lia]. destruct (clean_step _ _ _ _) as [[?|[? ?]]|]; [lia| |lia]. cbn [y_blog]. lia.
    - unfold do_out. rewrite H. cbn; lia. }
  destruct a; try (injection Hs as <-; cbn [k_sys k_queues]; rewrite Hb by done; auto).
  cbn [step] in E. unfold do_proc in E. destruct (y_pout (k_sys k)); [|done]. destruct (y_req (k_sys k)) as [|r rs] eqn:Er; [done|].
  destruct (find_for _ _ _ r) as [q t] eqn:Ef. injection Hs as <-. cbn [k_sys k_queues].
  destruct (serve _ _ r) as [|[[b hp] outs]] eqn:Hv; [done|]. injection E as <-. cbn [y_broker].
  destruct (serve_lists _ _ _ _ _ _ Hv x) as [H1 H2]. split; [done|]. intros Hx. destruct (H2 Hx) as [?|Ha]; [auto|]. right. apply (find_for_elem _ _ _ _ _ _ Ef x). by right.
Qed.
Lemma lists_objects cfg k d : kreach cfg k -> is_Some (b_store (y_broker (k_sys k)) !! d) -> d ∈ k_queues k.
Proof.
  induction 1 as [|k a k' Hk IH Hs]; intros Hd.
  - cbn [k_init k_sys sys_init y_broker broker_init b_store] in Hd. rewrite lookup_empty in Hd. by destruct Hd.
  - destruct (kstep_lists _ _ _ _ Hs d) as [_ H]. destruct (H Hd) as [Hx|Hx]; [|done]. destruct (krun_keeps cfg k [a] k') as [Hq _]; [cbn [krun]; by rewrite Hs|]. apply Hq. by apply IH.
Qed.
Lemma krun_lists cfg k l k' d : krun cfg k l = Some k' -> is_Some (b_store (y_broker (k_sys k)) !! d) -> is_Some (b_store (y_broker (k_sys k')) !! d).
Proof.
  revert k. induction l as [|a l IH]; intros k; cbn [krun]; [by intros [= <-]|]. destruct (kstep cfg k a) as [k1|] eqn:E; [|done]. intros H Hd. eapply IH; [done|]. by apply (kstep_lists _ _ _ _ E d).
Qed.
