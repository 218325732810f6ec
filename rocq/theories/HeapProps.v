(** C12: clones and topic copies are independent (memory model with shared
    backing arrays). *)
From Verif Require Import GoBase HeaderModel FrameModel HeapModel HeapSpec HeapProofs.

(** The clone looks like the original and disturbs nothing; afterwards,
    whatever is done to any frames, the clone's content depends on the
    operations applied to it alone, and operations applied to it change no
    other frame. *)
Theorem C12_clone_independent : forall h fid h1 c, heap_reach h -> m_clone h fid = Some (h1, c) ->
  exists v, view h fid = Some v /\ view h c = None /\
  (forall x, view h1 x = if decide (x = c) then Some v else view h x) /\
  forall ops h2, m_run h1 ops = Some h2 ->
    view h2 c = vrun c v ops /\
    forall o h3, m_op h2 c o = Some h3 -> forall x, x <> c -> is_Some (view h2 x) -> view h3 x = view h2 x.
Proof. exact clone_spec. Qed.
Print Assumptions C12_clone_independent.

(** A topic hands every subscription, in order, its own frame: the message
    with that subscription's id, unaffected by what is done to the others. *)
Theorem C12_topic_copies : forall h cmd l e body h1 fid pre h2 v subs e' h3 out,
  heap_reach h -> m_new h cmd l e body = (h1, fid) -> m_run h1 pre = Some h2 -> view h2 fid = Some v ->
  m_topic_all h2 fid subs e' = Some (h3, out) ->
  fst <$> out = subs /\ NoDup (snd <$> out) /\
  (forall x, x <> fid -> is_Some (view h2 x) -> view h3 x = view h2 x) /\
  forall s c, (s, c) ∈ out -> exists w, vop v (FSet h_subscription s e') = Some w /\ view h3 c = Some w /\
    forall ops h4, m_run h3 ops = Some h4 -> view h4 c = vrun c w ops.
Proof. exact topic_spec. Qed.
Print Assumptions C12_topic_copies.

Definition sample_h0 : heap := mkHeap [] [] [] [].
Definition sample_h1 := fst (m_new sample_h0 MESSAGE [h_destination; lit "/topic/t"; lit "a"; lit "1"] 4 (Some (lit "xy"))).
(** In-place updates after a topic fan-out to three subscriptions: the copies
    differ exactly as they should.  (The original has spare capacity, so an
    append through a shared array would show.) *)
Example C12_case : exists h2 out h3,
  m_topic_all sample_h1 0 [lit "s1"; lit "s2"; lit "s3"] 0 = Some (h2, out) /\
  m_run h2 [(1, FDel (lit "a")); (2, FSet (lit "a") (lit "9") 0); (0, FAdd (lit "b") (lit "2") 0); (2, FByte 0 "z"%char)] = Some h3 /\
  out = [(lit "s1", 1); (lit "s2", 2); (lit "s3", 0)] /\
  view h3 1 = Some (mkFview MESSAGE (Some [h_destination; lit "/topic/t"; h_subscription; lit "s1"]) (Some (lit "xy"))) /\
  view h3 2 = Some (mkFview MESSAGE (Some [h_destination; lit "/topic/t"; lit "a"; lit "9"; h_subscription; lit "s2"]) (Some (lit "zy"))) /\
  view h3 0 = Some (mkFview MESSAGE (Some [h_destination; lit "/topic/t"; lit "a"; lit "1"; h_subscription; lit "s3"; lit "b"; lit "2"]) (Some (lit "xy"))).
Proof. do 3 eexists. vm_compute. by split_and!. Qed.
Example C12_case_reach : heap_reach sample_h1.
Proof. apply hr_new, hr_empty. Qed.
(** Without a copy the body really is shared: after [f.Body = buf] two frames
    built on the same buffer see each other's writes, so independence is a
    property of Clone, not of the memory model. *)
Example C12_sharing_is_expressible : exists h2 h3 h4,
  m_share_body (fst (m_new sample_h1 SEND [] 0 None)) 1 (mkBslice 0 1 1) = Some h2 /\
  m_op h2 1 (FByte 0 "z"%char) = Some h3 /\ h4 = h3 /\
  (v_body <$> view h4 0) = Some (Some (lit "xz")).
Proof. do 3 eexists. vm_compute. by split_and!. Qed.
