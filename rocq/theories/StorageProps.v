(** C87, C88: the server with a queue storage supplied by the program. *)
From Verif Require Import GoBase HeaderModel FrameModel GrammarSpec HeaderProofs NegotiationModel NegotiationSpec NegotiationLemmas
  BrokerModel BrokerSpec BrokerProofs ServerConnModel ServerConnSpec ServerConnProofs SystemModel SystemLemmas SystemSpec SystemProofs SystemTokens
  SystemMessages SystemProps StorageModel StorageSpec StorageProofs StorageFaults.

(** C87.  With a storage that keeps the contract, the server is at any time in
    a state that the server with in-memory queues reaches too: the same
    connections, channels, subscriptions, histories, with the same messages
    waiting in each queue... *)
Theorem C87_same : forall ST contents cfg w, deques ST contents -> greach ST cfg w -> exists y, reach cfg y /\ twins contents w y.
Proof. intros. by apply twins_reach. Qed.
Print Assumptions C87_same.
(** ... conversely every such state is reached with the other storage... *)
Theorem C87_every : forall ST contents cfg y, deques ST contents -> returns ST -> reach cfg y -> exists w, greach ST cfg w /\ twins contents w y.
Proof. intros. by apply twins_greach. Qed.
Print Assumptions C87_every.
(** ... and from there on both go the same way, step by step, crashes included. *)
Theorem C87_steps : forall ST contents cfg w y a, deques ST contents -> twins contents w y ->
  (forall w', gstep ST cfg w a (Fine w') -> exists y', step cfg y a = Some (Fine y') /\ twins contents w' y') /\
  (forall p, gstep ST cfg w a (Panicked p) -> step cfg y a = Some (Panicked p)) /\
  (returns ST -> forall y', step cfg y a = Some (Fine y') -> exists w', gstep ST cfg w a (Fine w') /\ twins contents w' y') /\
  (returns ST -> forall p, step cfg y a = Some (Panicked p) -> gstep ST cfg w a (Panicked p)).
Proof.
  intros ST contents cfg w y a HD HW. split_and!.
  - intros w' H. exact (twins_step ST contents HD cfg w y a _ HW H).
  - intros p H. exact (twins_step ST contents HD cfg w y a _ HW H).
  - intros HT y' H. exact (twins_back ST contents HD cfg w y a _ HT HW H).
  - intros HT p H. exact (twins_back ST contents HD cfg w y a _ HT HW H).
Qed.
Print Assumptions C87_steps.
(** The in-memory storage is one of them. *)
Theorem C87_memory : deques memory mq_list /\ forall st k, exists st' a, so_call memory st k st' a.
Proof.
  split; [exact memory_deques|]. intros st [d m|d m|d| |]; cbn; try (eexists _, _; by constructor).
  destruct (mq_dequeue st d) as [st' o] eqn:E. eexists _, _. by constructor.
Qed.
Print Assumptions C87_memory.
(** So what is proved of the server holds with any such storage; e.g. C37: the
    messages sent to a queue are in the storage, with a subscription, on their
    way, or done with. *)
Theorem C87_conserved : forall ST contents cfg w d, deques ST contents -> greach ST cfg w -> is_queue d = true ->
  payload <$> filter (to_dest d) (sent (w_sys w)) ≡ₚ
  payload <$> contents (w_st w) d ++ filter (to_dest d) (assigned (w_sys w) ++ in_transit (w_sys w) ++ finished (w_sys w)).
Proof.
  intros ST contents cfg w d HD Hw Hq. destruct (twins_reach ST contents HD cfg w Hw) as (y & Hy & Hs & Hc).
  rewrite Hc, (same_inv _ _ Hs). exact (C37_conservation cfg y d Hy Hq).
Qed.
Print Assumptions C87_conserved.

(* ------------------------------------------------------------------ *)
(** Storages given by a function, and running the server on them. *)
Definition computed {S} (init : S) (f : S -> scall -> S * sans) : storage := mkStorage S init (fun st k st' a => f st k = (st', a)).
Section Run.
  Context {S : Type} (init : S) (f : S -> scall -> S * sans).
  Let ST := computed init f.
  Definition gexec (w : gsys ST) (a : act) : option (gsys ST) :=
    match a with
    | AProc =>
        match y_pout (w_sys w), y_req (w_sys w) with
        | [], r :: rs =>
            let '(st, a, ks) := match call_of (y_broker (w_sys w)) (y_heap (w_sys w)) r with
                                | None => (w_st w : S, Done, [])
                                | Some k => let '(st, a) := f (w_st w) k in (st, a, [(k, a)])
                                end in
            match serve_with a (y_broker (w_sys w)) (y_heap (w_sys w)) r with
            | Fine x => Some (mkGsys (ST := ST) st (proc_with (w_sys w) rs r x) (w_calls w ++ ks))
            | Panicked _ => None
            end
        | _, _ => None
        end
    | _ => match step cfg0 (w_sys w) a with Some (Fine y) => Some (mkGsys (w_st w) y (w_calls w)) | _ => None end
    end.
  Definition grun (l : list act) : option (gsys ST) := foldl (fun o a => o ≫= fun w => gexec w a) (Some (gsys_init ST)) l.
  Lemma gexec_step w a w' : gexec w a = Some w' -> gstep ST cfg0 w a (Fine w').
  Proof.
    assert (a = AProc \/ a <> AProc) as [->|Ha] by (destruct a; auto).
    - cbn. destruct (y_pout (w_sys w)) eqn:Hp; [|done]. destruct (y_req (w_sys w)) as [|r rs] eqn:Hr; [done|].
      destruct (call_of _ _ r) as [k|] eqn:Hk.
      + destruct (f (w_st w) k) as [st a] eqn:Ef. destruct (serve_with a _ _ r) as [|x] eqn:Es; [done|]. intros [= <-].
        eapply gs_proc; [done|done| |done]. by eapply ask_call.
      + destruct (serve_with Done _ _ r) as [|x] eqn:Es; [done|]. intros [= <-]. eapply gs_proc; [done|done| |done]. by apply ask_none.
    - intros H. assert (match step cfg0 (w_sys w) a with Some (Fine y) => Some (mkGsys (w_st w) y (w_calls w)) | _ => None end = Some w') as H'.
      { destruct a; try exact H. done. }
      destruct (step cfg0 (w_sys w) a) as [[p|y]|] eqn:E; try done. injection H' as <-. by apply gs_other.
  Qed.
  Lemma grun_reach l w : grun l = Some w -> greach ST cfg0 w.
  Proof.
    unfold grun. revert w. induction l as [|a l IH] using rev_ind; intros w; [intros [= <-]; constructor|].
    rewrite foldl_app. cbn. destruct (foldl _ _ l) as [w1|] eqn:E; [|done]. cbn. intros H. econstructor; [by apply IH|by apply gexec_step].
  Qed.
  Lemma grun_witness l (P : gsys ST -> bool) : match grun l with Some w => P w | None => false end = true -> exists w, greach ST cfg0 w /\ P w = true.
  Proof. destruct (grun l) as [w|] eqn:E; [|done]. intros H. exists w. split; [by eapply grun_reach|done]. Qed.
End Run.

(** A journal: one list for all queues, as a file or a table would keep it. *)
Fixpoint journal_take (d : str) (l : list (str * msg)) : list (str * msg) * option msg :=
  match l with
  | [] => ([], None)
  | (e, m) :: l' => if decide (e = d) then (l', Some m) else let '(r, o) := journal_take d l' in ((e, m) :: r, o)
  end.
Definition journal_call (l : list (str * msg)) (k : scall) : list (str * msg) * sans :=
  match k with
  | CEnqueue d m => (l ++ [(d, m)], Done)
  | CRequeue d m => ((d, m) :: l, Done)
  | CDequeue d => let '(l', o) := journal_take d l in (l', Got o)
  | CStart | CStop => (l, Done)
  end.
Definition journal : storage := computed [] journal_call.
Definition journal_of (l : list (str * msg)) (d : str) : list msg := omap (fun x : str * msg => if decide (x.1 = d) then Some x.2 else None) l.
Lemma journal_takes d l l' o : journal_take d l = (l', o) -> o = head (journal_of l d) /\ journal_of l' d = tail (journal_of l d) /\
  forall e, e <> d -> journal_of l' e = journal_of l e.
Proof.
  revert l' o. induction l as [|[e m] l IH]; intros l' o; cbn; [by intros [= <- <-]|]. destruct (decide (e = d)) as [->|Hne].
  - intros [= <- <-]. split_and!; [done|done|]. intros e He. by rewrite decide_False.
  - destruct (journal_take d l) as [r o0]. intros [= <- <-]. destruct (IH r o0 eq_refl) as (-> & H2 & H3). cbn. rewrite decide_False by done.
    split_and!; [done|done|]. intros e' He. destruct (decide (e = e')); [|by apply H3]. f_equal. by apply H3.
Qed.
Lemma journal_deques : deques journal journal_of.
Proof.
  split; cbn [journal computed so_state so_init so_call journal_call].
  - done.
  - intros l d m l' a [= <- <-]. unfold journal_of. split; [done|]. rewrite omap_app. cbn. rewrite decide_True by done. split; [done|].
    intros e He. rewrite omap_app. cbn. rewrite decide_False by done. by rewrite app_nil_r.
  - intros l d m l' a [= <- <-]. split; [done|]. cbn. rewrite decide_True by done. split; [done|]. intros e He. by rewrite decide_False.
  - intros l d l' a. destruct (journal_take d l) as [l1 o] eqn:E. intros [= <- <-]. by destruct (journal_takes _ _ _ _ E) as (-> & ? & ?).
Qed.
(** The body of the last frame connection c wrote, and whether the write succeeded. *)
Definition last_write (y : sys) (c : nat) : option (str * bool) :=
  match y_conns y !! c with
  | Some n => match last (written n) with Some (Some m, w) => Some (f_body (g_frame m), w) | _ => None end
  | None => None
  end.
Definition q2 : str := lit "/queue/b".
(** Two queues in one journal: the subscriber gets "one", "two" and the
    returned "one" are in front of "three"; "other" is left alone. *)
Definition c87_run : list act :=
  join 0 ++ join 1 ++ ask1 1 (f_send q (lit "one")) ++ ask1 1 (f_send q2 (lit "other")) ++ ask1 1 (f_send q (lit "two")) ++
  ask1 0 (f_sub (lit "x") q (lit "client")) ++ deliver 0 ++ ask1 1 (f_send q (lit "three")) ++
  [AEof 0; ATake 0 SelRead true true; AClean 0 []; AClean 0 (lit "x"); APush 0; AClean 0 []; AClean 0 []; APush 0; AProc; AProc].
Example C87_case : exists w, greach journal cfg0 w /\ deques journal journal_of /\ bodies (journal_of (w_st w) q) = lit <$> ["one"; "two"; "three"]%string /\
  bodies (journal_of (w_st w) q2) = [lit "other"] /\ bodies ((w_st w : list (str * msg)).*2) = lit <$> ["one"; "other"; "two"; "three"]%string /\
  last_write (w_sys w) 0 = Some (lit "one", true).
Proof.
  pose proof (grun_witness [] journal_call c87_run (fun w => bool_decide (bodies (journal_of (w_st w) q) = lit <$> ["one"; "two"; "three"]%string /\
  bodies (journal_of (w_st w) q2) = [lit "other"] /\ bodies ((w_st w : list (str * msg)).*2) = lit <$> ["one"; "other"; "two"; "three"]%string /\
  last_write (w_sys w) 0 = Some (lit "one", true)))) as HA. witness HA. destruct HA as (w & Hw & H%bool_decide_eq_true). exists w. split; [exact Hw|]. split; [exact journal_deques|exact H].
Qed.

(* ------------------------------------------------------------------ *)
(** C88, the part that holds.  If the storage fails now and then, changing
    nothing, nothing is lost but the messages it refused: what was sent or
    given back to a queue was handed to a subscription, is stored, or was
    refused. *)
Theorem C88_conserved_partial : forall ST contents cfg w d, fallible ST contents -> greach ST cfg w -> is_queue d = true ->
  payload <$> (arrivals d (y_blog (w_sys w)) ++ BrokerSpec.returned d (y_blog (w_sys w))) ≡ₚ
  payload <$> (given d (y_blog (w_sys w)) ++ contents (w_st w) d ++ refused d (w_calls w)).
Proof. intros. by eapply faults_conserve. Qed.
Print Assumptions C88_conserved_partial.
(** The server calls Enqueue, Requeue and Dequeue with queue names only, and
    stores a message under the destination it was sent to; Start and Stop are
    never called, although both interfaces promise it. *)
Theorem C88_calls : forall ST cfg w k a, greach ST cfg w -> (k, a) ∈ w_calls w ->
  match k with
  | CEnqueue d m | CRequeue d m => is_queue d = true /\ to_dest d m
  | CDequeue d => is_queue d = true
  | CStart | CStop => False
  end.
Proof. intros. by eapply calls_made. Qed.
Print Assumptions C88_calls.

(** An in-memory storage whose n-th call fails if the script says so. *)
Definition scripted_call (st : store * list bool) (k : scall) : (store * list bool) * sans :=
  match st.2 with
  | true :: fs => ((st.1, fs), Failed)
  | fs => ((match k with
            | CEnqueue d m => mq_enqueue st.1 d m
            | CRequeue d m => mq_requeue st.1 d m
            | CDequeue d => (mq_dequeue st.1 d).1
            | _ => st.1
            end, tail fs), match k with CDequeue d => Got (mq_dequeue st.1 d).2 | _ => Done end)
  end.
Definition scripted (fs : list bool) : storage := computed (∅, fs) scripted_call.
Definition scripted_of (st : store * list bool) (d : str) : list msg := mq_list st.1 d.
Lemma scripted_fallible fs : fallible (scripted fs) scripted_of.
Proof.
  assert (forall st k, exists st', so_call memory st k st' match k with CDequeue d => Got (mq_dequeue st d).2 | _ => Done end /\
    (k <> CStart -> k <> CStop -> st' = match k with
            | CEnqueue d m => mq_enqueue st d m
            | CRequeue d m => mq_requeue st d m
            | CDequeue d => (mq_dequeue st d).1
            | _ => st
            end)) as HM.
  { intros st [d m|d m|d| |]; cbn; try (eexists; split; [by constructor|done]). destruct (mq_dequeue st d) as [st' o] eqn:E. exists st'. split; [by constructor|done]. }
  assert (forall st k st' a, so_call (scripted fs) st k st' a -> a <> Failed -> k <> CStart -> k <> CStop -> so_call memory st.1 k st'.1 a) as HC.
  { intros [st l] k st' a H Ha H1 H2. cbn in H. unfold scripted_call in H. cbn in H. destruct (HM st k) as (st2 & K & E). rewrite E in K by done.
    destruct l as [|[] l]; injection H as <- <-; try done. }
  pose proof memory_deques as HD. split.
  - intros d. cbn. unfold scripted_of, mq_list. cbn. by rewrite lookup_empty.
  - intros [st l] k st' H d. cbn in H. unfold scripted_call in H. cbn in H. destruct l as [|[] l]; injection H; intros; subst; try done; by destruct k.
  - intros st d m st' a K Ha. exact (dq_enqueue _ _ HD _ _ _ _ _ (HC _ _ _ _ K Ha ltac:(done) ltac:(done))).
  - intros st d m st' a K Ha. exact (dq_requeue _ _ HD _ _ _ _ _ (HC _ _ _ _ K Ha ltac:(done) ltac:(done))).
  - intros st d st' a K Ha. exact (dq_dequeue _ _ HD _ _ _ _ (HC _ _ _ _ K Ha ltac:(done) ltac:(done))).
Qed.
Local Instance phase_dec : EqDecision phase.
Proof. solve_decision. Defined.
Local Instance request_dec : EqDecision request.
Proof. solve_decision. Defined.
Local Instance pout_dec : EqDecision pout.
Proof. solve_decision. Defined.
Definition quiet (y : sys) : Prop := y_req y = [] /\ y_pout y = [] /\
  Forall (fun n => n_phase n = Running /\ n_out n = [] /\ n_read n = [] /\ n_write n = [] /\ n_sub n = []) (y_conns y).
Local Instance quiet_dec y : Decision (quiet y).
Proof. unfold quiet. apply _. Defined.
(** Commands of the frames a connection wrote. *)
Definition answers_to (y : sys) (c : nat) : list str :=
  match y_conns y !! c with Some n => omap (fun x : option msg * bool => cmd_of <$> x.1) (written n) | None => [] end.
(** Connection c has a subscription with this id. *)
Definition subscribed (y : sys) (c : nat) (id : str) : bool :=
  match y_conns y !! c with Some n => bool_decide (is_Some (k_subs (n_c n) !! id)) | None => false end.
Definition f_send_receipt (dest body r : str) : frame := mkFrame SEND [(lit "destination", dest); (lit "receipt", r)] body.
(** C88 as stated fails.  The storage refuses a message: it is gone, while its
    sender has the RECEIPT and nobody is told anything... *)
Theorem C88_lost_refuted : exists w, greach (scripted [true]) cfg0 w /\ fallible (scripted [true]) scripted_of /\ quiet (w_sys w) /\
  bodies (sent (w_sys w)) = [lit "one"] /\ answers_to (w_sys w) 0 = [lit "CONNECTED"; lit "RECEIPT"] /\
  scripted_of (w_st w) q = [] /\ assigned (w_sys w) ++ in_transit (w_sys w) ++ finished (w_sys w) = [] /\ bodies (refused q (w_calls w)) = [lit "one"].
Proof.
  pose proof (grun_witness (∅, [true]) scripted_call (join 0 ++ ask1 0 (f_send_receipt q (lit "one") (lit "r")))
    (fun w => bool_decide (quiet (w_sys w) /\ bodies (sent (w_sys w)) = [lit "one"] /\ answers_to (w_sys w) 0 = [lit "CONNECTED"; lit "RECEIPT"] /\
  scripted_of (w_st w) q = [] /\ assigned (w_sys w) ++ in_transit (w_sys w) ++ finished (w_sys w) = [] /\ bodies (refused q (w_calls w)) = [lit "one"]))) as HA.
  witness HA. destruct HA as (w & Hw & H%bool_decide_eq_true). exists w. split; [exact Hw|]. split; [apply scripted_fallible|exact H].
Qed.
Print Assumptions C88_lost_refuted.
(** ... and if Dequeue fails once, the subscription is neither served nor
    remembered: the waiting message and all later ones stay where they are,
    although the storage works again and the subscriber is waiting. *)
Theorem C88_deaf_refuted : exists w, greach (scripted [false; true]) cfg0 w /\ fallible (scripted [false; true]) scripted_of /\ quiet (w_sys w) /\
  bodies (scripted_of (w_st w) q) = lit <$> ["one"; "two"; "three"]%string /\ ready (y_broker (w_sys w)) q = [] /\
  subscribed (w_sys w) 1 (lit "x") = true /\ answers_to (w_sys w) 1 = [lit "CONNECTED"].
Proof.
  pose proof (grun_witness (∅, [false; true]) scripted_call (join 0 ++ join 1 ++ ask1 0 (f_send q (lit "one")) ++ ask1 1 (f_sub (lit "x") q (lit "auto")) ++
      ask1 0 (f_send q (lit "two")) ++ ask1 0 (f_send q (lit "three")))
    (fun w => bool_decide (quiet (w_sys w) /\
  bodies (scripted_of (w_st w) q) = lit <$> ["one"; "two"; "three"]%string /\ ready (y_broker (w_sys w)) q = [] /\
  subscribed (w_sys w) 1 (lit "x") = true /\ answers_to (w_sys w) 1 = [lit "CONNECTED"]))) as HA.
  witness HA. destruct HA as (w & Hw & H%bool_decide_eq_true). exists w. split; [exact Hw|]. split; [apply scripted_fallible|exact H].
Qed.
Print Assumptions C88_deaf_refuted.
(** The equation of C88_conserved_partial with something on every side. *)
Example C88_case : exists w, greach (scripted [false; true]) cfg0 w /\ bodies (arrivals q (y_blog (w_sys w))) = lit <$> ["one"; "two"; "three"]%string /\
  bodies (given q (y_blog (w_sys w))) = [lit "one"] /\ bodies (scripted_of (w_st w) q) = [lit "three"] /\ bodies (refused q (w_calls w)) = [lit "two"].
Proof.
  pose proof (grun_witness (∅, [false; true]) scripted_call (join 0 ++ join 1 ++ ask1 1 (f_sub (lit "x") q (lit "client")) ++ ask1 0 (f_send q (lit "one")) ++ deliver 1 ++
      ask1 0 (f_send q (lit "two")) ++ ask1 0 (f_send q (lit "three")))
    (fun w => bool_decide (bodies (arrivals q (y_blog (w_sys w))) = lit <$> ["one"; "two"; "three"]%string /\
  bodies (given q (y_blog (w_sys w))) = [lit "one"] /\ bodies (scripted_of (w_st w) q) = [lit "three"] /\ bodies (refused q (w_calls w)) = [lit "two"]))) as HA.
  witness HA. destruct HA as (w & Hw & H%bool_decide_eq_true). exists w. split; [exact Hw|exact H].
Qed.
