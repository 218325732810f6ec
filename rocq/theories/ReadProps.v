(** C79: what Subscription.Read returns. *)
From stdpp Require Import gmap.
From Verif Require Import GoBase HeaderModel FrameModel HeaderProofs NegotiationModel ClientApiModel ClientModel ClientSpec ClientLemmas ClientProofs ClientRequests ClientCalls
  ClientChannels ClientReceipts ClientDelivery ClientMessages ClientRouting ClientFinal ClientClosing ClientLive ClientReady ClientEnd ClientProps ClientRestSpec ClientRest ClientRestProps
  ReadModel ReadSpec ReadProofs.

(* ------------------------------------------------------------------ *)
(** C79.  However many goroutines call Read: every message and error that left a
    subscription's channel was returned by exactly one call, and every call that
    returned one is accounted for. *)
Theorem C79_order : forall (A : prog -> uact -> Prop) cfg u s b, (forall v a, A v a -> by_read v a) -> ureach A cfg u -> c_subs (u_cl u) !! s = Some b ->
  exists js, NoDup js /\ (forall j, j ∈ js <-> exists d, u_reads u !! j = Some d /\ d_sub d = s /\ took d) /\
    Forall2 (fun j m => u_reads u !! j = Some (mkRd s (RdDone (result_of m)))) js (b_read b).
Proof. intros A cfg u s b HA Hu. by eapply reach_order. Qed.
Print Assumptions C79_order.
(** With one Read at a time, the calls return them in the order in which they
    were put into the channel. *)
Theorem C79_sequential : forall cfg u s b, ureach one_at_a_time cfg u -> c_subs (u_cl u) !! s = Some b -> reads_of u s = result_of <$> b_read b.
Proof. intros cfg u s b Hu. by apply (reach_sequential cfg u). Qed.
Print Assumptions C79_sequential.
(** So the messages returned are a prefix of the MESSAGE frames for the
    subscription that the server sent, in that order: none lost, none twice, none
    for another subscription (hypotheses as in C21). *)
Theorem C79_messages_partial : forall cfg u s b r f id rt, ureach one_at_a_time cfg u -> c_subs (u_cl u) !! s = Some b -> c_gs (u_cl u) !! b_by b = Some r -> g_op r = OSubscribe (Some (f, id, rt)) ->
  hd_contains (f_hdr f) h_receipt = None -> sole (c_gs (u_cl u)) (b_by b) (sub_key f) ->
  (exists l1 q w l2, c_log (u_cl u) = l1 ++ PvReq q w :: l2 /\ q_by q = b_by b /\ read_msgs (reads_of u s) `prefix_of` due (sub_key f) l2) \/
  (forall q w, PvReq q w ∈ c_log (u_cl u) -> q_by q <> b_by b) /\ read_msgs (reads_of u s) = [].
Proof. exact sequential_messages. Qed.
Print Assumptions C79_messages_partial.
(** ErrCompletedSubscription is only returned for a subscription that is not
    active, and such a subscription never becomes active again. *)
Theorem C79_completed : forall A cfg u j d b, ureach A cfg u -> u_reads u !! j = Some d -> d_pc d = RdDone RdCompleted -> c_subs (u_cl u) !! d_sub d = Some b -> sub_active b = false.
Proof.
  intros A cfg u j d b Hu Hd Hp Hb. pose proof (ri_over _ (reach_readinv _ _ _ Hu) _ _ _ Hd Hb Hp) as H. unfold sub_active. by destruct (b_state b).
Qed.
Print Assumptions C79_completed.
(** When everything has come to rest and the connection has ended, a Read call
    that has not returned waits on a subscription whose SUBSCRIBE processLoop
    never took, or whose name another request took over or stopped (see
    [C79_hang_refuted]). *)
Theorem C79_returns_partial : forall A cfg u j d, ureach A cfg u -> at_rest cfg (u_cl u) -> c_p (u_cl u) = PEnd -> u_reads u !! j = Some d -> do_read u j = None ->
  is_done d = true \/ exists b, c_subs (u_cl u) !! d_sub d = Some b /\ forall k, ~ listens (c_log (u_cl u)) k (b_ch b).
Proof.
  intros A cfg u j d Hu HR Hp Hd Hn. destruct (rest_reads _ _ _ _ _ Hu HR Hd Hn) as [?|(b & Hb & Hrl & _)]; [by left|]. right. exists b. split; [done|]. intros k Hk.
  destruct (end_told _ _ _ _ _ (reads_client _ _ _ Hu) (or_intror Hp) Hk) as (f & Hf & Ht). pose proof (told_over _ _ _ (reads_client _ _ _ Hu) _ _ _ Hb Ht (or_introl Hf)) as H. by rewrite Hrl in H.
Qed.
Print Assumptions C79_returns_partial.

(** Concrete runs. *)
Definition allowed (u : prog) (a : uact) : bool :=
  match a with UClient (XConsume _) => false | URead s => forallb (fun d => negb (d_sub d =? s)%nat || is_done d) (u_reads u) | _ => true end.
Fixpoint uafter (u : prog) (l : list uact) : option prog :=
  match l with
  | [] => Some u
  | a :: l => if allowed u a then match ustep_of k0 u a with Some u' => uafter u' l | None => None end else None
  end.
Lemma allowed_ok u a : allowed u a = true -> one_at_a_time u a.
Proof.
  intros H. split; [by intros s ->|]. intros s ->. cbn in H. rewrite forallb_forall in H. apply Forall_forall. intros d Hd Hs. specialize (H d ltac:(by apply elem_of_list_In)).
  apply orb_true_iff in H as [H|H]; [|done]. apply negb_true_iff, Nat.eqb_neq in H. done.
Qed.
Lemma uafter_ok l : forall u u', ureach one_at_a_time k0 u -> uafter u l = Some u' -> ureach one_at_a_time k0 u'.
Proof.
  induction l as [|a l IH]; cbn; intros u u' Hu H; [by injection H as <-|]. destruct (allowed u a) eqn:Ea; [|done]. destruct (ustep_of k0 u a) as [v|] eqn:E; [|done]. eapply IH; [|done]. eapply ur_step; [done| |done]. by apply allowed_ok.
Qed.
Local Instance rdres_dec : EqDecision rdres.
Proof. unfold EqDecision, Decision. decide equality; solve_decision. Defined.
Local Instance rdpc_dec : EqDecision rdpc.
Proof. solve_decision. Defined.
Local Instance rd_dec : EqDecision rd.
Proof. solve_decision. Defined.
Local Instance ppc_dec : EqDecision ppc.
Proof. unfold EqDecision, Decision. decide equality; solve_decision. Defined.
Local Instance cmsg_dec : EqDecision cmsg.
Proof. solve_decision. Defined.
Definition uat (l : list uact) (P : prog -> Prop) {D : forall u, Decision (P u)} : bool := match uafter prog_init l with Some u => bool_decide (P u) | None => false end.
Lemma uat_reach l (P : prog -> Prop) {D : forall u, Decision (P u)} : uat l P = true -> exists u, ureach one_at_a_time k0 u /\ P u.
Proof. unfold uat. destruct (uafter prog_init l) as [u|] eqn:E; [|done]. intros H%bool_decide_eq_true. exists u. split; [|done]. eapply uafter_ok; [constructor|done]. Qed.
Definition waits (u : prog) (j : nat) : bool := match do_read u j with Some _ => false | None => true end.
Definition cls (l : list cact) : list uact := UClient <$> l.
Definition buffered (u : prog) (s : nat) : list cmsg := match c_subs (u_cl u) !! s with Some b => b_buf b | None => [] end.
Definition x1 := fr_message (lit "1") (lit "x").
Definition x2 := fr_message (lit "1") (lit "z").
Definition ended := error_frame (lit "connection closed").
(** Read waits for a message; two more follow; the server closes the connection
    while a Read waits, which gets the error; the next Read is told that the
    subscription is completed. *)
Example C79_example : exists u, ureach one_at_a_time k0 u /\ (d_pc <$> u_reads u) = [RdDone (RdMsg x1); RdDone (RdMsg x2); RdDone (RdErr (Some ended)); RdDone RdCompleted] /\
  reads_of u 0 = [RdMsg x1; RdMsg x2; RdErr (Some ended)] /\ c_p (u_cl u) = PEnd.
Proof.
  apply (uat_reach (cls (subscribe 0 (fr_sub (lit "1") (lit "/queue/a")) (lit "1")) ++ [URead 0; UStep 0] ++ cls (handed x1 ++ [XLoop 0]) ++ [UStep 0] ++ cls (handed x2 ++ [XLoop 0]) ++
      [URead 0; UStep 1; UStep 1; URead 0; UStep 2] ++ cls [XEof; XTakeRead; XPick 0; XDeliver; XLoop 0; XLoop 0] ++ [UStep 2] ++ cls [XLoop 0; XLoop 0; XFinish; XFinish] ++ [URead 0; UStep 3])
    (fun u => (d_pc <$> u_reads u) = [RdDone (RdMsg x1); RdDone (RdMsg x2); RdDone (RdErr (Some ended)); RdDone RdCompleted] /\
      reads_of u 0 = [RdMsg x1; RdMsg x2; RdErr (Some ended)] /\ c_p (u_cl u) = PEnd)). vm_compute. reflexivity.
Qed.
(** Read does not return everything: it answers ErrCompletedSubscription although
    messages, and the server's error, are still in the channel, when the
    connection ends before the program gets to read them. *)
Theorem C79_refuted : exists u, ureach one_at_a_time k0 u /\ u_reads u = [mkRd 0 (RdDone RdCompleted)] /\ buffered u 0 = [CmMsg x1; CmMsg x2; CmErr (Some ended)].
Proof.
  apply (uat_reach (cls (subscribe 0 (fr_sub (lit "1") (lit "/queue/a")) (lit "1") ++ handed x1 ++ [XLoop 0] ++ handed x2 ++ [XLoop 0; XEof; XTakeRead; XPick 0; XDeliver; XLoop 0; XLoop 0; XLoop 0; XLoop 0]) ++ [URead 0; UStep 0])
    (fun u => u_reads u = [mkRd 0 (RdDone RdCompleted)] /\ buffered u 0 = [CmMsg x1; CmMsg x2; CmErr (Some ended)])). vm_compute. reflexivity.
Qed.
Print Assumptions C79_refuted.
(** A Read can wait for ever on a connection that has ended: the SUBSCRIBE was
    still in the write channel. *)
Theorem C79_hang_refuted : exists u, ureach one_at_a_time k0 u /\ at_rest k0 (u_cl u) /\ c_p (u_cl u) = PEnd /\ u_reads u = [mkRd 0 RdRecv] /\ do_read u 0 = None.
Proof.
  pose proof (uat_reach (cls [XCall (OSubscribe (Some (fr_sub (lit "1") (lit "/queue/a"), lit "1", false))); XRun 0; XRun 0] ++ [URead 0; UStep 0] ++ cls [XEof; XTakeRead; XFinish; XFinish])
    (fun u => restb (u_cl u) = true /\ c_p (u_cl u) = PEnd /\ u_reads u = [mkRd 0 RdRecv] /\ waits u 0 = true)) as HA.
  witness HA. destruct HA as (u & Hu & H1 & H2 & H3 & H4). exists u. split_and!; try done; [by apply restb_rest|]. unfold waits in H4. by destruct (do_read u 0).
Qed.
Print Assumptions C79_hang_refuted.
