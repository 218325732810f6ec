(** C89: what the statistics of a connection say. *)
From stdpp Require Import gmap.
From Coq Require Import Lia.
From Verif Require Import GoBase HeaderModel FrameModel NegotiationModel ClientApiModel ClientModel ClientSpec ClientLemmas ClientProofs ClientRequests ClientDelivery ClientProps
  OrderSpec OrderProofs OrderProps StatsModel StatsSpec StatsProofs.

(* ------------------------------------------------------------------ *)
(** C89.  With statistics on, WritesSent is, at every moment, the number of
    frames given to the network connection, plus those that stayed in the
    client, plus those in the write channel, plus the calls that are waiting
    for room in it, plus the calls that gave up waiting. *)
Theorem C89_writes : forall cfg t, treach cfg true t ->
  s_writes (stats t) = length (written (t_cl t)) + length (kept (t_cl t)) + length (queued (t_cl t)) + offering (t_cl t) + gave_up (t_cl t).
Proof. exact stats_writes. Qed.
Print Assumptions C89_writes.
(** Frames stay in the client because of their reply-to header only. *)
Theorem C89_kept : forall cfg on t g, treach cfg on t -> g ∈ kept (t_cl t) -> exists r f, c_gs (t_cl t) !! g = Some r /\ op_frame (g_op r) = Some f /\ stays f.
Proof.
  intros cfg on t g Hr. unfold kept. rewrite elem_of_list_omap. intros (e & He & E). destruct e as [q [|]| |]; simplify_eq. by apply (C84_written anything cfg _ _ None (treach_cl _ _ _ Hr)).
Qed.
Print Assumptions C89_kept.
(** So when all calls have returned, none of them a send timeout, the write
    channel is empty, and reply-to was not used: WritesSent is the number of
    frames given to the network connection. *)
Theorem C89_exact : forall cfg t, treach cfg true t -> (forall g r, c_gs (t_cl t) !! g = Some r -> exists x, g_pc r = GDone x /\ x <> RErr ESendTimeout) -> s_write_chan (stats t) = 0 ->
  (forall g r f, c_gs (t_cl t) !! g = Some r -> op_frame (g_op r) = Some f -> ~ stays f) -> s_writes (stats t) = length (written (t_cl t)).
Proof.
  intros cfg t Hr Hd Hw Hs. rewrite (stats_writes _ _ Hr). assert (kept (t_cl t) = []) as ->.
  { destruct (kept (t_cl t)) as [|g l] eqn:E; [done|]. destruct (C89_kept _ _ _ g Hr) as (r & f & H1 & H2 & H3); [rewrite E; apply elem_of_list_here|]. by destruct (Hs _ _ _ H1 H2). }
  cbn in Hw. unfold queued. rewrite fmap_length, Hw. assert (forall P, (forall x, x <> RErr ESendTimeout -> P (GDone x) = false) -> calls_that P (t_cl t) = 0) as Hz.
  { intros P HP. unfold calls_that. clear -Hd HP. induction (c_gs (t_cl t)) as [|r l IH]; [done|]. cbn [sum_list_with]. rewrite IH; [|intros g; apply (Hd (S g))].
    destruct (Hd 0 r eq_refl) as (x & -> & Hx). by rewrite HP. }
  unfold offering, gave_up. rewrite (Hz is_offering) by done. rewrite (Hz is_gave_up) by (intros [| |[]] Hx; done). cbn [length]. lia.
Qed.
Print Assumptions C89_exact.
(** ReadsReceived is the number of frames and heart-beats taken by processLoop,
    plus those in the read channel, plus the one readLoop holds. *)
Theorem C89_reads : forall cfg t, treach cfg true t -> s_reads (stats t) = length (taken_in (t_cl t)) + s_read_chan (stats t) + match t_hold t with Some _ => 1 | None => 0 end.
Proof. exact stats_reads. Qed.
Print Assumptions C89_reads.
(** Without the option both are zero. *)
Theorem C89_off : forall cfg t, treach cfg false t -> s_writes (stats t) = 0 /\ s_reads (stats t) = 0.
Proof. exact stats_off. Qed.
Print Assumptions C89_off.
(** The sizes of the channels never exceed their capacities. *)
Theorem C89_sizes : forall cfg on t, treach cfg on t -> s_write_chan (stats t) <= k_wcap cfg /\ s_read_chan (stats t) <= k_rcap cfg.
Proof. exact stats_sizes. Qed.
Print Assumptions C89_sizes.
(** Counting changes nothing: the states of the client with and without it are
    the same. *)
Theorem C89_same : forall cfg on y, creach anything cfg y <-> exists t, treach cfg on t /\ t_cl t = y.
Proof.
  intros cfg on y. split.
  - intros H. destruct (stats_any cfg on y H) as (t & Ht & Hy & _). eauto.
  - intros (t & Ht & <-). by eapply treach_cl.
Qed.
Print Assumptions C89_same.

Fixpoint trun (cfg : ccfg) (t : tcl) (l : list tact) : option tcl := match l with [] => Some t | a :: l => match tstep cfg t a with Some t => trun cfg t l | None => None end end.
Lemma trun_reach cfg on t l t' : treach cfg on t -> trun cfg t l = Some t' -> treach cfg on t'.
Proof. revert t. induction l as [|a l IH]; intros t Hr; cbn; [by intros [= <-]|]. destruct (tstep cfg t a) as [t1|] eqn:E; [|done]. apply IH. by eapply tr_step. Qed.
Lemma tafter_reach cfg l (P : tcl -> Prop) {D : forall t, Decision (P t)} : match trun cfg (t_init true) l with Some t => bool_decide (P t) | None => false end = true -> exists t, treach cfg true t /\ P t.
Proof. destruct (trun cfg (t_init true) l) as [t|] eqn:E; [|done]. intros H%bool_decide_eq_true. exists t. split; [|done]. eapply trun_reach; [constructor|done]. Qed.
Local Instance cstats_dec : EqDecision cstats.
Proof. solve_decision. Defined.
Local Existing Instances cerr_dec cres_dec.

(** WritesSent is not the number of frames sent: it counts a message that was
    given up before it got into the write channel. *)
Definition small : ccfg := mkCcfg 20 1 true true true true true true.
Definition given_up_run : list tact := TClient <$> [XCall (OSend (Some (fr_send (lit "a")))); XRun 0; XRun 0; XCall (OSend (Some (fr_send (lit "b")))); XRun 1; XTimeout 1; XTakeWrite true].
Theorem C89_sent_refuted : ~ forall cfg t, treach cfg true t -> s_write_chan (stats t) = 0 -> offering (t_cl t) = 0 -> kept (t_cl t) = [] -> s_writes (stats t) = length (written (t_cl t)).
Proof.
  intros H. pose proof (tafter_reach small given_up_run (fun t => stats t = mkStats 0 0 2 0 /\ written (t_cl t) = [(0, fr_send (lit "a"))] /\ offering (t_cl t) = 0 /\ kept (t_cl t) = [])) as HA. witness HA.
  destruct HA as (t & Hr & Hs & Hw & Ho & Hk). specialize (H _ _ Hr). rewrite Hs, Hw in H. specialize (H eq_refl Ho Hk). done.
Qed.
Print Assumptions C89_sent_refuted.
(** A subscription, a message and a heart-beat for it, two messages of which
    one is still in the write channel, one frame in readLoop's hand. *)
Definition busy : list tact := (TClient <$> subscribe 0 (fr_sub (lit "1") (lit "/queue/a")) (lit "1") ++ sending 1 (fr_send (lit "a"))) ++
  [TRead (Some (fr_message (lit "1") (lit "x"))); TClient (XRecv (Some (fr_message (lit "1") (lit "x")))); TClient XTakeRead; TRead None; TClient (XRecv None); TClient XDeliver] ++
  (TClient <$> [XCall (OSend (Some (fr_send (lit "b")))); XRun 2; XRun 2]) ++ [TRead (Some (fr_message (lit "1") (lit "y")))].
Example C89_example : exists t, treach k0 true t /\ stats t = mkStats 1 1 3 3 /\ length (written (t_cl t)) = 2 /\ taken_in (t_cl t) = [Some (fr_message (lit "1") (lit "x"))] /\ t_hold t = Some (Some (fr_message (lit "1") (lit "y"))).
Proof.
  pose proof (tafter_reach k0 busy (fun t => stats t = mkStats 1 1 3 3 /\ length (written (t_cl t)) = 2 /\ taken_in (t_cl t) = [Some (fr_message (lit "1") (lit "x"))] /\ t_hold t = Some (Some (fr_message (lit "1") (lit "y"))))) as HA.
  witness HA. exact HA.
Qed.
(** All of C89_exact's hypotheses at once. *)
Example C89_quiet : exists t, treach k0 true t /\ stats t = mkStats 0 0 2 0 /\ result (t_cl t) 0 = Some (RSub 0) /\ result (t_cl t) 1 = Some RNil.
Proof.
  pose proof (tafter_reach k0 (TClient <$> subscribe 0 (fr_sub (lit "1") (lit "/queue/a")) (lit "1") ++ sending 1 (fr_send (lit "a")))
    (fun t => stats t = mkStats 0 0 2 0 /\ result (t_cl t) 0 = Some (RSub 0) /\ result (t_cl t) 1 = Some RNil)) as HA. witness HA. exact HA.
Qed.
