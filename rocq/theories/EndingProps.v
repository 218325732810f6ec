(** C97: why a session ends, and what becomes of the frames sent before. *)
From stdpp Require Import gmap.
From Verif Require Import GoBase HeaderModel FrameModel GrammarSpec NegotiationModel ClientApiModel ClientModel ClientSpec OrderSpec.
From Verif Require Import BrokerModel BrokerSpec ServerConnModel ServerConnSpec RefusalSpec SystemModel SystemSpec FlowSpec FlowProofs RestSpec NetModel NetSpec NetLinks NetProofs NetProps NetRestSpec NetSettled NetRestProps
  NetQueueSpec NetQueueProps EndingSpec EndingProofs.

(* ------------------------------------------------------------------ *)
(** C97.  The server gives up a session for one of three reasons, in its last
    iteration only: nothing more can be read and everything that was read has
    been handled; a frame was refused; a write failed. *)
Theorem C97_reason : forall cfg y c n, reach cfg y -> y_conns y !! c = Some n -> n_phase n <> Running ->
  exists pre e, n_log n = pre ++ [e] /\ v_stop e = true /\ (forall e', e' ∈ pre -> v_stop e' = false) /\ ending cfg n pre e.
Proof. exact end_reason. Qed.
Print Assumptions C97_reason.
Theorem C97_open : forall cfg y c n, reach cfg y -> y_conns y !! c = Some n -> n_phase n = Running -> taken_up n = frames_of (n_log n).
Proof. intros cfg y c n Hr Hn Hp. unfold taken_up. symmetry. apply frames_accepted. by eapply open_accepted. Qed.
Print Assumptions C97_open.
(** The frames a client sent before the end of its session are handled, all
    those that readLoop has passed on and in that order, if the server had no
    trouble writing to it and no complaint. *)
Theorem C97_kept_partial : forall cfg y c n, reach cfg y -> y_conns y !! c = Some n -> n_phase n <> Running -> untroubled n -> taken_up n = passed_on n.
Proof. exact kept. Qed.
Print Assumptions C97_kept_partial.

Lemma quiet_link cfg x c l n : nreach cfg x -> x_links x !! c = Some l -> y_conns (x_sys x) !! c = Some n -> l_ok l = true ->
  (forall f, f ∈ server_sent n -> f_cmd f <> lit "ERROR") -> untroubled n.
Proof.
  intros Hr Hl Hn Hok He x0 w Hx. pose proof (ni_ok _ _ (nreach_inv _ _ Hr) _ _ _ Hl Hn Hok) as Hf. rewrite forallb_forall in Hf. split.
  - by apply elem_of_list_In, Hf in Hx.
  - intros m ->. apply (He (g_frame m)). unfold server_sent. apply elem_of_list_fmap_1, elem_of_list_omap. by exists (Some m, w).
Qed.
(** So a program may close its connection when its frames have been written,
    without having waited for receipts: once they have arrived, all of them are
    accepted, and the processor is given exactly its messages, in order. *)
Theorem C97_closed_partial : forall cfg x c l n y, nreach cfg x -> linked x c l n y -> n_phase n <> Running -> l_ok l = true ->
  (forall f, f ∈ server_sent n -> f_cmd f <> lit "ERROR") -> server_got n = peer_sent (l_peer l) -> g_frame <$> taken_up n = peer_sent (l_peer l).
Proof.
  intros cfg x c l n y Hr (Hl & Hn & _) Hp Hok He Hg. rewrite (kept _ _ _ _ (ni_reach _ _ (nreach_inv _ _ Hr)) Hn Hp) by (by eapply quiet_link). exact Hg.
Qed.
Print Assumptions C97_closed_partial.
Theorem C97_messages_partial : forall cfg x c l n y, nreach cfg x -> RestSpec.at_rest (x_sys x) -> linked x c l n y -> n_phase n <> Running -> l_ok l = true ->
  (forall f, f ∈ server_sent n -> f_cmd f <> lit "ERROR") -> server_got n = peer_sent (l_peer l) ->
  (forall f, f ∈ peer_sent (l_peer l) -> hd_contains (f_hdr f) (lit "transaction") = None) ->
  g_frame <$> filter (sent_by n) (enqueues (y_blog (x_sys x)).*1) = as_message <$> filter is_send (peer_sent (l_peer l)).
Proof.
  intros cfg x c l n y Hr (R1 & R2 & R3) (Hl & Hn & _) Hp Hok He Hg Ht. pose proof (ni_reach _ _ (nreach_inv _ _ Hr)) as Hs.
  rewrite <-Hg. unfold server_got. rewrite <-sends_frames. fold (passed_on n). f_equal.
  rewrite <-(kept_messages _ _ _ _ Hs Hn Hp); [|by eapply quiet_link|].
  - rewrite <-(or_eq _ (reach_ordered _ _ Hs) c n Hn). unfold handed. rewrite R1, app_nil_r. rewrite Forall_lookup in R3. destruct (R3 _ _ Hn) as [-> _]. by rewrite app_nil_r.
  - intros m Hm. apply (Ht (g_frame m)). rewrite <-Hg. unfold server_got. by apply elem_of_list_fmap_1.
Qed.
Print Assumptions C97_messages_partial.

(** Client 1 sends two messages without receipts, closes its connection, and
    is gone; client 0 gets both. *)
Definition close (c g : nat) : list nact := does c [XCall OMust; XRun g; XTakeWrite true; XFinish; XFinish].
Definition take_read (c : nat) (w : bool) : nact := NServer (ATake c SelRead w w) 0.
Definition clean (c : nat) : list nact := repeat (NServer (AClean c []) 0) 6 ++ process c ++ repeat (NServer (AClean c []) 0) 2.
Definition sendm (g : nat) (body : str) (more : header) : list nact := call 1 g (OSend (Some (fsend que body more))).
Definition farewell : list nact :=
  dial 0 ++ dial 1 ++ consume 0 ++ sendm 0 (lit "one") [] ++ sendm 1 (lit "two") [] ++ close 1 2 ++ [NUp 1; NUp 1; NServer (AEof 1) 0; take_read 1 true] ++ process 1 ++ pass 0 ++
  [take_read 1 true] ++ process 1 ++ pass 0 ++ [take_read 1 true] ++ clean 1.
Definition no_error_b (n : sconn) : bool := forallb (fun f => negb (bool_decide (f_cmd f = lit "ERROR"))) (server_sent n).
Lemma no_error_ok n : no_error_b n = true -> forall f, f ∈ server_sent n -> f_cmd f <> lit "ERROR".
Proof. intros H f Hf. unfold no_error_b in H. rewrite forallb_forall in H. apply elem_of_list_In, H in Hf. by apply negb_true_iff, bool_decide_eq_false in Hf. Qed.
Definition gone_b (l : link) (n : sconn) : bool := bool_decide (n_phase n = Dead /\ server_got n = peer_sent (l_peer l)).
Example C97_example : exists x l n y, nreach cfg0 x /\ RestSpec.at_rest (x_sys x) /\ linked x 1 l n y /\ n_phase n = Dead /\ l_ok l = true /\
  (forall f, f ∈ server_sent n -> f_cmd f <> lit "ERROR") /\ server_got n = peer_sent (l_peer l) /\ c_closed y = true /\
  f_cmd <$> peer_sent (l_peer l) = [lit "CONNECT"; lit "SEND"; lit "SEND"] /\ (forall f, f ∈ peer_sent (l_peer l) -> hd_contains (f_hdr f) (lit "transaction") = None) /\
  f_body <$> (g_frame <$> filter (sent_by n) (enqueues (y_blog (x_sys x)).*1)) = [lit "one"; lit "two"] /\
  exists fs, consumes x 0 0 (fsub (lit "1") que) fs /\ f_body <$> fs = [lit "one"; lit "two"].
Proof.
  pose proof (nafter_reach farewell (fun x => rest_check cfg0 x && consumer_check x 0 [lit "one"; lit "two"] && client_at x 1 (fun l n y => gone_b l n && no_error_b n && bool_decide (l_ok l = true /\ c_closed y = true /\
    f_cmd <$> peer_sent (l_peer l) = [lit "CONNECT"; lit "SEND"; lit "SEND"] /\ omap (fun f => hd_contains (f_hdr f) (lit "transaction")) (peer_sent (l_peer l)) = [] /\
    f_body <$> (g_frame <$> filter (sent_by n) (enqueues (y_blog (x_sys x)).*1)) = [lit "one"; lit "two"])))) as HA. witness HA.
  destruct HA as (x & Hr & Hx). rewrite !andb_true_iff in Hx. destruct Hx as [[H0 H1] (l & n & y & L & Hc)%client_at_ok]. rewrite !andb_true_iff in Hc. destruct Hc as [[H2 H3] H4].
  apply rest_check_ok in H0 as (S1 & S2 & S3). apply consumer_check_ok in H1. apply bool_decide_eq_true in H2 as [H2 H2'], H4 as (K1 & K2 & K3 & K4 & K5).
  exists x, l, n, y. split_and!; try done.
  - destruct (settled_server _ _ Hr S1 S2) as [?|?]; [done|by destruct S3].
  - by apply no_error_ok.
  - intros f Hf. destruct (hd_contains (f_hdr f) (lit "transaction")) as [v|] eqn:E; [|done]. exfalso. assert (v ∈ @nil str) as Hv; [|by apply elem_of_nil in Hv]. rewrite <-K4. apply elem_of_list_omap. by exists f.
Qed.

(** If a write fails, frames that have already been read are dropped: a program
    that is subscribed to a topic sends two messages and closes its connection;
    both arrive, but so does a message for its subscription, which cannot be
    written any more. *)
Definition hasty : list nact :=
  dial 0 ++ dial 1 ++ call 1 0 (OSubscribe (Some (fsub (lit "1") top, lit "1", false))) ++ handle 1 ++ process 1 ++ sendm 1 (lit "one") [] ++ sendm 2 (lit "two") [] ++
  does 1 [XCall OMust; XRun 3; XTakeWrite true; XPick 0; XDeliver; XFinish; XFinish; XLoop 0; XLoop 0; XLoop 0; XLoop 0; XConsume 0] ++
  [NUp 1; NUp 1; NServer (AEof 1) 0] ++ call 0 0 (OSend (Some (fsend top (lit "six") []))) ++ handle 0 ++ process 0 ++
  [NServer AOut 0; NServer (ATake 1 SelWrite false true) 0; NServer (AClean 1 []) 0; NServer (AClean 1 (lit "1")) 0] ++ process 1 ++ repeat (NServer (AClean 1 []) 0) 5 ++ process 1 ++ repeat (NServer (AClean 1 []) 0) 2.
Theorem C97_refuted : exists x l n y m, nreach cfg0 x /\ RestSpec.at_rest (x_sys x) /\ linked x 1 l n y /\ n_phase n = Dead /\ c_closed y = true /\
  server_got n = peer_sent (l_peer l) /\ (forall f, f ∈ peer_sent (l_peer l) -> hd_contains (f_hdr f) (lit "transaction") = None) /\
  f_body <$> peer_sent (l_peer l) = [[]; []; lit "one"; lit "two"] /\ passed_on n !! 2 = Some m /\ m ∉ taken_up n /\ bodies (enqueues (y_blog (x_sys x)).*1) = [lit "six"].
Proof.
  pose proof (nafter_reach hasty (fun x => rest_check cfg0 x && client_at x 1 (fun l n y => gone_b l n && bool_decide (c_closed y = true /\
    f_body <$> peer_sent (l_peer l) = [[]; []; lit "one"; lit "two"] /\ omap (fun f => hd_contains (f_hdr f) (lit "transaction")) (peer_sent (l_peer l)) = [] /\ bodies (enqueues (y_blog (x_sys x)).*1) = [lit "six"]) &&
    match passed_on n !! 2 with Some m => bool_decide (m ∉ taken_up n) | None => false end))) as HA. witness HA.
  destruct HA as (x & Hr & Hx). rewrite !andb_true_iff in Hx. destruct Hx as [H0 (l & n & y & L & Hc)%client_at_ok]. rewrite !andb_true_iff in Hc. destruct Hc as [[H2 H3] H4].
  apply rest_check_ok in H0 as (S1 & S2 & S3). apply bool_decide_eq_true in H2 as [H2 H2'], H3 as (K1 & K2 & K3 & K4). destruct (passed_on n !! 2) as [m|] eqn:Em; [|done]. apply bool_decide_eq_true in H4.
  exists x, l, n, y, m. split_and!; try done.
  - destruct (settled_server _ _ Hr S1 S2) as [?|?]; [done|by destruct S3].
  - intros f Hf. destruct (hd_contains (f_hdr f) (lit "transaction")) as [v|] eqn:E; [|done]. exfalso. assert (v ∈ @nil str) as Hv; [|by apply elem_of_nil in Hv]. rewrite <-K3. apply elem_of_list_omap. by exists f.
Qed.
Print Assumptions C97_refuted.
(** MustDisconnect does not wait for frames that are still to be written, so a
    message may be lost although Send and MustDisconnect returned nil and
    nothing else went wrong. *)
Definition abrupt : list nact :=
  dial 0 ++ dial 1 ++ does 1 [XCall (OSend (Some (fsend que (lit "one") []))); XRun 0; XRun 0; XCall OMust; XRun 1; XTakeWrite false; XFinish; XFinish] ++ [NServer (AEof 1) 0; take_read 1 true] ++ clean 1.
Theorem C97_must_refuted : exists x l n y, nreach cfg0 x /\ RestSpec.at_rest (x_sys x) /\ linked x 1 l n y /\ (forall g r, c_gs y !! g = Some r -> g_pc r = GDone RNil) /\
  (fun r => match op_frame (g_op r) with Some f => f_body f | None => lit "" end) <$> c_gs y = [lit "one"; []] /\
  l_ok l = true /\ f_cmd <$> server_sent n = [lit "CONNECTED"] /\ bodies (enqueues (y_blog (x_sys x)).*1) = [].
Proof.
  pose proof (nafter_reach abrupt (fun x => rest_check cfg0 x && client_at x 1 (fun l n y => bool_decide (
    (fun r => match op_frame (g_op r) with Some f => f_body f | None => lit "" end) <$> c_gs y = [lit "one"; []] /\ l_ok l = true /\
    f_cmd <$> server_sent n = [lit "CONNECTED"] /\ bodies (enqueues (y_blog (x_sys x)).*1) = []) &&
    forallb (fun r => match g_pc r with GDone RNil => true | _ => false end) (c_gs y)))) as HA. witness HA.
  destruct HA as (x & Hr & Hx). rewrite !andb_true_iff in Hx. destruct Hx as [H0 (l & n & y & L & Hc)%client_at_ok]. rewrite !andb_true_iff in Hc. destruct Hc as [H2 H3].
  apply rest_check_ok in H0 as (S1 & S2 & S3). apply bool_decide_eq_true in H2 as (K1 & K2 & K3 & K4).
  exists x, l, n, y. split_and!; try done.
  - destruct (settled_server _ _ Hr S1 S2) as [?|?]; [done|by destruct S3].
  - intros g r Hg. rewrite forallb_forall in H3. apply elem_of_list_lookup_2, elem_of_list_In, H3 in Hg. destruct (g_pc r) as [| | | | | | | | | |v]; try done. by destruct v.
Qed.
Print Assumptions C97_must_refuted.
