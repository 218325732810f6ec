(** C101: what the server answers to a client and publishes for it depends on
    nothing but the frames of this client. *)
From stdpp Require Import gmap.
From Verif Require Import GoBase HeaderModel FrameModel GrammarSpec HeaderProofs NegotiationModel NegotiationSpec NegotiationLemmas
  BrokerModel ServerConnModel ServerConnSpec ServerConnProofs SystemModel SystemSpec SystemLemmas SystemProofs SystemHistory SystemProps AnswerSpec AnswerProofs.

(** Two connections, in one run of a server or in two, with any other clients,
    deliveries and scheduling.  If the server handled the same frames on the
    first as at the start of the second, what it wrote on the first (messages
    and heart-beats apart) is the start of what it wrote on the second, and so
    are the messages it published.  If it ended the first session at a frame,
    the second went no further. *)
Theorem C101_answers : forall cfg y1 y2 c1 c2 n1 n2, reach cfg y1 -> reach cfg y2 -> y_conns y1 !! c1 = Some n1 -> y_conns y2 !! c2 = Some n2 ->
  receipts_written (n_log n1) -> receipts_written (n_log n2) -> said (n_log n1) `prefix_of` said (n_log n2) ->
  answered (n_log n1) `prefix_of` answered (n_log n2) /\ published (n_log n1) `prefix_of` published (n_log n2) /\
  (refused_at_end (n_log n1) -> said (n_log n2) = said (n_log n1)).
Proof.
  intros cfg y1 y2 c1 c2 n1 n2 R1 R2 H1 H2 W1 W2 Hp.
  destruct (conn_history _ _ R1 _ _ (keeps_in _ (reach_wf _ _ R1)) _ _ H1) as (k1 & s1 & E1 & _).
  destruct (conn_history _ _ R2 _ _ (keeps_in _ (reach_wf _ _ R2)) _ _ H2) as (k2 & s2 & E2 & _).
  destruct (two_histories _ _ _ _ _ _ _ _ _ _ _ _ _ E1 E2 W1 W2 Hp) as (A & B & C & _). auto.
Qed.
Print Assumptions C101_answers.
(** If the frames are the same, everything is, and the same subscriptions are
    live. *)
Theorem C101_same : forall cfg y1 y2 c1 c2 n1 n2, reach cfg y1 -> reach cfg y2 -> y_conns y1 !! c1 = Some n1 -> y_conns y2 !! c2 = Some n2 ->
  receipts_written (n_log n1) -> receipts_written (n_log n2) -> said (n_log n1) = said (n_log n2) ->
  answered (n_log n1) = answered (n_log n2) /\ published (n_log n1) = published (n_log n2) /\
  (refused_at_end (n_log n1) <-> refused_at_end (n_log n2)) /\ forall id, is_Some (live id (n_log n1)) <-> is_Some (live id (n_log n2)).
Proof.
  intros cfg y1 y2 c1 c2 n1 n2 R1 R2 H1 H2 W1 W2 Hp.
  destruct (conn_history _ _ R1 _ _ (keeps_in _ (reach_wf _ _ R1)) _ _ H1) as (k1 & s1 & E1 & _).
  destruct (conn_history _ _ R2 _ _ (keeps_in _ (reach_wf _ _ R2)) _ _ H2) as (k2 & s2 & E2 & _).
  assert (said (n_log n1) `prefix_of` said (n_log n2)) as Hx by by rewrite Hp.
  destruct (two_histories _ _ _ _ _ _ _ _ _ _ _ _ _ E1 E2 W1 W2 Hx) as (_ & _ & _ & D). auto.
Qed.
Print Assumptions C101_same.
(** The answers and publications, frame by frame: those of [converse], a machine
    that knows of the session, the open transactions and the subscription ids. *)
Theorem C101_machine : forall cfg y c n, reach cfg y -> y_conns y !! c = Some n -> receipts_written (n_log n) ->
  exists p over, converse cfg proto_init (said (n_log n)) = (p, answered (n_log n), published (n_log n), over) /\
    (over = true <-> refused_at_end (n_log n)) /\ (forall id, id ∈ p_subs p <-> is_Some (live id (n_log n))).
Proof.
  intros cfg y c n R H W. destruct (conn_history _ _ R _ _ (keeps_in _ (reach_wf _ _ R)) _ _ H) as (k & s & E & _).
  destruct (history_reacts _ _ _ _ _ _ _ E W) as (b & Hc & [Hb _] & _). eexists _, b. split; [exact Hc|]. split; [exact Hb|].
  intros id. rewrite abs_subs. by rewrite (subs_live _ _ _ _ _ _ _ E).
Qed.
Print Assumptions C101_machine.

(** The same client alone on a server, and on connection 1 beside another which
    subscribes and sends, with deliveries in between. *)
Definition with_receipt (r : str) (f : frame) : frame := mkFrame (f_cmd f) (f_hdr f ++ [(lit "receipt", r)]) (f_body f).
Definition f_begin : frame := mkFrame BEGIN [(lit "transaction", lit "t")] [].
Definition f_commit : frame := mkFrame COMMIT [(lit "transaction", lit "t")] [].
Definition f_send_tx : frame := mkFrame SEND [(lit "destination", q); (lit "transaction", lit "t")] (lit "hi").
Definition alone : list act :=
  join 0 ++ ask1 0 (f_sub (lit "x") q (lit "auto")) ++ handle 0 f_begin ++ handle 0 (with_receipt (lit "r1") f_send_tx) ++
  ask1 0 (with_receipt (lit "r2") f_commit) ++ handle 0 f_commit.
Definition in_company : list act :=
  join 0 ++ ask1 0 (f_send q (lit "zero")) ++ join 1 ++ ask1 1 (f_sub (lit "x") q (lit "auto")) ++ deliver 1 ++ [APush 1; AProc] ++
  ask1 0 (f_sub (lit "z") q (lit "auto")) ++ handle 1 f_begin ++ handle 1 (with_receipt (lit "r1") f_send_tx) ++ ask1 0 (f_send q (lit "one")) ++
  deliver 1 ++ [APush 1; AProc] ++
  ask1 1 (with_receipt (lit "r2") f_commit) ++ handle 1 f_commit.
Definition the_frames : list frame := [f_connect; f_sub (lit "x") q (lit "auto"); f_begin; with_receipt (lit "r1") f_send_tx; with_receipt (lit "r2") f_commit; f_commit].
Definition the_answers : list frame :=
  [mkFrame CONNECTED [(lit "version", lit "1.2"); (lit "server", lit "stompd/x.y.z"); (lit "heart-beat", lit "0,0")] [];
   mkFrame RECEIPT [(lit "receipt-id", lit "r1")] []; mkFrame RECEIPT [(lit "receipt-id", lit "r2")] [];
   mkFrame ERROR [(lit "message", lit "unknown transaction")] []].
Definition seen (c : nat) (y : sys) (k : nat) : bool :=
  match y_conns y !! c with
  | Some n => bool_decide (said (n_log n) = the_frames /\ answered (n_log n) = the_answers /\
      published (n_log n) = [mkFrame MESSAGE [(lit "destination", q)] (lit "hi")] /\ Forall (fun x : wr => snd x = true) (wire (n_log n)) /\
      length (frames_with MESSAGE (wire (n_log n))) = k)
  | None => false
  end.
Lemma seen_elim c y k : seen c y k = true -> exists n, y_conns y !! c = Some n /\ said (n_log n) = the_frames /\ answered (n_log n) = the_answers /\
  published (n_log n) = [mkFrame MESSAGE [(lit "destination", q)] (lit "hi")] /\ receipts_written (n_log n) /\
  length (frames_with MESSAGE (wire (n_log n))) = k.
Proof.
  unfold seen. destruct (y_conns y !! c) as [n|]; [|done]. intros (A & B & C & D & E)%bool_decide_eq_true. exists n. split; [done|].
  split; [done|]. split; [done|]. split; [done|]. split; [|done]. intros x b Hx _. rewrite Forall_forall in D. by specialize (D _ Hx).
Qed.
Example C101_case : exists y1 y2 n1 n2, reach cfg0 y1 /\ reach cfg0 y2 /\ y_conns y1 !! 0 = Some n1 /\ y_conns y2 !! 1 = Some n2 /\
  receipts_written (n_log n1) /\ receipts_written (n_log n2) /\
  said (n_log n1) = the_frames /\ said (n_log n2) = the_frames /\ answered (n_log n1) = the_answers /\ answered (n_log n2) = the_answers /\
  published (n_log n1) = [mkFrame MESSAGE [(lit "destination", q)] (lit "hi")] /\
  length (frames_with MESSAGE (wire (n_log n1))) = 0 /\ length (frames_with MESSAGE (wire (n_log n2))) = 2.
Proof.
  pose proof (after_reach alone (fun y => seen 0 y 0)) as H1. witness H1. destruct H1 as (y1 & R1 & S1).
  pose proof (after_reach in_company (fun y => seen 1 y 2)) as H2. witness H2. destruct H2 as (y2 & R2 & S2).
  apply seen_elim in S1 as (n1 & ? & ? & ? & ? & ? & ?). apply seen_elim in S2 as (n2 & ? & ? & ? & ? & ? & ?).
  exists y1, y2, n1, n2. tauto.
Qed.
