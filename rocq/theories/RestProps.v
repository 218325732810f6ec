(** C68, C69: how much the server does, and what is left when it stops. *)
From Verif Require Import GoBase HeaderModel FrameModel GrammarSpec HeaderProofs NegotiationModel NegotiationSpec NegotiationLemmas
  BrokerModel BrokerSpec BrokerProofs ServerConnModel ServerConnSpec ServerConnProofs SystemModel SystemLemmas SystemSpec SystemProofs SystemTokens
  SystemMessages SystemUids SystemHistory SystemPanics SystemCleanup SystemProgress SystemProps FlowSpec FlowProofs FlowTopics FlowSubs FlowLists FlowProps
  RestSpec RestProofs.

(* ------------------------------------------------------------------ *)
(** C68.  In any run, whatever the clients send and however the goroutines are
    scheduled, the server makes at most this many moves other than
    heart-beats: nothing is handed around forever. *)
Theorem C68_bounded : forall cfg l y, run cfg sys_init l = Some (Fine y) -> moves l <= frames l * (13 * frames l + 20) + 20 * clients l.
Proof. exact run_bounded. Qed.
Print Assumptions C68_bounded.
(** So once the clients are silent the number of moves left is bounded. *)
Theorem C68_silence : forall cfg l0 l y y', run cfg sys_init l0 = Some (Fine y) -> Forall work_act l -> run cfg y l = Some (Fine y') ->
  moves l0 + length l <= frames l0 * (13 * frames l0 + 20) + 20 * clients l0.
Proof. exact rest_bounded. Qed.
Print Assumptions C68_silence.
(** Every message to a topic of k subscribers costs k deliveries, so the bound
    has to be quadratic; here k = 16 and seventeen messages. *)
Definition c68_run (k j : nat) : list act :=
  join 0 ++ concat ((fun i => ask1 0 (f_sub [Ascii.ascii_of_nat i] t (lit "auto"))) <$> seq 65 k) ++
  times j (ask1 0 (f_send t (lit "m")) ++ times k [AOut] ++ times k [ATake 0 SelWrite true true]).
Example C68_case : exists y, run cfg0 sys_init (c68_run 16 17) = Some (Fine y) /\ frames (c68_run 16 17) = 34 /\ clients (c68_run 16 17) = 1 /\
  moves (c68_run 16 17) = 3 * 34 + 2 * 16 * 17.
Proof.
  assert (H : after (c68_run 16 17) (fun _ => true) = true) by (by vm_compute). unfold after in H. destruct (run cfg0 sys_init (c68_run 16 17)) as [[?|y]|] eqn:E; [done| |done].
  exists y. split_and!; [done|by vm_compute..].
Qed.

(* ------------------------------------------------------------------ *)
(** C69.  From any state, with no further input, the server can run until no
    goroutine can do anything but send heart-beats, or one panics; by C68 it
    does so however it is scheduled. *)
Theorem C69_settles : forall cfg y, reach cfg y -> exists l, Forall work_act l /\
  ((exists p, run cfg y l = Some (Panicked p)) \/ (exists y', run cfg y l = Some (Fine y') /\ stalled cfg y')).
Proof. exact settles. Qed.
Print Assumptions C69_settles.
(** With the clients of C42 it is never a panic. *)
Theorem C69_polite : forall b cfg y, reach_if (polite b) cfg y -> exists l y', Forall work_act l /\ run cfg y l = Some (Fine y') /\ stalled cfg y'.
Proof.
  intros b cfg y Hr. destruct (settles cfg y (reach_if_reach _ _ _ Hr)) as (l & Hl & [[p Hp]|(y' & H1 & H2)]); [|eauto]. exfalso.
  revert y Hr Hl Hp. induction l as [|a l IH]; intros y Hr Hl; cbn [run]; [done|]. apply Forall_cons in Hl as [Ha Hl]. destruct (step cfg y a) as [[p'|y1]|] eqn:E; [| |done].
  - by apply (polite_no_panic b) in E.
  - apply IH; [|done]. eapply ri_step; [done|done|]. intros c f ->. done.
Qed.
Print Assumptions C69_polite.
(** When it stops without panicking it is either deadlocked as in C47 or has
    nothing left to do; in particular the connections of all clients that left
    are cleaned up. *)
Theorem C69_rest : forall cfg y, reach cfg y -> (stalled cfg y -> at_rest y \/ deadlocked y) /\ (at_rest y -> stalled cfg y).
Proof. intros cfg y Hr. split; [by apply rests|apply rest_stalled]. Qed.
Print Assumptions C69_rest.
(** At rest, no message waits in a queue to which a connected client has a
    subscription, unless the client was sent a message it did not acknowledge. *)
Theorem C69_queue : forall cfg y n s sb id_of ack_of, reach cfg y -> at_rest y -> keeps id_of ack_of (y_heap y) -> y_heap y !! s = Some sb ->
  y_conns y !! s_conn sb = Some n -> n_phase n = Running -> live (s_id sb) (n_log n) = Some s -> is_queue (s_dest sb) = true ->
  waiting (y_broker y) (s_dest sb) = [] \/ s_ack sb <> lit "auto" /\ s ∈ outstanding ack_of (n_log n).
Proof.
  intros cfg y n s sb id_of ack_of Hr (R1 & R2 & R3) Hk Hs Hn Hp Hl Hq. destruct (Forall_lookup_1 _ _ _ _ R3 Hn) as (Q1 & [Q2|(_ & _ & _ & _ & Q6)]); [congruence|].
  destruct (decide (waiting (y_broker y) (s_dest sb) = [])) as [|Hw]; [by left|]. right. split.
  - intros Ha. apply Hw. by eapply work_auto.
  - by eapply work_conserved.
Qed.
Print Assumptions C69_queue.
(** At rest, a topic subscription has received every message sent to its topic
    while it was subscribed. *)
Theorem C69_topic : forall cfg y n s sb, reach cfg y -> at_rest y -> y_heap y !! s = Some sb -> y_conns y !! s_conn sb = Some n -> n_phase n = Running ->
  is_queue (s_dest sb) = false -> only_of_id y s sb -> payload <$> received (s_id sb) n = payload <$> during s (s_dest sb) false (y_blog y).*1.
Proof.
  intros cfg y n s sb Hr (R1 & R2 & R3) Hs Hn Hp Hq Ho. destruct (Forall_lookup_1 _ _ _ _ R3 Hn) as (Q1 & [Q2|(_ & _ & _ & Q5 & _)]); [congruence|].
  destruct (topic_received cfg y _ n s sb Hr Hn Hs eq_refl Hq Ho) as [_ H]. by apply H.
Qed.
Print Assumptions C69_topic.
(** At rest, the messages sent to a queue are exactly those that wait in it,
    those connected clients were sent and did not acknowledge, those left in
    the channel of a closed connection (C38), those
    finally delivered, and those whose transmission failed (C38). *)
Theorem C69_accounted : forall cfg y d id_of ack_of, reach cfg y -> at_rest y -> keeps id_of ack_of (y_heap y) -> is_queue d = true ->
  payload <$> filter (to_dest d) (sent y) ≡ₚ
  payload <$> (waiting (y_broker y) d ++ filter (to_dest d) (unacked ack_of y ++ stranded y ++ y_fin y ++ y_lost y)).
Proof. intros cfg y d id_of ack_of Hr HR Hk Hq. rewrite (conservation _ _ _ Hr Hq). by rewrite (rest_whereabouts cfg d y id_of ack_of Hr Hk HR). Qed.
Print Assumptions C69_accounted.

(** The run of C64, then a second client that receives a topic message and
    leaves: at rest with "three" waiting behind the unacknowledged "two". *)
Definition c69_run : list act :=
  c64_run ++ join 1 ++ ask1 1 (f_sub (lit "z") t (lit "auto")) ++ ask1 0 (f_send t (lit "four")) ++ [AOut; ATake 1 SelWrite true true; AEof 1; ATake 1 SelRead true true] ++
  [AClean 1 []; AClean 1 (lit "z"); APush 1; AProc; AClean 1 []; AClean 1 []; AClean 1 []; AClean 1 []; AClean 1 []; APush 1; AProc; AClean 1 []; AClean 1 []].
Definition quietb (n : sconn) : bool :=
  bool_decide (n_out n = [] /\ (n_phase n = Dead \/ n_phase n = Running /\ n_read n = [] /\ n_eof n = false /\ n_write n = [] /\ n_sub n = [])).
Definition restb (y : sys) : bool := bool_decide (y_req y = [] /\ y_pout y = []) && forallb quietb (y_conns y).
Lemma restb_ok y : restb y = true -> at_rest y.
Proof.
  unfold restb. rewrite andb_true_iff, bool_decide_eq_true. intros [[H1 H2] H3]. split_and!; [done|done|]. apply Forall_forall. intros n Hn. rewrite forallb_forall in H3.
  specialize (H3 n (proj1 (elem_of_list_In _ _) Hn)). by apply bool_decide_eq_true in H3.
Qed.
Example C69_case : exists y, reach cfg0 y /\ at_rest y /\ n_phase <$> y_conns y = [Running; Dead] /\
  bodies (waiting (y_broker y) q) = [lit "three"] /\ bodies (unacked (ack_in y) y) = [lit "two"] /\ bodies (y_fin y) = [lit "one"] /\ stranded y = [] /\ y_lost y = [] /\
  (exists n, y_conns y !! 1 = Some n /\ bodies (received (lit "z") n) = [lit "four"]).
Proof.
  pose proof (after_reach c69_run (fun y => restb y && bool_decide (n_phase <$> y_conns y = [Running; Dead] /\
    bodies (waiting (y_broker y) q) = [lit "three"] /\ bodies (unacked (ack_in y) y) = [lit "two"] /\ bodies (y_fin y) = [lit "one"] /\ stranded y = [] /\ y_lost y = []) &&
    conn_at y 1 (fun n => bool_decide (bodies (received (lit "z") n) = [lit "four"])))) as HA. witness HA. destruct HA as (y & Hr & Hy).
  rewrite !andb_true_iff, bool_decide_eq_true in Hy. destruct Hy as [[H1%restb_ok H2] (n & Hn & H3%bool_decide_eq_true)%conn_at_ok]. exists y. destruct H2 as (H21 & H22 & H23 & H24 & H25 & H26).
  split_and!; try done. by exists n.
Qed.
