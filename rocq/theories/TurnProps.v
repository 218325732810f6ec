(** Waiting for one's turn: C103. *)
From stdpp Require Import gmap.
From Verif Require Import GoBase HeaderModel FrameModel BrokerModel ServerConnModel ServerConnSpec SystemModel SystemSpec SystemLemmas SystemCleanup SystemProps TurnSpec TurnProofs.

(* ------------------------------------------------------------------ *)
(** C103.  From any reachable state, in any run, with any further connections,
    frames and disconnections in between: a request with k others before it is
    the one the processor takes at its (k+1)-th turn, and until then it moves
    up by one at every turn; k < 128. *)
Theorem C103_requests : forall cfg y l y' k r, reach cfg y -> run cfg y l = Some (Fine y') -> y_req y !! k = Some r ->
  k < 128 /\
  (k < total takes_request l -> (y_blog y').*1 !! (length (y_blog y) + k) = Some r) /\
  (total takes_request l <= k -> y_req y' !! (k - total takes_request l) = Some r).
Proof.
  intros cfg y l y' k r Hr Hrun Hk. pose proof (served _ _ _ _ _ _ Hr Hrun Hk) as H. split_and!.
  - pose proof (req_len _ _ Hr). apply lookup_lt_Some in Hk. unfold cap_req in *. lia.
  - intros Hlt. by rewrite decide_True in H.
  - intros Hge. rewrite decide_False in H by lia. done.
Qed.
Print Assumptions C103_requests.
(** Between two turns the processor makes at most one channel send per
    subscription created so far, so the wait is bounded in the processor's own
    steps (taking a request, sending), whatever the connections do. *)
Theorem C103_processor : forall cfg y l y' k r, reach cfg y -> run cfg y l = Some (Fine y') -> y_req y !! k = Some r ->
  length (y_pout y) + k * (1 + 1 `max` y_next y') < total takes_request l + total hands_over l ->
  (y_blog y').*1 !! (length (y_blog y) + k) = Some r.
Proof.
  intros cfg y l y' k r Hr Hrun Hk Hb. apply (C103_requests cfg y l y' k r Hr Hrun Hk). by eapply busy.
Qed.
Print Assumptions C103_processor.
(** The same for what waits in the three channels of a connection that goes on:
    the item with k others before it is taken at the loop's (k+1)-th turn at that
    channel, and moves up by one at each; k < 16. *)
Theorem C103_channels : forall cfg y l y' c x n n' k i, reach cfg y -> run cfg y l = Some (Fine y') ->
  y_conns y !! c = Some n -> y_conns y' !! c = Some n' -> n_phase n' = Running -> line x n !! k = Some i ->
  k < 16 /\
  (k < total (takes_from c x) l -> past x n' !! (length (past x n) + k) = Some i) /\
  (total (takes_from c x) l <= k -> line x n' !! (k - total (takes_from c x) l) = Some i).
Proof.
  intros cfg y l y' c x n n' k i Hr Hrun Hn Hn' Hp Hk. pose proof (read_off _ _ _ _ _ _ _ _ _ _ Hrun Hn Hn' Hp Hk) as H. split_and!.
  - pose proof (line_len _ _ _ _ x Hr Hn). apply lookup_lt_Some in Hk. lia.
  - intros Hlt. by rewrite decide_True in H.
  - intros Hge. rewrite decide_False in H by lia. done.
Qed.
Print Assumptions C103_channels.

(** Client 0 is subscribed to a topic; a message for it is on its way and two
    messages to a queue wait for the processor.  More frames arrive, also a
    third client; after two turns of the processor the two have been taken, in
    order, and a newcomer is next; client 0's loop has taken its message. *)
Definition turn_before : list act :=
  join 0 ++ join 1 ++ ask1 0 (f_sub (lit "x") t (lit "auto")) ++ ask1 1 (f_send t (lit "one")) ++ ask 1 (f_send q (lit "two")) ++ ask 1 (f_send q (lit "three")).
Definition turn_during : list act :=
  ask 0 (f_send q (lit "four")) ++ [AOut; AProc; AAccept] ++ ask 1 (f_send q (lit "five")) ++ [ATake 0 SelWrite true true; AProc].
Definition body_of (r : request) : str := match r with REnqueue m | RRequeue m => f_body (g_frame m) | _ => [] end.
Definition topic_of (i : cin) : str := match i with InTopic m => f_body (g_frame m) | _ => [] end.
Example C103_case : exists y y', reach cfg0 y /\ run cfg0 y turn_during = Some (Fine y') /\
  body_of <$> y_req y = [lit "two"; lit "three"] /\ length (y_pout y) = 1 /\ length (y_blog y) = 4 /\
  body_of <$> (y_blog y').*1 = [[]; []; []; lit "one"; lit "two"; lit "three"] /\ body_of <$> y_req y' = [lit "four"; lit "five"] /\
  total takes_request turn_during = 2 /\ total hands_over turn_during = 1 /\ y_next y' = 1 /\
  exists n', y_conns y' !! 0 = Some n' /\ n_phase n' = Running /\ topic_of <$> past SelWrite n' = [lit "one"].
Proof.
  destruct (run cfg0 sys_init turn_before) as [[p|y]|] eqn:E; [vm_compute in E; discriminate| |vm_compute in E; discriminate].
  destruct (run cfg0 y turn_during) as [[p|y']|] eqn:E'; vm_compute in E; injection E as <-; [vm_compute in E'; discriminate| |vm_compute in E'; discriminate].
  vm_compute in E'. injection E' as <-. eexists _, _. split; [eapply (run_reach cfg0 sys_init turn_before); [constructor|vm_compute; reflexivity]|].
  split; [vm_compute; reflexivity|]. split_and!; try (vm_compute; reflexivity). eexists. split; [vm_compute; reflexivity|]. split; vm_compute; reflexivity.
Qed.
