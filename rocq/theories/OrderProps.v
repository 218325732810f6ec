(** C84: the frames of a program's calls are written once each and in the
    program's order. *)
From stdpp Require Import gmap.
From Verif Require Import GoBase HeaderModel FrameModel NegotiationModel ClientApiModel ClientModel ClientSpec ClientLemmas ClientProofs ClientRequests ClientChannels ClientReceipts ClientDelivery ClientFinal OrderSpec OrderProofs ClientProps.
Local Existing Instances ClientProps.cres_dec.

(** C84.  What processLoop takes from the write channel is the frame of a call
    and is written as it is, UNSUBSCRIBE with the receipt header the client
    adds; SUBSCRIBE and UNSUBSCRIBE with a reply-to header are not written. *)
Theorem C84_written : forall (A : cact -> Prop) cfg y q w, creach A cfg y -> PvReq q w ∈ c_log y ->
  exists r f, c_gs y !! q_by q = Some r /\ op_frame (g_op r) = Some f /\ match w with Some (f', _) => ~ stays f /\ sent_as f f' | None => stays f end.
Proof.
  intros A cfg y q w Hr Hq. destruct (rq_ok _ (reach_req _ _ _ Hr) q) as (r & Hg & Ho & _); [right; left; by eapply log_req_in|].
  exists r, (q_frame q). split_and!; try done. pose proof (mi_wr _ (reach_map _ _ _ Hr) _ _ Hq) as Hw. destruct w as [[f' b]|].
  - destruct Hw as [-> Hw]. split; [|apply outgoing_ok]. intros H%stays_ok. congruence.
  - by apply stays_ok.
Qed.
Print Assumptions C84_written.
(** No call's frame is written, or put on the write channel, twice. *)
Theorem C84_once : forall (A : cact -> Prop) cfg y, creach A cfg y -> NoDup (served y ++ queued y) /\ NoDup (written y).*1.
Proof.
  intros A cfg y Hr. destruct (reach_uniq _ _ _ Hr) as [H _]. rewrite allr_served in H. split; [done|]. apply NoDup_app in H as (H & _). eapply sublist_NoDup; [apply written_served|done].
Qed.
Print Assumptions C84_once.
(** If call g had returned when call j was made, j's frame is never written
    before g's. *)
Theorem C84_order : forall cfg y l y' g x j f l1 l2, creach anything cfg y -> crun cfg y l = Some (COk y') -> gave y g x -> length (c_gs y) <= j ->
  written y' = l1 ++ (j, f) :: l2 -> g ∉ l2.*1.
Proof.
  intros cfg y l y' g x j f l1 l2 Hr Hl Hg Hj E. assert (Hs : exists k1 k2, served y' = k1 ++ j :: k2 /\ l2.*1 `sublist_of` k2).
  { pose proof (written_served y') as HS. rewrite E, fmap_app in HS. apply sublist_app_l in HS as (k1 & k2 & -> & _ & HS). cbn in HS. apply sublist_cons_l in HS as (k3 & k4 & -> & HS). exists (k1 ++ k3), k4. by rewrite <-app_assoc. }
  destruct Hs as (k1 & k2 & Es & Hsub). intros Hin. eapply (calls_order _ _ _ _ _ _ _ k1 (k2 ++ queued y')); [exact Hr|exact Hl|exact Hg|exact Hj| |].
  - by rewrite allr_served, Es, <-app_assoc.
  - apply elem_of_app. left. by eapply elem_of_submseteq; [|apply sublist_submseteq].
Qed.
Print Assumptions C84_order.
(** A call that returned ErrAlreadyClosed, a send timeout, an option's error
    or ErrCompletedSubscription has written nothing and never will. *)
Theorem C84_refused : forall cfg y l y' g x, creach anything cfg y -> crun cfg y l = Some (COk y') -> gave y g x -> refused x -> g ∉ served y' ++ queued y'.
Proof.
  intros cfg y l y' g x Hr Hl (r & Hg & Hx) Hf. rewrite <-allr_served. destruct (run_grown _ _ _ _ Hr Hl) as ((l0 & -> & HF) & _ & _). apply not_elem_of_app. split.
  - apply (reach_sent _ _ _ Hr _ _ Hg). by rewrite Hx.
  - intros Hg0. eapply Forall_forall in Hg0; [|exact HF]. destruct Hg0 as [H|(r0 & Hr0 & Hp)]; [apply lookup_lt_Some in Hg; lia|]. simplify_eq. by rewrite Hx in Hp.
Qed.
Print Assumptions C84_refused.
(** A call that returned nil or a subscription, or was answered by the server
    or stopped waiting for that, has its frame written or on the write
    channel. *)
Theorem C84_accepted : forall (A : cact -> Prop) cfg y g r x, creach A cfg y -> c_gs y !! g = Some r -> g_pc r = GDone x -> accepted (g_op r) x -> g ∈ served y ++ queued y.
Proof. intros A cfg y g r x Hr Hg Hx Ha. rewrite <-allr_served. apply (reach_sent _ _ _ Hr _ _ Hg). by rewrite Hx. Qed.
Print Assumptions C84_accepted.

(** A Subscribe and three Sends of one program, the last of them (call 4) with
    a receipt, while another goroutine's Ack (call 2) gets in between, and a
    Send after the connection ended. *)
Example C84_example : exists y, creach anything k0 y /\ written y = [(0, fr_sub (lit "7") (lit "/queue/a")); (1, fr_send (lit "a")); (2, fr_ack (lit "5")); (3, fr_send (lit "b")); (4, fr_send_receipt (lit "4") (lit "c"))] /\
  result y 1 = Some RNil /\ result y 3 = Some RNil /\ result y 4 = Some RNil /\ result y 5 = Some (RErr EAlreadyClosed) /\ served y = [0; 1; 2; 3; 4] /\ queued y = [].
Proof.
  pose proof (cafter_reach (subscribe 0 (fr_sub (lit "7") (lit "/queue/a")) (lit "7") ++ [XCall (OSend (Some (fr_send (lit "a")))); XRun 1; XRun 1; XCall (OFrame (fr_ack (lit "5"))); XRun 2; XRun 2; XRun 2] ++
    [XCall (OSend (Some (fr_send (lit "b")))); XRun 3; XRun 3; XTakeWrite true; XTakeWrite true; XCall (OSend (Some (fr_send_receipt (lit "4") (lit "c")))); XTakeWrite true; XRun 4; XRun 4; XTakeWrite true] ++
    handed (fr_receipt (lit "4")) ++ [XEof; XTakeRead; XPick 0; XDeliver; XPick 0; XDeliver; XLoop 0; XFinish; XFinish; XCall (OSend (Some (fr_send (lit "d")))); XRun 5])
    (fun y => written y = [(0, fr_sub (lit "7") (lit "/queue/a")); (1, fr_send (lit "a")); (2, fr_ack (lit "5")); (3, fr_send (lit "b")); (4, fr_send_receipt (lit "4") (lit "c"))] /\
  result y 1 = Some RNil /\ result y 3 = Some RNil /\ result y 4 = Some RNil /\ result y 5 = Some (RErr EAlreadyClosed) /\ served y = [0; 1; 2; 3; 4] /\ queued y = [])) as HA. witness HA. exact HA.
Qed.
(** An UNSUBSCRIBE as written. *)
Example C84_unsubscribe : sent_as (fr_unsub (lit "7")) (mkFrame UNSUBSCRIBE [(lit "id", lit "7"); (lit "receipt", lit "7")] []) /\
  exists y, creach anything k0 y /\ written y = [(0, fr_sub (lit "7") (lit "/queue/a")); (1, mkFrame UNSUBSCRIBE [(lit "id", lit "7"); (lit "receipt", lit "7")] [])].
Proof.
  split; [apply (outgoing_ok (fr_unsub (lit "7")))|].
  pose proof (cafter_reach (subscribe 0 (fr_sub (lit "7") (lit "/queue/a")) (lit "7") ++ [XCall (OUnsub 0 (Some (fr_unsub (lit "7")))); XRun 1; XRun 1; XRun 1; XTakeWrite true])
    (fun y => written y = [(0, fr_sub (lit "7") (lit "/queue/a")); (1, mkFrame UNSUBSCRIBE [(lit "id", lit "7"); (lit "receipt", lit "7")] [])])) as HA. witness HA. exact HA.
Qed.
