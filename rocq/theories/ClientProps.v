(** C21-C29, C58: the running client connection.
    [creach] (ClientModel) ranges over every interleaving of API calls by any
    number of goroutines, the connection's goroutines, the subscriptions'
    goroutines, timers and the server. *)
From stdpp Require Import gmap.
From Verif Require Import GoBase HeaderModel FrameModel HeaderProofs NegotiationModel ClientApiModel ClientModel ClientSpec ClientLemmas ClientProofs ClientRequests ClientCalls
  ClientChannels ClientReceipts ClientDelivery ClientMessages ClientRouting ClientFinal ClientClosing ClientLive ClientReady ClientEnd.

(* ------------------------------------------------------------------ *)
(** Concrete runs. *)
Definition k0 : ccfg := mkCcfg 20 20 true true true true true true.
Definition fr_sub (id dest : str) : frame := mkFrame SUBSCRIBE [(lit "id", id); (lit "destination", dest); (lit "ack", lit "auto")] [].
Definition fr_sub_receipt (id rid : str) : frame := mkFrame SUBSCRIBE [(lit "id", id); (lit "destination", lit "/queue/a"); (lit "ack", lit "auto"); (lit "receipt", rid)] [].
Definition fr_unsub (id : str) : frame := mkFrame UNSUBSCRIBE [(lit "id", id)] [].
Definition fr_send (body : str) : frame := mkFrame SEND [(lit "destination", lit "/queue/a")] body.
Definition fr_send_receipt (rid body : str) : frame := mkFrame SEND [(lit "destination", lit "/queue/a"); (lit "receipt", rid)] body.
Definition fr_ack (rid : str) : frame := mkFrame ACK [(lit "id", lit "9"); (lit "receipt", rid)] [].
Definition fr_receipt (rid : str) : frame := mkFrame RECEIPT [(lit "receipt-id", rid)] [].
Definition fr_message (id body : str) : frame := mkFrame MESSAGE [(lit "destination", lit "/queue/a"); (lit "message-id", lit "1"); (lit "subscription", id)] body.
Definition fr_error : frame := mkFrame ERROR [(lit "message", lit "no")] [].
(** Subscribe, as call g, taken and written by processLoop. *)
Definition subscribe (g : nat) (f : frame) (id : str) : list cact := [XCall (OSubscribe (Some (f, id, false))); XRun g; XRun g; XTakeWrite true].
(** A frame arrives and processLoop takes it; ... and hands it over. *)
Definition arrives (f : frame) : list cact := [XRecv (Some f); XTakeRead].
Definition handed (f : frame) : list cact := arrives f ++ [XDeliver].
(** A message for subscription s goes all the way to the program. *)
Definition consumed (s : nat) (f : frame) : list cact := handed f ++ [XLoop s; XConsume s].
(** A Send with a receipt, as call g, up to waiting for the response. *)
Definition sending (g : nat) (f : frame) : list cact := [XCall (OSend (Some f)); XRun g; XRun g; XTakeWrite true].

Local Instance cerr_dec : EqDecision cerr.
Proof. solve_decision. Defined.
Local Instance cres_dec : EqDecision cres.
Proof. solve_decision. Defined.
Local Instance cmsg_dec : EqDecision cmsg.
Proof. solve_decision. Defined.
Local Instance cpanic_dec : EqDecision cpanic.
Proof. solve_decision. Defined.
Local Instance op_dec : EqDecision op.
Proof. solve_decision. Defined.
Local Instance clpc_dec : EqDecision clpc.
Proof. solve_decision. Defined.
Local Instance rlpc_dec : EqDecision rlpc.
Proof. solve_decision. Defined.
Local Instance wreq_dec : EqDecision wreq.
Proof. solve_decision. Defined.
Local Instance from_dec : EqDecision from.
Proof. solve_decision. Defined.
Local Instance gpc_dec : EqDecision gpc.
Proof. solve_decision. Defined.
Local Instance gor_dec : EqDecision gor.
Proof. solve_decision. Defined.
Local Instance owner_dec : EqDecision owner.
Proof. solve_decision. Defined.
Local Instance substate_dec : EqDecision substate.
Proof. solve_decision. Defined.
Local Instance pk_dec : EqDecision pk.
Proof. solve_decision. Defined.
Local Instance ppc_dec : EqDecision ppc.
Proof. solve_decision. Defined.
Local Instance pev_dec : EqDecision pev.
Proof. solve_decision. Defined.
Definition result (y : cl) (g : nat) : option cres := match c_gs y !! g with Some r => match g_pc r with GDone x => Some x | _ => None end | None => None end.
Definition got (y : cl) (s : nat) : list cmsg := match c_subs y !! s with Some b => b_read b ++ b_buf b | None => [] end.
Definition cafter (l : list cact) (P : cl -> Prop) {D : forall y, Decision (P y)} : bool := match crun k0 cl_init l with Some (COk y) => bool_decide (P y) | _ => false end.
Lemma cafter_reach l (P : cl -> Prop) {D : forall y, Decision (P y)} : cafter l P = true -> exists y, creach anything k0 y /\ P y.
Proof.
  unfold cafter. destruct (crun k0 cl_init l) as [[p|y]|] eqn:E; try done. intros H%bool_decide_eq_true. exists y. split; [|done]. eapply crun_reach; [constructor|apply Forall_any|done].
Qed.
Definition stops_with (y : cl) (a : cact) : option cpanic := match cstep k0 y a with Some (CPanic p) => Some p | _ => None end.
Lemma stops_with_panic y a p : stops_with y a = Some p -> cstep k0 y a = Some (CPanic p).
Proof. unfold stops_with. destruct (cstep k0 y a) as [[q|]|]; try done. by intros [= ->]. Qed.
Ltac witness H := match type of H with ?A -> _ => let HB := fresh in assert A as HB by (vm_compute; reflexivity); specialize (H HB); clear HB end.
Lemma result_done y g x : result y g = Some x -> exists r, c_gs y !! g = Some r /\ g_pc r = GDone x.
Proof. unfold result. destruct (c_gs y !! g) as [r|]; [|done]. destruct (g_pc r) eqn:E; try done. intros [= ->]. eauto. Qed.

(* ------------------------------------------------------------------ *)
(** C21.  What a subscription has handed to the program (received from C, or in
    its buffer) followed by what is on its way to it is exactly, in order, the
    MESSAGE frames with its identifier that arrived since its SUBSCRIBE was
    sent, up to the RECEIPT (or reply-to equivalent) of its UNSUBSCRIBE; before
    that, nothing.  Partial: for identifiers used by no other call, and without
    a receipt on the SUBSCRIBE (see [C21_refuted]). *)
Theorem C21_messages_partial : forall A cfg y s b r f id rt, creach A cfg y -> c_subs y !! s = Some b -> c_gs y !! b_by b = Some r -> g_op r = OSubscribe (Some (f, id, rt)) ->
  hd_contains (f_hdr f) h_receipt = None -> sole (c_gs y) (b_by b) (sub_key f) ->
  (exists l1 q w l2, c_log y = l1 ++ PvReq q w :: l2 /\ q_by q = b_by b /\ msgs (b_read b ++ b_buf b) ++ transit y b = due (sub_key f) l2) \/
  (forall q w, PvReq q w ∈ c_log y -> q_by q <> b_by b) /\ msgs (b_read b ++ b_buf b) ++ transit y b = [].
Proof. exact reach_messages. Qed.
Print Assumptions C21_messages_partial.
(** Two subscriptions, interleaved messages, one for nobody. *)
Definition two_subs : list cact := subscribe 0 (fr_sub (lit "1") (lit "/queue/a")) (lit "1") ++ subscribe 1 (fr_sub (lit "2") (lit "/topic/b")) (lit "2").
Example C21_example : exists y, creach anything k0 y /\
  got y 0 = [CmMsg (fr_message (lit "1") (lit "x")); CmMsg (fr_message (lit "1") (lit "z"))] /\ got y 1 = [CmMsg (fr_message (lit "2") (lit "y"))].
Proof.
  apply (cafter_reach (two_subs ++ handed (fr_message (lit "1") (lit "x")) ++ consumed 1 (fr_message (lit "2") (lit "y")) ++ arrives (fr_message (lit "3") (lit "n")) ++ [XLoop 0] ++ handed (fr_message (lit "1") (lit "z")) ++ [XLoop 0; XConsume 0])
    (fun y => got y 0 = [CmMsg (fr_message (lit "1") (lit "x")); CmMsg (fr_message (lit "1") (lit "z"))] /\ got y 1 = [CmMsg (fr_message (lit "2") (lit "y"))])).
  vm_compute. reflexivity.
Qed.

(** With a receipt on the SUBSCRIBE, the RECEIPT ends the subscription and the
    next message crashes the connection's goroutine. *)
Theorem C21_refuted : exists y, creach anything k0 y /\ c_gs y = [mkGor (OSubscribe (Some (fr_sub_receipt (lit "1") (lit "5"), lit "1", false))) (GDone (RSub 0))] /\ c_closed y = false /\ c_p y = PLoop /\
  c_rch y = [Some (fr_message (lit "1") (lit "x"))] /\ cstep k0 y XTakeRead = Some (CPanic PSendClosedResp).
Proof.
  pose proof (cafter_reach (subscribe 0 (fr_sub_receipt (lit "1") (lit "5")) (lit "1") ++ handed (fr_receipt (lit "5")) ++ [XRecv (Some (fr_message (lit "1") (lit "x")))])
    (fun y => c_gs y = [mkGor (OSubscribe (Some (fr_sub_receipt (lit "1") (lit "5"), lit "1", false))) (GDone (RSub 0))] /\ c_closed y = false /\ c_p y = PLoop /\
     c_rch y = [Some (fr_message (lit "1") (lit "x"))] /\ stops_with y XTakeRead = Some PSendClosedResp)) as HA.
  witness HA. destruct HA as (y & Hr & H1 & H2 & H3 & H4 & H5). exists y. split_and!; try done. by apply stops_with_panic.
Qed.
Print Assumptions C21_refuted.

(* ------------------------------------------------------------------ *)
(** C22.  A Send (or Ack, Begin, ...) that asked for a receipt and returned nil
    has had its frame written and, after that, a RECEIPT with its receipt id
    was read from the server. *)
Theorem C22_receipt : forall A cfg y g r f, creach A cfg y -> c_gs y !! g = Some r -> receipt_call (g_op r) f -> g_pc r = GDone RNil -> receipted (c_log y) g f.
Proof. intros A cfg y g r f Hr. exact (receipt_nil A cfg y Hr g r f). Qed.
Print Assumptions C22_receipt.
Example C22_example : exists y, creach anything k0 y /\ c_gs y = [mkGor (OSend (Some (fr_send_receipt (lit "4") (lit "b")))) (GDone RNil)] /\
  c_log y = [PvReq (mkReq 0 (fr_send_receipt (lit "4") (lit "b")) (Some 0)) (Some (fr_send_receipt (lit "4") (lit "b"), true)); PvIn (Some (fr_receipt (lit "4"))); PvTold 0 (fr_receipt (lit "4"))].
Proof.
  apply (cafter_reach (sending 0 (fr_send_receipt (lit "4") (lit "b")) ++ handed (fr_receipt (lit "4"))) (fun y => c_gs y = [mkGor (OSend (Some (fr_send_receipt (lit "4") (lit "b")))) (GDone RNil)] /\
    c_log y = [PvReq (mkReq 0 (fr_send_receipt (lit "4") (lit "b")) (Some 0)) (Some (fr_send_receipt (lit "4") (lit "b"), true)); PvIn (Some (fr_receipt (lit "4"))); PvTold 0 (fr_receipt (lit "4"))])).
  vm_compute. reflexivity.
Qed.
(** An ERROR, a connection failure or a timeout makes it return an error. *)
Example C22_error : exists y, creach anything k0 y /\ result y 0 = Some (RErr (EResponse fr_error)) /\ result y 1 = Some (RErr EAlreadyClosed).
Proof.
  apply (cafter_reach (sending 0 (fr_send_receipt (lit "4") (lit "b")) ++ arrives fr_error ++ [XPick 0; XDeliver; XFinish; XFinish; XCall (OSend (Some (fr_send (lit "b")))); XRun 1])
    (fun y => result y 0 = Some (RErr (EResponse fr_error)) /\ result y 1 = Some (RErr EAlreadyClosed))). vm_compute. reflexivity.
Qed.

(* ------------------------------------------------------------------ *)
(** C23.  Nobody sends on the closed write channel or closes it twice. *)
Theorem C23_write_channel : forall A cfg y a, creach A cfg y -> cstep cfg y a <> Some (CPanic PSendClosedWrite) /\ cstep cfg y a <> Some (CPanic PCloseClosedWrite).
Proof. exact no_write_panic. Qed.
Print Assumptions C23_write_channel.
(** MustDisconnect, Disconnect and the end of processLoop all close it. *)
Example C23_example : exists y, creach anything k0 y /\ c_wclosed y = true /\ c_p y = PEnd /\ result y 0 = Some RNil /\ result y 1 = Some (RErr EAlreadyClosed) /\ result y 2 = Some RNil.
Proof.
  apply (cafter_reach [XCall OMust; XCall (OSend (Some (fr_send (lit "b")))); XCall (ODisconnect (lit "1")); XRun 0; XRun 1; XRun 2; XTakeWrite true; XFinish; XFinish]
    (fun y => c_wclosed y = true /\ c_p y = PEnd /\ result y 0 = Some RNil /\ result y 1 = Some (RErr EAlreadyClosed) /\ result y 2 = Some RNil)). vm_compute. reflexivity.
Qed.

(* ------------------------------------------------------------------ *)
(** C24.  After Disconnect returned nil or timed out, or MustDisconnect returned, or
    processLoop has ended (whatever ended the connection), calls made later (indices from [length (c_gs y)] on) return the documented results and
    add nothing to the write channel or the outgoing stream. *)
Definition disconnected (y : cl) : Prop := exists g r, c_gs y !! g = Some r /\ ((exists rid, g_op r = ODisconnect rid) /\ (g_pc r = GDone RNil \/ g_pc r = GDone (RErr EReceiptTimeout)) \/ g_op r = OMust /\ exists x, g_pc r = GDone x).
Lemma disconnected_closed A cfg y : creach A cfg y -> disconnected y -> c_closed y = true.
Proof.
  intros Hr (g & r & Hg & Hx). apply (reach_closed _ _ _ Hr _ _ Hg). destruct Hx as [[[rid ->] [-> | ->]]|[-> [x ->]]]; cbn; eauto.
Qed.
Lemma closed_for_good A cfg y : creach A cfg y -> disconnected y \/ c_p y = PEnd -> c_closed y = true.
Proof. intros Hr [H|H]; [by eapply disconnected_closed|exact (lk_end _ (reach_lock _ _ _ Hr) H)]. Qed.
Theorem C24_stays_closed : forall cfg y l y' j r, creach anything cfg y -> disconnected y \/ c_p y = PEnd -> crun cfg y l = Some (COk y') -> length (c_gs y) <= j -> c_gs y' !! j = Some r ->
  (forall x, g_pc r = GDone x -> closed_result (g_op r) x) /\ (forall q, q ∈ c_wch y' -> q_by q <> j) /\ (forall q w, PvReq q w ∈ c_log y' -> q_by q <> j).
Proof.
  intros cfg y l y' j r Hr Hd Hl Hj Hg. pose proof (latter_run _ _ _ _ _ Hr (latter_start _ _ Hr (closed_for_good _ _ _ Hr Hd)) Hl) as [L1 L2 L3].
  split_and!.
  - intros x Hx. pose proof (L2 _ _ Hj Hg) as H. by rewrite Hx in H.
  - intros q Hq E. assert (q_by q < length (c_gs y)) by (apply L3; by left). lia.
  - intros q w Hq E. assert (q_by q < length (c_gs y)) by (apply L3; right; left; by eapply log_req_in). lia.
Qed.
Print Assumptions C24_stays_closed.
(** And they return: within two of their own steps, whatever the others do. *)
Theorem C24_returns : forall cfg y l y' j r, creach anything cfg y -> disconnected y \/ c_p y = PEnd -> crun cfg y l = Some (COk y') -> length (c_gs y) <= j -> c_gs y' !! j = Some r -> (forall s f, g_op r <> OUnsub s f) ->
  exists m y'' x, Forall (fun a => a = XRun j) m /\ length m <= 2 /\ crun cfg y' m = Some (COk y'') /\ result y'' j = Some x /\ closed_result (g_op r) x.
Proof.
  intros cfg y l y' j r Hr Hd Hl Hj Hg Hu. pose proof (closed_for_good _ _ _ Hr Hd) as Hc. pose proof (latter_run _ _ _ _ _ Hr (latter_start _ _ Hr Hc) Hl) as [L1 L2 L3].
  assert (creach anything cfg y') as Hr' by (eapply crun_reach; [exact Hr|apply Forall_any|exact Hl]). pose proof (reach_closed_mut _ _ _ Hr' L1) as Hm.
  assert (Hres : forall z x, c_gs z !! j = Some r -> result (with_g z j (GDone x)) j = Some x) by (intros z x Hz; unfold result; rewrite (with_g_same _ _ _ _ Hz); done).
  pose proof (L2 _ _ Hj Hg) as Hp. pose proof (reach_calls _ _ _ Hr' _ _ Hg) as Hk. destruct (g_pc r) as [|u f|k q|k ch|s c res|s res|s|s|s|s|x] eqn:Hpc; try done.
  - destruct (g_op r) as [f|f|f|s f|rid|] eqn:Ho.
    + exists [XRun j], (with_g y' j (GDone (RErr EAlreadyClosed))), (RErr EAlreadyClosed). split_and!; [by repeat constructor|cbn; lia| |by apply Hres|done].
      cbn [crun cstep]. unfold do_run. rewrite Hg, Hpc. unfold do_start. rewrite Ho, Hm, L1. done.
    + exists [XRun j; XRun j], (with_g (with_g y' j (GFrame None f)) j (GDone (RErr EClosedUnexpectedly))), (RErr EClosedUnexpectedly). split_and!; [by repeat constructor|cbn; lia| | |done].
      * cbn [crun cstep]. unfold do_run at 1. rewrite Hg, Hpc. unfold do_start. rewrite Ho. unfold do_run. rewrite (with_g_same _ _ _ _ Hg). cbn [g_pc]. unfold do_frame. cbn [with_g c_mut c_closed]. rewrite Hm, L1. done.
      * unfold result. by rewrite (with_g_same (with_g y' j (GFrame None f)) j _ _ (with_g_same _ _ _ _ Hg)).
    + exists [XRun j], (with_g y' j (GDone (RErr EClosedUnexpectedly))), (RErr EClosedUnexpectedly). split_and!; [by repeat constructor|cbn; lia| |by apply Hres|done].
      cbn [crun cstep]. unfold do_run. rewrite Hg, Hpc. unfold do_start. rewrite Ho, Hm, L1. done.
    + by destruct (Hu s f).
    + exists [XRun j], (with_g y' j (GDone RNil)), RNil. split_and!; [by repeat constructor|cbn; lia| |by apply Hres|done].
      cbn [crun cstep]. unfold do_run. rewrite Hg, Hpc. unfold do_start. rewrite Ho, Hm, L1. done.
    + exists [XRun j], (with_g y' j (GDone RNil)), RNil. split_and!; [by repeat constructor|cbn; lia| |by apply Hres|done].
      cbn [crun cstep]. unfold do_run. rewrite Hg, Hpc. unfold do_start. rewrite Ho, Hm, L1. done.
  - destruct u as [s|]; cbn in Hk; [by destruct (Hu s (Some f))|]. rewrite Hk.
    exists [XRun j], (with_g y' j (GDone (RErr EClosedUnexpectedly))), (RErr EClosedUnexpectedly). split_and!; [by repeat constructor|cbn; lia| |by apply Hres|done].
    cbn [crun cstep]. unfold do_run. rewrite Hg, Hpc. unfold do_frame. rewrite Hm, L1. done.
  - destruct Hk as [[f Hf] _]. by destruct (Hu s (Some f)).
  - exists [], y', x. split_and!; [done|cbn; lia|done| |done]. unfold result. by rewrite Hg, Hpc.
Qed.
Print Assumptions C24_returns.
Example C24_example : exists y, creach anything k0 y /\ c_gs y !! 0 = Some (mkGor (ODisconnect (lit "1")) (GDone RNil)) /\ result y 1 = Some (RErr EAlreadyClosed) /\ result y 2 = Some (RErr EClosedUnexpectedly) /\
  result y 3 = Some (RErr EClosedUnexpectedly) /\ result y 4 = Some RNil /\ c_wch y = [].
Proof.
  apply (cafter_reach ([XCall (ODisconnect (lit "1")); XRun 0; XRun 0; XTakeWrite true] ++ handed (fr_receipt (lit "1")) ++
      [XCall (OSend (Some (fr_send (lit "b")))); XCall (OFrame (fr_ack (lit "7"))); XCall (OSubscribe (Some (fr_sub (lit "1") (lit "/queue/a"), lit "1", false))); XCall (ODisconnect (lit "2"));
       XRun 1; XRun 2; XRun 2; XRun 3; XRun 4])
    (fun y => c_gs y !! 0 = Some (mkGor (ODisconnect (lit "1")) (GDone RNil)) /\ result y 1 = Some (RErr EAlreadyClosed) /\ result y 2 = Some (RErr EClosedUnexpectedly) /\ result y 3 = Some (RErr EClosedUnexpectedly) /\ result y 4 = Some RNil /\ c_wch y = [])).
  vm_compute. reflexivity.
Qed.

(** The same after a Disconnect that got no receipt in time. *)
Example C24_timeout : exists y, creach anything k0 y /\ disconnected y /\ c_gs y !! 0 = Some (mkGor (ODisconnect (lit "1")) (GDone (RErr EReceiptTimeout))) /\ result y 1 = Some (RErr EAlreadyClosed) /\ result y 2 = Some RNil.
Proof.
  pose proof (cafter_reach [XCall (ODisconnect (lit "1")); XRun 0; XRun 0; XTakeWrite true; XTimeout 0; XCall (OSend (Some (fr_send (lit "b")))); XCall (ODisconnect (lit "2")); XRun 1; XRun 2]
    (fun y => c_gs y !! 0 = Some (mkGor (ODisconnect (lit "1")) (GDone (RErr EReceiptTimeout))) /\ result y 1 = Some (RErr EAlreadyClosed) /\ result y 2 = Some RNil)) as HA. witness HA.
  destruct HA as (y & H1 & H2 & H3). exists y. split_and!; try done; [|apply H3..]. eexists 0, _. split; [exact H2|]. left. split; [by eexists|by right].
Qed.

(* ------------------------------------------------------------------ *)
(** C25.  When processLoop is about to close the connection (or has done so):
    every name that is being listened to according to the frames exchanged
    (request taken, name not taken over by a later request and not stopped
    since) had its channel sent an ERROR ... *)
Definition over (y : cl) : Prop := (exists err, c_p y = PMust err) \/ c_p y = PEnd.
Theorem C25_told_partial : forall A cfg y k ch, creach A cfg y -> over y -> listens (c_log y) k ch -> exists f, f_cmd f = ERROR /\ PvTold ch f ∈ c_log y.
Proof. exact end_told. Qed.
Print Assumptions C25_told_partial.
(** ... so that every such subscription's goroutine has stopped reading and is
    closing, or has closed, C; ... *)
Theorem C25_subscriptions_partial : forall A cfg y k s b, creach A cfg y -> over y -> c_subs y !! s = Some b -> listens (c_log y) k (b_ch b) -> b_rl b = RlDone \/ exists c, b_rl b = RlClose c.
Proof.
  intros A cfg y k s b Hr He Hb Hl. destruct (end_told _ _ _ _ _ Hr He Hl) as (f & Hf & Ht). pose proof (told_over _ _ _ Hr _ _ _ Hb Ht (or_introl Hf)) as H.
  destruct (b_rl b); try done; eauto.
Qed.
Print Assumptions C25_subscriptions_partial.
(** ... and no call whose request was taken still waits for its receipt. *)
Theorem C25_waiters_partial : forall A cfg y g r w ch q x k, creach A cfg y -> apart (c_gs y) -> over y -> c_gs y !! g = Some r -> PvReq q x ∈ c_log y -> q_by q = g ->
  hd_contains (f_hdr (q_frame q)) h_receipt = Some k -> sole (c_gs y) g k -> g_pc r <> GWait w ch.
Proof. exact end_waiters. Qed.
Print Assumptions C25_waiters_partial.
(** A subscription, a waiting Ack and a waiting Send when the server closes. *)
Example C25_example : exists y, creach anything k0 y /\ c_p y = PEnd /\ result y 1 = Some (RErr (EResponse (error_frame (lit "connection closed")))) /\ result y 2 = Some (RErr (EResponse (error_frame (lit "connection closed")))) /\
  got y 0 = [CmMsg (fr_message (lit "1") (lit "x")); CmErr (Some (error_frame (lit "connection closed")))].
Proof.
  apply (cafter_reach (subscribe 0 (fr_sub (lit "1") (lit "/queue/a")) (lit "1") ++ [XCall (OFrame (fr_ack (lit "5"))); XRun 1; XRun 1; XRun 1; XTakeWrite true] ++ sending 2 (fr_send_receipt (lit "6") (lit "b")) ++ handed (fr_message (lit "1") (lit "x")) ++
      [XLoop 0; XEof; XTakeRead; XPick 1; XDeliver; XPick 0; XDeliver; XPick 0; XDeliver; XLoop 0; XLoop 0; XFinish; XFinish])
    (fun y => c_p y = PEnd /\ result y 1 = Some (RErr (EResponse (error_frame (lit "connection closed")))) /\ result y 2 = Some (RErr (EResponse (error_frame (lit "connection closed")))) /\
      got y 0 = [CmMsg (fr_message (lit "1") (lit "x")); CmErr (Some (error_frame (lit "connection closed")))])). vm_compute. reflexivity.
Qed.
(** Requests that are still in the write channel when processLoop ends are
    forgotten: a Subscribe that returned gets nothing, and a waiting Ack never
    gets a response, whatever happens next (only its timeout ends it). *)
Theorem C25_refuted : exists y, creach anything k0 y /\ c_p y = PEnd /\ result y 0 = Some (RSub 0) /\ got y 0 = [] /\ (exists r, c_gs y !! 1 = Some r /\ g_op r = OFrame (fr_ack (lit "5")) /\ g_pc r = GWait (FFrame None) 1) /\
  forall l y', crun k0 y l = Some (COk y') -> forall ch f, PvTold ch f ∈ c_log y' -> False.
Proof.
  pose proof (cafter_reach [XCall (OSubscribe (Some (fr_sub (lit "1") (lit "/queue/a"), lit "1", false))); XRun 0; XRun 0; XCall (OFrame (fr_ack (lit "5"))); XRun 1; XRun 1; XRun 1; XEof; XTakeRead; XFinish; XFinish]
    (fun y => c_p y = PEnd /\ result y 0 = Some (RSub 0) /\ got y 0 = [] /\ c_log y = [] /\ c_gs y !! 1 = Some (mkGor (OFrame (fr_ack (lit "5"))) (GWait (FFrame None) 1)))) as HA.
  witness HA. destruct HA as (y & Hr & H1 & H2 & H3 & H4 & H5). exists y. split_and!; try done; [by eexists|].
  intros l y' Hl ch f Hin. destruct (run_keeps (fun z => c_p z = PEnd /\ c_log z = []) anything k0 y l y') as [_ E]; try done; [|apply Forall_any|by rewrite E in Hin; apply elem_of_nil in Hin].
  intros z a z' _ [Hz1 Hz2] _ Hm. destruct (ended_step _ _ _ _ Hm Hz1) as [-> ->]. done.
Qed.
Print Assumptions C25_refuted.

(* ------------------------------------------------------------------ *)
(** C26.  processLoop's pending send on a response channel: either the receiver
    takes it, or the subscription's goroutine is busy handing the previous
    message to the program, or a call gave up its wait by timeout. *)
Theorem C26_progress_partial : forall (A : cact -> Prop) cfg y ch f k, creach A cfg y -> plain_subs (c_gs y) -> tidy y -> c_p y = PSend ch f k ->
  (exists y', cstep cfg y XDeliver = Some (COk y') /\ c_log y' = c_log y ++ [PvTold ch f]) \/
  (exists s b m, c_subs y !! s = Some b /\ b_ch b = ch /\ b_rl b = RlPut m) \/
  exists g r, c_gs y !! g = Some r /\ A (XTimeout g) /\ gave_up (g_pc r).
Proof. exact send_progress. Qed.
Print Assumptions C26_progress_partial.
(** Without timeouts the send always completes, after at most a receive by the
    program and a step of the subscription's goroutine (unless C was closed by
    a concurrent Unsubscribe; see C27). *)
Theorem C26_no_timeouts_partial : forall cfg y ch f k, creach (fun a => forall g, a <> XTimeout g) cfg y -> plain_subs (c_gs y) -> tidy y -> c_p y = PSend ch f k -> (forall s b, c_subs y !! s = Some b -> b_cclosed b = true -> b_ch b <> ch) ->
  exists l y', Forall (fun a => (exists s, a = XLoop s) \/ (exists s, a = XConsume s) \/ a = XDeliver) l /\ crun cfg y l = Some (COk y') /\ c_log y' = c_log y ++ [PvTold ch f].
Proof.
  intros cfg y ch f k Hr HP HT Hp Hc. destruct (send_progress _ _ _ _ _ _ Hr HP HT Hp) as [(y' & Hs & HL)|[(s & b & m & Hb & Hch & Hrl)|(g & r & _ & Hno & _)]].
  - exists [XDeliver], y'. split_and!; [constructor; [by auto|done]| |done]. cbn [crun]. by rewrite Hs.
  - assert (b_cclosed b = false) as Hcl by (destruct (b_cclosed b) eqn:E; [|done]; by destruct (Hc _ _ Hb E)).
    assert (HX : forall z b1, creach (fun a => forall g, a <> XTimeout g) cfg z -> c_gs z = c_gs y -> c_p z = c_p y -> c_log z = c_log y -> c_subs z !! s = Some b1 -> b_ch b1 = ch -> b_rl b1 = RlPut m -> b_cclosed b1 = false -> length (b_buf b1) < cap_c ->
      exists y', crun cfg z [XLoop s; XDeliver] = Some (COk y') /\ c_log y' = c_log y ++ [PvTold ch f]).
    { intros z b1 Hz E1 E2 E3 Hb1 Hch1 Hrl1 Hcl1 Hlen.
      assert (cstep cfg z (XLoop s) = Some (COk (with_subs z (<[s := b_with_rl (b_with_buf b1 (b_buf b1 ++ [m])) RlRecv]> (c_subs z))))) as Hs1.
      { cbn [cstep]. unfold do_loop. rewrite Hb1, Hrl1. unfold put_c. rewrite Hcl1. by rewrite decide_True by done. }
      set (z1 := with_subs z _) in Hs1. assert (creach (fun a => forall g, a <> XTimeout g) cfg z1) as Hz1 by (eapply cr_step; [exact Hz| |exact Hs1]; done).
      destruct (send_progress (fun a => forall g, a <> XTimeout g) cfg z1 ch f k) as [(y' & Hs & HL)|[(s' & b' & m' & Hb' & Hch' & Hrl')|(g & r & _ & Hno & _)]]; try done.
      - cbn. by rewrite E1.
      - intros f0 k0' j r f'. cbn. rewrite E1, E3. apply HT.
      - cbn. congruence.
      - exists y'. split; [|cbn in HL; by rewrite HL, E3]. cbn [crun]. by rewrite Hs1, Hs.
      - exfalso. destruct (decide (s' = s)) as [->|Hne].
        + cbn in Hb'. rewrite list_lookup_insert in Hb' by (by eapply lookup_lt_Some). by injection Hb' as <-.
        + cbn in Hb'. rewrite list_lookup_insert_ne in Hb' by done. apply Hne. eapply (reach_sub_chan _ _ _ _ _ _ _ Hz); [exact Hb'|exact Hb1|congruence].
      - by destruct (Hno g). }
    destruct (decide (length (b_buf b) < cap_c)) as [Hlen|Hlen].
    + destruct (HX y b) as (y' & H1 & H2); try done. exists [XLoop s; XDeliver], y'. split_and!; [rewrite !Forall_cons, Forall_nil; split_and!; eauto|done|done].
    + destruct (b_buf b) as [|m0 l] eqn:Ebuf; [cbn in Hlen; unfold cap_c in Hlen; lia|].
      assert (exists y1, cstep cfg y (XConsume s) = Some (COk y1) /\ c_gs y1 = c_gs y /\ c_p y1 = c_p y /\ c_log y1 = c_log y /\ exists b1, c_subs y1 !! s = Some b1 /\ b_ch b1 = ch /\ b_rl b1 = RlPut m /\ b_cclosed b1 = false /\ b_buf b1 = l) as (y1 & Hs1 & E1 & E2 & E3 & b1 & Hb1 & Hch1 & Hrl1 & Hcl1 & Hbuf1).
      { cbn [cstep]. unfold do_consume. rewrite Hb, Ebuf. eexists. split_and!; [reflexivity|done|done|done|]. eexists. cbn. rewrite list_lookup_insert by (by eapply lookup_lt_Some). split_and!; done. }
      destruct (HX y1 b1) as (y' & H1 & H2); try done; [eapply cr_step; [exact Hr| |exact Hs1]; done| |].
      * pose proof (reach_buf _ _ _ Hr _ _ Hb) as Hle. rewrite Ebuf in Hle. rewrite Hbuf1. cbn in Hle. lia.
      * exists [XConsume s; XLoop s; XDeliver], y'. split_and!; [rewrite !Forall_cons, Forall_nil; split_and!; eauto|cbn [crun] in *; by rewrite Hs1|done].
  - by destruct (Hno g).
Qed.
Print Assumptions C26_no_timeouts_partial.
Example C26_example : exists y ch f k, creach (fun a => forall g, a <> XTimeout g) k0 y /\ c_p y = PSend ch f k.
Proof.
  assert (exists y, crun k0 cl_init (sending 0 (fr_send_receipt (lit "4") (lit "b")) ++ arrives (fr_receipt (lit "4"))) = Some (COk y) /\ c_p y = PSend 0 (fr_receipt (lit "4")) (KReceipt (lit "4"))) as (y & Hy & Hp) by (eexists; split; vm_compute; reflexivity).
  exists y, 0, (fr_receipt (lit "4")), (KReceipt (lit "4")). split; [|done]. eapply crun_reach; [constructor| |exact Hy]. repeat constructor; done.
Qed.
(** A receipt that arrives after its waiter's timeout wedges the connection:
    the subscription's message behind it, and everything after it, is never
    processed, whatever happens. *)
Theorem C26_refuted : exists y, creach anything k0 y /\ result y 1 = Some (RErr EReceiptTimeout) /\ c_closed y = false /\ c_rch y = [Some (fr_message (lit "1") (lit "x"))] /\
  c_p y = PSend 1 (fr_receipt (lit "4")) (KReceipt (lit "4")) /\ forall l y', crun k0 y l = Some (COk y') -> c_p y' = c_p y /\ c_log y' = c_log y.
Proof.
  pose proof (cafter_reach (subscribe 0 (fr_sub (lit "1") (lit "/queue/a")) (lit "1") ++ sending 1 (fr_send_receipt (lit "4") (lit "b")) ++ [XTimeout 1] ++ arrives (fr_receipt (lit "4")) ++ [XRecv (Some (fr_message (lit "1") (lit "x")))])
    (fun y => result y 1 = Some (RErr EReceiptTimeout) /\ c_closed y = false /\ c_rch y = [Some (fr_message (lit "1") (lit "x"))] /\ c_p y = PSend 1 (fr_receipt (lit "4")) (KReceipt (lit "4")) /\
      (h_owner <$> c_chs y !! 1) = Some (OwnG 1))) as HA.
  witness HA. destruct HA as (y & Hr & H1 & H2 & H3 & H4 & H5). exists y. split_and!; try done. intros l y' Hl.
  assert (deaf y 1) as Hd. { apply result_done in H1 as (r & Hg & Hd). destruct (c_chs y !! 1) as [h|] eqn:Eh; [|done]. injection H5 as Eo. by exists h, 1, r, (RErr EReceiptTimeout). }
  destruct (run_keeps (fun z => c_p z = PSend 1 (fr_receipt (lit "4")) (KReceipt (lit "4")) /\ c_log z = c_log y /\ deaf z 1) anything k0 y l y') as (E1 & E2 & _); try done; [|apply Forall_any|by rewrite E1, H4].
  intros z a z' Hz (Z1 & Z2 & Z3) _ Hm. destruct (deaf_step _ _ _ _ _ _ _ _ Hz Hm Z1 Z3) as (E1 & E2 & E3). rewrite E2. done.
Qed.
Print Assumptions C26_refuted.

(* ------------------------------------------------------------------ *)
(** C27.  C is closed at most once, under every schedule. *)
Theorem C27_closed_once : forall A cfg y a, creach A cfg y -> cstep cfg y a <> Some (CPanic PCloseClosedC).
Proof. exact no_second_close. Qed.
Print Assumptions C27_closed_once.
(** Sends after the close only come from a goroutine that was still handing
    over a message when an Unsubscribe call on the closed connection closed C,
    or from an Unsubscribe call whose timeout expired. *)
Theorem C27_late_sends_partial : forall A cfg y a, creach A cfg y -> cstep cfg y a = Some (CPanic PSendClosedC) ->
  exists s b, c_subs y !! s = Some b /\ b_cclosed b = true /\
    (closed_it y s /\ (exists m, b_rl b = RlPut m) \/ exists g r f, c_gs y !! g = Some r /\ g_op r = OUnsub s (Some f) /\ g_pc r = GPutErr s).
Proof. exact late_sends. Qed.
Print Assumptions C27_late_sends_partial.
(** An error message is the last one, unless an Unsubscribe call sends on C
    itself (after the connection closed or its timeout). *)
Theorem C27_error_last_partial : forall A cfg y s b, creach A cfg y -> c_subs y !! s = Some b ->
  (forall l1 o l2, b_read b ++ b_buf b = l1 ++ CmErr o :: l2 -> l2 = []) \/ meddles y s.
Proof.
  intros A cfg y s b Hr Hb. destruct (reach_err_last _ _ _ Hr _ _ Hb) as [[HN|(l & o & E & HN & _)]|]; [left|left|by right]; intros l1 o' l2 E'.
  - rewrite E' in HN. apply Forall_app in HN as [_ HN]. apply Forall_cons in HN as [[f Hf] _]. done.
  - rewrite E in E'. destruct l2 as [|m l2 _] using rev_ind; [done|]. exfalso. rewrite app_comm_cons, app_assoc in E'. apply app_inj_tail in E' as [E' _]. rewrite E' in HN.
    apply Forall_app in HN as [_ HN]. apply Forall_cons in HN as [[f Hf] _]. done.
Qed.
Print Assumptions C27_error_last_partial.
(** Unsubscribe, receipt, messages before it; C closed once. *)
Definition unsub (g s : nat) (id : str) : list cact := [XCall (OUnsub s (Some (fr_unsub id))); XRun g; XRun g; XRun g; XTakeWrite true].
Example C27_example : exists y b, creach anything k0 y /\ c_subs y !! 0 = Some b /\ b_cclosed b = true /\ b_rl b = RlDone /\ b_read b ++ b_buf b = [CmMsg (fr_message (lit "1") (lit "x"))].
Proof.
  pose proof (cafter_reach (subscribe 0 (fr_sub (lit "1") (lit "/queue/a")) (lit "1") ++ unsub 1 0 (lit "1") ++ handed (fr_message (lit "1") (lit "x")) ++ [XLoop 0] ++ handed (fr_receipt (lit "1")) ++ [XLoop 0; XLoop 0; XLoop 0; XLoop 0])
    (fun y => (b_cclosed <$> c_subs y !! 0) = Some true /\ (b_rl <$> c_subs y !! 0) = Some RlDone /\ got y 0 = [CmMsg (fr_message (lit "1") (lit "x"))])) as HA.
  witness HA. destruct HA as (y & Hr & H1 & H2 & H3). unfold got in H3. destruct (c_subs y !! 0) as [b|] eqn:Eb; [|done]. exists y, b. injection H1 as E1. injection H2 as E2. split_and!; try done.
Qed.
(** MustDisconnect and Unsubscribe while the goroutine holds a message: send on
    the closed channel, i.e. the program crashes; and, one step earlier, a
    message after the error. *)
Definition meddling : list cact := subscribe 0 (fr_sub (lit "1") (lit "/queue/a")) (lit "1") ++ handed (fr_message (lit "1") (lit "x")) ++ [XCall OMust; XRun 1; XCall (OUnsub 0 (Some (fr_unsub (lit "1")))); XRun 2; XRun 2; XRun 2; XRun 2].
Theorem C27_refuted : (exists y, creach anything k0 y /\ cstep k0 y (XLoop 0) = Some (CPanic PSendClosedC)) /\
  exists y, creach anything k0 y /\ got y 0 = [CmErr None; CmMsg (fr_message (lit "1") (lit "x"))].
Proof.
  split.
  - pose proof (cafter_reach (meddling ++ [XRun 2; XRun 2]) (fun y => stops_with y (XLoop 0) = Some PSendClosedC)) as HA. witness HA. destruct HA as (y & Hr & H). exists y. split; [done|by apply stops_with_panic].
  - apply (cafter_reach (meddling ++ [XLoop 0]) (fun y => got y 0 = [CmErr None; CmMsg (fr_message (lit "1") (lit "x"))])). vm_compute. reflexivity.
Qed.
Print Assumptions C27_refuted.

(* ------------------------------------------------------------------ *)
(** C28.  A step closes C while an Unsubscribe call waits for it (or is about
    to look at the state): after whatever happens next, without its timeout,
    the call returns within two of its own steps: nil, or the result its
    sendFrame had. *)
Theorem C28_wakes_partial : forall cfg y a y' s b b' g r res l y'', creach anything cfg y -> cstep cfg y a = Some (COk y') ->
  c_subs y !! s = Some b -> b_cclosed b = false -> c_subs y' !! s = Some b' -> b_cclosed b' = true -> c_gs y !! g = Some r -> g_pc r = GBlocked s /\ res = RNil \/ g_pc r = GLoad s res ->
  Forall (fun a => a <> XTimeout g) l -> crun cfg y' l = Some (COk y'') ->
  exists m y3, Forall (fun a => a = XRun g) m /\ length m <= 2 /\ crun cfg y'' m = Some (COk y3) /\ result y3 g = Some res.
Proof.
  intros cfg y a y' s b b' g r res l y'' Hr Hs Hb Hc Hb' Hc' Hg Hpc HF Hl. apply cstep_cmv in Hs as Hm. pose proof (closing_wakes _ _ _ _ _ _ _ _ _ _ _ Hr Hm Hb Hc Hb' Hc' Hg Hpc) as Ha.
  assert (awake y'' g s res) as Ha'.
  { eapply (run_keeps (fun z => awake z g s res) (fun a => a <> XTimeout g)); [|by eapply cr_step|exact Ha|exact HF|exact Hl]. intros z x z' Hz Hw Hx Hmz. by eapply awake_step. }
  destruct (awake_finish cfg _ _ _ _ Ha') as (m & y3 & r3 & H1 & H2 & H3 & H4 & H5). exists m, y3. split_and!; try done. unfold result. by rewrite H4, H5.
Qed.
Print Assumptions C28_wakes_partial.
Example C28_example : exists y, creach anything k0 y /\ result y 1 = Some RNil.
Proof.
  apply (cafter_reach (subscribe 0 (fr_sub (lit "1") (lit "/queue/a")) (lit "1") ++ unsub 1 0 (lit "1") ++ [XRun 1; XRun 1] ++ handed (fr_receipt (lit "1")) ++ [XLoop 0; XLoop 0; XLoop 0; XLoop 0; XRun 1; XRun 1])
    (fun y => result y 1 = Some RNil)). vm_compute. reflexivity.
Qed.
(** Lost wake-up: the receipt is processed and C is closed between the look at
    the state and the registration; the call sleeps until its timeout (and
    forever if there is none), then fails. *)
Theorem C28_refuted : exists y b, creach anything k0 y /\ c_subs y !! 0 = Some b /\ b_state b = SubClosed /\ b_cclosed b = true /\ PvTold 0 (fr_receipt (lit "1")) ∈ c_log y /\
  (exists r f, c_gs y !! 1 = Some r /\ g_op r = OUnsub 0 (Some f)) /\ forall l y', Forall (fun a => a <> XTimeout 1) l -> crun k0 y l = Some (COk y') -> result y' 1 = None.
Proof.
  pose proof (cafter_reach (subscribe 0 (fr_sub (lit "1") (lit "/queue/a")) (lit "1") ++ unsub 1 0 (lit "1") ++ [XRun 1] ++ handed (fr_receipt (lit "1")) ++ [XLoop 0; XLoop 0; XLoop 0; XLoop 0; XRun 1])
    (fun y => (b_cclosed <$> c_subs y !! 0) = Some true /\ (b_state <$> c_subs y !! 0) = Some SubClosed /\ (b_wait <$> c_subs y !! 0) = Some [1] /\
      c_gs y !! 1 = Some (mkGor (OUnsub 0 (Some (fr_unsub (lit "1")))) (GBlocked 0)) /\ last (c_log y) = Some (PvTold 0 (fr_receipt (lit "1"))))) as HA.
  witness HA. destruct HA as (y & Hr & H1 & H2 & H3 & H4 & H5). destruct (c_subs y !! 0) as [b|] eqn:Eb; [|done]. injection H1 as E1. injection H2 as E2. injection H3 as E3. exists y, b. split_and!; try done.
  - apply last_Some in H5 as [l ->]. apply elem_of_app. right. by apply elem_of_list_singleton.
  - by exists (mkGor (OUnsub 0 (Some (fr_unsub (lit "1")))) (GBlocked 0)), (fr_unsub (lit "1")).
  - intros l y' HF Hl. assert (asleep y 1 0) as Ha. { exists b, (mkGor (OUnsub 0 (Some (fr_unsub (lit "1")))) (GBlocked 0)). split_and!; try done. rewrite E3. by left. }
    assert (asleep y' 1 0) as (b' & r' & _ & Hg' & _ & Hp' & _).
    { eapply (run_keeps (fun z => asleep z 1 0) (fun a => a <> XTimeout 1)); [|exact Hr|exact Ha|exact HF|exact Hl]. intros z x z' Hz Hw Hx Hmz. by eapply asleep_step. }
    unfold result. by rewrite Hg', Hp'.
Qed.
Print Assumptions C28_refuted.

(* ------------------------------------------------------------------ *)
(** C29.  A frame handed over on a response channel is an ERROR or carries a
    name (receipt-id or subscription) which the request that made the channel
    uses: frames only reach calls that named them.  Partial: the same name may
    be used by calls of different kinds (see [C29_refuted]). *)
Theorem C29_named_partial : forall A cfg y ch f, creach A cfg y -> PvTold ch f ∈ c_log y -> f_cmd f = ERROR \/
  exists k q w l1 l2 l3, (f_cmd f = RECEIPT /\ hd_contains (f_hdr f) h_receipt_id = Some k \/ f_cmd f = MESSAGE /\ hd_contains (f_hdr f) h_subscription = Some k) /\
    q_chan q = Some ch /\ names (q_frame q) k /\ c_log y = l1 ++ PvReq q w :: l2 ++ PvIn (Some f) :: PvTold ch f :: l3.
Proof.
  intros A cfg y ch f Hr Ht. destruct (mi_told _ (reach_map _ _ _ Hr) _ _ Ht) as [?|(id & k & q & w & l1 & l2 & l3 & HR & Hc & Hn & E)]; [by left|]. right. exists id, q, w, l1, l2, l3. split_and!; try done.
  destruct HR; auto.
Qed.
Print Assumptions C29_named_partial.
(** With distinct names a receipt only ever answers the call that asked for it
    (C22) and messages only reach their subscription (C21); a Send and a
    subscription that share a name interfere: the message for subscription "7"
    answers the Send with receipt "7" and the subscription never gets it. *)
Theorem C29_refuted : exists y, creach anything k0 y /\ result y 0 = Some (RSub 0) /\ result y 1 = Some (RErr (EResponse (fr_message (lit "7") (lit "x")))) /\ got y 0 = [] /\ c_p y = PLoop /\ c_rch y = [].
Proof.
  apply (cafter_reach (subscribe 0 (fr_sub (lit "7") (lit "/queue/a")) (lit "7") ++ sending 1 (fr_send_receipt (lit "7") (lit "b")) ++ handed (fr_message (lit "7") (lit "x")))
    (fun y => result y 0 = Some (RSub 0) /\ result y 1 = Some (RErr (EResponse (fr_message (lit "7") (lit "x")))) /\ got y 0 = [] /\ c_p y = PLoop /\ c_rch y = [])). vm_compute. reflexivity.
Qed.
Print Assumptions C29_refuted.

(* ------------------------------------------------------------------ *)
(** C58.  A client goroutine only crashes with a send on a closed C, in the two
    circumstances of C27 (a subscription's goroutine or a timed-out Unsubscribe
    after another party closed C), as long as no SUBSCRIBE has a receipt
    header. *)
Theorem C58_crashes_partial : forall A cfg y a p, creach A cfg y -> plain_subs (c_gs y) -> cstep cfg y a = Some (CPanic p) ->
  p = PSendClosedC /\ exists s b, c_subs y !! s = Some b /\ b_cclosed b = true /\
    (closed_it y s /\ (exists m, b_rl b = RlPut m) \/ exists g r f, c_gs y !! g = Some r /\ g_op r = OUnsub s (Some f) /\ g_pc r = GPutErr s).
Proof.
  intros A cfg y a p Hr HP Hs. destruct (no_write_panic _ _ _ a Hr) as [W1 W2], (loop_safe _ _ _ a Hr HP) as [L1 L2]. pose proof (never_nil _ _ _ a Hr) as HN. pose proof (no_second_close _ _ _ a Hr) as HC.
  destruct p; try congruence. split; [done|]. exact (late_sends _ _ _ _ Hr Hs).
Qed.
Print Assumptions C58_crashes_partial.
(** A connection on which Unsubscribe is never called does not crash. *)
Theorem C58_no_unsubscribe : forall A cfg y a p, creach A cfg y -> plain_subs (c_gs y) -> (forall g r s f, c_gs y !! g = Some r -> g_op r <> OUnsub s f) -> cstep cfg y a <> Some (CPanic p).
Proof.
  intros A cfg y a p Hr HP HU Hs. destruct (C58_crashes_partial _ _ _ _ _ Hr HP Hs) as (_ & s & b & _ & _ & [[(g & r & f & Hg & Ho & _) _]|(g & r & f & Hg & Ho & _)]); by apply (HU _ _ _ _ Hg) in Ho.
Qed.
Print Assumptions C58_no_unsubscribe.
(** A timed-out Unsubscribe whose receipt arrives at the same time crashes the
    program. *)
Theorem C58_refuted : exists y, creach anything k0 y /\ plain_subs (c_gs y) /\ c_closed y = false /\ cstep k0 y (XRun 1) = Some (CPanic PSendClosedC).
Proof.
  pose proof (cafter_reach (subscribe 0 (fr_sub (lit "1") (lit "/queue/a")) (lit "1") ++ unsub 1 0 (lit "1") ++ [XRun 1; XRun 1; XTimeout 1; XRun 1] ++ handed (fr_receipt (lit "1")) ++ [XLoop 0; XLoop 0; XLoop 0; XLoop 0])
    (fun y => (g_op <$> c_gs y) = [OSubscribe (Some (fr_sub (lit "1") (lit "/queue/a"), lit "1", false)); OUnsub 0 (Some (fr_unsub (lit "1")))] /\ c_closed y = false /\ stops_with y (XRun 1) = Some PSendClosedC)) as HA.
  witness HA. destruct HA as (y & Hr & H1 & H2 & H3). exists y. split_and!; try done; [|by apply stops_with_panic].
  intros g r f id rt Hg Ho. assert ((g_op <$> c_gs y) !! g = Some (g_op r)) as E by (by rewrite list_lookup_fmap, Hg). rewrite H1, Ho in E.
  destruct g as [|[|g]]; cbn in E; [|done|done]. by injection E as <- _ _.
Qed.
Print Assumptions C58_refuted.
