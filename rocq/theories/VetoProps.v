(** A call that is refused changes nothing: C102. *)
From stdpp Require Import gmap.
From Verif Require Import GoBase HeaderModel FrameModel HeaderProofs NegotiationModel ClientApiModel ClientModel ClientSpec ClientLemmas ClientProofs ClientFinal ClientProps OrderSpec OrderProofs VetoSpec VetoProofs.

(* ------------------------------------------------------------------ *)
(** C102.  The step at which a call returns ErrAlreadyClosed, the error of an
    option or ErrCompletedSubscription changes nothing else, except that
    Unsubscribe with a bad option leaves its subscription inactive. *)
Theorem C102_nothing_partial : forall A cfg y a y' g e, creach A cfg y -> cstep cfg y a = Some (COk y') -> veto e ->
  returned y' g (RErr e) -> ~ returned y g (RErr e) ->
  same_but y y' g /\ (c_subs y' = c_subs y \/ exists s, called y g (OUnsub s None) /\ e = EOption /\ deactivated y y' s).
Proof.
  intros A cfg y a y' g e Hr Hs Hv Hret Hn. destruct (veto_first _ _ _ _ _ _ _ Hr Hs Hv Hret Hn) as (-> & r & Hg & Hp).
  destruct (veto_effect _ _ _ _ _ _ Hs Hg Hp Hret) as [H1 [H2|(s & Ho & He & Hd)]]; (split; [done|]); [by left|right]. exists s. split_and!; try done. by exists r.
Qed.
Print Assumptions C102_nothing_partial.
(** From then on, whatever happens, the subscription is not active, every other
    Unsubscribe of it has not begun or returned ErrCompletedSubscription, and
    no Unsubscribe of it has put a frame into the write channel. *)
Theorem C102_lost : forall A cfg y g s, creach A cfg y -> called y g (OUnsub s None) -> returned y g (RErr EOption) ->
  (exists b, c_subs y !! s = Some b /\ b_state b <> SubActive) /\
  forall g' r f, c_gs y !! g' = Some r -> g_op r = OUnsub s f ->
    g' ∉ served y ++ queued y /\ (g' <> g -> g_pc r = GStart \/ g_pc r = GDone (RErr ECompletedSub)).
Proof.
  intros A cfg y g s Hr Hc Hret. destruct (lost _ _ _ _ _ Hr Hc Hret) as [Hb Hl]. split; [done|]. intros g' r f Hg Ho. split.
  - eapply lost_silent; [done..|]. exists r. done.
  - intros Hn. by eapply Hl.
Qed.
Print Assumptions C102_lost.

Local Instance cerr_dec' : EqDecision cerr.
Proof. solve_decision. Defined.
Local Instance cres_dec' : EqDecision cres.
Proof. solve_decision. Defined.
Local Instance cmsg_dec' : EqDecision cmsg.
Proof. solve_decision. Defined.
Local Instance op_dec' : EqDecision op.
Proof. solve_decision. Defined.
(** Send and Subscribe with a bad option, then the same without: both go
    through; the refused calls left the connection as it was. *)
Definition vetoed : list cact := [XCall (OSend None); XRun 0; XCall (OSubscribe None); XRun 1].
Definition subscribed : list cact := subscribe 0 (fr_sub (lit "1") (lit "/queue/a")) (lit "1").
Example C102_case : exists y, creach anything k0 y /\ result y 0 = Some (RErr EOption) /\ result y 1 = Some (RErr EOption) /\
  result y 2 = Some (RSub 0) /\ result y 3 = Some RNil /\ served y = [2; 3].
Proof.
  apply (cafter_reach (vetoed ++ subscribe 2 (fr_sub (lit "1") (lit "/queue/a")) (lit "1") ++ sending 3 (fr_send (lit "x")))
    (fun y => result y 0 = Some (RErr EOption) /\ result y 1 = Some (RErr EOption) /\ result y 2 = Some (RSub 0) /\ result y 3 = Some RNil /\ served y = [2; 3])).
  vm_compute. reflexivity.
Qed.
(** Unsubscribe with a bad option, then without: the second call returns
    ErrCompletedSubscription, nothing was sent to the server, the connection
    is open, and the subscription's messages still arrive on C. *)
Theorem C102_refuted : exists y b, creach anything k0 y /\ result y 1 = Some (RErr EOption) /\ called y 2 (OUnsub 0 (Some (fr_unsub (lit "1")))) /\
  result y 2 = Some (RErr ECompletedSub) /\ served y = [0] /\ queued y = [] /\ c_closed y = false /\ c_subs y !! 0 = Some b /\ b_cclosed b = false /\
  b_read b = [CmMsg (fr_message (lit "1") (lit "x"))].
Proof.
  pose proof (cafter_reach (subscribed ++ [XCall (OUnsub 0 None); XRun 1; XCall (OUnsub 0 (Some (fr_unsub (lit "1")))); XRun 2] ++ consumed 0 (fr_message (lit "1") (lit "x")))
    (fun y => result y 1 = Some (RErr EOption) /\ (g_op <$> c_gs y !! 2) = Some (OUnsub 0 (Some (fr_unsub (lit "1")))) /\ result y 2 = Some (RErr ECompletedSub) /\
      served y = [0] /\ queued y = [] /\ c_closed y = false /\ (b_cclosed <$> c_subs y !! 0) = Some false /\ (b_read <$> c_subs y !! 0) = Some [CmMsg (fr_message (lit "1") (lit "x"))])) as HA.
  witness HA. destruct HA as (y & Hr & H1 & H2 & H3 & H4 & H5 & H6 & H7 & H8). destruct (c_subs y !! 0) as [b|] eqn:Eb; [|done]. injection H7 as E7. injection H8 as E8.
  exists y, b. split_and!; try done. destruct (c_gs y !! 2) as [r|] eqn:Eg; [|done]. injection H2 as E2. by exists r.
Qed.
Print Assumptions C102_refuted.
