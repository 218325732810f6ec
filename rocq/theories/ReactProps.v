(** C83: what the client does with every frame it reads, and how a
    connection ends. *)
From stdpp Require Import gmap.
From Verif Require Import GoBase HeaderModel FrameModel NegotiationModel ClientApiModel ClientModel ClientSpec ClientLemmas ClientProofs ClientEnd ReactSpec ReactProofs ClientProps.
Local Existing Instances ClientProps.pev_dec ClientProps.cres_dec ClientProps.cmsg_dec ClientProps.gor_dec ClientProps.ppc_dec.

(** C83.  A RECEIPT or MESSAGE that processLoop takes is handed, before
    anything else happens, to the one who waits under its name: the call that
    wrote a frame with this receipt, or the subscription of this id.  If
    nobody waits under it, nothing is handed to anyone because of it. *)
Theorem C83_frame : forall (A : cact -> Prop) cfg y l1 f l2 k, creach A cfg y -> c_log y = l1 ++ PvIn (Some f) :: l2 -> routed f = Some k ->
  (exists ch, ClientEnd.listens l1 k ch /\ ((exists l3, l2 = PvTold ch f :: l3) \/ l2 = [] /\ exists kk, c_p y = PSend ch f kk)) \/
  (forall ch, ~ ClientEnd.listens l1 k ch) /\ quiet A cfg y l2.
Proof.
  intros A cfg y l1 f l2 k Hr El Hk. assert (ends (PvIn (Some f)) = None) as He by (apply routed_routes in Hk as [kk Hk]; by eapply routes_calm).
  destruct (reach_treated _ _ _ Hr _ _ _ El He) as [(f' & k' & ch & [= <-] & H2 & H3 & H4)|[H1 H2]].
  - simplify_eq. left. exists ch. split; [done|]. destruct H4 as [(-> & id & kk & _ & H5)|H4]; [right; split; [done|by exists kk]|by left].
  - right. split; [|done]. intros ch. by eapply H1.
Qed.
Print Assumptions C83_frame.
(** Heart-beats, frames with any other command and MESSAGE frames without a
    subscription do nothing. *)
Theorem C83_ignored : forall (A : cact -> Prop) cfg y l1 o l2, creach A cfg y -> c_log y = l1 ++ PvIn o :: l2 -> ends (PvIn o) = None -> (forall f, o = Some f -> routed f = None) -> quiet A cfg y l2.
Proof.
  intros A cfg y l1 o l2 Hr El He Hn. destruct (reach_treated _ _ _ Hr _ _ _ El He) as [(f & k & ch & -> & H2 & _)|[_ H2]]; [|done]. by rewrite (Hn f eq_refl) in H2.
Qed.
Print Assumptions C83_ignored.
(** An ERROR frame, a RECEIPT without receipt-id and a failed write end the
    connection: nothing more is read or written, and everybody who waits for
    something is told, each once; everybody once processLoop is through. *)
Theorem C83_ends : forall (A : cact -> Prop) cfg y l1 e l2 f, creach A cfg y -> c_log y = l1 ++ e :: l2 -> ends e = Some f ->
  exists ks rest, l2 = spread f ks /\ waiters (l1 ++ [e]) (ks ++ rest) /\ c_p y <> PLoop /\ (ended y -> rest = []).
Proof. intros A cfg y l1 e l2 f. apply event_ends. Qed.
Print Assumptions C83_ends.
(** A connection ends for no other reason than these, a closed network
    connection, a disconnecting program, a read timeout (if there is one) and
    a heart-beat that could not be written (if there are any); and whatever
    the reason, everybody who waits is told, each once, and nothing else
    happens. *)
Theorem C83_end : forall (A : cact -> Prop) cfg y, creach A cfg y -> ended y -> exists l f ks, c_log y = l ++ spread f ks /\ waiters l ks /\ ended_by A cfg y l f.
Proof. intros A cfg y. apply end_shape. Qed.
Print Assumptions C83_end.

Definition told_both : list pev :=
            [PvReq (mkReq 0 (fr_sub (lit "7") (lit "/queue/a")) (Some 0)) (Some (fr_sub (lit "7") (lit "/queue/a"), true));
             PvReq (mkReq 1 (fr_send_receipt (lit "4") (lit "b")) (Some 1)) (Some (fr_send_receipt (lit "4") (lit "b"), true));
             PvIn None; PvIn (Some (mkFrame CONNECTED [] [])); PvIn (Some (fr_receipt (lit "5")));
             PvIn (Some (fr_receipt (lit "4"))); PvTold 1 (fr_receipt (lit "4"));
             PvIn (Some (fr_message (lit "7") (lit "m"))); PvTold 0 (fr_message (lit "7") (lit "m"));
             PvReq (mkReq 2 (fr_send_receipt (lit "6") (lit "c")) (Some 2)) (Some (fr_send_receipt (lit "6") (lit "c"), true));
             PvIn (Some fr_error)] ++ spread fr_error [(lit "6", 2); (lit "7", 0)].
(** A subscription, a Send waiting for its receipt, then a heart-beat, a
    CONNECTED frame and a RECEIPT nobody waits for (nothing happens), the
    RECEIPT and a MESSAGE (handed over), and an ERROR while another Send
    waits: both hear of it. *)
Example C83_example : exists y, creach anything k0 y /\ c_p y = PEnd /\ result y 1 = Some RNil /\ result y 2 = Some (RErr (EResponse fr_error)) /\
  c_log y = told_both.
Proof.
  pose proof (cafter_reach (subscribe 0 (fr_sub (lit "7") (lit "/queue/a")) (lit "7") ++ sending 1 (fr_send_receipt (lit "4") (lit "b")) ++
    [XRecv None; XTakeRead] ++ arrives (mkFrame CONNECTED [] []) ++ arrives (fr_receipt (lit "5")) ++ handed (fr_receipt (lit "4")) ++
    consumed 0 (fr_message (lit "7") (lit "m")) ++ sending 2 (fr_send_receipt (lit "6") (lit "c")) ++ arrives fr_error ++ [XPick 0; XDeliver; XPick 0; XDeliver; XFinish; XFinish; XFinish])
    (fun y => c_p y = PEnd /\ result y 1 = Some RNil /\ result y 2 = Some (RErr (EResponse fr_error)) /\ c_log y = told_both)) as HA. witness HA. exact HA.
Qed.
(** A RECEIPT without receipt-id ends the connection too: the waiting Send is
    told so. *)
Example C83_receipt : exists y, creach anything k0 y /\ ended y /\ result y 0 = Some (RErr (EResponse (own_error (lit "missing receipt-id")))) /\
  ends (PvIn (Some (mkFrame RECEIPT [] []))) = Some (own_error (lit "missing receipt-id")).
Proof.
  pose proof (cafter_reach (sending 0 (fr_send_receipt (lit "4") (lit "b")) ++ arrives (mkFrame RECEIPT [] []) ++ [XPick 0; XDeliver; XFinish; XFinish])
    (fun y => c_p y = PEnd /\ result y 0 = Some (RErr (EResponse (own_error (lit "missing receipt-id")))))) as HA. witness HA.
  destruct HA as (y & H1 & H2 & H3). exists y. split_and!; try done. by right.
Qed.
