(** C85: what a program sees on a subscription's channel C, up to its end. *)
From stdpp Require Import gmap.
From Verif Require Import GoBase HeaderModel FrameModel NegotiationModel ClientApiModel ClientModel ClientSpec ClientLemmas ClientProofs ClientClosing ClientRestSpec ClientEnd ReactSpec ReactProofs SubEndSpec SubEndProofs ClientProps.
Local Existing Instances ClientProps.pev_dec ClientProps.cres_dec ClientProps.cmsg_dec ClientProps.gor_dec ClientProps.ppc_dec ClientProps.rlpc_dec.

(** C85.  On C there are, in order, the messages processLoop handed to the
    subscription, then, if it handed over an ERROR, this error, and nothing
    else; a reply-to subscription that is ended by the program gets an error
    of the client's own.  (Unless an Unsubscribe call puts an error there
    itself: it found the connection closed or its timeout expired.) *)
Theorem C85_stream : forall (A : cact -> Prop) cfg y s b, creach A cfg y -> c_subs y !! s = Some b -> ~ meddles y s ->
  exists x, rest_ok (c_log y) (b_ch b) x /\ b_read b ++ b_buf b ++ in_hand (b_rl b) = shown (told (b_ch b) (c_log y)) ++ x.
Proof. intros A cfg y s b. apply sub_stream. Qed.
Print Assumptions C85_stream.
(** C is closed only after a RECEIPT or an ERROR was handed over, or a reply-to
    subscription was ended; by then Active() is false and everything is on C. *)
Theorem C85_closed : forall (A : cact -> Prop) cfg y s b, creach A cfg y -> c_subs y !! s = Some b -> ~ meddles y s -> b_cclosed b = true ->
  ((exists f, f ∈ told (b_ch b) (c_log y) /\ final f) \/ cut (c_log y) (b_ch b)) /\ b_state b = SubClosed /\
  exists x, rest_ok (c_log y) (b_ch b) x /\ b_read b ++ b_buf b = shown (told (b_ch b) (c_log y)) ++ x.
Proof.
  intros A cfg y s b Hr Hb Hme Hcl. destruct (sub_closed _ _ _ _ _ Hr Hb Hme Hcl) as (H1 & H2 & H3). split_and!; try done.
  destruct (sub_stream _ _ _ _ _ Hr Hb Hme) as (x & Hx & E). exists x. split; [done|]. rewrite H2 in E. cbn [in_hand] in E. by rewrite app_nil_r in E.
Qed.
Print Assumptions C85_closed.
(** Once a client is at rest, the program has received all of it, and C is
    closed if a RECEIPT or an ERROR was handed over or a reply-to subscription
    was ended, and only then. *)
Theorem C85_rest : forall (A : cact -> Prop) cfg y s b, creach A cfg y -> at_rest cfg y -> c_subs y !! s = Some b -> ~ meddles y s ->
  (exists x, rest_ok (c_log y) (b_ch b) x /\ b_read b = shown (told (b_ch b) (c_log y)) ++ x) /\
  (b_cclosed b = true <-> (exists f, f ∈ told (b_ch b) (c_log y) /\ final f) \/ cut (c_log y) (b_ch b)).
Proof. intros A cfg y s b. apply sub_rest. Qed.
Print Assumptions C85_rest.
(** When a connection ended, every subscription that was in force received the
    frame that ended it as an error, after its messages, and then C was
    closed. *)
Theorem C85_error : forall (A : cact -> Prop) cfg y s b l f ks k, creach A cfg y -> at_rest cfg y -> c_subs y !! s = Some b -> ~ meddles y s ->
  c_log y = l ++ spread f ks -> waiters l ks -> ended_by A cfg y l f -> ClientEnd.listens l k (b_ch b) ->
  b_cclosed b = true /\ exists l', b_read b = l' ++ [CmErr (Some f)] /\ Forall (fun m => exists f, m = CmMsg f) l'.
Proof. intros A cfg y s b l f ks k. apply sub_error. Qed.
Print Assumptions C85_error.

Definition seen (y : cl) (s : nat) : option (list cmsg * bool) := (fun b => (b_read b, b_cclosed b)) <$> c_subs y !! s.
(** Two subscriptions, a message for each, one is unsubscribed, then an ERROR:
    one sees its message and the end, the other its messages and the error. *)
Example C85_example : exists y, creach anything k0 y /\ c_p y = PEnd /\
  seen y 0 = Some ([CmMsg (fr_message (lit "7") (lit "m"))], true) /\
  seen y 1 = Some ([CmMsg (fr_message (lit "8") (lit "n")); CmMsg (fr_message (lit "8") (lit "o")); CmErr (Some fr_error)], true).
Proof.
  pose proof (cafter_reach (subscribe 0 (fr_sub (lit "7") (lit "/queue/a")) (lit "7") ++ subscribe 1 (fr_sub (lit "8") (lit "/queue/b")) (lit "8") ++
    consumed 0 (fr_message (lit "7") (lit "m")) ++ consumed 1 (fr_message (lit "8") (lit "n")) ++ unsub 2 0 (lit "7") ++ handed (fr_receipt (lit "7")) ++ [XLoop 0; XLoop 0; XLoop 0; XLoop 0] ++
    consumed 1 (fr_message (lit "8") (lit "o")) ++ arrives fr_error ++ [XPick 0; XDeliver; XFinish; XFinish; XFinish; XLoop 1; XLoop 1; XLoop 1; XLoop 1; XConsume 1])
    (fun y => c_p y = PEnd /\ seen y 0 = Some ([CmMsg (fr_message (lit "7") (lit "m"))], true) /\
       seen y 1 = Some ([CmMsg (fr_message (lit "8") (lit "n")); CmMsg (fr_message (lit "8") (lit "o")); CmErr (Some fr_error)], true))) as HA. witness HA. exact HA.
Qed.
Definition fr_sub_rt : frame := mkFrame SUBSCRIBE [(lit "destination", lit "/temp-queue/a"); (lit "ack", lit "auto"); (lit "reply-to", lit "r"); (lit "id", lit "r")] [].
Definition fr_unsub_rt : frame := mkFrame UNSUBSCRIBE [(lit "id", lit "r"); (lit "reply-to", lit "r")] [].
(** A reply-to subscription ended by the program: its message, an error of the
    client's own, and the end. *)
Example C85_reply : exists y, creach anything k0 y /\ c_p y = PLoop /\ seen y 0 = Some ([CmMsg (fr_message (lit "r") (lit "m")); CmErr None], true).
Proof.
  pose proof (cafter_reach ([XCall (OSubscribe (Some (fr_sub_rt, lit "r", true))); XRun 0; XRun 0; XTakeWrite true] ++ consumed 0 (fr_message (lit "r") (lit "m")) ++
    [XCall (OUnsub 0 (Some fr_unsub_rt)); XRun 1; XRun 1; XRun 1; XTakeWrite true; XLoop 0; XLoop 0; XLoop 0; XLoop 0; XLoop 0; XConsume 0])
    (fun y => c_p y = PLoop /\ seen y 0 = Some ([CmMsg (fr_message (lit "r") (lit "m")); CmErr None], true))) as HA. witness HA. exact HA.
Qed.
