(** C99: how long the calls of a client take. *)
From stdpp Require Import gmap.
From Verif Require Import GoBase HeaderModel FrameModel NegotiationModel ClientApiModel ClientModel ClientSpec ClientProps LimitModel LimitSpec LimitProofs.

Fixpoint lrun (c : lcfg) (t : lcl) (l : list lact) : option lcl :=
  match l with [] => Some t | a :: l => match lstep c t a with Some t => lrun c t l | None => None end end.
(** Every state in which the clock advances satisfies [room]. *)
Definition roomb (t : lcl) : bool := forallb (fun r => match g_pc r with GPut FSend _ => true | GPut _ _ => false | _ => true end) (c_gs (l_cl t)).
Fixpoint roomy (c : lcfg) (t : lcl) (l : list lact) : bool :=
  match l with [] => true | a :: l => (match a with LTick => roomb t | _ => true end) && match lstep c t a with Some t => roomy c t l | None => true end end.
Lemma roomb_ok t : roomb t = true -> room t.
Proof.
  unfold roomb. rewrite forallb_forall. intros H g r k q Hg Hp. specialize (H r). rewrite Hp in H. assert (In r (c_gs (l_cl t))) as Hi by (apply elem_of_list_In; by eapply elem_of_list_lookup_2). specialize (H Hi). by destruct k.
Qed.
Lemma lrun_room c t l t' : lreach c room t -> roomy c t l = true -> lrun c t l = Some t' -> lreach c room t'.
Proof.
  revert t. induction l as [|a l IH]; intros t Hr; cbn [roomy lrun]; [by intros _ [= <-]|]. intros [H1 H2]%andb_true_iff. destruct (lstep c t a) as [t1|] eqn:E; [|done]. apply IH; [|done]. eapply lr_step; [done..|]. intros ->. by apply roomb_ok.
Qed.
Lemma room_any c t : lreach c room t -> lreach c (fun _ => True) t.
Proof. induction 1 as [|t a t' _ IH Hs _]; [constructor|]. by eapply lr_step. Qed.
Lemma lafter_reach c l (P : lcl -> Prop) {D : forall t, Decision (P t)} : match lrun c l_init l with Some t => bool_decide (P t) && roomy c l_init l | None => false end = true -> exists t, lreach c room t /\ P t.
Proof. destruct (lrun c l_init l) as [t|] eqn:E; [|done]. intros [H1%bool_decide_eq_true H2]%andb_true_iff. exists t. split; [|done]. eapply lrun_room; [constructor|done..]. Qed.

(** A timeout is reported only if it is set and only after that time has
    passed. *)
Theorem C99_early c t g : lreach c (fun _ => True) t ->
  (gave t g (RErr ESendTimeout) -> 0 < l_msg c <= elapsed t g) /\
  (forall f, asked t g (OSend f) -> gave t g (RErr EReceiptTimeout) -> 0 < l_rcv c <= elapsed t g) /\
  (forall rid, asked t g (ODisconnect rid) -> gave t g (RErr EReceiptTimeout) -> 0 < l_disc c <= elapsed t g) /\
  (gave t g (RErr EUnsubTimeout) -> 0 < l_unsub c <= elapsed t g).
Proof.
  intros Hr. assert (H : forall r x k, c_gs (l_cl t) !! g = Some r -> g_pc r = GDone x -> rmark (g_op r) x = Some k -> 0 < duration c k <= elapsed t g).
  { intros r x k Hg Hx Hk. split; [eapply reach_set; [exact Hr|exact Hg|by rewrite Hx]|].
    destruct (reach_early _ _ _ Hr _ _ Hg) as [_ _ _ I]. specialize (I k). rewrite Hx in I. specialize (I Hk). unfold elapsed. change (if is_done (l_cl t) g then l_end t g else l_now t) with (finish t g). lia. }
  split_and!.
  - intros (r & Hg & Hx). by apply (H _ _ TkMsg Hg Hx).
  - intros f (r0 & Hg0 & Ho) (r & Hg & Hx). apply (H _ _ TkRcv Hg Hx). assert (r0 = r) as -> by congruence. by rewrite Ho.
  - intros f (r0 & Hg0 & Ho) (r & Hg & Hx). apply (H _ _ TkDisc Hg Hx). assert (r0 = r) as -> by congruence. by rewrite Ho.
  - intros (r & Hg & Hx). by apply (H _ _ TkUnsub Hg Hx).
Qed.
Print Assumptions C99_early.
(** The clock is never held up: if it does not advance, a call can go on or is
    told that its timer has expired, or the client crashes (C58). *)
Theorem C99_clock c t : is_Some (lstep c t LTick) \/ (exists g a, (a = XRun g \/ a = XTimeout g) /\ is_Some (lstep c t (LAct a))) \/
  exists g p, cstep (untimed c) (l_cl t) (XRun g) = Some (CPanic p).
Proof. apply clock_moves. Qed.
Print Assumptions C99_clock.

(** With all timeouts set: while no call other than Send has to wait for room in
    the write channel, a call other than Unsubscribe takes at most as long as
    the Sends and Disconnects in progress at the same time may keep the mutex,
    its own part included, and the wait for a receipt in sendFrame. *)
Theorem C99_time_partial c t g o : all_set c -> lreach c room t -> asked t g o -> (forall s f, o <> OUnsub s f) ->
  elapsed t g <= total_limit c t g + rest_limit c o.
Proof. intros HS Hr (r & Hg & <-) Hu. by apply late. Qed.
Print Assumptions C99_time_partial.
(** A call without company takes at most its own timeouts. *)
Theorem C99_alone_partial c t g o : all_set c -> lreach c room t -> asked t g o -> (forall s f, o <> OUnsub s f) ->
  (forall h, h <> g -> h < length (c_gs (l_cl t)) -> overlap t g h = false) -> elapsed t g <= limit c o + rest_limit c o.
Proof.
  intros HS Hr (r & Hg & <-) Hu Ha. pose proof (late _ _ _ _ HS Hr Hg Hu) as Hl. enough (total_limit c t g <= limit c (g_op r)) by lia.
  unfold total_limit. rewrite sumn_seq. pose proof (lookup_lt_Some _ _ _ Hg) as Hlt.
  assert (H : forall n, n <= length (c_gs (l_cl t)) -> sumn (fun h => if overlap t g h then match c_gs (l_cl t) !! h with Some r => limit c (g_op r) | None => 0 end else 0) n <= if decide (g < n) then limit c (g_op r) else 0).
  { induction n as [|n IH]; intros Hn; [cbn; lia|]. cbn [sumn]. specialize (IH ltac:(lia)). destruct (decide (n = g)) as [->|Hne].
    - rewrite decide_False in IH by lia. rewrite decide_True by lia. rewrite Hg. destruct (overlap t g g); lia.
    - rewrite Ha by lia. destruct (decide (g < n)); destruct (decide (g < S n)); lia. }
  specialize (H _ (Nat.le_refl _)). by rewrite decide_True in H by done.
Qed.
Print Assumptions C99_alone_partial.

(* ---------------- refuted ---------------- *)
Definition cl1 : lcfg := mkLim 20 1 2 3 4 5 6 true.
Definition plain : frame := fr_send (lit "a").
Definition run g := LAct (XRun g).
Definition calls_send := LAct (XCall (OSend (Some plain))).
(** The write channel holds one request; three more Sends wait one after the
    other. *)
Definition queue_run : list lact := [calls_send; run 0; run 0; calls_send; run 1; calls_send; calls_send; LTick; LTick; LAct (XTimeout 1); run 2; LTick; LTick; LAct (XTimeout 2); run 3; LTick; LTick; LAct (XTimeout 3)].
Local Existing Instances cerr_dec cres_dec op_dec gpc_dec gor_dec from_dec wreq_dec clpc_dec cmsg_dec.
Theorem C99_send_refuted : ~ forall c t g f, all_set c -> lreach c room t -> asked t g (OSend (Some f)) -> elapsed t g <= l_msg c + l_rcv c.
Proof.
  intros H. pose proof (lafter_reach cl1 queue_run (fun t => elapsed t 3 = 6 /\ g_op <$> c_gs (l_cl t) !! 3 = Some (OSend (Some plain)))) as HA. witness HA. destruct HA as (t & Hr & He & (r & Ho & Hg)%fmap_Some).
  specialize (H cl1 t 3 plain). rewrite He in H. cbn in H. enough (6 <= 5) by lia. apply H; [repeat split; cbn; lia|done|]. exists r. done.
Qed.
Print Assumptions C99_send_refuted.
(** If a Subscribe has to wait for room there is no bound at all: Send waits for
    the mutex without a timeout. *)
Definition stuck_run : list lact := [calls_send; run 0; run 0; LAct (XCall (OSubscribe (Some (fr_sub (lit "1") (lit "/queue/a"), lit "1", false)))); run 1; calls_send].
Lemma lrun_any c t l t' : lreach c (fun _ => True) t -> lrun c t l = Some t' -> lreach c (fun _ => True) t'.
Proof. revert t. induction l as [|a l IH]; intros t Hr; cbn [lrun]; [by intros [= <-]|]. destruct (lstep c t a) as [t1|] eqn:E; [|done]. apply IH. by eapply lr_step. Qed.
Lemma lafter_any c l (P : lcl -> Prop) {D : forall t, Decision (P t)} : match lrun c l_init l with Some t => bool_decide (P t) | None => false end = true -> exists t, lreach c (fun _ => True) t /\ P t.
Proof. destruct (lrun c l_init l) as [t|] eqn:E; [|done]. intros H1%bool_decide_eq_true. exists t. split; [|done]. eapply lrun_any; [constructor|done..]. Qed.
Definition stays (c : lcfg) (t : lcl) : bool := forallb (fun g => match do_run (untimed c) (l_cl t) g, timer_at (l_cl t) g with None, None => true | _, _ => false end) (seq 0 (length (c_gs (l_cl t)))).
Lemma stays_ticks c t n : lreach c (fun _ => True) t -> stays c t = true -> lreach c (fun _ => True) (mkL (l_cl t) (n + l_now t) (l_since t) (l_call t) (l_end t)).
Proof.
  intros Hr Hs. induction n as [|n IH]; [by destruct t|]. eapply (lr_step _ _ _ LTick); [exact IH| |done]. unfold lstep. cbn [l_cl l_now l_since l_call l_end].
  replace (forallb _ _) with true; [done|]. symmetry. apply forallb_forall. intros g Hg. unfold stays in Hs. rewrite forallb_forall in Hs. specialize (Hs _ Hg). unfold waits, due. cbn [l_cl].
  destruct (do_run (untimed c) (l_cl t) g); [done|]. by destruct (timer_at (l_cl t) g).
Qed.
Theorem C99_unbounded_refuted : ~ forall c, all_set c -> exists limit, forall t g f, lreach c (fun _ => True) t -> asked t g (OSend (Some f)) -> elapsed t g <= limit.
Proof.
  intros H. destruct (H cl1) as [n Hn]; [repeat split; cbn; lia|]. pose proof (lafter_any cl1 stuck_run (fun t => stays cl1 t = true /\ is_done (l_cl t) 2 = false /\ l_call t 2 = 0 /\ g_op <$> c_gs (l_cl t) !! 2 = Some (OSend (Some plain)))) as HA. witness HA.
  destruct HA as (t & Hr & Hs & Hd & Hc & (r & Ho & Hg)%fmap_Some). specialize (Hn _ 2 plain (stays_ticks _ _ (S n) Hr Hs)). assert (S n <= n); [|lia]. etrans; [|apply Hn].
  - unfold elapsed. cbn [l_cl l_now l_call l_end]. rewrite Hd, Hc. lia.
  - exists r. cbn [l_cl]. done.
Qed.
Print Assumptions C99_unbounded_refuted.

(* ---------------- examples ---------------- *)
Definition confirmed_send : frame := mkFrame (lit "SEND") [(lit "destination", lit "/queue/a"); (lit "receipt", lit "7")] [].
Definition confirmed_ack : frame := mkFrame (lit "ACK") [(lit "id", lit "1"); (lit "receipt", lit "8")] [].
(** A Send with a receipt that never comes returns after exactly the two
    timeouts, one of which it does not use up; an Ack with a receipt made
    meanwhile waits for it and then for its own receipt; both bounds are met. *)
Definition company_run : list lact := [LAct (XCall (OSend (Some confirmed_send))); run 0; run 0; LTick; LAct (XCall (OFrame confirmed_ack)); run 1; LTick; LTick; LAct (XTimeout 0); LAct (XTakeWrite true); run 1; run 1; LTick; LTick; LTick; LTick; LTick; LTick; LAct (XTimeout 1)].
Example C99_company : exists t, lreach cl1 room t /\ elapsed t 0 = 3 /\ elapsed t 1 = 8 /\ total_limit cl1 t 0 + rest_limit cl1 (OSend (Some confirmed_send)) = 5 /\ total_limit cl1 t 1 + rest_limit cl1 (OFrame confirmed_ack) = 11 /\
  c_gs (l_cl t) !! 0 = Some (mkGor (OSend (Some confirmed_send)) (GDone (RErr EReceiptTimeout))) /\ c_gs (l_cl t) !! 1 = Some (mkGor (OFrame confirmed_ack) (GDone (RErr EClosedUnexpectedly))).
Proof.
  pose proof (lafter_reach cl1 company_run (fun t => elapsed t 0 = 3 /\ elapsed t 1 = 8 /\ total_limit cl1 t 0 + rest_limit cl1 (OSend (Some confirmed_send)) = 5 /\ total_limit cl1 t 1 + rest_limit cl1 (OFrame confirmed_ack) = 11 /\
    c_gs (l_cl t) !! 0 = Some (mkGor (OSend (Some confirmed_send)) (GDone (RErr EReceiptTimeout))) /\ c_gs (l_cl t) !! 1 = Some (mkGor (OFrame confirmed_ack) (GDone (RErr EClosedUnexpectedly))))) as HA.
  witness HA. exact HA.
Qed.
(** The bound of C99_time_partial is reached: Send 3 of [queue_run] takes the
    time of all three that wait. *)
Example C99_tight : exists t, lreach cl1 room t /\ elapsed t 3 = 6 /\ total_limit cl1 t 3 + rest_limit cl1 (OSend (Some plain)) = 6 /\ g_pc <$> c_gs (l_cl t) !! 3 = Some (GDone (RErr ESendTimeout)).
Proof.
  pose proof (lafter_reach cl1 queue_run (fun t => elapsed t 3 = 6 /\ total_limit cl1 t 3 + rest_limit cl1 (OSend (Some plain)) = 6 /\ g_pc <$> c_gs (l_cl t) !! 3 = Some (GDone (RErr ESendTimeout)))) as HA. witness HA. exact HA.
Qed.
(** Two calls one after the other do not overlap. *)
Example C99_alone : exists t, lreach cl1 room t /\ elapsed t 1 = 4 /\ overlap t 1 0 = false /\ length (c_gs (l_cl t)) = 2 /\ g_pc <$> c_gs (l_cl t) !! 1 = Some (GDone (RErr EReceiptTimeout)).
Proof.
  pose proof (lafter_reach cl1 [calls_send; run 0; run 0; LAct (XTakeWrite true); LTick; LAct (XCall (ODisconnect (lit "9"))); run 1; run 1; LTick; LTick; LAct (XTakeWrite true); LTick; LTick; LAct (XTimeout 1)]
    (fun t => elapsed t 1 = 4 /\ overlap t 1 0 = false /\ length (c_gs (l_cl t)) = 2 /\ g_pc <$> c_gs (l_cl t) !! 1 = Some (GDone (RErr EReceiptTimeout)))) as HA. witness HA. exact HA.
Qed.
