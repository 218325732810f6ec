(** Situations that last: a closed connection, a processLoop that has ended or
    that is stuck, a waiter that missed its wake-up. *)
From stdpp Require Import gmap.
From Verif Require Import GoBase HeaderModel FrameModel HeaderProofs NegotiationModel ClientApiModel ClientModel ClientSpec ClientLemmas ClientProofs ClientRequests ClientCalls ClientChannels ClientReceipts ClientDelivery ClientMessages.

(* ---------------- closed: the mutex is free ---------------- *)
Lemma closed_mut_step cfg y a y' : cmv cfg y a y' -> (c_closed y = true -> c_mut y = None) -> c_closed y' = true -> c_mut y' = None.
Proof.
  destruct 1; cbn; intros HI; try done; try (by intros E; specialize (HI E)); try (intros _; congruence).
  - unfold submit. by destruct own; cbn; congruence.
  - congruence.
  - destruct (put_next k (q_chan q)).2; cbn; done.
  - by destruct w.
  - set (y1 := with_log (after_send y ch k) (PvTold ch f)) in *.
    assert (c_closed y1 = c_closed y) as E1 by (subst y1; by destruct k as [| |? ? []]). assert (c_mut y1 = c_mut y) as E2 by (subst y1; by destruct k as [| |? ? []]).
    rewrite <-E1, <-E2 in HI. match goal with H : answers _ _ _ _ _ |- _ => destruct H end; cbn; done.
  - by destruct k as [| |? ? []].
Qed.
Lemma reach_closed_mut A cfg y : creach A cfg y -> c_closed y = true -> c_mut y = None.
Proof. induction 1 as [|y a y' Hr IH _ Hs]; [done|]. by eapply closed_mut_step; [apply cstep_cmv|]. Qed.

(* ---------------- a property kept by every run ---------------- *)
Lemma run_keeps (P : cl -> Prop) (A : cact -> Prop) cfg y l y' : (forall y a y', creach anything cfg y -> P y -> A a -> cmv cfg y a y' -> P y') ->
  creach anything cfg y -> P y -> Forall A l -> crun cfg y l = Some (COk y') -> P y'.
Proof.
  intros HP. revert y. induction l as [|a l IH]; intros y Hr Hy HA; cbn [crun]; [by intros [= <-]|]. apply Forall_cons in HA as [Ha HA].
  destruct (cstep cfg y a) as [[p|y1]|] eqn:E; try done. apply IH; [by eapply cr_step| |done]. eapply HP; try done. by apply cstep_cmv.
Qed.
Lemma Forall_any (l : list cact) : Forall anything l.
Proof. by apply Forall_true. Qed.

(* ---------------- processLoop has ended ---------------- *)
Lemma ended_step cfg y a y' : cmv cfg y a y' -> c_p y = PEnd -> c_p y' = PEnd /\ c_log y' = c_log y.
Proof. intros Hm%cmv_pmove HE. destruct Hm; try congruence. split; congruence. Qed.

(* ---------------- calls and subscriptions, step by step ---------------- *)
(** Where a call goes when it gets the response f. *)
Definition answer_pc (w : from) (f : frame) : gpc :=
  let r : cres := if decide (f_cmd f = RECEIPT) then RNil else RErr (EResponse f) in
  match w with FFrame u => frame_done u r | _ => GDone r end.
(** Steps of a call that leave the subscriptions alone. *)
Inductive gstep (cfg : ccfg) (y : cl) (a : cact) (g : nat) (o : op) : gpc -> gpc -> Prop :=
| gt_move (t : bool) x x' : a = (if t then XTimeout g else XRun g) -> gmove cfg y g o t x x' -> gstep cfg y a g o x x'
| gt_send_to q : a = XTimeout g -> gstep cfg y a g o (GPut FSend q) (GDone (RErr ESendTimeout))
| gt_rcv_to ch : a = XTimeout g -> gstep cfg y a g o (GWait FSend ch) (GDone (RErr EReceiptTimeout))
| gt_disc_to ch : a = XTimeout g -> gstep cfg y a g o (GWait FDisc ch) (GDone (RErr EReceiptTimeout))
| gt_must : o = OMust -> gstep cfg y a g o GStart (GDone RNil)
| gt_submit x k f q : submits o x k f -> q_frame q = f -> gstep cfg y a g o x (GPut k q)
| gt_put k q : gstep cfg y a g o (GPut k q) (put_next k (q_chan q)).1
| gt_told ch f k w : c_p y = PSend ch f k -> a = XDeliver -> gstep cfg y a g o (GWait w ch) (answer_pc w f).
(** Steps of a subscription's goroutine and consumer. *)
Inductive rstep (y : cl) (a : cact) (s : nat) (b : csub) : csub -> Prop :=
| rt_got f k : a = XDeliver -> c_p y = PSend (b_ch b) f k -> b_rl b = RlRecv -> rstep y a s b (b_with_rl b (rl_got b (Some f)))
| rt_none : a = XLoop s -> b_rl b = RlRecv -> h_is_closed y (b_ch b) = true -> rstep y a s b (b_with_rl b (rl_got b None))
| rt_put m : a = XLoop s -> b_rl b = RlPut m -> b_cclosed b = false -> length (b_buf b) < cap_c -> rstep y a s b (b_with_rl (b_with_buf b (b_buf b ++ [m])) RlRecv)
| rt_close c b' o : a = XLoop s -> b_rl b = RlClose c -> clmove b c b' o -> rstep y a s b (b_with_rl b' (match o with Some c' => RlClose c' | None => RlDone end))
| rt_consume m l : a = XConsume s -> b_buf b = m :: l ->
    rstep y a s b (mkCsub (b_by b) (b_id b) (b_reply b) (b_ch b) (b_state b) l (b_cclosed b) (b_once b) (b_rl b) (b_wait b) (b_read b ++ [m])).
(** Steps of Unsubscribe that change the subscription. *)
Inductive ustep (g : nat) (o : op) (s : nat) (b : csub) : gpc -> csub -> gpc -> Prop :=
| us_start f : o = OUnsub s f -> b_state b = SubActive ->
    ustep g o s b GStart (b_with_state b SubClosing) (match f with None => GDone (RErr EOption) | Some f => GFrame (Some s) f end)
| us_close c res b' oc : clmove b c b' oc -> ustep g o s b (GClose s c res) b' (match oc with Some c' => GClose s c' res | None => GDone res end)
| us_reg : ustep g o s b (GReg s) (b_with_wait b (g :: b_wait b)) (GBlocked s)
| us_puterr : b_cclosed b = false -> length (b_buf b) < cap_c -> ustep g o s b (GPutErr s) (b_with_buf b (b_buf b ++ [CmErr None])) (GDone (RErr EUnsubTimeout)).
Inductive wmove (cfg : ccfg) (y : cl) (a : cact) (y' : cl) : Prop :=
| wm_none : c_gs y' = c_gs y -> c_subs y' = c_subs y -> wmove cfg y a y'
| wm_call o : op_ok o = true -> c_gs y' = c_gs y ++ [mkGor o GStart] -> c_subs y' = c_subs y -> wmove cfg y a y'
| wm_g g r x : c_gs y !! g = Some r -> gstep cfg y a g (g_op r) (g_pc r) x -> c_gs y' = c_gs (with_g y g x) -> c_subs y' = c_subs y -> wmove cfg y a y'
| wm_new g r f id rt : c_gs y !! g = Some r -> g_pc r = GStart -> g_op r = OSubscribe (Some (f, id, rt)) ->
    c_gs y' = c_gs (with_g y g (GPut (FSub (length (c_subs y))) (mkReq g f (Some (length (c_chs y)))))) ->
    c_subs y' = c_subs y ++ [new_sub g id rt (length (c_chs y))] -> wmove cfg y a y'
| wm_b s b b' : c_subs y !! s = Some b -> rstep y a s b b' -> c_gs y' = c_gs y -> c_subs y' = <[s := b']> (c_subs y) -> wmove cfg y a y'
| wm_gb g r x s b b' : c_gs y !! g = Some r -> c_subs y !! s = Some b -> a = XRun g -> ustep g (g_op r) s b (g_pc r) b' x ->
    c_gs y' = c_gs (with_g y g x) -> c_subs y' = <[s := b']> (c_subs y) -> wmove cfg y a y'.
Lemma cmv_wmove cfg y a y' : cmv cfg y a y' -> reqinv y -> mapinv y -> wmove cfg y a y'.
Proof.
  intros Hm HR HM. destruct Hm; try (by apply wm_none); try (by eapply wm_b; [done|by econstructor|reflexivity|reflexivity]).
  - by eapply wm_call.
  - eapply wm_g; [done|by eapply gt_move|reflexivity|reflexivity].
  - eapply wm_g; [done|rewrite H0; by apply gt_send_to|reflexivity|reflexivity].
  - eapply wm_g; [done|rewrite H0; by apply gt_rcv_to|reflexivity|reflexivity].
  - eapply wm_g; [done|rewrite H0; by apply gt_disc_to|reflexivity|reflexivity].
  - eapply wm_g; [done|rewrite H0; by apply gt_must|reflexivity|reflexivity].
  - eapply wm_gb; [done|done|done|rewrite H0; by apply us_start|reflexivity|reflexivity].
  - eapply wm_g; [done|by eapply (gt_submit _ _ _ _ _ _ _ _ (mkReq g f _))|apply submit_gs'|apply submit_same].
  - by eapply wm_new.
  - eapply wm_g; [done|rewrite H0; apply gt_put|by destruct (put_next k (q_chan q)).2|by destruct (put_next k (q_chan q)).2].
  - eapply wm_gb; [done|done|done|rewrite H0; by apply us_close|reflexivity|reflexivity].
  - eapply wm_gb; [done|done|done|rewrite H0; by apply us_reg|reflexivity|reflexivity].
  - eapply wm_gb; [done|done|done|rewrite H0; by apply us_puterr|reflexivity|reflexivity].
  - destruct w; by apply wm_none.
  - eapply (wm_g _ _ _ _ g r (answer_pc w f)); [done|rewrite H3; by eapply gt_told| |].
    + set (y1 := with_log (after_send y ch k) (PvTold ch f)) in *. assert (c_gs y1 = c_gs y) as E by (subst y1; cbn [with_log c_gs]; apply after_send_gs).
      cbn [with_g c_gs]. destruct H4 as [u|w Hw|Hc|Hc]; cbn [with_g with_mut with_closed c_gs]; rewrite E; [done| | |].
      * destruct Hw as [->|[s ->]]; done.
      * unfold answer_pc. by rewrite decide_True.
      * unfold answer_pc. by rewrite decide_False.
    + match goal with H : answers _ _ _ _ _ |- _ => apply answers_same in H as (-> & _) end. cbn [with_log c_subs]. apply after_send_same.
  - eapply (wm_b _ _ _ _ s b); [done| | |].
    + pose proof (own_chan y s b ch h HR HM (ex_intro _ f (ex_intro _ k H)) H0 H1 H2) as Ech. eapply rt_got; [done|by rewrite Ech|done].
    + cbn [with_subs with_log c_gs]. apply after_send_gs.
    + reflexivity.
Qed.
Lemma reach_wmove A cfg y a y' : creach A cfg y -> cmv cfg y a y' -> wmove cfg y a y'.
Proof. intros Hr Hm. eapply cmv_wmove; [done|by eapply reach_req|by eapply reach_map]. Qed.
(** What becomes of one call. *)
Lemma wmove_g cfg y a y' g r : wmove cfg y a y' -> c_gs y !! g = Some r ->
  c_gs y' !! g = Some r \/
  (exists x, gstep cfg y a g (g_op r) (g_pc r) x /\ c_gs y' !! g = Some (mkGor (g_op r) x) /\ c_subs y' = c_subs y) \/
  (exists f id rt, g_op r = OSubscribe (Some (f, id, rt)) /\ g_pc r = GStart /\ c_gs y' !! g = Some (mkGor (g_op r) (GPut (FSub (length (c_subs y))) (mkReq g f (Some (length (c_chs y))))))) \/
  (exists x s b b', ustep g (g_op r) s b (g_pc r) b' x /\ a = XRun g /\ c_gs y' !! g = Some (mkGor (g_op r) x) /\ c_subs y !! s = Some b /\ c_subs y' = <[s := b']> (c_subs y)).
Proof.
  intros Hm Hg. destruct Hm as [E1 E2|o Ho E1 E2|h r0 x Hh Hx E1 E2|h r0 f id rt Hh Hst Ho E1 E2|s b b' Hb Hs E1 E2|h r0 x s b b' Hh Hb Ha Hx E1 E2]; rewrite E1.
  - by left.
  - left. by apply lookup_app_l_Some.
  - destruct (decide (g = h)) as [->|Hn]; [|left; by rewrite with_g_other]. right; left. simplify_eq. exists x. split_and!; try done. by apply with_g_same.
  - destruct (decide (g = h)) as [->|Hn]; [|left; by rewrite with_g_other]. right; right; left. simplify_eq. exists f, id, rt. split_and!; try done. by apply with_g_same.
  - by left.
  - destruct (decide (g = h)) as [->|Hn]; [|left; by rewrite with_g_other]. right; right; right. simplify_eq. exists x, s, b, b'. split_and!; try done. by apply with_g_same.
Qed.
Lemma gstep_done cfg y a g o r x : gstep cfg y a g o (GDone r) x -> False.
Proof. intros H. inversion H; subst; match goal with H : gmove _ _ _ _ _ _ _ |- _ => inversion H | H : submits _ _ _ _ |- _ => inversion H end. Qed.
Lemma done_stays cfg y a y' g r x : wmove cfg y a y' -> c_gs y !! g = Some r -> g_pc r = GDone x -> c_gs y' !! g = Some r.
Proof.
  intros Hm Hg Hd. destruct (wmove_g _ _ _ _ _ _ Hm Hg) as [?|[(z & Hz & _)|[(f & id & rt & _ & Hz & _)|(z & s & b & b' & Hz & _)]]]; [done|exfalso..].
  - rewrite Hd in Hz. by eapply gstep_done.
  - congruence.
  - rewrite Hd in Hz. inversion Hz.
Qed.

(* ---------------- processLoop sends to a call that is done ---------------- *)
(** Nobody will ever receive from ch. *)
Definition deaf (y : cl) (ch : nat) : Prop := exists h g r x, c_chs y !! ch = Some h /\ h_owner h = OwnG g /\ c_gs y !! g = Some r /\ g_pc r = GDone x.
Lemma deaf_step A cfg y a y' ch f k : creach A cfg y -> cmv cfg y a y' -> c_p y = PSend ch f k -> deaf y ch -> c_p y' = PSend ch f k /\ c_log y' = c_log y /\ deaf y' ch.
Proof.
  intros Hr Hm Hp (h & g & r & x & Hh & Ho & Hg & Hd). pose proof (reach_wmove _ _ _ _ _ Hr Hm) as Hw. pose proof (done_stays _ _ _ _ _ _ _ Hw Hg Hd) as Hg'.
  destruct (hchange_mono _ _ _ _ (cmv_chs _ _ _ _ Hm) Hh) as (h' & Hh' & Ho'). assert (deaf y' ch) as HD by (exists h', g, r, x; rewrite Ho'; done).
  assert (a = XDeliver \/ a <> XDeliver) as [->|Hna] by (destruct a; (by left) || (by right)).
  - exfalso. inversion Hm; simplify_eq; try congruence. by destruct t.
  - split_and!; [| |done]; (inversion Hm; subst; simplify_eq; try done; try congruence; try apply submit_same; try (by destruct (put_next _ _).2); try (by destruct t); try (etrans; [apply submit_same|done])).
Qed.
