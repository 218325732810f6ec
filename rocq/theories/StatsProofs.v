From stdpp Require Import gmap.
From Coq Require Import Lia.
From Verif Require Import GoBase HeaderModel FrameModel NegotiationModel ClientApiModel ClientModel ClientSpec ClientLemmas ClientProofs ClientRequests ClientDelivery OrderSpec StatsModel StatsSpec.

Local Ltac rew := repeat match goal with H : _ = true |- _ => rewrite H in * end.
(** Weight of a call, and of what its close would return. *)
Definition weight (x : gpc) : nat := match x with GPut _ _ | GDone (RErr ESendTimeout) => 1 | _ => 0 end.
Definition wsum (l : list gor) : nat := sum_list_with (fun r => weight (g_pc r)) l.
Lemma wsum_step gs g r x : gs !! g = Some r -> wsum (alter (fun r => mkGor (g_op r) x) g gs) + weight (g_pc r) = wsum gs + weight x.
Proof.
  revert g. induction gs as [|r0 gs IH]; intros [|g] Hg; simplify_eq/=; [unfold wsum; cbn; lia|].
  specialize (IH g Hg). unfold wsum in *. cbn. lia.
Qed.
Lemma wsum_snoc gs o : wsum (gs ++ [mkGor o GStart]) = wsum gs.
Proof. unfold wsum. rewrite sum_list_with_app. cbn. lia. Qed.
Lemma wsum_offering y : wsum (c_gs y) = offering y + gave_up y.
Proof.
  unfold wsum, offering, gave_up, calls_that. induction (c_gs y) as [|r l IH]; [done|]. cbn [sum_list_with]. rewrite IH.
  destruct (g_pc r) as [| | | | | | | | | |[| |e]]; cbn; try lia. destruct e; cbn; lia.
Qed.

(** The result a call is going to have after it closed its channel. *)
Definition later_ok (x : gpc) : Prop := match x with GClose _ _ res | GLoad _ res => res <> RErr ESendTimeout | _ => True end.
Definition later (y : cl) : Prop := forall g r, c_gs y !! g = Some r -> later_ok (g_pc r).
Lemma later_alter (gs : list gor) (g : nat) x : (forall j r, gs !! j = Some r -> later_ok (g_pc r)) -> later_ok x -> forall j r, alter (fun r => mkGor (g_op r) x) g gs !! j = Some r -> later_ok (g_pc r).
Proof.
  intros HI Hx j r. destruct (decide (j = g)) as [->|Hne].
  - rewrite list_lookup_alter. destruct (gs !! g) eqn:E; [|done]. intros [= <-]. done.
  - rewrite list_lookup_alter_ne by done. apply HI.
Qed.
Lemma frame_done_later u res : res <> RErr ESendTimeout -> later_ok (frame_done u res).
Proof. intros H. destruct u as [s|]; [|done]. by destruct res as [| |[]]. Qed.

Definition tally (y : cl) : nat := length (allr y) + wsum (c_gs y).
Definition counted (y : cl) (a : cact) : nat := match a with XRun g => if counts y g then 1 else 0 | _ => 0 end.
Lemma put_next_weight k o : weight (put_next k o).1 = 0.
Proof. destruct k as [|[s|]|s|]; destruct o; done. Qed.
Lemma put_next_later k o : later_ok (put_next k o).1.
Proof. destruct k as [|[s|]|s|]; destruct o; done. Qed.
Lemma frame_done_weight u res : res <> RErr ESendTimeout -> weight (frame_done u res) = 0.
Proof. intros H. destruct u as [s|]; cbn [frame_done]; destruct res as [| |[]]; done. Qed.
Lemma gmove_tally cfg y g r t x : c_gs y !! g = Some r -> later_ok (g_pc r) -> gmove cfg y g (g_op r) t (g_pc r) x ->
  weight x = 0 /\ weight (g_pc r) = 0 /\ later_ok x /\ counted y (if t then XTimeout g else XRun g) = 0.
Proof.
  intros Hg Hl Hm. unfold counted, counts. inversion Hm; subst; rewrite ?Hg; cbn [weight later_ok];
  repeat match goal with
  | H : c_mut y = _ |- _ => rewrite H
  | H : c_closed y = _ |- _ => rewrite H
  | H : _ = g_pc r |- _ => rewrite <-H in *
  | H : bad_option _ |- _ => destruct H as [-> | ->]
  | H : g_op r = _ |- _ => rewrite H
  end; cbn in Hl; split_and!; try done; try (by apply frame_done_weight); try (by apply frame_done_later);
  try (by destruct (c_mut y), (c_closed y)).
  - destruct (g_op r); simplify_eq/=; done.
  - by destruct r0 as [| |[]].
Qed.

Local Ltac cnt := unfold counted, counts;
  repeat match goal with
  | H : c_gs ?y !! ?g = Some _ |- _ => rewrite H
  | H : c_mut _ = _ |- _ => rewrite H
  | H : c_closed _ = _ |- _ => rewrite H
  | H : g_pc _ = _ |- _ => rewrite H
  | H : g_op _ = _ |- _ => rewrite H
  end.
Lemma counted_zero y g r : c_gs y !! g = Some r -> match g_pc r with GStart | GFrame _ _ => False | _ => True end -> counts y g = false.
Proof. intros Hg Hp. unfold counts. rewrite Hg. destruct (c_mut y), (c_closed y), (g_pc r); done. Qed.
Lemma wsum_put y z g r x : c_gs y !! g = Some r -> c_gs z = alter (fun r => mkGor (g_op r) x) g (c_gs y) -> wsum (c_gs z) + weight (g_pc r) = wsum (c_gs y) + weight x.
Proof. intros Hg ->. by apply wsum_step. Qed.
Lemma cmv_tally cfg y a y' : cmv cfg y a y' -> later y -> later y' /\ tally y' = tally y + counted y a.
Proof.
  intros Hm HI. pose proof (cmv_allr _ _ _ _ Hm) as Hal.
  assert (Hsame : c_gs y' = c_gs y -> counted y a = 0 -> later y' /\ tally y' = tally y + counted y a).
  { intros E Ec. split; [unfold later; by rewrite E|]. unfold tally. rewrite E, Ec. destruct Hal as [->|(g & r & k & q & Hg & Hp & _ & r' & Hg' & Hn)]; [lia|].
    rewrite E in Hg'. rewrite Hg in Hg'. simplify_eq. by rewrite Hp in Hn. }
  assert (Hstep : forall g r x, c_gs y !! g = Some r -> c_gs y' = alter (fun r => mkGor (g_op r) x) g (c_gs y) -> later_ok x ->
    length (allr y') + weight x = length (allr y) + weight (g_pc r) + counted y a -> later y' /\ tally y' = tally y + counted y a).
  { intros g r x Hg E Hl Hw. split; [unfold later; rewrite E; by apply later_alter|]. unfold tally. pose proof (wsum_put y y' g r x Hg E). lia. }
  clear Hal. destruct Hm; try (by apply Hsame).
  - (* a new call *) split.
    + intros j r. cbn [add_call c_gs]. intros [Hj|[_ Hj]]%lookup_app_Some; [by apply (HI j)|]. apply list_lookup_singleton_Some in Hj as [_ <-]. done.
    + unfold tally. change (allr (add_call y o)) with (allr y). cbn [add_call c_gs]. rewrite wsum_snoc. cbn. lia.
  - destruct (gmove_tally cfg y g r t x' H (HI _ _ H) H0) as (H1 & H2 & H3 & H4). eapply Hstep; [done|done|done|].
    rewrite H1, H2, H4. change (allr (with_g y g x')) with (allr y). lia.
  - eapply Hstep; [done|done|done|]. rewrite H0. match goal with |- length ?l + _ = _ => change l with (allr y) end. cbn [weight counted]. lia.
  - eapply Hstep; [done|done|done|]. rewrite H0. match goal with |- length ?l + _ = _ => change l with (allr y) end. cbn [weight counted]. lia.
  - eapply Hstep; [done|done|done|]. rewrite H0. match goal with |- length ?l + _ = _ => change l with (allr y) end. cbn [weight counted]. lia.
  - eapply Hstep; [done|done|done|]. cnt. cbn. match goal with |- length ?l + _ = _ => change l with (allr y) end. lia.
  - eapply Hstep; [done|done|by destruct f|]. cnt. match goal with |- length ?l + _ = _ => change l with (allr y) end. destruct f; destruct (c_mut y), (c_closed y); cbn; lia.
  - (* a request *) destruct (submit_same y g k f own) as (_ & Ew & El & _ & _).
    eapply Hstep; [done|rewrite submit_gs'; reflexivity|done|]. unfold allr. rewrite Ew, El. inversion H0; subst; cnt;
    repeat match goal with E : _ = g_pc r |- _ => rewrite <-E | E : OSend _ = g_op r |- _ => rewrite <-E | E : ODisconnect _ = g_op r |- _ => rewrite <-E end; cbn; lia.
  - eapply Hstep; [done|rewrite submit_gs'; reflexivity|done|].
    match goal with |- context [submit ?z ?g ?k ?f ?own] => destruct (submit_same z g k f own) as (_ & Ew & El & _ & _) end.
    unfold allr. rewrite Ew, El. cnt. cbn [with_subs c_log c_wch weight]. lia.
  - (* put *) eapply Hstep; [done|by destruct (put_next k (q_chan q)).2|apply put_next_later|]. rewrite put_next_weight. unfold counted.
    rewrite (counted_zero y g r H) by (by rewrite H0). rewrite H0. unfold allr. cbn [weight].
    destruct (put_next k (q_chan q)).2; cbn [with_g with_mut with_wch c_log c_wch]; rewrite !app_length; cbn [length]; lia.
  - eapply Hstep; [done|done| |].
    + destruct o; [|done]. specialize (HI _ _ H). rewrite H0 in HI. done.
    + specialize (HI _ _ H). unfold counted. rewrite (counted_zero y g r H) by (by rewrite H0). rewrite H0 in *. match goal with |- length ?l + _ = _ => change l with (allr y) end. cbn in HI. destruct o; cbn; [lia|].
      destruct res as [| |[]]; try done; lia.
  - eapply Hstep; [done|done|done|]. unfold counted. rewrite (counted_zero y g r H) by (by rewrite H0). rewrite H0. match goal with |- length ?l + _ = _ => change l with (allr y) end. cbn. lia.
  - eapply Hstep; [done|done|done|]. unfold counted. rewrite (counted_zero y g r H) by (by rewrite H0). rewrite H0. match goal with |- length ?l + _ = _ => change l with (allr y) end. cbn. lia.
  - by apply Hsame; destruct w.
  - (* an answer *) match goal with Ha : answers _ _ _ _ _ |- _ => pose proof (answers_same _ _ _ _ _ Ha) as (_ & _ & _ & El & Ew & _);
      assert (exists x, c_gs y' = alter (fun r => mkGor (g_op r) x) g (c_gs y) /\ weight x = 0 /\ later_ok x) as (x & E & Hw & Hl) end.
    { match goal with Ha : answers _ _ _ _ _ |- _ => destruct Ha end; cbn [with_g with_mut with_closed with_log c_gs]; rewrite after_send_gs; (eexists; split; [reflexivity|]).
      - destruct (decide _); (split; [by apply frame_done_weight|by apply frame_done_later]).
      - by destruct (decide _).
      - done.
      - done. }
    eapply Hstep; [done|done|done|]. rewrite Hw. match goal with E : g_pc r = _ |- _ => rewrite E end. destruct (after_send_same y ch k) as (_ & E1 & E2 & _).
    unfold allr. rewrite El, Ew. cbn [with_log c_log c_wch weight counted]. rewrite E1, E2, log_reqs_snoc. rewrite app_nil_r. lia.
  - apply Hsame; [|done]. cbn [with_subs with_log c_gs]. apply after_send_gs.
Qed.

Lemma treach_cl cfg on t : treach cfg on t -> creach anything cfg (t_cl t).
Proof.
  induction 1 as [|t a t' Hr IH Hs]; [constructor|]. destruct a as [a|f]; cbn in Hs.
  - destruct (cstep cfg (t_cl t) a) as [[?|y]|] eqn:E; try done. assert (t_cl t' = y) as -> by (by destruct a; simplify_eq/=; try case_decide; simplify_eq/=).
    by eapply cr_step.
  - destruct (t_hold t), (c_rclosed (t_cl t)); by simplify_eq.
Qed.
Lemma tstep_on cfg t a t' : tstep cfg t a = Some t' -> t_on t' = t_on t.
Proof.
  destruct a as [a|f]; cbn.
  - destruct (cstep cfg (t_cl t) a) as [[?|y]|] eqn:E; try done. destruct a; intros; simplify_eq/=; try case_decide; by simplify_eq/=.
  - destruct (t_hold t), (c_rclosed (t_cl t)); intros; by simplify_eq.
Qed.
Lemma treach_on cfg on t : treach cfg on t -> t_on t = on.
Proof. induction 1 as [|t a t' Hr IH Hs]; [done|]. by rewrite (tstep_on _ _ _ _ Hs). Qed.
Lemma tstep_writes cfg t a t' : tstep cfg t a = Some t' ->
  t_writes t' = if t_on t then t_writes t + match a with TClient a => counted (t_cl t) a | _ => 0 end else t_writes t.
Proof.
  destruct a as [a|f]; cbn.
  - destruct (cstep cfg (t_cl t) a) as [[?|y]|] eqn:E; try done. unfold bump. destruct a; intros; simplify_eq/=; try case_decide; simplify_eq/=; destruct (t_on t); cbn; try done.
    destruct (counts _ _); lia.
  - destruct (t_hold t), (c_rclosed (t_cl t)); intros; simplify_eq/=. destruct (t_on t); lia.
Qed.
Lemma treach_tally cfg on t : treach cfg on t -> later (t_cl t) /\ t_writes t = if on then tally (t_cl t) else 0.
Proof.
  induction 1 as [|t a t' Hr IH Hs]; [split; [done|by destruct on]|]. destruct IH as [IL IW]. rewrite (tstep_writes _ _ _ _ Hs), (treach_on _ _ _ Hr), IW.
  destruct a as [a|f]; cbn in Hs.
  - destruct (cstep cfg (t_cl t) a) as [[?|y]|] eqn:E; try done. assert (t_cl t' = y) as -> by (by destruct a; simplify_eq/=; try case_decide; simplify_eq/=).
    apply cstep_cmv in E. destruct (cmv_tally _ _ _ _ E IL) as [? ->]. split; [done|]. by destruct on.
  - assert (t_cl t' = t_cl t) as -> by (destruct (t_hold t), (c_rclosed (t_cl t)); by simplify_eq). split; [done|]. destruct on; lia.
Qed.

(** The reads. *)
Definition ins (y : cl) : nat := length (taken_in y) + length (c_rch y).
Lemma taken_in_snoc l e : omap (fun e => match e with PvIn o => Some o | _ => None end) (l ++ [e]) =
  omap (fun e => match e with PvIn o => Some o | _ => None end) l ++ match e with PvIn o => [o] | _ => [] end.
Proof. rewrite omap_app. cbn. by destruct e. Qed.
Lemma cmv_ins cfg y a y' : cmv cfg y a y' -> ins y' = ins y + match a with XRecv _ => 1 | _ => 0 end.
Proof.
  intros Hm. destruct Hm; try (unfold ins, taken_in; cbn [with_g with_mut with_closed with_wclosed with_subs with_wch with_p with_log with_rch with_map taken requested fail close_ch with_chs add_call c_log c_rch];
    rewrite ?taken_in_snoc; try match goal with H : c_rch y = _ |- _ => rewrite H end; rewrite ?app_length; cbn [length]; lia).
  - change (ins (with_g y g x')) with (ins y). destruct t; lia.
  - unfold submit. destruct own; change (ins _) with (ins y) at 1; lia.
  - unfold submit. change (ins _) with (ins y) at 1. lia.
  - destruct (put_next k (q_chan q)).2; change (ins _) with (ins y) at 1; lia.
  - cbv zeta. destruct w; unfold ins, taken_in; cbn [with_p with_log with_map with_wch requested fail c_log c_rch]; rewrite taken_in_snoc, app_length; cbn [length]; lia.
  - match goal with Ha : answers _ _ _ _ _ |- _ => assert (c_log y' = c_log (with_log (after_send y ch k) (PvTold ch f)) /\ c_rch y' = c_rch y) as [El Er] by (by destruct Ha, k as [id| |? ? []]) end.
    destruct (after_send_same y ch k) as (_ & _ & E2 & _). unfold ins, taken_in. rewrite El, Er. cbn [with_log c_log]. rewrite E2, taken_in_snoc, app_nil_r. lia.
  - assert (c_rch (after_send y ch k) = c_rch y) as Er by (by destruct k as [id| |? ? []]). destruct (after_send_same y ch k) as (_ & _ & E2 & _).
    unfold ins, taken_in. cbn [with_subs with_log c_log c_rch]. rewrite E2, Er, taken_in_snoc, app_nil_r. lia.
Qed.
Definition in_hand (t : tcl) : nat := match t_hold t with Some _ => 1 | None => 0 end.
Lemma treach_ins cfg on t : treach cfg on t -> t_reads t = if on then ins (t_cl t) + in_hand t else 0.
Proof.
  induction 1 as [|t a t' Hr IH Hs]; [by destruct on|]. pose proof (treach_on _ _ _ Hr) as Hon. destruct a as [a|f]; cbn in Hs.
  - destruct (cstep cfg (t_cl t) a) as [[?|y]|] eqn:E; try done. apply cstep_cmv, cmv_ins in E. unfold in_hand in *.
    destruct a; simplify_eq/=; try case_decide; simplify_eq/=; rewrite IH, ?E; destruct (t_on t); try lia.
    + match goal with H : t_hold t = _ |- _ => rewrite H end. lia.
    + match goal with H : t_hold t = _ |- _ => rewrite H end. lia.
  - unfold in_hand in *. destruct (t_hold t), (c_rclosed (t_cl t)); simplify_eq/=. rewrite IH. unfold bump. destruct (t_on t); cbn; lia.
Qed.

(** The channels. *)
Definition room (cfg : ccfg) (y : cl) : Prop := length (c_wch y) <= k_wcap cfg /\ length (c_rch y) <= k_rcap cfg.
Lemma cmv_room cfg y a y' : cmv cfg y a y' -> room cfg y -> room cfg y'.
Proof.
  intros Hm [H1 H2]. destruct Hm; try done; unfold room; cbn [with_g with_mut with_closed with_wclosed with_subs with_wch with_p with_log with_rch with_map taken requested fail close_ch with_chs c_wch c_rch];
    try match goal with H : c_rch y = _ :: _ |- _ => rewrite H in H2 end; try match goal with H : c_wch y = _ :: _ |- _ => rewrite H in H1 end; cbn [length] in *; rewrite ?app_length; cbn [length]; try lia.
  - by unfold submit; destruct own.
  - destruct (put_next k (q_chan q)).2; cbn [with_mut with_wch c_wch c_rch]; rewrite app_length; cbn [length]; lia.
  - destruct w; cbn [with_p with_log with_map with_wch requested fail c_wch c_rch]; lia.
  - match goal with Ha : answers _ _ _ _ _ |- _ => by destruct Ha, k as [id| |? ? []] end.
  - by destruct k as [id| |? ? []].
Qed.
Lemma reach_room A cfg y : creach A cfg y -> room cfg y.
Proof. induction 1 as [|y a y' Hr IH _ Hs]; [split; cbn; lia|]. eapply cmv_room; [by apply cstep_cmv|done]. Qed.

Lemma served_written y : length (served y) = length (written y) + length (kept y).
Proof. unfold served, written, kept. induction (c_log y) as [|e l IH]; [done|]. destruct e as [q [[f b]|]| |]; cbn [omap list_omap length] in *; lia. Qed.
Lemma allr_length y : length (allr y) = length (served y) + length (queued y).
Proof.
  unfold allr, served, queued, log_reqs. rewrite app_length, fmap_length. f_equal.
  induction (c_log y) as [|e l IH]; [done|]. destruct e as [q [[f b]|]| |]; cbn [omap list_omap length] in *; lia.
Qed.
Theorem stats_writes cfg t : treach cfg true t ->
  s_writes (stats t) = length (written (t_cl t)) + length (kept (t_cl t)) + length (queued (t_cl t)) + offering (t_cl t) + gave_up (t_cl t).
Proof. intros Hr. cbn. destruct (treach_tally _ _ _ Hr) as [_ ->]. unfold tally. rewrite allr_length, wsum_offering, served_written. lia. Qed.
Theorem stats_reads cfg t : treach cfg true t -> s_reads (stats t) = length (taken_in (t_cl t)) + length (c_rch (t_cl t)) + in_hand t.
Proof. intros Hr. cbn. by rewrite (treach_ins _ _ _ Hr). Qed.
Theorem stats_off cfg t : treach cfg false t -> s_writes (stats t) = 0 /\ s_reads (stats t) = 0.
Proof. intros Hr. cbn. rewrite (treach_ins _ _ _ Hr). by destruct (treach_tally _ _ _ Hr) as [_ ->]. Qed.
Theorem stats_sizes cfg on t : treach cfg on t -> s_write_chan (stats t) <= k_wcap cfg /\ s_read_chan (stats t) <= k_rcap cfg.
Proof. intros Hr%treach_cl%reach_room. exact Hr. Qed.
(** The counters run alongside the client: nothing the client does is
    different with or without them. *)
Lemma tread_idle cfg on t f : treach cfg on t -> t_hold t = None -> c_rclosed (t_cl t) = false -> exists t', treach cfg on t' /\ t_cl t' = t_cl t /\ t_hold t' = Some f.
Proof.
  intros Hr Hh Hc. exists (mkT (t_cl t) (t_on t) (t_writes t) (bump (t_on t) true (t_reads t)) (Some f)). split; [|done].
  eapply tr_step with (a := TRead f); [done|]. cbn. by rewrite Hh, Hc.
Qed.
Theorem stats_any cfg on y : creach anything cfg y -> exists t, treach cfg on t /\ t_cl t = y /\ t_hold t = None.
Proof.
  induction 1 as [|y a y' Hr (t & Ht & <- & Hh) _ Hs]; [exists (t_init on); split; [constructor|done]|].
  assert ((exists f, a = XRecv f) \/ forall f, a <> XRecv f) as [[f ->]|Ha] by (destruct a; eauto).
  - assert (c_rclosed (t_cl t) = false) as Hc by (cbn in Hs; by destruct (c_rclosed (t_cl t))).
    destruct (tread_idle _ _ _ f Ht Hh Hc) as (t1 & Ht1 & E1 & Hh1). eexists. split; [eapply tr_step with (a := TClient (XRecv f)); [done|]|].
    + cbn. rewrite E1. cbn in Hs. rewrite Hs. rewrite decide_True by done. done.
    + done.
  - assert (exists t', tstep cfg t (TClient a) = Some t' /\ t_cl t' = y' /\ t_hold t' = None) as (t' & Hs' & Ht').
    { cbn [tstep]. rewrite Hs. destruct a; try (by destruct (Ha f)); rewrite ?(decide_True (P := t_hold t = None)) by done; eexists; by split. }
    exists t'. split; [|done]. by eapply tr_step.
Qed.
