(** Which messages a subscription is given. *)
From stdpp Require Import gmap.
From Verif Require Import GoBase HeaderModel FrameModel HeaderProofs NegotiationModel ClientApiModel ClientModel ClientSpec ClientLemmas ClientProofs ClientRequests ClientChannels ClientReceipts.

(* ---------------- a call makes one request ---------------- *)
Definition allr (y : cl) : list wreq := log_reqs (c_log y) ++ c_wch y.
Definition pre (x : gpc) : Prop := match x with GStart | GFrame _ _ | GPut _ _ => True | _ => False end.
Lemma frame_done_post u r : ~ pre (frame_done u r).
Proof. destruct u as [s|]; cbn; [|tauto]. destruct r as [| |[]]; cbn; tauto. Qed.
Lemma log_reqs_snoc l e : log_reqs (l ++ [e]) = log_reqs l ++ match e with PvReq q _ => [q] | _ => [] end.
Proof. unfold log_reqs. rewrite omap_app. f_equal. by destruct e. Qed.
Lemma cmv_allr cfg y a y' : cmv cfg y a y' -> allr y' = allr y \/
  exists g r k q, c_gs y !! g = Some r /\ g_pc r = GPut k q /\ allr y' = allr y ++ [q] /\ exists r', c_gs y' !! g = Some r' /\ ~ pre (g_pc r').
Proof.
  intros Hm. destruct Hm; unfold allr; try (by left); try (left; cbn [with_p with_log with_rch with_map with_wch taken requested fail close_ch with_chs c_log c_wch]; rewrite log_reqs_snoc;
    try match goal with H : c_wch y = _ |- _ => rewrite H end; by rewrite <-app_assoc).
  - left. destruct (submit_same y g k f own) as (_ & -> & -> & _). done.
  - right. exists g, r, k, q. split_and!; try done.
    + destruct (put_next k (q_chan q)).2; by rewrite <-app_assoc.
    + exists (mkGor (g_op r) (put_next k (q_chan q)).1). split.
      * apply with_g_same. by destruct (put_next k (q_chan q)).2.
      * cbn [g_pc]. destruct k as [|u|s|]; destruct (q_chan q); cbn; try tauto. apply frame_done_post.
  - left. match goal with H : c_wch y = _ |- _ => rewrite H end. destruct w; cbn; rewrite log_reqs_snoc; by rewrite <-app_assoc.
  - left. match goal with H : answers _ _ _ _ _ |- _ => apply answers_same in H as (_ & _ & _ & -> & -> & _) end. destruct (after_send_same y ch k) as (_ & E1 & E2 & _).
    cbn [with_log c_log c_wch]. rewrite E1, E2, log_reqs_snoc. by rewrite app_nil_r.
  - left. destruct (after_send_same y ch k) as (_ & E1 & E2 & _). cbn [with_subs with_log c_log c_wch]. rewrite E1, E2, log_reqs_snoc. by rewrite app_nil_r.
Qed.
Lemma gmove_pre cfg y g o t x x' : gmove cfg y g o t x x' -> pre x' -> pre x.
Proof. destruct 1; cbn; try done; intros ?%frame_done_post; done. Qed.
Lemma pre_g y g x j r' : c_gs (with_g y g x) !! j = Some r' -> pre (g_pc r') -> c_gs y !! j = Some r' \/ j = g /\ g_pc r' = x /\ pre x.
Proof. intros [[_ Hj]|(-> & r0 & Hr0 & ->)]%with_g_lookup; [by left|]. right. done. Qed.
Lemma cmv_pre cfg y a y' g r' : cmv cfg y a y' -> c_gs y' !! g = Some r' -> pre (g_pc r') ->
  (exists r, c_gs y !! g = Some r /\ pre (g_pc r)) \/ g = length (c_gs y).
Proof.
  intros Hm Hg Hs. assert (Hold : c_gs y !! g = Some r' -> (exists r, c_gs y !! g = Some r /\ pre (g_pc r)) \/ g = length (c_gs y)) by eauto.
  destruct Hm as [o Ho|g0 r t x' H H0| | | | |g0 r s fo b H H0|g0 r k f own H H0|g0 r f id rt H H0|g0 r k q H H0|g0 r s b c res b' o H H0| | | | | | | | | | | | | |q l w| | | |ch f k h g0 r w y' H H0 H1 H2 H3 H4|ch f k h s b| | | | | | | |]; try (apply Hold; exact Hg);
    try (apply pre_g in Hg as [Hg|(-> & Hx & Hp)]; [apply Hold; exact Hg|done|done]).
  - apply snoc_lookup in Hg as [[_ Hg]|[-> ->]]; [by apply Hold|by right].
  - apply pre_g in Hg as [Hg|(-> & Hx & Hp)]; [by apply Hold| |done]. left. exists r. split; [done|]. by eapply gmove_pre.
  - apply pre_g in Hg as [Hg|(-> & Hx & Hp)]; [by apply Hold| |done]. left. exists r. split; [done|]. by rewrite H0.
  - rewrite submit_gs' in Hg. apply pre_g in Hg as [Hg|(-> & Hx & Hp)]; [by apply Hold| |done]. left. exists r. split; [done|]. by destruct H0.
  - rewrite submit_gs' in Hg. apply pre_g in Hg as [Hg|(-> & Hx & Hp)]; [by apply Hold| |done]. left. exists r. split; [done|]. by rewrite H0.
  - apply pre_g in Hg as [Hg|(-> & Hx & Hp)]; [apply Hold; by destruct (put_next k (q_chan q)).2| |done].
    left. exists r. split; [done|]. by rewrite H0.
  - apply pre_g in Hg as [Hg|(-> & Hx & Hp)]; [by apply Hold| |done]. by destruct o.
  - apply Hold. by destruct w.
  - assert (forall z, c_gs (with_log (after_send y ch k) (PvTold ch f)) !! z = c_gs y !! z) as Ez by (intros; cbn [with_log c_gs]; by rewrite after_send_gs).
    destruct H4 as [u|w Hw|Hc|Hc]; apply pre_g in Hg as [Hg|(-> & Hx & Hp)]; try done; try (apply Hold; by rewrite <-Ez). by apply frame_done_post in Hp.
  - apply Hold. cbn [with_subs with_log c_gs] in Hg. by rewrite after_send_gs in Hg.
Qed.
Lemma allr_known y q : q ∈ allr y -> known y q.
Proof. intros [H|H]%elem_of_app; [right; by left|by left]. Qed.
Lemma reach_uniq A cfg y : creach A cfg y -> NoDup (q_by <$> allr y) /\ forall g r, c_gs y !! g = Some r -> pre (g_pc r) -> g ∉ q_by <$> allr y.
Proof.
  induction 1 as [|y a y' Hr [IH1 IH2] _ Hs]; [split; [constructor|done]|]. apply cstep_cmv in Hs as Hm. pose proof (reach_req _ _ _ Hr) as HR.
  destruct (cmv_allr _ _ _ _ Hm) as [E|(g & r & k & q & Hg & Hp & E & r' & Hr' & Hn)].
  - rewrite E. split; [done|]. intros g r' Hg Hx. destruct (cmv_pre _ _ _ _ _ _ Hm Hg Hx) as [(r & Hr0 & Hp)| ->]; [by eapply IH2|].
    intros (q & Eq & Hq)%elem_of_list_fmap. destruct (rq_ok _ HR q (allr_known _ _ Hq)) as (r & Hl%lookup_lt_Some & _). lia.
  - pose proof (rq_put _ HR _ _ _ _ Hg Hp) as Eby. rewrite E, fmap_app. cbn [fmap list_fmap].
    assert (g ∉ q_by <$> allr y) as Hfresh by (eapply IH2; [done|]; by rewrite Hp). split.
    + apply NoDup_app. split_and!; [done| |apply NoDup_singleton]. intros x Hx ->%elem_of_list_singleton. by rewrite Eby in Hx.
    + intros j rj Hj Hx [Hin| ->%elem_of_list_singleton]%elem_of_app.
      * destruct (cmv_pre _ _ _ _ _ _ Hm Hj Hx) as [(r0 & Hr0 & Hp0)| ->]; [by eapply IH2|].
        apply elem_of_list_fmap in Hin as (q0 & Eq & Hq). destruct (rq_ok _ HR q0 (allr_known _ _ Hq)) as (r0 & Hl%lookup_lt_Some & _). lia.
      * rewrite Eby in Hj. by simplify_eq.
Qed.

(* ---------------- subscriptions and calls ---------------- *)
Lemma reach_sub_uniq A cfg y : creach A cfg y ->
  (forall s s' b b', c_subs y !! s = Some b -> c_subs y !! s' = Some b' -> b_by b = b_by b' -> s = s') /\
  forall s b r, c_subs y !! s = Some b -> c_gs y !! b_by b = Some r -> g_pc r <> GStart.
Proof.
  induction 1 as [|y a y' Hr [IH1 IH2] _ Hs]; [done|]. apply cstep_cmv in Hs as Hm. pose proof (reach_req _ _ _ Hr) as HR.
  assert (Hpc : forall s b r', c_subs y !! s = Some b -> c_gs y' !! b_by b = Some r' -> g_pc r' <> GStart).
  { intros s b r' Hb Hg Hx. destruct (rq_sub _ HR _ _ Hb) as (h & r & f & _ & _ & Hr0 & _). assert (g_pc r <> GStart) as Hn by (by eapply IH2).
    revert Hg Hx Hn Hr0 Hm. generalize (b_by b). intros g Hg Hx Hn Hr0 Hm.
    assert (forall (y0 : cl) j x, c_gs y0 !! g = Some r -> x <> GStart -> c_gs (with_g y0 j x) !! g = Some r' -> False) as HW.
    { intros y0 j x H0 Hne [[_ Hj]|(-> & r1 & Hr1 & ->)]%with_g_lookup; [congruence|]. done. }
    assert (c_gs y !! g = Some r' -> False) as HS by congruence.
    destruct Hm as [o Ho|g0 r0 t x' H H0| | | | |g0 r0 s0 fo b0 H H0|g0 r0 k f0 own H H0|g0 r0 f0 id rt H H0|g0 r0 k q H H0|g0 r0 s0 b0 c res b' o H H0| | | | | | | | | | | | | |q l w| | | |ch f0 k h0 g0 r0 w y' H H0 H1 H2 H3 H4|ch f0 k h0 s0 b0| | | | | | | |];
      try (by apply HS); try (eapply HW; [| |exact Hg]; [exact Hr0|done]).
    - apply snoc_lookup in Hg as [[_ Hg]|[-> ->]]; [done|]. apply lookup_lt_Some in Hr0. lia.
    - eapply HW; [| |exact Hg]; [exact Hr0|]. destruct H0; try done; destruct u as [?|]; done.
    - eapply HW; [| |exact Hg]; [exact Hr0|by destruct fo].
    - rewrite submit_gs' in Hg. eapply HW; [| |exact Hg]; [exact Hr0|done].
    - eapply HW; [| |exact Hg]; [by destruct (put_next k (q_chan q)).2|]. destruct k as [|[u|]|s1|]; by destruct (q_chan q).
    - eapply HW; [| |exact Hg]; [exact Hr0|by destruct o].
    - apply HS. by destruct w.
    - assert (c_gs (with_log (after_send y ch k) (PvTold ch f0)) !! g = Some r) as Hr1 by (cbn [with_log c_gs]; by rewrite after_send_gs).
      destruct H4 as [u|w Hw|Hc|Hc]; (eapply HW; [| |exact Hg]; [exact Hr1|]); try done. destruct u; [|done]. by destruct (decide _).
    - apply HS. cbn [with_subs with_log c_gs] in Hg. by rewrite after_send_gs in Hg. }
  pose proof (cmv_subs _ _ _ _ Hm) as HS. split.
  - intros s s' b b' Hb Hb' E. destruct (schange_back _ _ _ _ HS Hb) as [(b0 & Hb0 & (K1 & _))|(Es & g & r & f & id & rt & -> & Hg & Hst & Ho & _)];
      destruct (schange_back _ _ _ _ HS Hb') as [(b1 & Hb1 & (K1' & _))|(Es' & g' & r' & f' & id' & rt' & -> & Hg' & Hst' & Ho' & _)].
    + rewrite K1, K1' in E. by eapply IH1.
    + exfalso. cbn [new_sub b_by] in E. rewrite K1 in E. rewrite <-E in Hg'. by apply (IH2 _ _ _ Hb0 Hg').
    + exfalso. cbn [new_sub b_by] in E. rewrite K1' in E. rewrite E in Hg. by apply (IH2 _ _ _ Hb1 Hg).
    + congruence.
  - intros s b r' Hb Hg. destruct (schange_back _ _ _ _ HS Hb) as [(b0 & Hb0 & (K1 & _))|(Es & g & r & f & id & rt & -> & Hg0 & Hst & Ho & _ & _ & Egs)].
    + rewrite K1 in Hg. by eapply Hpc.
    + cbn [new_sub b_by] in Hg. rewrite Egs in Hg. rewrite (with_g_same _ _ _ _ Hg0) in Hg. by injection Hg as <-.
Qed.
