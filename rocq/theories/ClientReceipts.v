(** What a nil result of a call that asked for a receipt means. *)
From stdpp Require Import gmap.
From Verif Require Import GoBase HeaderModel FrameModel HeaderProofs NegotiationModel ClientApiModel ClientModel ClientSpec ClientLemmas ClientProofs ClientRequests ClientChannels.

Lemma reach_ops A cfg y : creach A cfg y -> forall g r, c_gs y !! g = Some r -> op_ok (g_op r) = true.
Proof.
  induction 1 as [|y a y' Hr IH _ Hs]; [done|]. intros g r Hg. apply cstep_cmv, cmv_gs in Hs.
  destruct Hs as [|o Ho|j rj x Hj]; [by eapply IH| |].
  - apply snoc_lookup in Hg as [[_ Hg]|[-> ->]]; [by eapply IH|done].
  - destruct (decide (g = j)) as [->|Hne].
    + rewrite list_lookup_alter, Hj in Hg. cbn in Hg. injection Hg as <-. cbn. by eapply IH.
    + rewrite list_lookup_alter_ne in Hg by done. by eapply IH.
Qed.

Lemma receipted_grow l e g f : receipted l g f -> receipted (l ++ e) g f.
Proof.
  intros (l1 & q & l2 & fr & l3 & -> & H). exists l1, q, l2, fr, (l3 ++ e). split; [|done]. by rewrite <-!app_assoc, <-!app_comm_cons, <-!app_assoc.
Qed.
Lemma done_g y g x j r' : c_gs (with_g y g x) !! j = Some r' -> c_gs y !! j = Some r' \/ j = g /\ exists r, c_gs y !! g = Some r /\ g_op r' = g_op r /\ g_pc r' = x.
Proof. intros [[_ Hj]|(-> & r0 & Hr0 & ->)]%with_g_lookup; [by left|]. right. split; [done|]. by exists r0. Qed.
Lemma frame_done_nil u r : frame_done u r = GDone RNil -> u = None /\ r = RNil.
Proof. destruct u as [s|]; cbn; [by destruct r as [| |[]]|]. by intros [= ->]. Qed.
Lemma cmv_done cfg y a y' g r' f : cmv cfg y a y' -> calls_ok y -> c_gs y' !! g = Some r' -> receipt_call (g_op r') f -> g_pc r' = GDone RNil ->
  c_gs y !! g = Some r' \/
  exists r ch fr k w h, c_p y = PSend ch fr k /\ f_cmd fr = RECEIPT /\ c_gs y !! g = Some r /\ g_op r = g_op r' /\ g_pc r = GWait w ch /\ c_chs y !! ch = Some h /\ h_owner h = OwnG g.
Proof.
  intros Hm HC Hg Hop Hd.
  destruct Hm as [o Ho|g0 r t x' H H0|g0 r q H H0|g0 r ch H H0|g0 r ch H H0|g0 r H H0 H1|g0 r s fo b H H0 H1|g0 r k f0 own H H0|g0 r f0 id rt H H0 H1|g0 r k q H H0|g0 r s b c res b' o H H0|g0 r s b H H0|g0 r s b H H0| | | | | | | | | | | |q l w| | | |ch fr k h g0 r w y' H H0 H1 H2 H3 H4|ch fr k h s b| | | | | | | |];
    try (left; exact Hg).
  - left. apply snoc_lookup in Hg as [[_ Hg]|[-> ->]]; done.
  - apply done_g in Hg as [Hg|(-> & r0 & Hr0 & Eo & Ex)]; [by left|]. exfalso. assert (r0 = r) as -> by congruence. rewrite Eo in Hop. rewrite Ex in Hd. pose proof (HC _ _ H) as Hp. destruct Hop as [Hop Hw]. destruct H0; simplify_eq.
    + destruct Hop as [E|E]; rewrite E in *; simplify_eq/=.
    + by apply frame_done_nil in Hd as [_ ?].
    + by apply frame_done_nil in Hd as [_ ?].
    + by apply frame_done_nil in Hd as [_ ?].
    + destruct Hp as [f0 E]. destruct Hop; congruence.
  - apply done_g in Hg as [Hg|(-> & r0 & Hr0 & Eo & Ex)]; [by left|]. congruence.
  - apply done_g in Hg as [Hg|(-> & r0 & Hr0 & Eo & Ex)]; [by left|]. congruence.
  - apply done_g in Hg as [Hg|(-> & r0 & Hr0 & Eo & Ex)]; [by left|]. congruence.
  - apply done_g in Hg as [Hg|(-> & r0 & Hr0 & Eo & Ex)]; [by left|]. assert (r0 = r) as -> by (cbn in Hr0; congruence). exfalso. destruct Hop as [[E|E] _]; congruence.
  - apply done_g in Hg as [Hg|(-> & r0 & Hr0 & Eo & Ex)]; [by left|]. exfalso. rewrite Ex in Hd. by destruct fo.
  - rewrite submit_gs' in Hg. apply done_g in Hg as [Hg|(-> & r0 & Hr0 & Eo & Ex)]; [by left|]. congruence.
  - rewrite submit_gs' in Hg. apply done_g in Hg as [Hg|(-> & r0 & Hr0 & Eo & Ex)]; [by left|]. congruence.
  - apply done_g in Hg as [Hg|(-> & r0 & Hr0 & Eo & Ex)]; [left; by destruct (put_next k (q_chan q)).2|]. exfalso.
    assert (r0 = r) as -> by (destruct (put_next k (q_chan q)).2; cbn in Hr0; congruence). pose proof (HC _ _ H) as Hp. rewrite H0 in Hp. destruct Hp as [Hk Hq].
    rewrite Eo in Hop. rewrite Ex in Hd. destruct Hop as [Hop Hw]. assert (op_frame (g_op r) = Some f) as Hf by (destruct Hop as [E|E]; by rewrite E).
    rewrite (kind_frame _ _ _ Hk) in Hf. injection Hf as Hf. rewrite Hf in Hq. destruct (q_chan q) as [c|] eqn:Ec; [by destruct k|].
    destruct k as [|u|s|]; try done; assert (is_Some (None : option nat)) as [? ?] by tauto; done.
  - apply done_g in Hg as [Hg|(-> & r0 & Hr0 & Eo & Ex)]; [by left|]. exfalso. assert (r0 = r) as -> by (cbn in Hr0; congruence).
    pose proof (HC _ _ H) as Hp. rewrite H0 in Hp. destruct Hp as [(f1 & E) _]. destruct Hop as [[?|?] _]; congruence.
  - apply done_g in Hg as [Hg|(-> & r0 & Hr0 & Eo & Ex)]; [by left|]. congruence.
  - apply done_g in Hg as [Hg|(-> & r0 & Hr0 & Eo & Ex)]; [by left|]. congruence.
  - left. by destruct w.
  - assert (forall z, c_gs (with_log (after_send y ch k) (PvTold ch fr)) !! z = c_gs y !! z) as Ez by (intros; cbn [with_log c_gs]; by rewrite after_send_gs).
    assert (c_gs y !! g = Some r' \/ g = g0 /\ g_op r' = g_op r /\ f_cmd fr = RECEIPT) as [Hg'|(-> & Eo & Hr)]; [|by left|].
    { destruct H4 as [u|w Hw|Hc|Hc].
      - apply done_g in Hg as [Hg|(-> & r0 & Hr0 & Eo & Ex)]; [left; by rewrite <-Ez|]. right. rewrite Ez in Hr0. assert (r0 = r) as -> by congruence. split_and!; try done.
        rewrite Ex in Hd. apply frame_done_nil in Hd as [_ Hd]. by destruct (decide _).
      - apply done_g in Hg as [Hg|(-> & r0 & Hr0 & Eo & Ex)]; [left; by rewrite <-Ez|]. right. assert (r0 = r) as -> by (rewrite Ez in Hr0; congruence). split_and!; try done.
        rewrite Ex in Hd. by destruct (decide _).
      - apply done_g in Hg as [Hg|(-> & r0 & Hr0 & Eo & Ex)]; [left; by rewrite <-Ez|]. right. assert (r0 = r) as -> by (rewrite Ez in Hr0; congruence). done.
      - apply done_g in Hg as [Hg|(-> & r0 & Hr0 & Eo & Ex)]; [left; by rewrite <-Ez|]. congruence. }
    right. exists r, ch, fr, k, w, h. done.
  - left. cbn [with_subs with_log c_gs] in Hg. by rewrite after_send_gs in Hg.
Qed.
Lemma log_req_in q w l : PvReq q w ∈ l -> q ∈ log_reqs l.
Proof. intros H. unfold log_reqs. apply elem_of_list_omap. by exists (PvReq q w). Qed.
Lemma receipt_nil A cfg y : creach A cfg y -> forall g r f, c_gs y !! g = Some r -> receipt_call (g_op r) f -> g_pc r = GDone RNil -> receipted (c_log y) g f.
Proof.
  induction 1 as [|y a y' Hr IH _ Hs]; [done|]. intros g r' f Hg Hop Hd. apply cstep_cmv in Hs as Hm.
  destruct (cmv_done _ _ _ _ _ _ _ Hm (reach_calls _ _ _ Hr) Hg Hop Hd) as [Hg'|(r & ch & fr & k & w & h & Hp & Hc & Hg' & Eo & Hw & Hh & Hown)].
  - destruct (pmove_log _ _ (cmv_pmove _ _ _ _ Hm)) as [->|[e ->]]; [by eapply IH|]. apply receipted_grow. by eapply IH.
  - pose proof (reach_map _ _ _ Hr) as HM. pose proof (reach_req _ _ _ Hr) as HR.
    destruct (mi_send _ HM _ _ _ Hp) as [(f' & rest & err & ->)|(id & l & El & Hro & Hmap & q & wr & Hq & Hqc & Hn)].
    { exfalso. destruct (mi_cur _ HM _ _ _ _ _ Hp) as [-> _]. destruct (mi_bcast _ HM fr rest err) as [Hce _]; [right; by do 2 eexists|]. by rewrite Hc in Hce. }
    assert (PvReq q wr ∈ c_log y) as Hql by (rewrite El; by apply in_snoc).
    destruct (rq_ok _ HR q) as (rq & Hrq & Hf & Hs1 & Hch); [right; left; by eapply log_req_in|]. destruct (Hch _ Hqc) as (h' & Hh' & Hown'). assert (h' = h) as -> by congruence.
    assert (is_subscribe (g_op rq) = false) as Hns by (destruct (is_subscribe (g_op rq)); [destruct Hown' as (s & b & E & _); congruence|done]).
    rewrite Hns in *. assert (q_by q = g) as Eby by congruence. rewrite Eby in Hrq. assert (rq = r) as -> by congruence.
    destruct Hop as [Hop Hwr]. assert (q_frame q = f) as Eqf by (rewrite Eo in Hf; destruct Hop as [E|E]; rewrite E in Hf; cbn in Hf; congruence).
    assert (is_sub_cmd f = false) as Hcmd.
    { pose proof (reach_ops _ _ _ Hr _ _ Hg') as Hk. rewrite Eo in Hk. destruct Hop as [E|E]; rewrite E in Hk; cbn in Hk.
      - apply bool_decide_eq_true in Hk. unfold is_sub_cmd. by rewrite Hk.
      - by apply negb_true_iff in Hk. }
    unfold is_sub_cmd in Hcmd. apply orb_false_iff in Hcmd as [Hc1%bool_decide_eq_false Hc2%bool_decide_eq_false].
    destruct Hn as [Hn|[Hn _]]; [|by rewrite Eqf in Hn]. rewrite Eqf in Hn.
    assert (wr = Some (f, true)) as ->.
    { pose proof (mi_wr _ HM _ _ Hql) as Hx. rewrite Eqf in Hx. destruct wr as [[fx bx]|].
      - destruct Hx as [-> _]. unfold outgoing. rewrite decide_False by done. destruct bx; [done|]. exfalso.
        apply (mi_ok _ HM) in Hql; [done|]. right. exists ch, fr, k. split; [done|]. intros ? ? ? ->. inversion Hro.
      - exfalso. unfold local_only in Hx. rewrite !bool_decide_eq_false_2 in Hx by done. done. }
    assert (Hid : hd_contains (f_hdr fr) h_receipt_id = Some id) by (destruct Hro as [? ? ?|? E ?]; [done|by rewrite Hc in E]).
    destruct (pmove_log _ _ (cmv_pmove _ _ _ _ Hm)) as [El'|[e El']]; rewrite El'; [|apply receipted_grow];
      (apply elem_of_list_split in Hq as (l1 & l2 & ->); exists l1, q, l2, fr, []; split_and!; try done; [rewrite El; by rewrite <-app_assoc|by rewrite Hid, Hn]).
Qed.
