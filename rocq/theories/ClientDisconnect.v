(** A Disconnect call that sent its frame and returned nil has seen the
    RECEIPT (conn.go:477-506). *)
From stdpp Require Import gmap.
From Verif Require Import GoBase HeaderModel FrameModel HeaderProofs NegotiationModel ClientApiModel ClientModel ClientSpec ClientLemmas ClientProofs ClientRequests ClientChannels ClientReceipts ClientDelivery.

Lemma cmv_disconnected cfg y a y' g r' rid : cmv cfg y a y' -> calls_ok y -> c_gs y' !! g = Some r' -> g_op r' = ODisconnect rid -> g_pc r' = GDone RNil ->
  c_gs y !! g = Some r' \/
  (exists r, c_gs y !! g = Some r /\ g_op r = g_op r' /\ g_pc r = GStart /\ allr y' = allr y) \/
  exists r ch fr k w h, c_p y = PSend ch fr k /\ f_cmd fr = RECEIPT /\ c_gs y !! g = Some r /\ g_op r = g_op r' /\ g_pc r = GWait w ch /\ c_chs y !! ch = Some h /\ h_owner h = OwnG g.
Proof.
  intros Hm HC Hg Hop Hd.
  destruct Hm as [o Ho|g0 r t x' H H0|g0 r q H H0|g0 r ch H H0|g0 r ch H H0|g0 r H H0 H1|g0 r s fo b H H0 H1|g0 r k f0 own H H0|g0 r f0 id rt H H0 H1|g0 r k q H H0|g0 r s b c res b' o H H0|g0 r s b H H0|g0 r s b H H0| | | | | | | | | | | |q l w| | | |ch fr k h g0 r w y' H H0 H1 H2 H3 H4|ch fr k h s b| | | | | | | |];
    try (left; exact Hg).
  - left. apply snoc_lookup in Hg as [[_ Hg]|[-> ->]]; done.
  - apply done_g in Hg as [Hg|(-> & r0 & Hr0 & Eo & Ex)]; [by left|]. assert (r0 = r) as -> by congruence. rewrite Ex in Hd. pose proof (HC _ _ H) as Hp.
    assert (g_pc r = GStart \/ g_pc r <> GStart) as [Hst|Hst] by (destruct (g_pc r); auto); [right; left; by exists r|]. exfalso. rewrite Eo in Hop. destruct H0; simplify_eq; try done.
    + by apply frame_done_nil in Hd as [_ ?].
    + by apply frame_done_nil in Hd as [_ ?].
    + by apply frame_done_nil in Hd as [_ ?].
    + destruct Hp as [f0 E]. congruence.
  - apply done_g in Hg as [Hg|(-> & r0 & Hr0 & Eo & Ex)]; [by left|]. congruence.
  - apply done_g in Hg as [Hg|(-> & r0 & Hr0 & Eo & Ex)]; [by left|]. congruence.
  - apply done_g in Hg as [Hg|(-> & r0 & Hr0 & Eo & Ex)]; [by left|]. congruence.
  - apply done_g in Hg as [Hg|(-> & r0 & Hr0 & Eo & Ex)]; [by left|]. assert (r0 = r) as -> by (cbn in Hr0; congruence). congruence.
  - apply done_g in Hg as [Hg|(-> & r0 & Hr0 & Eo & Ex)]; [by left|]. exfalso. rewrite Ex in Hd. by destruct fo.
  - rewrite submit_gs' in Hg. apply done_g in Hg as [Hg|(-> & r0 & Hr0 & Eo & Ex)]; [by left|]. congruence.
  - rewrite submit_gs' in Hg. apply done_g in Hg as [Hg|(-> & r0 & Hr0 & Eo & Ex)]; [by left|]. congruence.
  - apply done_g in Hg as [Hg|(-> & r0 & Hr0 & Eo & Ex)]; [left; by destruct (put_next k (q_chan q)).2|]. exfalso.
    assert (r0 = r) as -> by (destruct (put_next k (q_chan q)).2; cbn in Hr0; congruence). pose proof (HC _ _ H) as Hp. rewrite H0 in Hp. destruct Hp as [Hk Hq].
    rewrite Eo in Hop. rewrite Ex in Hd. assert (q_frame q = mkFrame DISCONNECT [(h_receipt, rid)] []) as Hf by (pose proof (kind_frame _ _ _ Hk) as E; rewrite Hop in E; by injection E).
    destruct k as [|u|s|]; cbn in Hk; rewrite Hop in Hk; try (by destruct u); try done; try (by destruct Hk as (? & ? & ?)). assert (is_Some (q_chan q)) as [ch Hch] by (apply Hq; rewrite Hf; done). rewrite Hch in Hd. done.
  - apply done_g in Hg as [Hg|(-> & r0 & Hr0 & Eo & Ex)]; [by left|]. exfalso. assert (r0 = r) as -> by (cbn in Hr0; congruence).
    pose proof (HC _ _ H) as Hp. rewrite H0 in Hp. destruct Hp as [(f1 & E) _]. congruence.
  - apply done_g in Hg as [Hg|(-> & r0 & Hr0 & Eo & Ex)]; [by left|]. congruence.
  - apply done_g in Hg as [Hg|(-> & r0 & Hr0 & Eo & Ex)]; [by left|]. congruence.
  - left. by destruct w.
  - assert (forall z, c_gs (with_log (after_send y ch k) (PvTold ch fr)) !! z = c_gs y !! z) as Ez by (intros; cbn [with_log c_gs]; by rewrite after_send_gs).
    assert (c_gs y !! g = Some r' \/ g = g0 /\ g_op r' = g_op r /\ f_cmd fr = RECEIPT) as [Hg'|(-> & Eo & Hr)]; [|by left|].
    { destruct H4 as [u|w Hw|Hc|Hc].
      - apply done_g in Hg as [Hg|(-> & r0 & Hr0 & Eo & Ex)]; [left; by rewrite <-Ez|]. right. rewrite Ez in Hr0. assert (r0 = r) as -> by congruence. split_and!; try done.
        rewrite Ex in Hd. apply frame_done_nil in Hd as [_ Hd]. by destruct (decide _).
      - apply done_g in Hg as [Hg|(-> & r0 & Hr0 & Eo & Ex)]; [left; by rewrite <-Ez|]. right. assert (r0 = r) as -> by (rewrite Ez in Hr0; congruence). split_and!; try done.
        rewrite Ex in Hd. by destruct (decide _).
      - apply done_g in Hg as [Hg|(-> & r0 & Hr0 & Eo & Ex)]; [left; by rewrite <-Ez|]. right. assert (r0 = r) as -> by (rewrite Ez in Hr0; congruence). done.
      - apply done_g in Hg as [Hg|(-> & r0 & Hr0 & Eo & Ex)]; [left; by rewrite <-Ez|]. congruence. }
    right. right. exists r, ch, fr, k, w, h. done.
  - left. cbn [with_subs with_log c_gs] in Hg. by rewrite after_send_gs in Hg.
Qed.
(** The answer to a waiting call that is not about a subscription. *)
Lemma answered_receipted A cfg y g r f ch fr k w h : creach A cfg y -> c_p y = PSend ch fr k -> f_cmd fr = RECEIPT -> c_gs y !! g = Some r -> g_pc r = GWait w ch -> c_chs y !! ch = Some h -> h_owner h = OwnG g ->
  op_frame (g_op r) = Some f -> is_sub_cmd f = false -> receipted (c_log y) g f.
Proof.
  intros Hr Hp Hc Hg' Hw Hh Hown Hop Hcmd. pose proof (reach_map _ _ _ Hr) as HM. pose proof (reach_req _ _ _ Hr) as HR.
  destruct (mi_send _ HM _ _ _ Hp) as [(f' & rest & err & ->)|(id & l & El & Hro & Hmap & q & wr & Hq & Hqc & Hn)].
  { exfalso. destruct (mi_cur _ HM _ _ _ _ _ Hp) as [-> _]. destruct (mi_bcast _ HM fr rest err) as [Hce _]; [right; by do 2 eexists|]. by rewrite Hc in Hce. }
  assert (PvReq q wr ∈ c_log y) as Hql by (rewrite El; by apply in_snoc).
  destruct (rq_ok _ HR q) as (rq & Hrq & Hf & Hs1 & Hch); [right; left; by eapply log_req_in|]. destruct (Hch _ Hqc) as (h' & Hh' & Hown'). assert (h' = h) as -> by congruence.
  assert (is_subscribe (g_op rq) = false) as Hns by (destruct (is_subscribe (g_op rq)); [destruct Hown' as (s & b & E & _); congruence|done]).
  rewrite Hns in *. assert (q_by q = g) as Eby by congruence. rewrite Eby in Hrq. assert (rq = r) as -> by congruence. assert (q_frame q = f) as Eqf by congruence.
  unfold is_sub_cmd in Hcmd. apply orb_false_iff in Hcmd as [Hc1%bool_decide_eq_false Hc2%bool_decide_eq_false].
  destruct Hn as [Hn|[Hn _]]; [|by rewrite Eqf in Hn]. rewrite Eqf in Hn.
  assert (wr = Some (f, true)) as ->.
  { pose proof (mi_wr _ HM _ _ Hql) as Hx. rewrite Eqf in Hx. destruct wr as [[fx bx]|].
    - destruct Hx as [-> _]. unfold outgoing. rewrite decide_False by done. destruct bx; [done|]. exfalso.
      apply (mi_ok _ HM) in Hql; [done|]. right. exists ch, fr, k. split; [done|]. intros ? ? ? ->. inversion Hro.
    - exfalso. unfold local_only in Hx. rewrite !bool_decide_eq_false_2 in Hx by done. done. }
  assert (Hid : hd_contains (f_hdr fr) h_receipt_id = Some id) by (destruct Hro as [? ? ?|? E ?]; [done|by rewrite Hc in E]).
  apply elem_of_list_split in Hq as (l1 & l2 & ->). exists l1, q, l2, fr, []. split_and!; try done; [rewrite El; by rewrite <-app_assoc|by rewrite Hid, Hn].
Qed.
Lemma disconnect_nil A cfg y : creach A cfg y -> forall g r rid, c_gs y !! g = Some r -> g_op r = ODisconnect rid -> g_pc r = GDone RNil -> g ∈ q_by <$> allr y ->
  receipted (c_log y) g (mkFrame DISCONNECT [(h_receipt, rid)] []).
Proof.
  induction 1 as [|y a y' Hr IH _ Hs]; [done|]. intros g r' rid Hg Hop Hd Hq. apply cstep_cmv in Hs as Hm.
  assert (receipted (c_log y) g (mkFrame DISCONNECT [(h_receipt, rid)] []) -> receipted (c_log y') g (mkFrame DISCONNECT [(h_receipt, rid)] [])) as Hgrow.
  { destruct (pmove_log _ _ (cmv_pmove _ _ _ _ Hm)) as [->|[e ->]]; [done|apply receipted_grow]. }
  destruct (cmv_disconnected _ _ _ _ _ _ _ Hm (reach_calls _ _ _ Hr) Hg Hop Hd) as [Hg'|[(r & Hg' & Eo & Hst & Ea)|(r & ch & fr & k & w & h & Hp & Hc & Hg' & Eo & Hw & Hh & Hown)]].
  - apply Hgrow. eapply IH; try done. destruct (cmv_allr _ _ _ _ Hm) as [E|(g0 & r0 & k & q & Hg0 & Hp0 & E & _)]; [by rewrite E in Hq|].
    rewrite E, fmap_app in Hq. apply elem_of_app in Hq as [Hq|Hq]; [done|]. apply elem_of_list_singleton in Hq. pose proof (rq_put _ (reach_req _ _ _ Hr) _ _ _ _ Hg0 Hp0) as Eb. rewrite Hq, Eb in Hg'. congruence.
  - exfalso. rewrite Ea in Hq. refine (proj2 (reach_uniq _ _ _ Hr) _ _ Hg' _ Hq). by rewrite Hst.
  - apply Hgrow. eapply answered_receipted; try done. by rewrite Eo, Hop.
Qed.
