(** A RECEIPT that arrives after the request ends the wait for it. *)
From stdpp Require Import gmap.
From Verif Require Import GoBase HeaderModel FrameModel HeaderProofs NegotiationModel ClientApiModel ClientModel ClientSpec ClientLemmas ClientProofs ClientCalls ClientRequests ClientChannels ClientReceipts ClientDelivery ClientLive
  ClientMessages ClientRouting ClientReady ClientEnd ClientFinal.

Lemma split_last {X} (l : list X) e a x b y c : l ++ [e] = a ++ x :: b ++ y :: c ->
  (c = [] /\ e = y /\ l = a ++ x :: b) \/ exists c', c = c' ++ [e] /\ l = a ++ x :: b ++ y :: c'.
Proof.
  induction c as [|z c' _] using rev_ind; intros E.
  - left. rewrite app_comm_cons, app_assoc in E. apply app_inj_tail in E as [-> ->]. done.
  - right. exists c'. rewrite !app_comm_cons, !app_assoc in E. apply app_inj_tail in E as [-> ->]. split; [done|]. by rewrite <-!app_assoc, <-app_comm_cons.
Qed.
Lemma receipt_taken A cfg y : creach A cfg y -> apart (c_gs y) -> forall g r w ch k l1 q x l2 rc l3, c_gs y !! g = Some r -> is_subscribe (g_op r) = false -> g_pc r = GWait w ch -> sole (c_gs y) g k ->
  c_log y = l1 ++ PvReq q x :: l2 ++ PvIn (Some rc) :: l3 -> q_by q = g -> hd_contains (f_hdr (q_frame q)) h_receipt = Some k -> f_cmd rc = RECEIPT -> hd_contains (f_hdr rc) h_receipt_id = Some k ->
  c_p y = PSend ch rc (KReceipt k).
Proof.
  induction 1 as [|y a y' Hr IH Ha Hs]; [by intros _ g r w ch k l1 q x l2 rc l3 Hg|]. intros HP g r w ch k l1 q x l2 rc l3 Hg Hsub Hp Hsole El Hby Hk Hrc Hid.
  apply cstep_cmv in Hs as Hm. assert (creach A cfg y') as Hr' by (by eapply cr_step).
  pose proof (cmv_gs _ _ _ _ Hm) as HG. pose proof (apart_back _ _ HG HP) as HP0. pose proof (sole_back _ _ _ _ HG Hsole) as Hsole0. specialize (IH HP0).
  assert (c_gs y !! g = Some r) as Hg0.
  { assert (special (g_pc r)) as Hsp by (by rewrite Hp). destruct (cmv_special _ _ _ _ _ _ Hm Hg Hsp) as [Hg'|[(k' & q' & E & _)|(r0 & k' & q' & ch' & Hr0 & Eop & Hput & Hc & E & Hin)]]; [done|congruence|]. exfalso.
    pose proof (rq_put _ (reach_req _ _ _ Hr) _ _ _ _ Hr0 Hput) as Eq.
    destruct (reach_uniq _ _ _ Hr') as [HN _]. unfold allr in HN. rewrite fmap_app in HN. apply NoDup_app in HN as (_ & HN & _). apply (HN g).
    - rewrite <-Hby. apply elem_of_list_fmap_1. eapply (log_req_in _ x). rewrite El. apply elem_of_app. right. left.
    - rewrite <-Eq. by apply elem_of_list_fmap_1. }
  assert (Hold : c_log y = l1 ++ PvReq q x :: l2 ++ PvIn (Some rc) :: l3 -> c_p y = PSend ch rc (KReceipt k)) by (intros E; by eapply (IH g r)).
  assert (Hnew : c_log y = l1 ++ PvReq q x :: l2 -> c_map y !! k = Some ch).
  { intros E. eapply (wait_map _ _ _ Hr HP0 g r); try done. eapply (log_req_in _ x). rewrite E. apply elem_of_app. right. left. }
  assert (Hroute : routes rc k (KReceipt k)) by by constructor.
  assert (HL : forall e, c_log y' = c_log y ++ [e] -> (e = PvIn (Some rc) /\ c_map y !! k = Some ch) \/ c_p y = PSend ch rc (KReceipt k)).
  { intros e E. rewrite El in E. symmetry in E. apply split_last in E as [(-> & -> & E)|(c' & -> & E)]; [left; split; [done|auto]|]. right. by eapply (IH g r). }
  destruct (cmv_pmove _ _ _ _ Hm) as [E1 E2 E3|txt H0 E1 E2 E3|o H0 E1 E2 E3 Hi|f0 txt H0 Hf Hr0 E1 E2 E3|f0 H0 Hf E1 E2 E3|f0 id0 kk c H0 Hro Hmk Hh E1 E2 E3|q0 l w0 txt H0 Hw Hl0 E1 E2 E3|q0 l H0 Hw Hl0 Hu E1 E2 E3|q0 l c H0 Hw Hl0 Hc Hu Hh E1 E2 E3|i f0 rest err kk c H0 Hi Hh E1 E2 E3|c f0 kk H0 E1 E2 E3|f0 err H0 E1 E2 E3|err H0 E1 E2 E3];
    try (rewrite E3 in El; specialize (Hold El); congruence); destruct (HL _ E3) as [[Ee Hmap]|Hx]; try congruence.
  - injection Ee as ->. destruct Hi as (_ & _ & Hi). specialize (Hi _ _ Hroute). congruence.
  - injection Ee as ->. by rewrite Hrc in Hf.
  - injection Ee as ->. destruct Hro as [i Hc0 Hi0|i Hc0 Hi0]; [|by rewrite Hrc in Hc0]. assert (i = k) as -> by congruence. congruence.
  - exfalso. assert (c = ch) as -> by congruence. eapply (told_left _ _ _ g ch f0 Hr'); [|rewrite E3; apply elem_of_app; right; by left]. exists r. split_and!; try done. left. eauto.
Qed.

(* ---------------- the result of Send ---------------- *)
Lemma cmv_sent cfg y a y' g r' f v : cmv cfg y a y' -> calls_ok y -> c_gs y' !! g = Some r' -> g_op r' = OSend (Some f) -> g_pc r' = GDone v ->
  c_gs y !! g = Some r' \/ (v = RNil /\ exists r w, c_gs y !! g = Some r /\ ((exists ch, g_pc r = GWait w ch) \/ exists q, g_pc r = GPut w q /\ q ∈ c_wch y')) \/
  (c_closed y = true /\ v <> RNil) \/ v = RErr ESendTimeout /\ k_msg_to cfg = true \/ v = RErr EReceiptTimeout /\ k_rcv_to cfg = true \/
  exists r ch fr k w h, v = RErr (EResponse fr) /\ f_cmd fr <> RECEIPT /\ c_p y = PSend ch fr k /\ c_gs y !! g = Some r /\ g_op r = g_op r' /\ g_pc r = GWait w ch /\ c_chs y !! ch = Some h /\ h_owner h = OwnG g.
Proof.
  intros Hm HC Hg Hop Hd.
  destruct Hm as [o Ho|g0 r t x' H H0|g0 r q H H0|g0 r ch H H0|g0 r ch H H0|g0 r H H0 H1|g0 r s fo b H H0 H1|g0 r k f0 own H H0|g0 r f0 id rt H H0 H1|g0 r k q H H0|g0 r s b c res b' o H H0|g0 r s b H H0|g0 r s b H H0| | | | | | | | | | | |q l w| | | |ch fr k h g0 r w y' H H0 H1 H2 H3 H4|ch fr k h s b| | | | | | | |];
    try (left; exact Hg).
  - left. apply snoc_lookup in Hg as [[_ Hg]|[-> ->]]; done.
  - apply done_g in Hg as [Hg|(-> & r0 & Hr0 & Eo & Ex)]; [by left|]. assert (r0 = r) as -> by congruence. rewrite Ex in Hd. pose proof (HC _ _ H) as Hp. rewrite Eo in Hop.
    destruct H0; simplify_eq; try done; cbn in Hp; try (by destruct u; destruct Hp as [(? & Hp & _) _]; cbn in Hp; congruence); try (destruct Hp; congruence).
    + right. right. left. split; [done|]. intros ->. unfold at_closed in *. by rewrite Hop in *.
    + by destruct H2; congruence.
    + destruct u; cbn in Hp; congruence.
  - apply done_g in Hg as [Hg|(-> & r0 & Hr0 & Eo & Ex)]; [by left|]. right. right. right. left. split; congruence.
  - apply done_g in Hg as [Hg|(-> & r0 & Hr0 & Eo & Ex)]; [by left|]. do 4 right. left. split; congruence.
  - apply done_g in Hg as [Hg|(-> & r0 & Hr0 & Eo & Ex)]; [by left|]. exfalso. assert (r0 = r) as -> by (cbn in Hr0; congruence). pose proof (HC _ _ H) as Hp. rewrite H0 in Hp. destruct Hp as [(f1 & (rid & E & _) & _) _]. congruence.
  - apply done_g in Hg as [Hg|(-> & r0 & Hr0 & Eo & Ex)]; [by left|]. assert (r0 = r) as -> by (cbn in Hr0; congruence). congruence.
  - apply done_g in Hg as [Hg|(-> & r0 & Hr0 & Eo & Ex)]; [by left|]. exfalso. assert (r0 = r) as -> by (cbn in Hr0; congruence). congruence.
  - rewrite submit_gs' in Hg. apply done_g in Hg as [Hg|(-> & r0 & Hr0 & Eo & Ex)]; [by left|]. congruence.
  - rewrite submit_gs' in Hg. apply done_g in Hg as [Hg|(-> & r0 & Hr0 & Eo & Ex)]; [by left|]. congruence.
  - apply done_g in Hg as [Hg|(-> & r0 & Hr0 & Eo & Ex)]; [left; by destruct (put_next k (q_chan q)).2|]. right. left.
    assert (r0 = r) as -> by (destruct (put_next k (q_chan q)).2; cbn in Hr0; congruence). pose proof (HC _ _ H) as Hp. rewrite H0 in Hp. destruct Hp as [Hk Hq].
    rewrite Eo in Hop. rewrite Ex in Hd. destruct k as [|[u|]|s|]; cbn in Hk; rewrite Hop in Hk; try done; try (by destruct Hk as (? & ? & ?)). cbn in Hd. destruct (q_chan q) eqn:Eq; [done|]. injection Hd as <-.
    split; [done|]. exists r, FSend. split; [done|]. right. exists q. split; [done|]. cbn. apply elem_of_app. right. left.
  - apply done_g in Hg as [Hg|(-> & r0 & Hr0 & Eo & Ex)]; [by left|]. exfalso. assert (r0 = r) as -> by (cbn in Hr0; congruence).
    pose proof (HC _ _ H) as Hp. rewrite H0 in Hp. destruct Hp as [(f1 & E) _]. congruence.
  - apply done_g in Hg as [Hg|(-> & r0 & Hr0 & Eo & Ex)]; [by left|]. congruence.
  - apply done_g in Hg as [Hg|(-> & r0 & Hr0 & Eo & Ex)]; [by left|]. exfalso. assert (r0 = r) as -> by (cbn in Hr0; congruence).
    pose proof (HC _ _ H) as Hp. rewrite H0 in Hp. destruct Hp as [f1 E]. congruence.
  - left. by destruct w.
  - assert (forall z, c_gs (with_log (after_send y ch k) (PvTold ch fr)) !! z = c_gs y !! z) as Ez by (intros; cbn [with_log c_gs]; by rewrite after_send_gs).
    pose proof (HC _ _ H2) as Hp. rewrite H3 in Hp. destruct Hp as [(f1 & Hk & _) _].
    destruct H4 as [u|w Hw|Hc|Hc]; (apply done_g in Hg as [Hg|(-> & r0 & Hr0 & Eo & Ex)]; [left; by rewrite <-Ez|]); rewrite Ez in Hr0; assert (r0 = r) as -> by congruence; rewrite Eo in Hop; rewrite Hop in Hk.
    + exfalso. by destruct u.
    + right. rewrite Ex in Hd. injection Hd as <-. destruct (decide _) as [Hx|Hx]; [left; split; [done|]; exists r, w; split; [done|]; left; by exists ch|]. do 4 right. exists r, ch, fr, k, w, h. done.
    + by destruct Hk as (? & ? & _).
    + by destruct Hk as (? & ? & _).
  - left. cbn [with_subs with_log c_gs] in Hg. by rewrite after_send_gs in Hg.
Qed.
(** The frame of a Send that returned nil has been given to processLoop. *)
Lemma send_asked A cfg y : creach A cfg y -> forall g r f, c_gs y !! g = Some r -> g_op r = OSend (Some f) -> g_pc r = GDone RNil -> exists q, q ∈ allr y /\ q_by q = g /\ q_frame q = f.
Proof.
  intros Hr g r f Hg Hop Hd. assert (exists q, q ∈ allr y /\ q_by q = g) as (q & Hq & Hb).
  { revert g r f Hg Hop Hd. induction Hr as [|y a y' Hr IH _ Hs]; [done|]. intros g r f Hg Hop Hd. apply cstep_cmv in Hs as Hm.
    assert (forall q, q ∈ allr y -> q ∈ allr y') as Hmono by (intros q Hq; destruct (cmv_allr _ _ _ _ Hm) as [->|(? & ? & ? & ? & _ & _ & -> & _)]; [done|by apply in_snoc]).
    destruct (cmv_sent _ _ _ _ _ _ _ _ Hm (reach_calls _ _ _ Hr) Hg Hop Hd) as [Hg0|[(_ & r0 & w & Hr0 & Hx)|[[_ ?]|[[? _]|[[? _]|(? & ? & ? & ? & ? & ? & ? & _)]]]]]; try done.
    - destruct (IH _ _ _ Hg0 Hop Hd) as (q & Hq & ?). eauto.
    - destruct Hx as [(ch & Hx)|(q & Hx & Hin)].
      + destruct (wait_req _ _ _ Hr _ _ _ _ Hr0 Hx) as (q & Hq & ? & _). eauto.
      + exists q. split; [apply elem_of_app; by right|]. exact (rq_put _ (reach_req _ _ _ Hr) _ _ _ _ Hr0 Hx). }
  exists q. split_and!; [done|done|]. destruct (rq_ok _ (reach_req _ _ _ Hr) q) as (r' & Hr' & Hf & _); [unfold allr in Hq; apply elem_of_app in Hq; unfold known; tauto|].
  rewrite Hb in Hr'. assert (r' = r) as -> by congruence. rewrite Hop in Hf. cbn in Hf. congruence.
Qed.
