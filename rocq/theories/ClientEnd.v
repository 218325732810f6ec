(** What happens to waiters and subscriptions when the connection ends. *)
From stdpp Require Import gmap.
From Verif Require Import GoBase HeaderModel FrameModel HeaderProofs NegotiationModel ClientApiModel ClientModel ClientSpec ClientLemmas ClientProofs ClientRequests ClientCalls ClientChannels ClientReceipts ClientDelivery ClientMessages ClientRouting ClientFinal ClientClosing ClientLive ClientReady.

(* ---------------- names in the table ---------------- *)
(** The log shows that channel ch listens to name k: a request for it was taken,
    and since then nobody else took over the name or stopped it. *)
Definition listens (l : list pev) (k : str) (ch : nat) : Prop := exists l1 q w l2, l = l1 ++ PvReq q w :: l2 /\ q_chan q = Some ch /\ names (q_frame q) k /\ ~ stops k (PvReq q w) /\
  Forall (fun e => ~ stops k e /\ forall q' w', e = PvReq q' w' -> is_Some (q_chan q') -> ~ names (q_frame q') k) l2.
Lemma listens_snoc l e k ch : listens (l ++ [e]) k ch ->
  (listens l k ch /\ ~ stops k e /\ forall q' w', e = PvReq q' w' -> is_Some (q_chan q') -> ~ names (q_frame q') k) \/
  exists q w, e = PvReq q w /\ q_chan q = Some ch /\ names (q_frame q) k /\ ~ stops k e.
Proof.
  intros (l1 & q & w & l2 & E & Hc & Hn & Hs & HF). destruct l2 as [|e2 l2 _] using rev_ind.
  - apply app_inj_tail in E as [-> ->]. right. eauto 10.
  - rewrite app_comm_cons, app_assoc in E. apply app_inj_tail in E as [-> ->]. apply Forall_app in HF as [HF He]. apply Forall_inv in He as [He1 He2]. left. split_and!; try done. exists l1, q, w, l2. auto.
Qed.
Lemma stop_local y q l : reqinv y -> mapinv y -> local_only (q_frame q) = true -> f_cmd (q_frame q) = UNSUBSCRIBE -> c_wch y = q :: l -> forall k, first_of (f_hdr (q_frame q)) h_reply_to = k -> stops k (PvReq q None).
Proof.
  intros HR HM Hl Hc Hw k Hk. cbn. split; [done|]. unfold local_only in Hl. apply andb_true_iff in Hl as [_ Hl]. unfold first_of in Hk. destruct (hd_contains (f_hdr (q_frame q)) h_reply_to) as [v|] eqn:E; [|done]. subst v. exact E.
Qed.
Lemma reach_listens A cfg y : creach A cfg y -> forall k ch, listens (c_log y) k ch ->
  match c_p y with PSend _ _ (KReceipt id) => id = k \/ c_map y !! k = Some ch | _ => c_map y !! k = Some ch end.
Proof.
  induction 1 as [|y a y' Hr IH _ Hs]; [intros k ch (l1 & q & w & l2 & E & _); by destruct l1|]. intros k ch Hl. apply cstep_cmv in Hs as Hm. specialize (IH k ch).
  pose proof (reach_req _ _ _ Hr) as HR. pose proof (reach_map _ _ _ Hr) as HM.
  destruct (cmv_pmove _ _ _ _ Hm) as [E1 E2 E3|txt H0 E1 E2 E3|o H0 E1 E2 E3 Hi|f0 txt H0 Hf Hr0 E1 E2 E3|f0 H0 Hf E1 E2 E3|f0 id0 kk c H0 Hro Hk Hh E1 E2 E3|q0 l w0 txt H0 Hw Hl0 E1 E2 E3|q0 l H0 Hw Hl0 Hu E1 E2 E3|q0 l c H0 Hw Hl0 Hc Hu Hh E1 E2 E3|i f0 rest err kk c H0 Hi Hh E1 E2 E3|c f0 kk H0 E1 E2 E3|f0 err H0 E1 E2 E3|err H0 E1 E2 E3]; rewrite E2; rewrite E3 in Hl; try rewrite E1.
  - by apply IH.
  - rewrite H0 in IH. by apply IH.
  - rewrite H0 in IH. apply listens_snoc in Hl as [[Hl _]|(? & ? & [=] & _)]. by apply IH.
  - rewrite H0 in IH. apply listens_snoc in Hl as [[Hl _]|(? & ? & [=] & _)]. by apply IH.
  - rewrite H0 in IH. apply listens_snoc in Hl as [[Hl _]|(? & ? & [=] & _)]. by apply IH.
  - rewrite H0 in IH. apply listens_snoc in Hl as [[Hl _]|(? & ? & [=] & _)]. specialize (IH Hl). by destruct Hro; [right|].
  - rewrite H0 in IH. assert (remember (c_map y) q0 !! k = Some ch) as Hx; [|by destruct w0].
    apply listens_snoc in Hl as [(Hl & _ & Hn)|(q & w & [= <- <-] & Hc & Hn & _)].
    + rewrite remember_out; [by apply IH|]. intros [Hc Hn']. by eapply Hn.
    + by eapply remember_in.
  - rewrite H0 in IH. apply listens_snoc in Hl as [(Hl & _ & Hn)|(q & w & [= <- <-] & Hc & Hn & _)].
    + rewrite remember_out; [by apply IH|]. intros [Hc Hn']. by eapply Hn.
    + by eapply remember_in.
  - rewrite H0 in IH. pose proof (stop_local _ _ _ HR HM Hl0 Hc Hw k) as Hst. apply listens_snoc in Hl as [(Hl & Hns & Hn)|(q & w & [= <- <-] & Hc' & Hn & Hns)].
    + rewrite lookup_delete_ne by (intros ?; apply Hns; by apply Hst). rewrite remember_out; [by apply IH|]. intros [Hc'' Hn']. by eapply Hn.
    + rewrite lookup_delete_ne by (intros ?; apply Hns; by apply Hst). by eapply remember_in.
  - rewrite H0 in IH. by apply IH.
  - rewrite H0 in IH. apply listens_snoc in Hl as [(Hl & _ & Hn)|(? & ? & [=] & _)]. specialize (IH Hl). destruct kk as [id| |f1 rest err]; [|done..].
    destruct (mi_send _ HM _ _ _ H0) as [(? & ? & ? & [=])|(id' & l0 & El & Hro & Hid & _)]. inversion Hro; subst.
    assert (id <> k) as Hne. { rewrite El in Hl. apply listens_snoc in Hl as [(_ & Hns & _)|(? & ? & [=] & _)]. intros ->. apply Hns. done. }
    destruct IH as [?|IH]; [done|]. by rewrite lookup_delete_ne.
  - rewrite H0 in IH. by apply IH.
  - rewrite H0 in IH. destruct E1 as [-> | ->]; by apply IH.
Qed.
(** When processLoop ends, every such channel has been told an ERROR. *)
Lemma end_told A cfg y k ch : creach A cfg y -> (exists err, c_p y = PMust err) \/ c_p y = PEnd -> listens (c_log y) k ch -> exists f, f_cmd f = ERROR /\ PvTold ch f ∈ c_log y.
Proof. intros Hr He Hl. eapply (mi_end _ (reach_map _ _ _ Hr) He k). pose proof (reach_listens _ _ _ Hr _ _ Hl) as H. by destruct He as [[err E]|E]; rewrite E in H. Qed.

(* ---------------- a call that got its response does not wait ---------------- *)
Lemma told_alloc A cfg y ch f : creach A cfg y -> PvTold ch f ∈ c_log y -> ch < length (c_chs y).
Proof.
  revert ch f. induction 1 as [|y a y' Hr IH _ Hs]; [by intros ?%elem_of_nil|]. intros Hl. apply cstep_cmv in Hs as Hm.
  assert (forall c, c < length (c_chs y) -> c < length (c_chs y')) as Hmono. { intros c Hc. apply lookup_lt_is_Some in Hc as [h Hc]. destruct (hchange_mono _ _ _ _ (cmv_chs _ _ _ _ Hm) Hc) as (h' & ? & _). by eapply lookup_lt_Some. }
  apply Hmono. destruct (cmv_pmove _ _ _ _ Hm) as [E1 E2 E3|txt H0 E1 E2 E3|o H0 E1 E2 E3 Hi|f0 txt H0 Hf Hr0 E1 E2 E3|f0 H0 Hf E1 E2 E3|f0 id0 kk c H0 Hro Hk Hh E1 E2 E3|q0 l w0 txt H0 Hw Hl0 E1 E2 E3|q0 l H0 Hw Hl0 Hu E1 E2 E3|q0 l c H0 Hw Hl0 Hc Hu Hh E1 E2 E3|i f0 rest err kk c H0 Hi Hh E1 E2 E3|c f0 kk H0 E1 E2 E3|f0 err H0 E1 E2 E3|err H0 E1 E2 E3];
    rewrite E3 in Hl; try (by eapply IH); apply snoc_in in Hl as [Hl|Hl]; try (by eapply IH); try done. injection Hl as -> ->.
  destruct (psend_req _ _ _ _ (reach_map _ _ _ Hr) H0) as (q & w & Hq & Hc). apply log_req_in in Hq. destruct (rq_ok _ (reach_req _ _ _ Hr) q) as (r & _ & _ & _ & Hx); [right; by left|].
  destruct (Hx _ Hc) as (h & Hh & _). by eapply lookup_lt_Some.
Qed.
Lemma told_left A cfg y g ch f : creach A cfg y -> holds y g ch -> PvTold ch f ∉ c_log y.
Proof.
  intros Hr. revert g ch f. induction Hr as [|y a y' Hr IH Ha Hs]; [by intros g ch f (r & ? & _)|]. intros g ch f Hh' Hl. apply cstep_cmv in Hs as Hm. assert (creach A cfg y') as Hr' by (by eapply cr_step).
  assert (PvTold ch f ∈ c_log y \/ exists k, c_p y = PSend ch f k /\ a = XDeliver) as [Hl0|(k & Hp & ->)].
  { destruct (cmv_pmove _ _ _ _ Hm) as [E1 E2 E3|txt H0 E1 E2 E3|o H0 E1 E2 E3 Hi|f0 txt H0 Hf Hr0 E1 E2 E3|f0 H0 Hf E1 E2 E3|f0 id0 kk c H0 Hro Hk Hh E1 E2 E3|q0 l w0 txt H0 Hw Hl0 E1 E2 E3|q0 l H0 Hw Hl0 Hu E1 E2 E3|q0 l c H0 Hw Hl0 Hc Hu Hh E1 E2 E3|i f0 rest err kk c H0 Hi Hh E1 E2 E3|c f0 kk H0 E1 E2 E3|f0 err H0 E1 E2 E3|err H0 E1 E2 E3];
      rewrite E3 in Hl; try (by left); apply snoc_in in Hl as [Hl|Hl]; try (by left); try done. injection Hl as <- <-. right. exists kk. split; [done|].
    assert (a = XDeliver \/ a <> XDeliver) as [?|Hna] by (destruct a; (by left) || (by right)); [done|]. exfalso. assert (c_log y' = c_log y) as E by (clear E1 E2 E3; inversion Hm; subst; simplify_eq; try done; try congruence; try apply submit_same; try (by destruct (put_next _ _).2); try (by destruct t); try (etrans; [apply submit_same|done])).
    rewrite E3 in E. apply (f_equal length) in E. rewrite app_length in E. cbn in E. lia. }
  - destruct (holds_back _ _ _ _ _ _ Hm Hh') as [Hh|[_ ->]]; [by eapply IH|]. pose proof (told_alloc _ _ _ _ _ Hr Hl0). lia.
  - pose proof (reach_req _ _ _ Hr') as HR'. destruct (holds_owner _ _ _ HR' Hh') as (h' & Hch' & Ho').
    inversion Hm; subst; try (by destruct t); (match goal with H : c_p y = PSend ?c ?f' ?k' |- _ => lazymatch H with Hp => fail | _ => assert (c = ch /\ f' = f /\ k' = k) as (-> & -> & ->) by (split_and!; congruence) end end).
    + destruct (hchange_mono _ _ _ _ (cmv_chs _ _ _ _ Hm) H0) as (h2 & Hh2 & Eo). assert (g0 = g) as -> by congruence. destruct Hh' as (r' & Hg' & _ & Hx). match goal with H : answers _ _ _ _ _ |- _ => destruct H as [u|w' Hw'|Hc|Hc] end;
        apply with_g_lookup in Hg' as [[? _]|(_ & r0 & _ & ->)]; try done; cbn [g_pc] in Hx; destruct Hx as [(k' & Hx)|(k' & q' & Hx & _)]; try done; eapply frame_done_plain; rewrite Hx; done.
    + destruct (hchange_mono _ _ _ _ (cmv_chs _ _ _ _ Hm) H0) as (h2 & Hh2 & Eo). congruence.
Qed.
(** The request of a waiting call. *)
Lemma wait_req A cfg y : creach A cfg y -> forall g r k ch, c_gs y !! g = Some r -> g_pc r = GWait k ch -> exists q, q ∈ allr y /\ q_by q = g /\ q_chan q = Some ch.
Proof.
  induction 1 as [|y a y' Hr IH _ Hs]; [done|]. intros g r k ch Hg Hp. apply cstep_cmv in Hs as Hm.
  assert (forall q, q ∈ allr y -> q ∈ allr y') as Hmono by (intros q Hq; destruct (cmv_allr _ _ _ _ Hm) as [->|(? & ? & ? & ? & _ & _ & -> & _)]; [done|by apply in_snoc]).
  destruct (cmv_special _ _ _ _ _ _ Hm Hg) as [Hg'|[(k' & q' & E & Hn & Hb)|(r0 & k' & q' & ch' & Hr0 & Eop & Hput & Hc & E & Hin)]]; [by rewrite Hp| | |].
  - destruct (IH _ _ _ _ Hg' Hp) as (q & Hq & ? & ?). eauto.
  - congruence.
  - exists q'. split_and!; [apply elem_of_app; by right|by eapply rq_put; [by eapply reach_req|..]|congruence].
Qed.
Lemma one_req A cfg y q q' : creach A cfg y -> q ∈ allr y -> q' ∈ allr y -> q_by q = q_by q' -> q = q'.
Proof.
  intros Hr H1 H2 E. destruct (reach_uniq _ _ _ Hr) as [HN _]. apply elem_of_list_lookup in H1 as [i Hi], H2 as [j Hj].
  assert (i = j) as -> by (eapply (NoDup_lookup _ _ _ (q_by q) HN); [by rewrite list_lookup_fmap, Hi|rewrite list_lookup_fmap, Hj; cbn; by rewrite E]). congruence.
Qed.
Lemma wait_map A cfg y : creach A cfg y -> apart (c_gs y) -> forall g r w ch q k, c_gs y !! g = Some r -> g_pc r = GWait w ch -> q ∈ log_reqs (c_log y) -> q_by q = g ->
  hd_contains (f_hdr (q_frame q)) h_receipt = Some k -> sole (c_gs y) g k -> c_map y !! k = Some ch.
Proof.
  induction 1 as [|y a y' Hr IH Ha Hs]; [done|]. intros HP g r w ch q k Hg Hp Hq Hby Hk Hsole. apply cstep_cmv in Hs as Hm. assert (creach A cfg y') as Hr' by (by eapply cr_step).
  pose proof (cmv_gs _ _ _ _ Hm) as HG. pose proof (apart_back _ _ HG HP) as HP0. pose proof (sole_back _ _ _ _ HG Hsole) as Hsole0. specialize (IH HP0).
  pose proof (reach_req _ _ _ Hr) as HR. pose proof (reach_map _ _ _ Hr) as HM. pose proof (reach_req _ _ _ Hr') as HR'.
  destruct (wait_req _ _ _ Hr' _ _ _ _ Hg Hp) as (q2 & Hq2 & Hby2 & Hc2). assert (q2 = q) as -> by (eapply one_req; [exact Hr'|done|apply elem_of_app; by left|congruence]).
  assert (q ∈ allr y) as Hqy.
  { destruct (cmv_allr _ _ _ _ Hm) as [E|(j & rj & kj & qj & Hj & Hpj & E & rj' & _)]; [by rewrite <-E|]. rewrite E in Hq2. apply snoc_in in Hq2 as [?| ->]; [done|]. exfalso.
    destruct (pmove_log _ _ (cmv_pmove _ _ _ _ Hm)) as [El|[e El]].
    - rewrite El in Hq. apply (proj2 (reach_uniq _ _ _ Hr) _ _ Hj); [by rewrite Hpj|]. rewrite <-(rq_put _ HR _ _ _ _ Hj Hpj). apply elem_of_list_fmap_1, elem_of_app. by left.
    - assert (qj ∈ allr y) as Hin; [|apply (proj2 (reach_uniq _ _ _ Hr) _ _ Hj); [by rewrite Hpj|]; rewrite <-(rq_put _ HR _ _ _ _ Hj Hpj); by apply elem_of_list_fmap_1].
      unfold allr in E. rewrite El, log_reqs_snoc in Hq, E. apply elem_of_app in Hq as [Hq|Hq]; [apply elem_of_app; by left|].
      destruct e as [qe we| |]; [|by apply elem_of_nil in Hq..]. apply elem_of_list_singleton in Hq as ->. apply elem_of_app. right.
      destruct (cmv_pmove _ _ _ _ Hm) as [E1 E2 E3|txt H0 E1 E2 E3|o H0 E1 E2 E3 Hi|f0 txt H0 Hf Hr0 E1 E2 E3|f0 H0 Hf E1 E2 E3|f0 id0 kk c H0 Hro Hk0 Hh E1 E2 E3|q0 l w0 txt H0 Hw Hl0 E1 E2 E3|q0 l H0 Hw Hl0 Hu E1 E2 E3|q0 l c H0 Hw Hl0 Hc Hu Hh E1 E2 E3|i f0 rest err kk c H0 Hi Hh E1 E2 E3|c f0 kk H0 E1 E2 E3|f0 err H0 E1 E2 E3|err H0 E1 E2 E3];
        rewrite E3 in El; try (by apply app_inj_tail in El as [_ ?]); try (apply (f_equal length) in El; rewrite app_length in El; cbn in El; lia);
        apply app_inj_tail in El as [_ [= -> _]]; rewrite Hw; by left. }
  assert (c_gs y !! g = Some r) as Hg0.
  { destruct (cmv_special _ _ _ _ _ _ Hm Hg) as [?|[(k' & q' & E & _)|(r0 & k' & q' & ch' & Hr0 & Eop & Hput & Hc & E & _)]]; [by rewrite Hp|done|congruence|]. exfalso.
    apply (proj2 (reach_uniq _ _ _ Hr) _ _ Hr0); [by rewrite Hput|]. rewrite <-Hby. by apply elem_of_list_fmap_1. }
  assert (known y q) as Hkq by (by apply allr_known). destruct (rq_ok _ HR _ Hkq) as (rq & Hrq & Hof & _). rewrite Hby in Hrq. assert (rq = r) as -> by congruence.
  assert (Hold : q ∈ log_reqs (c_log y) -> c_map y !! k = Some ch) by (intros Hl; by eapply IH).
  assert (Hrem : forall q0 l, c_wch y = q0 :: l -> (q ∈ log_reqs (c_log y) \/ q = q0) -> remember (c_map y) q0 !! k = Some ch).
  { intros q0 l Hw [Hl| ->]; [|eapply remember_in; [done|by left]]. rewrite remember_out; [by apply Hold|]. intros [_ Hn].
    assert (known y q0) as Hk0 by (left; rewrite Hw; by left). destruct (rq_ok _ HR _ Hk0) as (r0 & Hr0 & Hf0 & _). pose proof (Hsole0 _ _ _ Hr0 Hf0 Hn) as E.
    assert (q0 = q) as -> by (eapply one_req; [exact Hr|apply elem_of_app; right; rewrite Hw; by left|apply elem_of_app; by left|congruence]).
    destruct (reach_uniq _ _ _ Hr) as [HN _]. unfold allr in HN. rewrite fmap_app in HN. apply NoDup_app in HN as (_ & HN & _). apply (HN (q_by q)); apply elem_of_list_fmap_1; [done|]. rewrite Hw. by left. }
  assert (Hcase : forall e, c_log y' = c_log y ++ [e] -> match e with PvReq q0 _ => q ∈ log_reqs (c_log y) \/ q = q0 | _ => q ∈ log_reqs (c_log y) end).
  { intros e El. rewrite El, log_reqs_snoc in Hq. apply elem_of_app in Hq as [Hq|Hq]; [destruct e; auto|]. destruct e; [right; by apply elem_of_list_singleton in Hq|by apply elem_of_nil in Hq..]. }
  destruct (cmv_pmove _ _ _ _ Hm) as [E1 E2 E3|txt H0 E1 E2 E3|o H0 E1 E2 E3 Hi|f0 txt H0 Hf Hr0 E1 E2 E3|f0 H0 Hf E1 E2 E3|f0 id0 kk c H0 Hro Hk0 Hh E1 E2 E3|q0 l w0 txt H0 Hw Hl0 E1 E2 E3|q0 l H0 Hw Hl0 Hu E1 E2 E3|q0 l c H0 Hw Hl0 Hc Hu Hh E1 E2 E3|i f0 rest err kk c H0 Hi Hh E1 E2 E3|c f0 kk H0 E1 E2 E3|f0 err H0 E1 E2 E3|err H0 E1 E2 E3]; rewrite E2; pose proof E3 as Hq3;
    try (rewrite E3 in Hq; by apply Hold); try (apply Hcase in Hq3; by apply Hold); try (apply Hcase in Hq3; by eapply Hrem).
  - apply Hcase in Hq3. rewrite lookup_delete_ne; [by eapply Hrem|]. intros Ek. assert (known y q0) as Hkq0 by (left; rewrite Hw; by left). destruct (rq_ok _ HR _ Hkq0) as (r0 & Hr0 & Hf0 & _).
    destruct (stop_local _ _ _ HR HM Hl0 Hc Hw k Ek) as [_ Hrt]. by eapply (HP0 _ _ _ _ _ _ _ Hr0 Hf0 Hc Hrt Hg0 Hof).
  - apply Hcase in Hq3. cbn in Hq3. specialize (Hold Hq3). destruct kk as [id| |f1 rest err]; [|done..]. rewrite lookup_delete_ne; [done|]. intros ->.
    destruct (mi_send _ HM _ _ _ H0) as [(? & ? & ? & [=])|(id' & l0 & El & Hro & Hid & _)]. inversion Hro; subst. assert (c = ch) as -> by congruence.
    eapply (told_left _ _ _ (q_by q) ch f0 Hr'); [|rewrite E3; apply in_last]. exists r. split_and!; [done| |left; eauto].
    pose proof (reach_calls _ _ _ Hr _ _ Hg0) as Hpc. rewrite Hp in Hpc. destruct Hpc as [(f & Hpc & _) Hf]. destruct (g_op r); try done. destruct w as [|[|]| |]; naive_solver.
Qed.
(** When processLoop has ended, no call whose request it took still waits. *)
Lemma end_waiters A cfg y g r w ch q x k : creach A cfg y -> apart (c_gs y) -> (exists err, c_p y = PMust err) \/ c_p y = PEnd -> c_gs y !! g = Some r -> PvReq q x ∈ c_log y -> q_by q = g ->
  hd_contains (f_hdr (q_frame q)) h_receipt = Some k -> sole (c_gs y) g k -> g_pc r <> GWait w ch.
Proof.
  intros Hr HP He Hg Hq Hby Hk Hsole Hp. apply log_req_in in Hq. pose proof (wait_map _ _ _ Hr HP _ _ _ _ _ _ Hg Hp Hq Hby Hk Hsole) as Hmap.
  destruct (mi_end _ (reach_map _ _ _ Hr) He _ _ Hmap) as (f & _ & Ht). eapply (told_left _ _ _ g ch f Hr); [|done]. exists r. split_and!; [done| |left; eauto].
  pose proof (reach_calls _ _ _ Hr _ _ Hg) as Hpc. rewrite Hp in Hpc. destruct Hpc as [(f' & Hpc & _) Hf]. destruct (g_op r); try done. destruct w as [|[|]| |]; naive_solver.
Qed.
(** A subscription told an ERROR (or RECEIPT) is closing. *)
Definition rl_over (x : rlpc) : Prop := match x with RlClose _ | RlDone => True | _ => False end.
Lemma told_over A cfg y : creach A cfg y -> forall s b f, c_subs y !! s = Some b -> PvTold (b_ch b) f ∈ c_log y -> f_cmd f = ERROR \/ f_cmd f = RECEIPT -> rl_over (b_rl b).
Proof.
  induction 1 as [|y a y' Hr IH Ha Hs]; [done|]. intros s b' f Hb' Hl Hf. apply cstep_cmv in Hs as Hm. pose proof (reach_wmove _ _ _ _ _ Hr Hm) as Hw.
  pose proof (reach_req _ _ _ Hr) as HR. pose proof (reach_map _ _ _ Hr) as HM.
  destruct (schange_back _ _ _ _ (cmv_subs _ _ _ _ Hm) Hb') as [(b & Hb & (_ & _ & _ & Ech))|(_ & g & r & f0 & id & rt & -> & _ & _ & _ & _ & Echs & _)].
  2: { exfalso. cbn [new_sub b_ch] in Hl. assert (PvTold (length (c_chs y)) f ∈ c_log y \/ exists k, c_p y = PSend (length (c_chs y)) f k) as [Hl0|(k & Hp)].
       { destruct (cmv_pmove _ _ _ _ Hm) as [E1 E2 E3|txt H0 E1 E2 E3|o H0 E1 E2 E3 Hi|f1 txt H0 Hf1 Hr0 E1 E2 E3|f1 H0 Hf1 E1 E2 E3|f1 id0 kk c H0 Hro Hk Hh E1 E2 E3|q0 l w0 txt H0 Hw0 Hl0 E1 E2 E3|q0 l H0 Hw0 Hl0 Hu E1 E2 E3|q0 l c H0 Hw0 Hl0 Hc Hu Hh E1 E2 E3|i f1 rest err kk c H0 Hi Hh E1 E2 E3|c f1 kk H0 E1 E2 E3|f1 err H0 E1 E2 E3|err H0 E1 E2 E3];
         rewrite E3 in Hl; try (by left); apply snoc_in in Hl as [Hl|Hl]; try (by left); try done. injection Hl as <- <-. right. eauto. }
       - pose proof (told_alloc _ _ _ _ _ Hr Hl0). lia.
       - destruct (psend_req _ _ _ _ HM Hp) as (q & w & Hq & Hc). apply log_req_in in Hq. destruct (rq_ok _ HR q) as (r0 & _ & _ & _ & Hx); [right; by left|].
         destruct (Hx _ Hc) as (h & Hh & _). apply lookup_lt_Some in Hh. lia. }
  rewrite Ech in Hl. destruct (rq_sub _ HR _ _ Hb) as (h & _ & _ & Hh & Ho & _).
  assert (PvTold (b_ch b) f ∈ c_log y \/ exists k, c_p y = PSend (b_ch b) f k /\ a = XDeliver) as [Hl0|(k & Hp & ->)].
  { destruct (cmv_pmove _ _ _ _ Hm) as [E1 E2 E3|txt H0 E1 E2 E3|o H0 E1 E2 E3 Hi|f0 txt H0 Hf0 Hr0 E1 E2 E3|f0 H0 Hf0 E1 E2 E3|f0 id0 kk c H0 Hro Hk Hh0 E1 E2 E3|q0 l w0 txt H0 Hw0 Hl0 E1 E2 E3|q0 l H0 Hw0 Hl0 Hu E1 E2 E3|q0 l c H0 Hw0 Hl0 Hc Hu Hh0 E1 E2 E3|i f0 rest err kk c H0 Hi Hh0 E1 E2 E3|c f0 kk H0 E1 E2 E3|f0 err H0 E1 E2 E3|err H0 E1 E2 E3];
      rewrite E3 in Hl; try (by left); apply snoc_in in Hl as [Hl|Hl]; try (by left); try done. injection Hl as <- <-. right. exists kk. split; [done|].
    assert (a = XDeliver \/ a <> XDeliver) as [?|Hna] by (destruct a; (by left) || (by right)); [done|]. exfalso. assert (c_log y' = c_log y) as E by (clear E1 E2 E3; inversion Hm; subst; simplify_eq; try done; try congruence; try apply submit_same; try (by destruct (put_next _ _).2); try (by destruct t); try (etrans; [apply submit_same|done])).
    rewrite E3 in E. apply (f_equal length) in E. rewrite app_length in E. cbn in E. lia. }
  - specialize (IH _ _ _ Hb Hl0 Hf).
    destruct Hw as [E1 E2|o Hok E1 E2|j r0 x Hj Hx0 E1 E2|j r0 f1 id rt Hj Hst Hop E1 E2|s0 b0 b1 Hb0 Hs0 E1 E2|j r0 x s0 b0 b1 Hj Hb0 _ Hu E1 E2]; rewrite E2 in Hb'; try congruence.
    + apply snoc_lookup in Hb' as [[_ Hb']|[-> ->]]; [congruence|]. apply lookup_lt_Some in Hb. lia.
    + apply upd_sub in Hb' as [(-> & -> & _)|[_ Hb']]; [|congruence]. assert (b0 = b) as -> by congruence. destruct Hs0 as [f1 k Ea Hps Hrl|Ea Hrl Hcl|m Ea Hrl Hcc Hlen|c b' o Ea Hrl Hcm|m l Ea Hbuf]; try (by rewrite Hrl in IH); cbn; [by destruct o|done].
    + apply upd_sub in Hb' as [(-> & -> & _)|[_ Hb']]; [|congruence]. assert (b0 = b) as -> by congruence. inversion Hu; subst; try done. match goal with H : clmove _ _ _ _ |- _ => by destruct (clmove_rl _ _ _ _ H) as (-> & _) end.
  - inversion Hm; subst; try (by destruct t); (match goal with H : c_p y = PSend ?c ?f' ?k' |- _ => lazymatch H with Hp => fail | _ => assert (c = b_ch b /\ f' = f /\ k' = k) as (-> & -> & ->) by (split_and!; congruence) end end); [congruence|].
    assert (s0 = s) as -> by congruence. assert (b0 = b) as -> by congruence. cbn [with_subs c_subs] in Hb'. apply upd_sub in Hb' as [(_ & -> & _)|[? _]]; [|done]. cbn. unfold rl_got.
    rewrite decide_False by (destruct Hf as [-> | ->]; done). destruct Hf as [Hf|Hf]; [rewrite decide_True by done|rewrite decide_False, decide_True by (done || by rewrite Hf)]; by destruct (b_state b).
Qed.

(* ---------------- Send and Disconnect never see a nil response ---------------- *)
Definition keeps (k : from) : Prop := k = FSend \/ k = FDisc.
(** They hold the mutex, so their request is the last one made. *)
Lemma reach_last A cfg y : creach A cfg y -> forall g r k ch, c_gs y !! g = Some r -> g_pc r = GWait k ch -> keeps k -> exists l q, allr y = l ++ [q] /\ q_by q = g /\ q_chan q = Some ch.
Proof.
  induction 1 as [|y a y' Hr IH _ Hs]; [done|]. intros g r k ch Hg Hp Hk. apply cstep_cmv in Hs as Hm. pose proof (reach_req _ _ _ Hr) as HR. pose proof (lk_mut _ (reach_lock _ _ _ Hr)) as HL.
  destruct (cmv_special _ _ _ _ _ _ Hm Hg) as [Hg'|[(k' & q' & E & _)|(r0 & k' & q' & ch' & Hr0 & Eop & Hput & Hc & E & Hin)]]; [by rewrite Hp| |congruence|].
  - destruct (cmv_allr _ _ _ _ Hm) as [->|(j & rj & kj & qj & Hj & Hpj & _)]; [by eapply IH|]. exfalso.
    assert (c_mut y = Some g) as E1 by (apply (HL _ _ Hg'); rewrite Hp; by destruct Hk as [-> | ->]). assert (c_mut y = Some j) as E2 by (apply (HL _ _ Hj); by rewrite Hpj). congruence.
  - assert (k' = k /\ ch' = ch) as [-> ->] by (split; congruence). pose proof (rq_put _ HR _ _ _ _ Hr0 Hput) as Hby.
    destruct (cmv_allr _ _ _ _ Hm) as [Ea|(j & rj & kj & qj & Hj & Hpj & Ea & _)].
    + exfalso. apply (proj2 (reach_uniq _ _ _ Hr) _ _ Hr0); [by rewrite Hput|]. rewrite <-Hby, <-Ea. apply elem_of_list_fmap_1, elem_of_app. by right.
    + assert (c_mut y = Some g) as E1 by (apply (HL _ _ Hr0); by rewrite Hput). assert (c_mut y = Some j) as E2 by (apply (HL _ _ Hj); by rewrite Hpj). assert (j = g) as -> by congruence.
      assert (qj = q') as -> by congruence. eauto.
Qed.
(** A call that is putting its request, or one that waits with the mutex held. *)
Definition keeping (y : cl) (g ch : nat) : Prop := exists r, c_gs y !! g = Some r /\ is_subscribe (g_op r) = false /\ ((exists k, g_pc r = GWait k ch /\ keeps k) \/ exists k q, g_pc r = GPut k q /\ q_chan q = Some ch).
Lemma keeping_holds y g ch : keeping y g ch -> holds y g ch.
Proof. intros (r & Hg & Hs & [(k & Hp & _)|Hx]); exists r; split_and!; try done; [left; eauto|by right]. Qed.
Lemma keeping_back cfg y a y' g ch : cmv cfg y a y' -> keeping y' g ch -> keeping y g ch \/ h_is_closed y' ch = false /\ ch = length (c_chs y).
Proof.
  intros Hm Hh. pose proof (keeping_holds _ _ _ Hh) as Hh2. destruct (holds_back _ _ _ _ _ _ Hm Hh2) as [_|?]; [|by right]. clear Hh2. destruct Hh as (r' & Hg & Hs & Hx).
  assert (special (g_pc r')) as Hsp by (destruct Hx as [(k & -> & _)|(k & q & -> & _)]; done).
  destruct (cmv_special _ _ _ _ _ _ Hm Hg Hsp) as [Hg0|[(k & q & Hp & Hn & Hb)|(r & k & q & c & Hr & Eo & Hp & Hc & Hp' & _)]].
  - left. exists r'. auto.
  - right. destruct Hx as [(k' & Hp' & _)|(k' & q' & Hp' & Hc)]; [congruence|]. assert (q' = q) as -> by congruence.
    destruct Hn as [g0 r k0 f own Hg0 Hs0 Hown _ -> ->|g0 r f id rt Hg0 Hpc Ho _ -> ->]; cbn [q_chan] in Hc.
    + destruct own as [o|]; [|done]. injection Hc as <-. unfold h_is_closed. by rewrite submit_new_chan.
    + injection Hc as <-. unfold h_is_closed. split; [|done]. by rewrite (submit_new_chan (with_subs y _)).
  - left. exists r. split_and!; [done|by rewrite <-Eo|]. right. exists k, q. split; [done|]. rewrite Hc. destruct Hx as [(k' & Hx & _)|(k' & q' & Hx & _)]; congruence.
Qed.
Lemma keeping_open A cfg y : creach A cfg y -> forall g ch, keeping y g ch -> h_is_closed y ch = false.
Proof.
  induction 1 as [|y a y' Hr IH Ha Hs]; [by intros g ch (r & ? & _)|]. intros g ch Hh'. apply cstep_cmv in Hs as Hm. assert (creach A cfg y') as Hr' by (by eapply cr_step).
  destruct (keeping_back _ _ _ _ _ _ Hm Hh') as [Hh|[? _]]; [|done]. specialize (IH _ _ Hh). pose proof (keeping_holds _ _ _ Hh) as Hh2.
  pose proof (reach_req _ _ _ Hr) as HR. destruct (holds_owner _ _ _ HR Hh2) as (h & Hch & Ho). unfold h_is_closed in *. destruct (cmv_closes _ _ _ _ Hm) as [->|[[o ->]|(c & -> & Hcs)]]; [done|by rewrite lookup_app_l by (by eapply lookup_lt_Some)|].
  destruct (decide (ch = c)) as [<-|Hne]; [|by rewrite list_lookup_alter_ne]. exfalso. destruct Hcs as [f k Hp Hk -> _ _|q l H0 Hw Hl Hc Hrm _ _ _].
  - inversion Hm; subst; try (by destruct t); (match goal with H : c_p y = PSend ?c ?f' ?k' |- _ => lazymatch H with Hp => fail | _ => assert (c = ch /\ f' = f /\ k' = k) as (-> & -> & ->) by (split_and!; congruence) end end).
    + assert (g0 = g) as -> by congruence. apply keeping_holds in Hh'. destruct Hh' as (r' & Hg' & _ & Hx). match goal with H : answers _ _ _ _ _ |- _ => destruct H as [u|w' Hw'|Hc|Hc] end;
        apply with_g_lookup in Hg' as [[? _]|(_ & r0 & _ & ->)]; try done; cbn [g_pc] in Hx; destruct Hx as [(k' & Hx)|(k' & q' & Hx & _)]; try done; eapply frame_done_plain; rewrite Hx; done.
    + congruence.
  - destruct (remember_known _ _ _ _ _ _ _ Hr Hw Hrm) as (q2 & Hq2 & Hk2 & Hc2 & _). destruct (owner_g _ _ _ _ _ HR Hk2 Hc2 Hch Ho) as (Hby2 & r & Hg & Hsu & Hof).
    assert (q2 ∈ allr y) as Ha2 by (apply elem_of_app; destruct Hq2 as [->|?]; [right; rewrite Hw; by left|by left]).
    destruct Hh as (r1 & Hg1 & _ & [(k & Hp & Hk)|(k & q1 & Hp & Hc1)]); assert (r1 = r) as -> by congruence.
    + destruct (reach_last _ _ _ Hr _ _ _ _ Hg Hp Hk) as (l0 & q1 & Ea & Hby1 & _). assert (q1 = q2) as -> by (eapply one_req; [exact Hr|rewrite Ea; apply in_last|done|congruence]).
      destruct Hq2 as [->|Hq2].
      * pose proof (reach_calls _ _ _ Hr _ _ Hg) as Hpc. rewrite Hp in Hpc. destruct Hpc as [(f & Hpc & _) _]. pose proof (reach_ops _ _ _ Hr _ _ Hg) as Hop.
        destruct Hk as [-> | ->]; cbn in Hpc.
        -- rewrite Hpc in Hof, Hop. cbn in Hof, Hop. apply bool_decide_eq_true in Hop. injection Hof as E. rewrite E in Hop. by rewrite Hop in Hc.
        -- destruct Hpc as (rid & Eo & _). rewrite Eo in Hof. cbn in Hof. injection Hof as E. by rewrite <-E in Hc.
      * destruct (reach_uniq _ _ _ Hr) as [HN _]. unfold allr in Ea, HN. rewrite Ea, fmap_app in HN. apply NoDup_app in HN as (_ & HN & _).
        destruct (c_wch y) as [|x wl _] using rev_ind; [done|]. rewrite app_assoc in Ea. apply app_inj_tail in Ea as [El ->]. apply (HN (q_by q2)); [|by left]. apply elem_of_list_fmap_1. rewrite <-El. apply elem_of_app. by left.
    + apply (proj2 (reach_uniq _ _ _ Hr) _ _ Hg); [by rewrite Hp|]. rewrite <-Hby2. by apply elem_of_list_fmap_1.
Qed.
Lemma never_nil A cfg y a : creach A cfg y -> cstep cfg y a <> Some (CPanic PNilResponse).
Proof.
  intros Hr H%cstep_panics. destruct (closers_safe _ _ _ Hr) as [S1 S2].
  inversion H as [| | |g r k ch Hg Hp Hc|g r s c res b p Hg Hp Hb Hc| | | | | |s b c p Hb Hrl Hc]; subst.
  - pose proof (reach_calls _ _ _ Hr _ _ Hg) as Hk. rewrite Hp in Hk. destruct Hk as [(f & Hk & _) Hf]. rewrite (keeping_open _ _ _ Hr g ch) in Hc; [done|]. exists r. split_and!; [done| |left; exists k; split; [done|]].
    + destruct (g_op r); try done. destruct k as [|[|]| |]; naive_solver.
    + destruct k as [|u| |]; [by left| |done|by right]. by destruct (H0 u).
  - exact (S1 _ _ _ _ _ _ _ Hg Hp Hb Hc).
  - exact (S2 _ _ _ _ Hb Hrl Hc).
Qed.
