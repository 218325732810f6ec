(** Every client frame enters the broker at most once. *)
From Verif Require Import GoBase HeaderModel FrameModel GrammarSpec HeaderProofs NegotiationModel NegotiationSpec NegotiationLemmas
  BrokerModel BrokerSpec BrokerProofs ServerConnModel ServerConnSpec ServerConnProofs SystemModel SystemLemmas SystemSpec SystemProofs SystemTokens SystemMessages.

Definition uc (u : nat) (l : list msg) : nat := cnt u (g_uid <$> l).
Lemma uc_app u a b : uc u (a ++ b) = uc u a + uc u b.
Proof. unfold uc. by rewrite fmap_app, cnt_app. Qed.
Lemma uc_nil u : uc u [] = 0. Proof. done. Qed.
Lemma uc_cons u m l : uc u (m :: l) = uc u [m] + uc u l.
Proof. apply (uc_app u [m] l). Qed.
Global Arguments uc : simpl never.

(** Stored frames. *)
Definition txc (u : nat) (t : gmap str (list msg)) : nat := sum_list_with (fun kl : str * list msg => uc u kl.2) (map_to_list t).
Lemma sum_perm {A} (f : A -> nat) l k : l ≡ₚ k -> sum_list_with f l = sum_list_with f k.
Proof. induction 1; cbn; lia. Qed.
Lemma txc_insert_new u t k l : t !! k = None -> txc u (<[k := l]> t) = uc u l + txc u t.
Proof. intros H. unfold txc. rewrite (sum_perm _ _ _ (map_to_list_insert t k l H)). done. Qed.
Lemma txc_delete u t k l : t !! k = Some l -> txc u t = uc u l + txc u (delete k t).
Proof. intros H. unfold txc. rewrite <-(sum_perm _ _ _ (map_to_list_delete t k l H)). done. Qed.
Lemma txc_insert u t k l l' : t !! k = Some l -> txc u (<[k := l']> t) + uc u l = txc u t + uc u l'.
Proof.
  intros H. rewrite (txc_delete u t k l H). rewrite (txc_delete u (<[k := l']> t) k l') by apply lookup_insert.
  rewrite delete_insert_delete. lia.
Qed.
Lemma txc_empty u : txc u ∅ = 0.
Proof. unfold txc. by rewrite map_to_list_empty. Qed.

Lemma replay_uids u hp sl l hp' sl' rs : replay hp sl l = Fine (hp', sl', rs) -> uc u (enqueues rs) <= uc u l.
Proof.
  revert hp sl hp' sl' rs. induction l as [|m l IH]; intros hp sl hp' sl' rs; cbn [replay]; [intros [= <- <- <-]; cbn; lia|].
  destruct (apply_one hp sl m) as [p|[[hp1 sl1] rs1]] eqn:Ha; [done|].
  destruct (replay hp1 sl1 l) as [p|[[hp2 sl2] rs2]] eqn:Hr; [done|]. intros [= <- <- <-].
  rewrite enqueues_app, uc_app, (uc_cons u m l). apply IH in Hr. enough (uc u (enqueues rs1) <= uc u [m]) by lia.
  unfold apply_one in Ha. destruct (decide (cmd_of m = SEND)) as [Hcmd|Hcmd].
  - injection Ha as <- <- <-. done.
  - replace (enqueues rs1) with (@nil msg); [rewrite uc_nil; lia|]. symmetry.
    destruct (ack_id m); [by injection Ha as <- <- <-|]. by eapply sl_of_no_send.
Qed.
Definition in_msgs (i : cin) : list msg := match i with InFrame m => [m] | _ => [] end.
Lemma iter_uids u cfg cid w1 w2 c hp nx i o : tx_ok c -> conn_iter cfg cid w1 w2 c hp nx i = Fine o ->
  txc u (k_tx (i_c o)) + uc u (enqueues (i_push o)) <= txc u (k_tx c) + uc u (in_msgs i).
Proof.
  intros Htx Ho. destruct i as [m| |m|s|]; cbn [in_msgs].
  - pose proof (conn_iter_frame cfg cid w1 w2 c hp nx m Htx) as Hc. rewrite Ho in Hc.
    inversion Hc; subst; cbn [i_c i_push k_tx set_tx set_sublist set_subs]; try (change (uc u (enqueues [])) with 0); try lia.
    + change (uc u (enqueues [RConnected cid])) with 0. lia.
    + rewrite txc_insert_new by done. rewrite uc_nil. lia.
    + rewrite (txc_delete u (k_tx c) t l) by done. lia.
    + rewrite (txc_delete u (k_tx c) t l) by done. match goal with Hrep : replay _ _ _ = _ |- _ => pose proof (replay_uids u _ _ _ _ _ _ Hrep) end. lia.
    + pose proof (txc_insert u (k_tx c) t l (l ++ [with_hdr m (hd_del (hd_del (hdr m) h_receipt) h_transaction)]) ltac:(done)) as E.
      rewrite uc_app in E. change (uc u [with_hdr m (hd_del (hd_del (hdr m) h_receipt) h_transaction)]) with (uc u [m]) in E. lia.
    + change (enqueues [REnqueue (as_message (no_receipt m))]) with [as_message (no_receipt m)].
      assert (uc u [as_message (no_receipt m)] = uc u [m]) as ->; [|lia].
      unfold uc. cbn [fmap list_fmap as_message g_uid]. unfold no_receipt. by destruct (hd_contains (hdr m) h_receipt).
    + assert (enqueues rs = []) as -> by (by eapply sl_of_no_send). rewrite uc_nil. lia.
    + change (uc u (enqueues [RSubscribe nx])) with 0. lia.
    + change (uc u (enqueues [RUnsubscribe s])) with 0. lia.
  - injection Ho as <-. cbn. lia.
  - cbn [conn_iter] in Ho. destruct (alloc_id _ _ _). injection Ho as <-. cbn. lia.
  - pose proof (conn_iter_sub cfg cid w1 w2 c hp nx s) as Hc. rewrite Ho in Hc. inversion Hc; subst; cbn; lia.
  - injection Ho as <-. cbn. lia.
Qed.

Definition cu (u : nat) (n : sconn) : nat := uc u (n_read n) + txc u (k_tx (n_c n)) + uc u (clog n).
Definition uids (y : sys) : Prop :=
  forall u, sum_list_with (cu u) (y_conns y) <= 1 /\ (y_uid y <= u -> sum_list_with (cu u) (y_conns y) = 0).
Lemma uids_upd y c n n' hp nx req b pout blog fin lost : y_conns y !! c = Some n -> (forall u, cu u n' <= cu u n) -> uids y ->
  uids (mkSys (<[c := n']> (y_conns y)) hp nx (y_uid y) req b pout blog fin lost).
Proof.
  intros Hn Hle HU u. cbn [y_conns y_uid]. destruct (HU u) as [H1 H2]. pose proof (sum_upd (cu u) _ _ _ n' Hn). specialize (Hle u). split; [lia|].
  intros Hu. specialize (H2 Hu). lia.
Qed.
Lemma uids_move cfg y y' : wf y -> move cfg y y' -> uids y -> uids y'.
Proof.
  intros HW Hm HU. destruct Hm.
  - intros u. cbn [y_conns y_uid]. rewrite sum_list_with_app. cbn [sum_list_with]. change (cu u sconn_init) with 0. destruct (HU u). rewrite !Nat.add_0_r. done.
  - intros u. cbn [y_conns y_uid]. destruct (HU u) as [H1 H2].
    match goal with |- context [<[c := ?x]> _] => pose proof (sum_upd (cu u) _ _ _ x H) as E; set (n' := x) in * end.
    assert (cu u n' = cu u n + (if decide (y_uid y = u) then 1 else 0)) as E1.
    { unfold cu, n', clog. cbn [n_read n_c n_log]. rewrite uc_app. unfold uc at 2. cbn [fmap list_fmap cnt g_uid]. destruct (decide (y_uid y = u)); lia. }
    destruct (decide (y_uid y = u)) as [<-|Hne]; [specialize (H2 ltac:(lia))|]; (split; [lia|]); intros Hu; [lia|]. specialize (H2 ltac:(lia)). lia.
  - eapply uids_upd; try done.
  - destruct (take_input_cases _ _ _ _ H2) as (I1 & I2 & I3 & I4 & I5 & I6). pose proof (co_tx _ _ _ (wf_conns _ HW _ _ H)) as Htx.
    eapply uids_upd; try done. intros u. pose proof (iter_uids u _ _ _ _ _ _ _ _ _ Htx H3) as E. unfold cu. rewrite clog_snoc, uc_app.
    assert (clog n1 = clog n) as -> by (unfold clog; by rewrite I5). cbn [taken n_read n_c].
    assert (txc u (k_tx (if i_stop o then set_tx (i_c o) ∅ else i_c o)) <= txc u (k_tx (i_c o))) as E1.
    { destruct (i_stop o); [|done]. cbn [set_tx k_tx]. rewrite txc_empty. lia. }
    assert (uc u (n_read n) = uc u (in_msgs i) + uc u (n_read n1)) as E2; [|lia].
    destruct i; cbn [in_msgs].
    + destruct I6 as [-> _]. by rewrite (uc_cons u m (n_read n1)).
    + by destruct I6 as (-> & _).
    + by destruct I6 as (_ & -> & _).
    + by destruct I6 as (_ & -> & _).
    + by rewrite I6.
  - eapply uids_upd; try done.
  - eapply uids_upd; try done. intros u. assert (n_log n' = n_log n /\ n_read n' = n_read n /\ k_tx (n_c n') = k_tx (n_c n)) as (E1 & E2 & E3) by (by destruct H3).
    unfold cu, clog. by rewrite E1, E2, E3.
  - intros u. apply HU.
  - eapply uids_upd; try done.
  - eapply uids_upd; try done.
Qed.
Lemma reach_uids cfg y : reach cfg y -> uids y.
Proof. revert y. apply reach_ind'; [intros u; cbn; lia|]. intros y y' Hr HU Hm. eapply uids_move; try done. by eapply reach_wf. Qed.

Lemma sent_once cfg y : reach cfg y -> NoDup (g_uid <$> sent y).
Proof.
  intros Hr. apply cnt_nodup. intros u. destruct (reach_uids _ _ Hr u) as [H _]. change (uc u (sent y) <= 1).
  etransitivity; [|exact H]. unfold sent. clear. induction (y_conns y) as [|n l IH]; [done|].
  cbn [fmap list_fmap concat sum_list_with]. rewrite uc_app. unfold cu at 1, clog. lia.
Qed.

(** No two places ever have the same message. *)
Lemma one_place cfg y d : reach cfg y -> is_queue d = true -> NoDup (g_uid <$> whereabouts d y).
Proof.
  intros Hr Hq. pose proof (conservation _ _ _ Hr Hq) as Hp.
  assert (g_uid <$> filter (to_dest d) (sent y) ≡ₚ g_uid <$> whereabouts d y) as Hu.
  { assert (forall l : list msg, g_uid <$> l = g_uid <$> (payload <$> l)) as E. { intros l. rewrite <-list_fmap_compose. by apply list_fmap_ext. }
    rewrite (E (filter _ _)), (E (whereabouts _ _)). by f_equiv. }
  rewrite <-Hu. pose proof (sent_once _ _ Hr) as Hn. revert Hn. generalize (sent y). intros l.
  assert (g_uid <$> filter (to_dest d) l `sublist_of` g_uid <$> l).
  { induction l as [|m l IH]; [done|]. rewrite filter_cons. destruct (decide _); cbn; [by apply sublist_skip|by apply sublist_cons]. }
  intros Hn. apply sublist_submseteq, submseteq_Permutation in H as [k Hk]. rewrite Hk in Hn. by apply NoDup_app in Hn as [? _].
Qed.
