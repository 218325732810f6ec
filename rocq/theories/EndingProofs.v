(** For EndingProps. *)
From stdpp Require Import gmap.
From Verif Require Import GoBase HeaderModel FrameModel GrammarSpec HeaderProofs NegotiationModel NegotiationSpec NegotiationLemmas ClientApiModel ClientModel ClientSpec.
From Verif Require Import BrokerModel BrokerSpec BrokerProofs ServerConnModel ServerConnSpec ServerConnProofs RefusalSpec RefusalProofs SystemModel SystemLemmas SystemSpec SystemProofs SystemTokens
  SystemMessages SystemUids SystemHistory FlowSpec FlowProofs RestSpec NetModel NetSpec NetLinks NetProofs NetSettled EndingSpec.

(** After the loop took the closing of readChannel nothing is left to read. *)
Definition shut (n : sconn) : Prop := forall pre e, n_log n = pre ++ [e] -> v_in e = InClosed -> n_eof n = true /\ n_read n = [].
Lemma shut_same n n' : shut n -> n_log n' = n_log n -> n_read n' = n_read n -> n_eof n' = n_eof n -> shut n'.
Proof. intros H E1 E2 E3 pre e. rewrite E1, E2, E3. apply H. Qed.
Lemma reach_shut cfg y : reach cfg y -> forall c n, y_conns y !! c = Some n -> shut n.
Proof.
  revert y. apply (reach_ind' cfg (fun y => forall c n, y_conns y !! c = Some n -> shut n)).
  { intros c n H. cbn in H. by rewrite lookup_nil in H. }
  intros y y' _ IH Hm.
  assert (Hupd : forall c n n', y_conns y !! c = Some n -> (shut n -> shut n') -> forall c0 n0, <[c := n']> (y_conns y) !! c0 = Some n0 -> shut n0).
  { intros c n n' H1 H2 c0 n0 H3. destruct (conns_upd _ _ _ _ _ _ H1 H3) as [[-> ->]|[? ?]]; [eauto|by eapply IH]. }
  destruct Hm; cbn [y_conns set_conn]; try done; try (by eapply Hupd; [done|]; intros Hs; by eapply shut_same).
  - intros c n [Hn|[_ Hn]]%lookup_app_Some; [by eapply IH|]. apply list_lookup_singleton_Some in Hn as [_ <-]. intros pre e E _. by destruct pre.
  - eapply Hupd; [done|]. intros Hs pre e E Hi. destruct (Hs pre e E Hi) as [Hx _]. congruence.
  - eapply Hupd; [done|]. intros Hs pre e E Hi. split; [done|]. by destruct (Hs pre e E Hi).
  - eapply Hupd; [done|]. intros _ pre e E Hi. unfold taken in E |- *. cbn [n_log n_eof n_read] in E |- *. apply app_inj_tail in E as [_ <-]. cbn [v_in] in Hi. subst i.
    destruct (take_input_cases _ _ _ _ H2) as (_ & _ & _ & _ & _ & -> & ? & ?). done.
  - eapply Hupd; [done|]. intros Hs. destruct H3; by eapply shut_same.
Qed.

Lemma stop_reason cfg cid id_of ack_of pre e c st n : cexec cfg cid id_of ack_of (pre ++ [e]) c st -> v_stop e = true ->
  (v_in e = InClosed -> n_eof n = true /\ n_read n = []) -> ending cfg n pre e.
Proof.
  intros Hx Hst Hc. destruct (v_in e) as [m| |m|s|] eqn:Hin.
  - destruct (decide (Exists (fun x : wr => snd x = false) (v_wr e))) as [HE|HE].
    { apply Exists_exists in HE as ([x w] & Hx' & Hw). cbn in Hw. subst w. by eapply en_write. }
    assert (receipts_fine (v_wr e)) as Hf. { intros x ok Hxo _. destruct ok; [done|]. exfalso. apply HE, Exists_exists. by exists (Some x, false). }
    destruct (refused_exact _ _ _ _ _ _ _ _ _ _ Hx Hin Hf) as [Hr _]. destruct (proj1 Hr Hst) as [txt Ht]. by eapply en_refused.
  - destruct (Hc eq_refl) as [H1 H2]. apply en_closed; try done.
    apply cexec_last in Hx as (c0 & hp & nx & w1 & w2 & o & _ & _ & _ & Hi & _ & E & _). rewrite Hin in Hi. cbn in Hi. injection Hi as <-. by rewrite E.
  - apply cexec_last in Hx as (c0 & hp & nx & w1 & w2 & o & _ & _ & Hb & Hi & _ & E & _). rewrite Hin in Hi, Hb. cbn [conn_iter] in Hi. cbn in Hb.
    destruct (alloc_id (k_last c0) None m) as [k m'] eqn:Ha. injection Hi as <-. rewrite E in Hst |- *. cbn [v_stop i_stop] in Hst.
    destruct w1; [|eapply en_write; cbn; left]. cbn in Hst. apply bool_decide_eq_true in Hst. exfalso. apply alloc_id_cmd in Ha as [Ha _]. unfold cmd_of in Ha. rewrite Ha, Hb in Hst. discriminate Hst.
  - apply cexec_last in Hx as (c0 & hp & nx & w1 & w2 & o & _ & _ & _ & Hi & _ & E & _). rewrite Hin in Hi. cbn [conn_iter] in Hi.
    destruct (hp !! s) as [sb|]; [|done]. destruct (s_frame sb) as [m|]; [|done]. rewrite E in Hst |- *. destruct (k_subs c0 !! s_id sb); [|by injection Hi as <-].
    destruct (alloc_id (k_last c0) (Some (s_ack sb)) m) as [k m']. destruct w1; cbn [negb] in Hi.
    + destruct (decide (s_ack sb = ack_auto)); [by injection Hi as <-|]. destruct (sl_add _ _ _) as [?|[hp1 l1]]; [done|]. by injection Hi as <-.
    + injection Hi as <-. eapply en_write. cbn. left.
  - apply cexec_last in Hx as (c0 & hp & nx & w1 & w2 & o & _ & _ & _ & Hi & _ & E & _). rewrite Hin in Hi. cbn in Hi. injection Hi as <-. rewrite E in Hst |- *. cbn in Hst.
    destruct w1; [done|]. eapply en_write. cbn. left.
Qed.

Lemma end_reason cfg y c n : reach cfg y -> y_conns y !! c = Some n -> n_phase n <> Running ->
  exists pre e, n_log n = pre ++ [e] /\ v_stop e = true /\ (forall e', e' ∈ pre -> v_stop e' = false) /\ ending cfg n pre e.
Proof.
  intros Hr Hn Hp. pose proof (reach_shut _ _ Hr _ _ Hn) as Hsh.
  destruct (conn_history _ _ Hr _ _ (keeps_in _ (reach_wf _ _ Hr)) _ _ Hn) as (k & st & Hx & _ & Hst). rewrite (Hst Hp) in Hx. clear Hst.
  destruct (n_log n) as [|e pre _] eqn:El using rev_ind; [inversion Hx; by destruct log|]. exists pre, e. split; [done|].
  assert (Hse : v_stop e = true). { pose proof Hx as Hy. apply cexec_last in Hy as (c0 & hp & nx & w1 & w2 & o & _ & _ & _ & _ & _ & E & _ & E'). rewrite E. cbn. by symmetry. }
  split; [done|]. split.
  - intros e' He'. by eapply (before_accepted _ _ _ _ _ _ _ _ _ Hx).
  - eapply stop_reason; [done|done|]. intros Hi. by apply (Hsh pre e).
Qed.

Lemma open_accepted cfg y c n : reach cfg y -> y_conns y !! c = Some n -> n_phase n = Running -> forall e, e ∈ n_log n -> v_stop e = false.
Proof.
  intros Hr Hn Hp. destruct (conn_history _ _ Hr _ _ (keeps_in _ (reach_wf _ _ Hr)) _ _ Hn) as (k & st & Hx & Hst & _). destruct (Hst Hp) as [-> _]. by eapply all_accepted.
Qed.

(** A session that ended without complaints ended because the stream did. *)
Lemma kept cfg y c n : reach cfg y -> y_conns y !! c = Some n -> n_phase n <> Running -> untroubled n -> taken_up n = passed_on n.
Proof.
  intros Hr Hn Hp Hu. destruct (end_reason _ _ _ _ Hr Hn Hp) as (pre & e & El & Hst & Hpre & [Hi _ _ Hrd|m txt Hi Hrf|x Hx]).
  - unfold taken_up, passed_on. rewrite El, Hrd, app_nil_r, omap_app. unfold frames_of. rewrite omap_app. cbn. replace (accepted e) with (@None msg) by (unfold accepted; by rewrite Hst). replace (client_frame e) with (@None msg) by (unfold client_frame; by rewrite Hi). f_equal.
    symmetry. by apply frames_accepted.
  - exfalso. destruct (conn_history _ _ Hr _ _ (keeps_in _ (reach_wf _ _ Hr)) _ _ Hn) as (k & st & Hx & _). rewrite El in Hx.
    assert (Hw : forall p, p ∈ v_wr e -> p ∈ written n). { intros p Hpe. unfold written, wire. rewrite El, fmap_app, concat_app. apply elem_of_app. right. cbn. apply elem_of_app. by left. }
    destruct (refused_exact _ _ _ _ _ _ _ _ _ _ Hx Hi) as [_ Hd]. { intros x ok Hxo _. apply (Hu (Some x)). by apply Hw. }
    destruct (Hd _ Hrf) as (b & er & w & Ew & Ec & _). destruct (Hu (Some er) w) as [_ Hne]. { apply Hw. rewrite Ew. apply elem_of_app. right. left. } by apply (Hne er).
  - exfalso. destruct (Hu x false) as [Hf _]; [|done]. unfold written, wire. rewrite El, fmap_app, concat_app. apply elem_of_app. right. cbn. apply elem_of_app. by left.
Qed.

(** What its frames asked of the processor, outside transactions. *)
Lemma sent_due cfg cid id_of ack_of log c st : cexec cfg cid id_of ack_of log c st -> (forall m, m ∈ omap accepted log -> hget_of m (lit "transaction") = None) ->
  concat ((fun e => enqueues (v_push e)) <$> log) = sends (omap accepted log).
Proof.
  intros Hx. assert (Hd : forall pre e post, log = pre ++ e :: post -> enqueues (v_push e) = due pre e). { intros pre e post ->. by eapply enqueue_due. }
  clear Hx. induction log as [|e log IH] using rev_ind; [done|]. intros Hm. rewrite fmap_app, concat_app, omap_app. cbn. rewrite app_nil_r.
  unfold sends. rewrite omap_app. fold (sends (omap accepted log)). rewrite IH; [|intros pre e' post ->; eapply (Hd _ _ (post ++ [e])); by rewrite <-app_assoc|intros m H; apply Hm; rewrite omap_app; apply elem_of_app; by left].
  f_equal. rewrite (Hd log e []) by done. unfold due. destruct (accepted e) as [m|] eqn:Ea; [|done]. rewrite Hm; [done|]. rewrite omap_app. apply elem_of_app. right. cbn. rewrite Ea. left.
Qed.
Lemma sends_frames l : g_frame <$> sends l = as_message <$> filter is_send (g_frame <$> l).
Proof.
  induction l as [|m l IH]; [done|]. rewrite fmap_cons, filter_cons. unfold is_send at 1. change (sends (m :: l)) with (match (if decide (cmd_of m = SEND) then Some (delivered m) else None) with Some a => a :: sends l | None => sends l end).
  unfold cmd_of. destruct (decide (f_cmd (g_frame m) = SEND)) as [E|E].
  - rewrite decide_True by done. rewrite !fmap_cons, IH. done.
  - rewrite decide_False by done. apply IH.
Qed.
Lemma kept_messages cfg y c n : reach cfg y -> y_conns y !! c = Some n -> n_phase n <> Running -> untroubled n ->
  (forall m, m ∈ passed_on n -> hget_of m (lit "transaction") = None) -> client_sent n = sends (passed_on n).
Proof.
  intros Hr Hn Hp Hu Ht. destruct (conn_history _ _ Hr _ _ (keeps_in _ (reach_wf _ _ Hr)) _ _ Hn) as (k & st & Hx & _).
  rewrite <-(kept _ _ _ _ Hr Hn Hp Hu) in Ht |- *. unfold client_sent, taken_up. by eapply sent_due.
Qed.
