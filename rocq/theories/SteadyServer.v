(** A queue with one subscriber, when clients subscribe with automatic
    acknowledgement and do not unsubscribe. *)
From stdpp Require Import gmap.
From Verif Require Import GoBase HeaderModel FrameModel GrammarSpec HeaderProofs NegotiationModel NegotiationSpec NegotiationLemmas
  BrokerModel BrokerSpec BrokerProofs ServerConnModel ServerConnSpec ServerConnProofs SystemModel SystemLemmas SystemSpec SystemProofs SystemTokens SystemMessages SystemUids SystemHistory SystemPanics
  FlowSpec FlowTopics FlowSubs FlowProofs OnceSpec OnceProofs QueueServer QueueOrderSpec QueueOrderServer NetQueue QueueOrderNet SteadySpec.

Lemma reach_if_weaken (P Q : frame -> Prop) cfg y : (forall f, P f -> Q f) -> reach_if P cfg y -> reach_if Q cfg y.
Proof. intros HPQ. induction 1 as [|y a y' Hr IH Hs HP]; [constructor|]. eapply ri_step; eauto. Qed.
Lemma reads_if P cfg y : reach_if P cfg y -> forall c n m, y_conns y !! c = Some n -> m ∈ n_read n -> P (g_frame m).
Proof. induction 1 as [|y a y' Hr IH Hs HP]; [done|]. eapply reads_new; eauto. Qed.
Lemma logs_if P cfg y : reach_if P cfg y -> forall c n e m, y_conns y !! c = Some n -> e ∈ n_log n -> v_in e = InFrame m -> P (g_frame m).
Proof.
  induction 1 as [|y a y' Hr IH Hs HP]; [done|]. intros c n' e m Hn He Hi. pose proof (step_move _ _ _ _ Hs) as Hm.
  assert (Hupd : forall c0 n0 n1, y_conns y !! c0 = Some n0 -> <[c0 := n1]> (y_conns y) !! c = Some n' -> (e ∈ n_log n1 -> e ∈ n_log n0 \/ P (g_frame m)) -> P (g_frame m)).
  { intros c0 n0 n1 H0 H1 H2. destruct (conns_upd _ _ _ _ _ _ H0 H1) as [[-> ->]|[_ H']]; [|eauto]. destruct (H2 He); eauto. }
  destruct Hm; cbn [y_conns set_conn] in Hn; try (eapply Hupd; [done|done|cbn; auto]; fail); try (by eapply IH).
  - apply lookup_app_Some in Hn as [Hn|[_ Hn]]; [eauto|]. apply list_lookup_singleton_Some in Hn as [_ <-]. by apply elem_of_nil in He.
  - eapply Hupd; [done|done|]. destruct (take_input_cases _ _ _ _ H2) as (I1 & I2 & I3 & I4 & I5 & I6). cbn [taken n_log]. rewrite I5. intros [He'|He']%elem_of_app; [by left|right].
    apply elem_of_list_singleton in He' as ->. cbn in Hi. subst i. destruct I6 as [I6 _]. eapply reads_if; [done|done|]. rewrite I6. left.
  - eapply Hupd; [done|done|]. assert (n_log n'0 = n_log n) as -> by (by destruct H3). auto.
Qed.

(** While its connection runs, a subscription is known by its id. *)
Lemma steady_live cfg y c n s sb : reach_if steady cfg y -> y_conns y !! c = Some n -> n_phase n = Running -> y_heap y !! s = Some sb -> s_conn sb = c ->
  is_Some (k_subs (n_c n) !! s_id sb).
Proof.
  intros Hi Hn Hp Hs Hc. pose proof (reach_if_reach _ _ _ Hi) as Hr. rewrite (run_live _ _ _ _ Hr Hn Hp).
  destruct (reach_origin _ _ Hr _ _ n Hs ltac:(by rewrite Hc)) as (e & He & m & Ha & Hcm & Hid & Hd & Hpu).
  apply elem_of_list_split in He as (pre & post & El). unfold live. rewrite El, fold_left_app. cbn [fold_left].
  assert (is_Some (sub_event (s_id sb) (fold_left (sub_event (s_id sb)) pre None) e)) as [t ->].
  { unfold sub_event. rewrite Ha. rewrite decide_True by (exact Hid). rewrite decide_True by done. rewrite Hpu. eauto. }
  assert (forall pre' post' t, n_log n = pre' ++ post' -> is_Some (fold_left (sub_event (s_id sb)) post' (Some t))) as HH; [|apply (HH (pre ++ [e])); by rewrite <-app_assoc].
  intros pre' post'. revert pre'. induction post' as [|e' post' IH]; intros pre' t' El'; [cbn; eauto|]. cbn [fold_left].
  assert (is_Some (sub_event (s_id sb) (Some t') e')) as [t2 ->]; [|apply (IH (pre' ++ [e'])); by rewrite <-app_assoc].
  unfold sub_event. destruct (accepted e') as [m'|] eqn:Ha'; [|eauto]. destruct (decide (hget_of m' (lit "id") = Some (s_id sb))) as [Hid'|]; [|eauto].
  destruct (decide (cmd_of m' = SUBSCRIBE)) as [Hc'|Hc'].
  - destruct (accepted_asks _ _ Hr _ _ _ _ _ Hn El' _ Ha' Hc') as (i' & d' & s' & E & Hsub). destruct Hsub as (? & _ & _ & _ & _ & ->). eauto.
  - destruct (decide (cmd_of m' = UNSUBSCRIBE)) as [Hu|]; [|eauto]. exfalso.
    assert (v_in e' = InFrame m') as Hv. { unfold accepted, client_frame in Ha'. destruct (v_stop e'); [done|]. destruct (v_in e'); try done. by injection Ha' as ->. }
    destruct (logs_if _ _ _ Hi c n e' m' Hn ltac:(rewrite El'; apply elem_of_app; right; left) Hv) as [_ HU]. by apply HU.
Qed.
(** Nobody waits for an acknowledgement. *)
Lemma steady_auto cfg y s sb : reach_if steady cfg y -> y_heap y !! s = Some sb -> s_ack sb = ack_auto.
Proof. intros Hi. eapply (po_auto false y); [|done]. eapply reach_pol, reach_if_weaken; [|exact Hi]. by intros f [? _]. Qed.
Lemma steady_list cfg y c n : reach_if steady cfg y -> y_conns y !! c = Some n -> k_sublist (n_c n) = [].
Proof.
  intros Hi Hn. destruct (k_sublist (n_c n)) as [|s l] eqn:E; [done|]. exfalso. pose proof (reach_wf _ _ (reach_if_reach _ _ _ Hi)) as HW.
  destruct (co_list _ _ _ (wf_conns _ HW _ _ Hn) s) as (_ & _ & (sb & E1 & E2)); [rewrite E; by left|]. apply E2. by eapply steady_auto.
Qed.
Lemma acks_none hp hp' l' rs : acks hp [] hp' l' rs -> requeues rs = [].
Proof. remember [] as l. induction 1; subst; try done; try (by destruct l1). by apply IHacks. Qed.
Lemma steady_take cfg y c n x w1 w2 i n1 o : reach_if steady cfg y -> y_conns y !! c = Some n -> n_phase n = Running -> take_input n x = Some (i, n1) ->
  conn_iter cfg c w1 w2 (n_c n) (y_heap y) (y_next y) i = Fine o -> requeues (i_push o) = [].
Proof.
  intros Hi Hn Hp Ht Hc. pose proof (reach_wf _ _ (reach_if_reach _ _ _ Hi)) as HW. pose proof (steady_list _ _ _ _ Hi Hn) as Hl.
  destruct (conn_iter_shape _ _ _ _ _ _ _ _ _ (co_tx _ _ _ (wf_conns _ HW _ _ Hn)) Hc) as [i o _ Ha _ _ _ _|m o _ _ _ _ -> _|m o id d ak _ _ _ _ _ _ -> _ _ _ _ _|m o id s _ _ _ _ _ _ -> _|s sb m o Hs Hf _ Hco _ Hpu _ Hwr|
    s sb m o nn m' _ _ _ _ _ _ -> _ _ _|s sb m o nn m' _ _ _ _ _ _ _ -> _ _ _|s sb m o nn m' _ _ _ _ _ _ _ _ -> _ _ _]; try done.
  - rewrite Hl in Ha. by eapply acks_none.
  - exfalso. destruct (take_input_cases _ _ _ _ Ht) as (_ & _ & _ & _ & _ & I6 & _). destruct (co_sub _ _ _ (wf_conns _ HW _ _ Hn) s) as [(sb' & Hs' & Hc') _]; [rewrite I6; left|].
    assert (sb' = sb) as -> by congruence. destruct (steady_live _ _ _ _ _ _ Hi Hn Hp Hs Hc') as [t Hk]. cbn [conn_iter] in Hc. rewrite Hs, Hf, Hk in Hc.
    destruct (alloc_id (k_last (n_c n)) (Some (s_ack sb)) m) as [nn m']. destruct w1; cbn in Hc; [|injection Hc as <-; done]. rewrite (steady_auto _ _ _ _ Hi Hs) in Hc.
    rewrite decide_True in Hc by done. injection Hc as <-. done.
Qed.
(** What is given back comes from connections that are over. *)
Lemma steady_back cfg y d : reach_if steady cfg y -> back d y -> exists s sb n, y_heap y !! s = Some sb /\ s_dest sb = d /\ y_conns y !! s_conn sb = Some n /\ n_phase n <> Running.
Proof.
  induction 1 as [|y a y' Hi IH Hs HP]; [by intros (m & Hin & _); apply elem_of_nil in Hin|].
  intros HB. pose proof (reach_wf _ _ (reach_if_reach _ _ _ Hi)) as HW. pose proof (step_move _ _ _ _ Hs) as Hm. pose proof (move_hext _ _ _ HW Hm) as Hx.
  assert (HK : back d y -> (forall c n, y_conns y !! c = Some n -> n_phase n <> Running -> exists n', y_conns y' !! c = Some n' /\ n_phase n' <> Running) ->
    exists s sb n, y_heap y' !! s = Some sb /\ s_dest sb = d /\ y_conns y' !! s_conn sb = Some n /\ n_phase n <> Running).
  { intros HB0 HC. destruct (IH HB0) as (s & sb & n & H1 & H2 & H3 & H4). destruct (Hx _ _ H1) as (sb' & G1 & G2). injection G2 as A1 A2 _ _ _. destruct (HC _ _ H3 H4) as (n' & G3 & G4).
    exists s, sb', n'. rewrite A1, A2. by split_and!. }
  assert (HC : forall c0 n0 n1, y_conns y !! c0 = Some n0 -> (n_phase n0 <> Running -> n_phase n1 <> Running) ->
    forall c n, y_conns y !! c = Some n -> n_phase n <> Running -> exists n', <[c0 := n1]> (y_conns y) !! c = Some n' /\ n_phase n' <> Running).
  { intros c0 n0 n1 H0 H1 c n Hc Hp. destruct (decide (c = c0)) as [->|Hne].
    - exists n1. rewrite list_lookup_insert by (by eapply lookup_lt_Some). split; [done|]. apply H1. congruence.
    - exists n. by rewrite list_lookup_insert_ne. }
  assert (HO : forall m c0 n0 n1, y_conns y !! c0 = Some n0 -> m ∈ concat ((fun n => requeues (n_out n)) <$> <[c0 := n1]> (y_conns y)) -> to_dest d m ->
    (m ∈ requeues (n_out n1) -> m ∈ requeues (n_out n0)) -> back d y).
  { intros m c0 n0 n1 H0 Hin Hd H1. apply elem_of_list_In, in_concat in Hin as (l & K1 & K2). apply elem_of_list_In in K1, K2. apply elem_of_list_fmap in K1 as (n2 & -> & K3).
    apply elem_of_list_lookup in K3 as [c2 K3]. destruct (conns_upd _ _ _ _ _ _ H0 K3) as [[-> ->]|[_ H']]; (eapply back_in; [done| |done]); eauto. }
  assert (HH : forall m, m ∈ requeues (handed y) -> to_dest d m -> back d y) by (intros m ? ?; exists m; split; [|done]; apply elem_of_app; by left).
  destruct HB as (m & Hin & Hd). unfold given_back in Hin. apply elem_of_app in Hin.
  destruct Hm as [|c n f H H0|c n H|c n x w1 w2 i n1 o H H0 H1 H2 H3|c n r rs H H0 H1|c n n' hp' H H0 H1 H2 H3|r rs b hp outs H H0 H1|c s m0 os n H H0 H1|c m0 os n H H0 H1]; cbn [y_conns y_heap set_conn] in *; unfold handed in *; cbn [y_blog y_req] in *.
  - apply HK.
    + destruct Hin as [Hin|Hin]; [by eapply HH|]. rewrite fmap_app, concat_app in Hin. cbn in Hin. rewrite app_nil_r in Hin. exists m. split; [|done]. apply elem_of_app. by right.
    + intros c n Hn Hp. exists n. split; [|done]. by apply lookup_app_l_Some.
  - apply HK; [|by eapply HC]. destruct Hin as [Hin|Hin]; [by eapply HH|]. eapply HO; [done|exact Hin|done|done].
  - apply HK; [|by eapply HC]. destruct Hin as [Hin|Hin]; [by eapply HH|]. eapply HO; [done|exact Hin|done|done].
  - apply HK; [|eapply HC; [done|done]]. destruct Hin as [Hin|Hin]; [by eapply HH|]. eapply HO; [done|exact Hin|done|]. cbn [taken n_out]. rewrite (steady_take _ _ _ _ _ _ _ _ _ _ Hi H H0 H2 H3). intros Hx'. by apply elem_of_nil in Hx'.
  - apply HK; [|by eapply HC]. destruct Hin as [Hin|Hin].
    + rewrite app_assoc, requeues_app in Hin. apply elem_of_app in Hin as [Hin|Hin]; [by eapply HH|]. eapply back_in; [exact H| |done]. rewrite H0. change (r :: rs) with ([r] ++ rs). rewrite requeues_app. apply elem_of_app. by left.
    + eapply HO; [done|exact Hin|done|]. cbn [with_out n_out]. rewrite H0. change (r :: rs) with ([r] ++ rs). rewrite requeues_app. intros. apply elem_of_app. by right.
  - assert (n_phase n' <> Running) as Hp' by (destruct H3; cbn; try done; naive_solver).
    destruct Hin as [Hin|Hin]; [apply HK; [by eapply HH|by eapply HC]|].
    destruct (decide (m ∈ requeues (n_out n'))) as [Hq|Hq].
    + assert (exists s, s ∈ n_sub n ++ k_sublist (n_c n) /\ exists sb, y_heap y !! s = Some sb /\ s_frame sb = Some m) as (s & Hss & sb & Hsb & Hfr).
      { destruct H3; cbn [with_out with_phase with_write n_out] in Hq; try (rewrite ?H0 in Hq; by apply elem_of_nil in Hq); apply elem_of_list_singleton in Hq as ->.
        - exists s. split; [apply elem_of_app; right; rewrite H4; left|]. eauto.
        - exists s. split; [apply elem_of_app; left; rewrite H4; left|]. eauto. }
      assert (own (y_heap y) c s) as (sb' & E1 & E2). { apply elem_of_app in Hss as [Hss|Hss]; [by apply (co_sub _ _ _ (wf_conns _ HW _ _ H))|by apply (co_list _ _ _ (wf_conns _ HW _ _ H))]. }
      assert (sb' = sb) as -> by congruence. destruct (wf_sub _ HW _ _ Hsb) as (_ & _ & Hho). destruct (Hho _ Hfr) as (_ & _ & Hde & _).
      destruct (Hx _ _ Hsb) as (sb2 & G1 & G2). injection G2 as A1 A2 _ _ _. exists s, sb2, n'. rewrite A1, A2, E2. split_and!; [done| |rewrite list_lookup_insert; [done|by eapply lookup_lt_Some]|done].
      unfold to_dest in Hd. change (lit "destination") with h_destination in Hd. congruence.
    + apply HK; [|by eapply HC]. eapply HO; [done|exact Hin|done|done].
  - apply HK; [|by eauto]. destruct Hin as [Hin|Hin]; [|exists m; split; [|done]; apply elem_of_app; by right].
    eapply HH; [|done]. rewrite fmap_app, <-app_assoc in Hin. cbn in Hin. by rewrite H0.
  - apply HK; [|by eapply HC]. destruct Hin as [Hin|Hin]; [by eapply HH|]. eapply HO; [done|exact Hin|done|done].
  - apply HK; [|by eapply HC]. destruct Hin as [Hin|Hin]; [by eapply HH|]. eapply HO; [done|exact Hin|done|done].
Qed.
Lemma take_back cfg y d c n x w1 w2 i n1 o hp nx uid fin lost : reach_if steady cfg y -> y_conns y !! c = Some n -> n_phase n = Running -> n_out n = [] -> take_input n x = Some (i, n1) ->
  conn_iter cfg c w1 w2 (n_c n) (y_heap y) (y_next y) i = Fine o ->
  back d (mkSys (<[c := taken n1 i o]> (y_conns y)) hp nx uid (y_req y) (y_broker y) (y_pout y) (y_blog y) fin lost) -> back d y.
Proof.
  intros Hi H H0 H1 H2 H3 (m & Hin & Hd). unfold given_back, handed in Hin. cbn [y_blog y_req y_conns] in Hin. apply elem_of_app in Hin as [Hin|Hin].
  - exists m. split; [|done]. apply elem_of_app. by left.
  - apply elem_of_list_In, in_concat in Hin as (l & K1 & K2). apply elem_of_list_In in K1, K2. apply elem_of_list_fmap in K1 as (n2 & -> & K3).
    apply elem_of_list_lookup in K3 as [c2 K3]. destruct (conns_upd _ _ _ _ _ _ H K3) as [[-> ->]|[_ H']]; [|by eapply back_in].
    cbn [taken n_out] in K2. rewrite (steady_take _ _ _ _ _ _ _ _ _ _ Hi H H0 H2 H3) in K2. by apply elem_of_nil in K2.
Qed.
Lemma asked_grows cfg y y' d : move cfg y y' -> asked_for d y `prefix_of` asked_for d y'.
Proof.
  intros Hm. assert (exists z, handed y' = handed y ++ z) as [z Hz].
  { destruct Hm; unfold handed; cbn [y_blog y_req set_conn]; try (exists []; by rewrite app_nil_r).
    - exists [r]. by rewrite app_assoc.
    - exists []. rewrite H0, fmap_app, app_nil_r, <-app_assoc. done. }
  unfold asked_for. rewrite Hz, enq_app, filter_app. by apply prefix_app_r.
Qed.
Lemma steady_single cfg y : reach_if steady cfg y -> forall s sb n, y_heap y !! s = Some sb -> y_conns y !! s_conn sb = Some n -> is_queue (s_dest sb) = true ->
  (forall s' sb', y_heap y !! s' = Some sb' -> s_dest sb' = s_dest sb -> s' = s) -> payload <$> tried_for s n `prefix_of` payload <$> asked_for (s_dest sb) y.
Proof.
  induction 1 as [|y a y' Hi IH Hs HP]; [by intros|]. intros s sb' n' Hsb' Hn' Hq Hone. assert (reach_if steady cfg y') as Hi' by (by econstructor). pose proof (reach_if_reach _ _ _ Hi) as Hr. pose proof (reach_if_reach _ _ _ Hi') as Hr'.
  destruct (decide (none_back (s_dest sb') y')) as [Hb|Hb]; [by eapply tried_single|]. assert (back (s_dest sb') y') as HB.
  { destruct (filter (to_dest (s_dest sb')) (given_back y')) as [|m l] eqn:E; [done|]. exists m. assert (m ∈ filter (to_dest (s_dest sb')) (given_back y')) as Hm by (rewrite E; left). by apply elem_of_list_filter in Hm as [? ?]. }
  clear Hb. destruct (steady_back _ _ _ Hi' HB) as (s2 & sb2 & n2 & G1 & G2 & G3 & G4). assert (s2 = s) as -> by eauto. assert (sb2 = sb') as -> by congruence. assert (n2 = n') as -> by congruence. clear G1 G2 G3.
  pose proof (step_move _ _ _ _ Hs) as Hm. pose proof (reach_wf _ _ Hr) as HW. pose proof (move_hext _ _ _ HW Hm) as Hx.
  assert (Hold : exists sb n, y_heap y !! s = Some sb /\ y_conns y !! s_conn sb = Some n /\ s_conn sb' = s_conn sb /\ s_dest sb' = s_dest sb /\ n_log n' = n_log n).
  { assert (Hkeep : forall sb, y_heap y !! s = Some sb -> s_conn sb' = s_conn sb /\ s_dest sb' = s_dest sb). { intros sb Hsb. destruct (Hx _ _ Hsb) as (sb1 & E1 & E2). injection E2 as A1 A2 _ _ _. by simplify_eq. }
    assert (Hsame : is_Some (y_heap y !! s) -> (exists n, y_conns y !! s_conn sb' = Some n /\ n_log n' = n_log n) -> exists sb n, y_heap y !! s = Some sb /\ y_conns y !! s_conn sb = Some n /\ s_conn sb' = s_conn sb /\ s_dest sb' = s_dest sb /\ n_log n' = n_log n).
    { intros [sb Hsb] (n & Hn & Hl). destruct (Hkeep _ Hsb) as [E1 E2]. exists sb, n. rewrite <-E1. by split_and!. }
    assert (Hupd : forall c0 n0 n1, y_conns y !! c0 = Some n0 -> <[c0 := n1]> (y_conns y) !! s_conn sb' = Some n' -> n_log n1 = n_log n0 -> exists n, y_conns y !! s_conn sb' = Some n /\ n_log n' = n_log n).
    { intros c0 n0 n1 H0 H1 H2. destruct (conns_upd _ _ _ _ _ _ H0 H1) as [[-> ->]|[_ H']]; eauto. }
    destruct Hm as [|c n f H H0|c n H|c n x w1 w2 i n1 o H H0 H1 H2 H3|c n r rs H H0 H1|c n n0 hp' H H0 H1 H2 H3|r rs b hp outs H H0 H1|c s0 m0 os n H H0 H1|c m0 os n H H0 H1]; cbn [y_conns y_heap set_conn] in *;
      try (apply Hsame; [by eauto|by eapply Hupd]; fail).
    - apply Hsame; [by eauto|]. apply lookup_app_Some in Hn' as [Hn'|[_ Hn']]; [by eauto|]. apply list_lookup_singleton_Some in Hn' as [_ <-]. done.
    - destruct (conns_upd _ _ _ _ _ _ H Hn') as [[Ec ->]|[Hne Hn0]].
      + exfalso. pose proof (take_back _ _ _ _ _ _ _ _ _ _ _ _ _ _ _ _ Hi H H0 H1 H2 H3 HB) as HB'. clear HB. rename HB' into HB. destruct (y_heap y !! s) as [sb|] eqn:Esb.
        * destruct (Hkeep _ eq_refl) as [E1 E2]. rewrite E2 in HB. destruct (steady_back _ _ _ Hi HB) as (s3 & sb3 & n3 & F1 & F2 & F3 & F4).
          destruct (Hx _ _ F1) as (sb4 & F5 & F6). injection F6 as A1 A2 _ _ _. assert (s3 = s) as -> by (eapply Hone; [exact F5|congruence]). assert (sb3 = sb) as -> by congruence. rewrite <-E1, Ec in F3. congruence.
        * destruct (take_new _ _ _ _ _ _ _ _ _ _ s HW H H2 H3 Esb) as [[? _]|(id & dest & ack & m & -> & -> & N1 & N2 & N3 & N4 & N5 & N6 & N7)]; [congruence|]. apply G4. cbn [taken n_phase]. by rewrite N4.
      + apply Hsame; [|by eauto]. destruct (y_heap y !! s) as [sb|] eqn:Esb; [by eauto|]. exfalso.
        destruct (take_new _ _ _ _ _ _ _ _ _ _ s HW H H2 H3 Esb) as [[? _]|(id & dest & ack & m & -> & -> & N1 & N2 & N3 & N4 & N5 & N6 & N7)]; [congruence|]. apply Hne. assert (sb' = new_sub c dest id ack) as -> by congruence. done.
    - apply Hsame; [|eapply Hupd; try done; by destruct H3]. destruct (y_heap y !! s) as [sb|] eqn:Esb; [by eauto|]. exfalso. pose proof (clean_heap _ _ _ _ _ s H3 Esb). congruence.
    - apply Hsame; [|by eauto]. destruct (y_heap y !! s) as [sb|] eqn:Esb; [by eauto|]. exfalso. pose proof (serve_heap _ _ _ _ _ _ s (serve_cases _ _ _ _ _ _ H1) Esb). congruence. }
  destruct Hold as (sb & n & Hsb & Hn & Ec & Ed & El). rewrite Ed in *. etrans; [|apply prefix_fmap; by eapply asked_grows]. unfold tried_for. rewrite El. eapply IH; try done.
  intros s' sb0 Hs' Hd'. destruct (Hx _ _ Hs') as (sb1 & F5 & F6). injection F6 as A1 A2 _ _ _. eapply Hone; [exact F5|congruence].
Qed.
