(** Proofs for FlowProps: topic messages from the processor to the clients. *)
From Verif Require Import GoBase HeaderModel FrameModel GrammarSpec HeaderProofs NegotiationModel NegotiationSpec NegotiationLemmas
  BrokerModel BrokerSpec BrokerProofs ServerConnModel ServerConnSpec ServerConnProofs SystemModel SystemLemmas SystemSpec SystemProofs SystemTokens
  SystemMessages SystemUids SystemHistory SystemCleanup FlowSpec FlowProofs.

(** An invariant of single events, knowing the connection. *)
Lemma log_inv_c cfg (P : nat -> list cev -> cev -> sys -> Prop) :
  (forall y y' c pre e, reach cfg y -> move cfg y y' -> P c pre e y -> P c pre e y') ->
  (forall y c n x w1 w2 i n1 o, reach cfg y -> y_conns y !! c = Some n -> n_phase n = Running -> n_out n = [] -> take_input n x = Some (i, n1) ->
    conn_iter cfg c w1 w2 (n_c n) (y_heap y) (y_next y) i = Fine o -> move cfg y (take_result y c n1 i o) ->
    P c (n_log n) (new_event i o) (take_result y c n1 i o)) ->
  forall y, reach cfg y -> forall c n pre e post, y_conns y !! c = Some n -> n_log n = pre ++ e :: post -> P c pre e y.
Proof.
  intros Hmono Hnew. apply (reach_ind' cfg (fun y => forall c n pre e post, y_conns y !! c = Some n -> n_log n = pre ++ e :: post -> P c pre e y)).
  { intros c n pre e post H. cbn in H. by rewrite lookup_nil in H. }
  intros y y' Hr IH Hm.
  assert (Hold : forall c n pre e post, y_conns y !! c = Some n -> n_log n = pre ++ e :: post -> P c pre e y') by (intros; eapply Hmono; eauto).
  assert (Hupd : forall c n n' hp nx uid req b po bl fi lo, y_conns y !! c = Some n ->
    y' = mkSys (<[c := n']> (y_conns y)) hp nx uid req b po bl fi lo -> n_log n' = n_log n ->
    forall c0 n0 pre e post, y_conns y' !! c0 = Some n0 -> n_log n0 = pre ++ e :: post -> P c0 pre e y').
  { intros c n n' hp nx uid req b po bl fi lo H1 -> H2 c0 n0 pre e post H3 H4. cbn [y_conns] in H3.
    destruct (conns_upd _ _ _ _ _ _ H1 H3) as [[-> ->]|[? ?]]; [|by eapply Hold]. rewrite H2 in H4. by eapply Hold. }
  pose proof Hm as Hm'; destruct Hm'; try (eapply Hupd; [eassumption|reflexivity|reflexivity]).
  - cbn [y_conns]. intros c n pre e post. rewrite lookup_app_Some. intros [Hn|[_ Hn]]; [by eapply Hold|].
    apply list_lookup_singleton_Some in Hn as [_ <-]. cbn. by intros ?%app_cons_not_nil.
  - intros c0 n0 pre e0 post H4 H5. cbn [y_conns] in H4. destruct (conns_upd _ _ _ _ _ _ H H4) as [[-> ->]|[? ?]]; [|by eapply Hold].
    destruct (take_input_cases _ _ _ _ H2) as (T1 & T2 & T3 & T4 & T5 & T6). cbn [taken n_log] in H5. rewrite T5 in H5.
    destruct (decide (post = [])) as [->|Hp].
    + apply app_inj_tail in H5 as [<- <-]. apply (Hnew y c n x w1 w2 i n1 o); done.
    + destruct (exists_last Hp) as (post' & ev & ->). rewrite app_comm_cons, app_assoc in H5. apply app_inj_tail in H5 as [H5 _]. by eapply Hold.
  - eapply Hupd; [eassumption|reflexivity|]. by destruct H3.
  - intros c0 n0 pre e1 post H3 H4. cbn [y_conns] in H3. by eapply Hold.
Qed.


(* ------------------------------------------------------------------ *)
(** What the processor sends to a connection's writeChannel is what the
    connection takes, in order. *)
Lemma topics_to_app c a b : topics_to c (a ++ b) = topics_to c a ++ topics_to c b.
Proof. unfold topics_to. by rewrite omap_app. Qed.
Lemma topics_out_snoc c log r outs : topics_out c (log ++ [(r, outs)]) = topics_out c log ++ topics_to c outs.
Proof. unfold topics_out. rewrite fmap_app, concat_app, topics_to_app. cbn. by rewrite app_nil_r. Qed.
Lemma topics_in_log n n' : n_log n' = n_log n -> topics_in n' = topics_in n.
Proof. unfold topics_in. by intros ->. Qed.
Lemma topics_in_taken n1 i o : topics_in (taken n1 i o) = topics_in n1 ++ match i with InTopic m => [m] | _ => [] end.
Proof. unfold topics_in, taken. cbn [n_log]. rewrite omap_app. cbn. by destruct i. Qed.
Definition flow (y : sys) (c : nat) (n : sconn) : Prop :=
  exists dl, topics_out c (y_blog y) = topics_in n ++ dl ++ n_write n ++ topics_to c (y_pout y) /\ (n_phase n = Running -> dl = []).
Record tops (y : sys) : Prop := mkTops {
  tp_flow : forall c n, y_conns y !! c = Some n -> flow y c n;
  tp_far : forall c, length (y_conns y) <= c -> topics_out c (y_blog y) = []
}.
Lemma tops_conn y c n n' hp nx uid req b fin lost : tops y -> y_conns y !! c = Some n -> topics_in n' = topics_in n -> n_write n' = n_write n ->
  (n_phase n' = Running -> n_phase n = Running) -> tops (mkSys (<[c := n']> (y_conns y)) hp nx uid req b (y_pout y) (y_blog y) fin lost).
Proof.
  intros [T1 T2] Hn E1 E2 E3. split; unfold flow; cbn [y_conns y_blog y_pout].
  - intros c0 n0 Hn0. destruct (conns_upd _ _ _ _ _ _ Hn Hn0) as [[-> ->]|[_ H]]; [|by apply T1].
    destruct (T1 _ _ Hn) as (dl & D1 & D2). exists dl. rewrite E1, E2. split; [done|]. auto.
  - rewrite insert_length. exact T2.
Qed.
Lemma far_none (k : nat) hp os c : Forall (pout_ok k hp) os -> k <= c -> topics_to c os = [].
Proof.
  induction 1 as [|o os Ho _ IH]; intros Hk; [done|]. unfold topics_to in *. cbn. destruct o as [c' s m|c' m]; [auto|].
  destruct Ho as [Ho _]. destruct (decide (c' = c)); [lia|auto].
Qed.
Lemma tops_move cfg y y' : wf y -> wf y' -> tops y -> move cfg y y' -> tops y'.
Proof.
  intros HW HW' HT Hm. destruct Hm.
  - destruct HT as [T1 T2]. split; unfold flow; cbn [y_conns y_blog y_pout].
    + intros c n Hn. apply lookup_app_Some in Hn as [Hn|[Hc Hn]]; [by apply T1|]. apply list_lookup_singleton_Some in Hn as [Hc0 <-].
      exists []. split; [|done]. rewrite T2 by lia. cbn. symmetry. eapply far_none; [apply (wf_pout _ HW)|lia].
    + intros c Hc. apply T2. rewrite app_length in Hc. lia.
  - by eapply tops_conn.
  - by eapply tops_conn.
  - destruct HT as [T1 T2]. split; unfold flow; cbn [y_conns y_blog y_pout]; [|rewrite insert_length; exact T2].
    intros c0 n0 Hn0. destruct (conns_upd _ _ _ _ _ _ H Hn0) as [[-> ->]|[_ Hn0']]; [|by apply T1].
    destruct (T1 _ _ H) as (dl & D1 & D2). rewrite (D2 H0) in D1. exists []. split; [|done]. rewrite topics_in_taken.
    destruct (take_input_cases _ _ _ _ H2) as (_ & _ & _ & _ & I5 & I6). rewrite (topics_in_log _ _ I5). rewrite D1, <-app_assoc. f_equal. cbn [taken n_write].
    destruct i; cbn [app].
    + by destruct I6 as (_ & -> & _).
    + by destruct I6 as (-> & _).
    + by destruct I6 as (-> & _).
    + by destruct I6 as (_ & _ & ->).
    + by subst n1.
  - by eapply tops_conn.
  - destruct (decide (n_write n' = n_write n)) as [E|E].
    + eapply tops_conn; [done|done| |done|]; [|by intros Hp; exfalso; revert Hp; destruct H3; cbn [with_out with_c with_phase with_write with_sub_ch n_phase]; intuition congruence].
      apply topics_in_log. by destruct H3.
    + destruct H3 as [l p m Hw _| | | | |]; try done. destruct HT as [T1 T2]. split; unfold flow; cbn [y_conns y_blog y_pout]; [|rewrite insert_length; exact T2].
      intros c0 n0 Hn0. destruct (conns_upd _ _ _ _ _ _ H Hn0) as [[-> ->]|[_ Hn0']]; [|by apply T1].
      destruct (T1 _ _ H) as (dl & D1 & D2). exists (dl ++ [m]). cbn [with_write n_write n_phase]. split; [|done]. rewrite D1, Hw, <-!app_assoc. done.
  - destruct HT as [T1 T2]. split; unfold flow; cbn [y_conns y_blog y_pout].
    + intros c n Hn. destruct (T1 _ _ Hn) as (dl & D1 & D2). exists dl. split; [|done]. rewrite topics_out_snoc, D1, H, <-!app_assoc. done.
    + intros c Hc. rewrite topics_out_snoc, T2 by done. cbn. eapply far_none; [apply (wf_pout _ HW')|done].
  - destruct HT as [T1 T2]. split; unfold flow; cbn [y_conns y_blog y_pout]; [|rewrite insert_length; exact T2].
    intros c0 n0 Hn0. destruct (conns_upd _ _ _ _ _ _ H0 Hn0) as [[-> ->]|[_ Hn0']]; [destruct (T1 _ _ H0) as (dl & D1 & D2)|destruct (T1 _ _ Hn0') as (dl & D1 & D2)]; rewrite H in D1; by exists dl.
  - destruct HT as [T1 T2]. split; unfold flow; cbn [y_conns y_blog y_pout]; [|rewrite insert_length; exact T2].
    intros c0 n0 Hn0. destruct (conns_upd _ _ _ _ _ _ H0 Hn0) as [[-> ->]|[Hne Hn0']].
    + destruct (T1 _ _ H0) as (dl & D1 & D2). rewrite H in D1. exists dl. split; [|done]. rewrite D1. cbn [with_write n_write]. unfold topics_to. cbn.
      rewrite decide_True by done. by rewrite <-!app_assoc.
    + destruct (T1 _ _ Hn0') as (dl & D1 & D2). rewrite H in D1. exists dl. split; [|done]. rewrite D1. unfold topics_to. cbn. by rewrite decide_False by congruence.
Qed.
Lemma reach_tops cfg y : reach cfg y -> tops y.
Proof.
  revert y. apply reach_ind'; [split; [intros c n H; cbn in H; by rewrite lookup_nil in H|done]|].
  intros y y' Hr HT Hm. pose proof (reach_wf _ _ Hr) as HW. eapply tops_move; [done| |done|done]. by eapply wf_move.
Qed.

(* ------------------------------------------------------------------ *)
(** A topic subscription is announced to the processor once. *)
Definition rcount (y : sys) (s : nat) : nat := sum_list_with (cfree s) (y_conns y) + cnt s (rsub (handed y)).
Definition once (y : sys) : Prop := forall s,
  (y_heap y !! s = None -> rcount y s = 0) /\ (forall sb, y_heap y !! s = Some sb -> is_queue (s_dest sb) = false -> rcount y s <= 1).
Lemma once_same y y' : hext (y_heap y) (y_heap y') -> (forall s, y_heap y !! s = None -> y_heap y' !! s = None) ->
  (forall s, rcount y' s = rcount y s) -> once y -> once y'.
Proof.
  intros He Hn Hc HO s. destruct (HO s) as [O1 O2]. rewrite Hc. split.
  - intros H. apply O1. destruct (y_heap y !! s) as [sb|] eqn:E; [|done]. destruct (He _ _ E) as (sb' & E' & _). congruence.
  - intros sb H Hq. destruct (y_heap y !! s) as [sb0|] eqn:E; [|rewrite O1 by done; lia].
    destruct (He _ _ E) as (sb' & E' & Ha). assert (sb' = sb) as -> by congruence. injection Ha as _ Hd _ _ _. apply (O2 sb0); [done|]. by rewrite <-Hd.
Qed.
Lemma rcount_upd y c n n' hp nx uid req b pout blog fin lost s : y_conns y !! c = Some n ->
  rcount (mkSys (<[c := n']> (y_conns y)) hp nx uid req b pout blog fin lost) s + cfree s n + cnt s (rsub (handed y)) = rcount y s + cfree s n' + cnt s (rsub (blog.*1 ++ req)).
Proof. intros H. unfold rcount. cbn [y_conns]. pose proof (sum_upd (cfree s) _ _ _ n' H). unfold handed at 1. cbn [y_blog y_req]. lia. Qed.
Lemma serve_heap b hp r b' hp' outs s : serve_case b hp r b' hp' outs -> hp !! s = None -> hp' !! s = None.
Proof. intros H Hs. destruct H; try done; rewrite lookup_insert_ne by congruence; done. Qed.
Lemma clean_heap cid n hp n' hp' s : clean_case cid n hp n' hp' -> hp !! s = None -> hp' !! s = None.
Proof. intros H Hs. destruct H; try done. rewrite lookup_insert_ne by congruence. done. Qed.
Lemma clean_free cid n hp n' hp' s : clean_case cid n hp n' hp' -> n_out n = [] -> cfree s n' = cfree s n.
Proof. intros H Ho. unfold cfree. rewrite Ho. destruct H; cbn [with_out with_c with_phase with_write with_sub_ch n_out]; rewrite ?Ho; done. Qed.
Lemma once_conn y c n n' hp nx uid req b pout blog fin lost : y_conns y !! c = Some n -> hext (y_heap y) hp -> (forall s, y_heap y !! s = None -> hp !! s = None) ->
  (forall s, cfree s n' + cnt s (rsub (blog.*1 ++ req)) = cfree s n + cnt s (rsub (handed y))) ->
  once y -> once (mkSys (<[c := n']> (y_conns y)) hp nx uid req b pout blog fin lost).
Proof.
  intros Hn He Hh Hc. apply once_same; [done|done|]. intros s.
  pose proof (rcount_upd y c n n' hp nx uid req b pout blog fin lost s Hn). specialize (Hc s). lia.
Qed.
Lemma take_pushes y c n x w1 w2 i n1 o cfg s : wf y -> y_conns y !! c = Some n -> take_input n x = Some (i, n1) ->
  conn_iter cfg c w1 w2 (n_c n) (y_heap y) (y_next y) i = Fine o ->
  (s = y_next y /\ y_heap y !! s = None /\ is_Some (i_hp o !! s) /\ cnt s (rsub (i_push o)) <= 1 \/
   (y_heap y !! s = None -> i_hp o !! s = None /\ cnt s (rsub (i_push o)) = 0) /\
   (forall sb, y_heap y !! s = Some sb -> is_queue (s_dest sb) = false -> cnt s (rsub (i_push o)) = 0)).
Proof.
  intros HW Hn Ht Hi. pose proof (wf_conns _ HW _ _ Hn) as HC.
  assert (Hq : forall t, onq (y_heap y) t -> t = s -> (y_heap y !! s = None -> False) /\ (forall sb, y_heap y !! s = Some sb -> is_queue (s_dest sb) = false -> False)).
  { intros t (sb & H1 & H2) ->. split; [congruence|]. intros sb0 H3 H4. assert (sb0 = sb) as -> by congruence. congruence. }
  assert (Hfresh : y_heap y !! y_next y = None).
  { destruct (y_heap y !! y_next y) as [sb|] eqn:E; [|done]. apply (wf_next _ HW) in E. lia. }
  pose proof (conn_iter_shape _ _ _ _ _ _ _ _ _ (co_tx _ _ _ HC) Hi) as Hs.
  assert (Hsub : forall t l, n_sub n = t :: l -> onq (y_heap y) t) by (intros t l E; apply (co_sub _ _ _ HC); rewrite E; by left).
  assert (Hin : forall t, i = InSub t -> onq (y_heap y) t).
  { intros t ->. destruct (take_input_cases _ _ _ _ Ht) as (_ & _ & _ & _ & _ & I6 & _). by eapply Hsub. }
  assert (Hins : forall t tb, onq (y_heap y) t -> y_heap y !! s = None -> <[t := tb]> (y_heap y) !! s = None).
  { intros t tb Ho Hx. rewrite lookup_insert_ne; [done|]. intros E. by destruct (Hq _ Ho E). }
  destruct Hs.
  - right. destruct (acks_tok _ _ _ _ _ H0 s) as (A1 & A2 & A3 & A4). destruct (decide (s ∈ rsub (i_push o))) as [Hin'|Hin'].
    + assert (s ∈ k_sublist (n_c n)) as Hl. { apply cnt_elem. apply cnt_elem in Hin'. lia. }
      destruct (co_list _ _ _ HC _ Hl) as (_ & Ho & _). destruct (Hq _ Ho eq_refl) as [Q1 Q2]. split; [by intros ?%Q1|by intros sb H5 H6; destruct (Q2 _ H5 H6)].
    + rewrite A3 by done. rewrite cnt_0 by done. auto.
  - right. rewrite H, H3. split; [auto|by intros].
  - destruct (decide (s = y_next y)) as [->|Hne].
    + left. rewrite H1, H5, lookup_insert. split_and!; [done|done|eauto|]. cbn. case_decide; lia.
    + right. rewrite H1, H5, lookup_insert_ne by done. cbn. rewrite decide_False by done. auto.
  - right. rewrite H1, H5. split; [auto|by intros].
  - right. rewrite H1, H4. split; [auto|by intros].
  - right. rewrite H1, H5. split; [intros Hx; split; [|done]; apply Hins; [by apply Hin|done]|by intros].
  - right. rewrite H1, H6. cbn [rsub omap list_omap cnt]. case_decide as Hd.
    + destruct (Hq _ (Hin _ eq_refl) Hd) as [Q3 Q4]. split; [by intros ?%Q3|by intros ? Q5 Q6; destruct (Q4 _ Q5 Q6)].
    + split; [intros Hx; split; [|done]; apply Hins; [by apply Hin|done]|by intros].
  - right. rewrite H1, H7. split; [intros Hx; split; [|done]; apply Hins; [by apply Hin|done]|by intros].
Qed.
Lemma once_move cfg y y' : wf y -> once y -> move cfg y y' -> once y'.
Proof.
  intros HW HO Hm. pose proof (move_hext _ _ _ HW Hm) as He. destruct Hm; cbn [y_heap set_conn] in He.
  - eapply once_same; [exact He|done| |done]. intros s. unfold rcount. cbn [y_conns]. rewrite sum_list_with_app. cbn [sum_list_with]. change (cfree s sconn_init) with 0. unfold handed. cbn [y_blog y_req]. lia.
  - by eapply once_conn.
  - by eapply once_conn.
  - intros s. destruct (HO s) as [O1 O2]. cbn [y_heap].
    pose proof (rcount_upd y c n (taken n1 i o) (i_hp o) (i_next o) (y_uid y) (y_req y) (y_broker y) (y_pout y) (y_blog y)
                      (y_fin y ++ finals (y_heap y) (i_push o)) (y_lost y ++ losses (y_heap y) i (i_stop o)) s H) as Hc.
    change ((y_blog y).*1 ++ y_req y) with (handed y) in Hc. assert (cfree s n = 0) as E0 by (unfold cfree; by rewrite H1). change (cfree s (taken n1 i o)) with (cnt s (rsub (i_push o))) in Hc.
    destruct (take_pushes _ _ _ _ _ _ _ _ _ _ s HW H H2 H3) as [(-> & T1 & [sb T2] & T3)|[T1 T2]].
    + rewrite O1 in Hc by done. split; [congruence|]. intros. lia.
    + split.
      * intros Hx. destruct (y_heap y !! s) as [sb|] eqn:E; [destruct (He _ _ E) as (? & ? & _); congruence|]. destruct (T1 eq_refl) as [_ T3]. specialize (O1 eq_refl). lia.
      * intros sb Hx Hq. destruct (y_heap y !! s) as [sb0|] eqn:E; [|destruct (T1 eq_refl); congruence]. destruct (He _ _ E) as (sb' & E' & Ha).
        assert (sb' = sb) as -> by congruence. injection Ha as _ Hd _ _ _. rewrite Hd in Hq. specialize (O2 _ eq_refl Hq). rewrite (T2 _ eq_refl Hq) in Hc. lia.
  - eapply once_conn; [done|done|done| |done]. intros s. unfold cfree, handed. rewrite H0. cbn [with_out n_out]. rewrite app_assoc, (rsub_app _ [r]). change (r :: rs) with ([r] ++ rs).
    rewrite (rsub_app [r]), !cnt_app. lia.
  - eapply once_conn; [done|done|intros s; by eapply clean_heap| |done]. intros s. by rewrite (clean_free _ _ _ _ _ s H3 H0).
  - eapply once_same; [exact He| | |done]; intros s; cbn [y_heap].
    + eapply serve_heap. by eapply serve_cases.
    + unfold rcount. cbn [y_conns]. unfold handed. cbn [y_blog y_req]. rewrite H0, fmap_app, <-app_assoc. done.
  - by eapply once_conn.
  - by eapply once_conn.
Qed.
Lemma reach_once cfg y : reach cfg y -> once y.
Proof.
  revert y. apply reach_ind'; [split; [done|intros sb H; cbn in H; by rewrite lookup_empty in H]|].
  intros y y' Hr HO Hm. by eapply once_move; [apply (reach_wf _ _ Hr)| |].
Qed.

(* ------------------------------------------------------------------ *)
(** What the processor sends for one topic subscription. *)
Fixpoint on_after (s : nat) (on : bool) (rs : list request) : bool :=
  match rs with
  | [] => on
  | RSubscribe s' :: l => on_after s (on || bool_decide (s' = s)) l
  | RUnsubscribe s' :: l => on_after s (on && negb (bool_decide (s' = s))) l
  | _ :: l => on_after s on l
  end.
Lemma during_snoc s d on rs r : during s d on (rs ++ [r]) =
  during s d on rs ++ match r with REnqueue m => if on_after s on rs && sent_to m d then [m] else [] | _ => [] end.
Proof.
  revert on. induction rs as [|r0 rs IH]; intros on; [destruct r; cbn; try done; by destruct (on && _)|].
  destruct r0; cbn [app during on_after]; try apply IH. rewrite IH. by destruct (on && _).
Qed.
Lemma on_after_snoc s on rs r : on_after s on (rs ++ [r]) =
  match r with RSubscribe s' => on_after s on rs || bool_decide (s' = s) | RUnsubscribe s' => on_after s on rs && negb (bool_decide (s' = s)) | _ => on_after s on rs end.
Proof. revert on. induction rs as [|r0 rs IH]; intros on; [by destruct r|]. destruct r0; cbn [app on_after]; apply IH. Qed.
Lemma on_present dest_of s log : on_after s false (log.*1) = true <-> s ∈ present dest_of (dest_of s) log.
Proof.
  induction log as [|[r o] log IH] using rev_ind; [cbn; split; [done|by intros ?%elem_of_nil]|].
  rewrite fmap_app, present_snoc. cbn [fmap list_fmap fst]. rewrite on_after_snoc. destruct r as [s0|s0|m|m|c|c]; try done.
  - rewrite orb_true_iff, IH, elem_of_app, bool_decide_eq_true. split.
    + intros [H| ->]; [by left|]. right. rewrite decide_True by done. by left.
    + intros [H|H]; [by left|]. right. destruct (decide _); [by apply elem_of_list_singleton in H|by apply elem_of_nil in H].
  - rewrite andb_true_iff, IH, elem_of_list_filter, negb_true_iff, bool_decide_eq_false. intuition.
Qed.
Definition for_id (id : str) (m : msg) : Prop := hget_of m (lit "subscription") = Some id.
Global Instance for_id_dec id m : Decision (for_id id m).
Proof. unfold for_id. apply _. Defined.
Lemma for_id_with id m id' : for_id id (with_sub m id') <-> id' = id.
Proof.
  unfold for_id, hget_of. assert (hd_contains (f_hdr (g_frame (with_sub m id'))) (lit "subscription") = Some id') as ->; [apply hd_contains_set_same|].
  split; [by intros [= ->]|by intros ->].
Qed.
Lemma copies_one conn_of id_of m (s : nat) (l : list nat) : NoDup l -> (forall s', s' ∈ l -> conn_of s' = conn_of s -> id_of s' = id_of s -> s' = s) ->
  filter (for_id (id_of s)) (topics_to (conn_of s) ((fun s' => OutTopic (conn_of s') (with_sub m (id_of s'))) <$> l)) =
  if decide (s ∈ l) then [with_sub m (id_of s)] else [].
Proof.
  unfold topics_to. induction 1 as [|x l Hx Hl IH]; intros Hu; [done|].
  assert (forall s', s' ∈ l -> conn_of s' = conn_of s -> id_of s' = id_of s -> s' = s) as Hu' by (intros; apply Hu; [by right|done|done]). specialize (IH Hu').
  assert (conn_of x = conn_of s -> id_of x = id_of s -> x = s) as Hux by (apply Hu; by left).
  cbn [fmap list_fmap omap list_omap]. destruct (decide (x = s)) as [->|Hne].
  - rewrite !decide_True by (done || by left). rewrite filter_cons_True by (by apply for_id_with). f_equal. rewrite IH. by rewrite decide_False.
  - assert (filter (for_id (id_of s)) (omap (fun o => match o with OutTopic c' m0 => if decide (c' = conn_of s) then Some m0 else None | OutSub _ _ _ => None end)
        ((fun s' => OutTopic (conn_of s') (with_sub m (id_of s'))) <$> l)) = if decide (s ∈ x :: l) then [with_sub m (id_of s)] else []) as E.
    { etrans; [exact IH|]. destruct (decide (s ∈ l)) as [H|H]; [by rewrite decide_True by (by right)|]. rewrite decide_False; [done|]. rewrite elem_of_cons. intuition. }
    destruct (decide (conn_of x = conn_of s)) as [Hc|Hc]; [|exact E]. rewrite filter_cons_False; [exact E|]. rewrite for_id_with. auto.
Qed.
Lemma no_topics c os : (forall m, OutTopic c m ∉ os) -> topics_to c os = [].
Proof.
  unfold topics_to. induction os as [|o os IH]; intros H; [done|]. cbn [omap list_omap]. assert (forall m, OutTopic c m ∉ os) as H' by (intros m Hm; apply (H m); by right).
  destruct o as [c' s m|c' m]; [auto|]. destruct (decide (c' = c)) as [->|]; [|auto]. exfalso. apply (H m). by left.
Qed.
Lemma bexec_last_ev conn_of dest_of id_of log r outs b c m : bexec conn_of dest_of id_of (log ++ [(r, outs)]) b -> OutTopic c m ∈ outs ->
  exists m0 s, r = REnqueue m0 /\ c = conn_of s /\ is_queue (dest_of s) = false /\ sent_to m0 (dest_of s) = true.
Proof.
  intros He Ho. destruct (bexec_places _ _ _ _ _ He) as (_ & _ & HF). rewrite Forall_forall in HF. specialize (HF (r, outs)). rewrite Forall_forall in HF.
  destruct (HF ltac:(set_solver) _ Ho) as (m0 & s & H1 & H2 & H3 & H4 & H5). exists m0, s. split_and!; [done|done|done|]. by apply bool_decide_eq_true_2.
Qed.
Lemma sent_to_fun m d d' : sent_to m d = true -> sent_to m d' = true -> d = d'.
Proof. unfold sent_to. rewrite !bool_decide_eq_true. congruence. Qed.
Lemma topic_stream conn_of dest_of id_of log b s : bexec conn_of dest_of id_of log b -> is_queue (dest_of s) = false ->
  (forall d, is_queue d = false -> NoDup (readied dest_of d log)) ->
  (forall s', RSubscribe s' ∈ log.*1 -> conn_of s' = conn_of s -> id_of s' = id_of s -> s' = s) ->
  filter (for_id (id_of s)) (topics_out (conn_of s) log) = (fun m => with_sub m (id_of s)) <$> during s (dest_of s) false (log.*1).
Proof.
  induction 1 as [|log b hp r b' hp' outs He IH Ha Hs]; intros Hq Hnd Hu; [done|].
  assert (Hnd' : forall d, is_queue d = false -> NoDup (readied dest_of d log)).
  { intros d Hd. specialize (Hnd d Hd). unfold readied in Hnd |- *. rewrite omap_app in Hnd. by apply NoDup_app in Hnd as [? _]. }
  rewrite topics_out_snoc, filter_app, fmap_app. cbn [fmap list_fmap fst]. rewrite during_snoc, fmap_app.
  rewrite IH; [|done|done|intros s' H; apply Hu; rewrite fmap_app; set_solver]. f_equal.
  assert (He' : bexec conn_of dest_of id_of (log ++ [(r, outs)]) b') by (by eapply be_serve).
  assert (Hno : (forall m d, r = REnqueue m -> is_queue d = false -> sent_to m d = true -> False) -> filter (for_id (id_of s)) (topics_to (conn_of s) outs) = []).
  { intros Hno. rewrite no_topics; [done|]. intros m Hm. destruct (bexec_last_ev _ _ _ _ _ _ _ _ _ He' Hm) as (m0 & s0 & E1 & E2 & E3 & E4). by eapply Hno. }
  destruct r as [s0|s0|m|m|c|c]; try (by rewrite Hno).
  destruct (hd_contains (f_hdr (g_frame m)) (lit "destination")) as [d|] eqn:Ed.
  2:{ assert (forall d, sent_to m d = false) as Hf by (intros d; unfold sent_to; rewrite Ed; by apply bool_decide_eq_false_2).
      rewrite Hno by (intros m' d' [= <-] _; by rewrite Hf). by rewrite Hf, andb_false_r. }
  assert (Hm : sent_to m d = true) by (unfold sent_to; rewrite Ed; by apply bool_decide_eq_true_2).
  destruct (is_queue d) eqn:Hd.
  { rewrite Hno by (intros m' d' [= <-] Hd' Hm'; rewrite (sent_to_fun _ _ _ Hm Hm') in Hd; congruence).
    destruct (sent_to m (dest_of s)) eqn:E; [rewrite (sent_to_fun _ _ _ Hm E) in Hd; congruence|]. by rewrite andb_false_r. }
  rewrite (topic_exact _ _ _ _ _ _ _ _ He' Hd Hm (Hnd' _ Hd)). rewrite copies_one.
  - destruct (decide (d = dest_of s)) as [->|Hne].
    + rewrite Hm, andb_true_r. destruct (decide _) as [Hin|Hin]; rewrite <-on_present in Hin; [by rewrite Hin|]. by apply not_true_is_false in Hin as ->.
    + rewrite decide_False by (intros Hin%present_dest; done). destruct (sent_to m (dest_of s)) eqn:E; [by rewrite (sent_to_fun _ _ _ Hm E) in Hne|]. by rewrite andb_false_r.
  - eapply sublist_nodup; [apply present_readied|by apply Hnd'].
  - intros s' Hin. apply Hu. rewrite fmap_app, elem_of_app. left. pose proof (present_readied dest_of d log) as Hsub.
    assert (s' ∈ readied dest_of d log) as Hr by (by eapply elem_of_submseteq; [|apply sublist_submseteq]). clear -Hr.
    unfold readied in Hr. apply elem_of_list_omap in Hr as ([r o] & H1 & H2). cbn in H2. destruct r; try done. destruct (bool_decide _); [|done]. injection H2 as ->.
    by apply (elem_of_list_fmap_1 fst) in H1.
Qed.

(* ------------------------------------------------------------------ *)
(** From the processor to what the client is sent. *)
Definition mev_ok (c : nat) (pre : list cev) (e : cev) (y : sys) : Prop :=
  match v_in e with
  | InTopic m0 => exists m w, v_wr e = [(Some m, w)] /\ cmd_of m = MESSAGE /\ payload m = payload m0 /\ hget_of m (lit "subscription") = hget_of m0 (lit "subscription")
  | InSub s => exists sb, y_heap y !! s = Some sb /\ s_conn sb = c /\ is_queue (s_dest sb) = true /\
      forall m w, (Some m, w) ∈ v_wr e -> hget_of m (lit "subscription") = Some (s_id sb)
  | _ => forall m w, (Some m, w) ∈ v_wr e -> cmd_of m <> MESSAGE
  end.
Lemma mevs_ok cfg y : reach cfg y -> forall c n pre e post, y_conns y !! c = Some n -> n_log n = pre ++ e :: post -> mev_ok c pre e y.
Proof.
  revert y. apply (log_inv_c cfg mev_ok).
  - intros y y' c pre e Hr Hm HP. unfold mev_ok in *. destruct (v_in e); try done. destruct HP as (sb & H1 & H2 & H3 & H4).
    destruct (move_hext _ _ _ (reach_wf _ _ Hr) Hm _ _ H1) as (sb' & E & Ha). injection Ha as Ha1 Ha2 Ha3 _ _. exists sb'.
    split_and!; [done|congruence|congruence|]. intros m w Hw. rewrite Ha3. by eapply H4.
  - intros y c n x w1 w2 i n1 o Hr Hn Hph Hout Hti Hci Hmv. unfold mev_ok, new_event. cbn [v_in v_wr].
    pose proof (reach_wf _ _ Hr) as HW. pose proof (wf_conns _ HW _ _ Hn) as HC. pose proof (co_tx _ _ _ HC) as Htx. destruct i as [m0| |m0|s|].
    + intros m w Hin. by eapply frame_no_message.
    + injection Hci as <-. intros m w Hin. by apply elem_of_nil in Hin.
    + cbn [conn_iter] in Hci. destruct (alloc_id (k_last (n_c n)) None m0) as [k m1] eqn:Ha. injection Hci as <-. cbn [i_wr]. exists m1, w1.
      destruct (take_input_cases _ _ _ _ Hti) as (_ & _ & _ & _ & _ & I6 & _ & _).
      assert (is_msg m0) as Hmsg. { pose proof (co_write _ _ _ HC) as Hw. rewrite I6 in Hw. by apply Forall_cons in Hw as [? _]. }
      destruct (alloc_id_cmd _ _ _ _ _ Ha) as [Hcmd _]. split_and!; [done|by rewrite Hcmd|by eapply payload_alloc|]. eapply alloc_id_get; [done|neq_lits..].
    + destruct (take_sub _ _ _ _ _ _ _ Hr Hn Hti) as (sb & m0 & H1 & H2 & H3).
      destruct (take_input_cases _ _ _ _ Hti) as (_ & _ & _ & _ & _ & I6 & _ & _).
      destruct (co_sub _ _ _ HC s) as [(sb1 & O1 & O2) (sb2 & Q1 & Q2)]; [rewrite I6; by left|]. assert (sb1 = sb) as -> by congruence. assert (sb2 = sb) as -> by congruence.
      destruct (move_hext _ _ _ HW Hmv _ _ H1) as (sb' & E & Hattr). injection Hattr as Ha1 Ha2 Ha3 _ _. exists sb'. split_and!; [done|congruence|congruence|].
      intros m w Hin. rewrite Ha3. pose proof (wf_sub _ HW _ _ H1) as (_ & _ & Hh). destruct (Hh _ H2) as (_ & _ & _ & Hsub).
      pose proof (conn_iter_shape _ _ _ _ _ _ _ _ _ Htx Hci) as Hs. 
      inversion Hs; subst; try (by match goal with Hx : forall s0, InSub s <> InSub s0 |- _ => destruct (Hx s) end);
        match goal with Hw : i_wr o = _ |- _ => rewrite Hw in Hin end; [by apply elem_of_nil in Hin|..];
        (apply elem_of_list_singleton in Hin; injection Hin as -> _; rewrite <-Hsub;
         match goal with Hx : y_heap y !! s = Some ?b |- _ => assert (b = sb) as -> by congruence end;
         match goal with Hx : s_frame sb = Some ?b |- _ => assert (b = m0) as -> by congruence end;
         eapply alloc_id_get; [done|neq_lits..]).
    + injection Hci as <-. intros m w Hin. cbn in Hin. by apply elem_of_list_singleton in Hin.
Qed.
Lemma frames_with_app k a b : frames_with k (a ++ b) = frames_with k a ++ frames_with k b.
Proof. unfold frames_with. by rewrite omap_app. Qed.
Lemma frames_with_none k l : (forall m w, (Some m, w) ∈ l -> cmd_of m <> k) -> frames_with k l = [].
Proof.
  unfold frames_with. induction l as [|[[m|] w] l IH]; intros H; [done| |]; cbn [omap list_omap fst]; rewrite IH by (intros m0 w0 Hin; apply (H m0 w0); by right); [|done].
  rewrite bool_decide_eq_false_2; [done|]. apply (H m w). by left.
Qed.
Lemma elem_frames_with k l m : m ∈ frames_with k l -> exists w, (Some m, w) ∈ l.
Proof.
  unfold frames_with. intros ([[m0|] w] & H1 & H2)%elem_of_list_omap; cbn in H2; [|done]. destruct (bool_decide _); [|done]. injection H2 as ->. eauto.
Qed.
Definition topic_ins (log : list cev) : list msg := omap (fun e => match v_in e with InTopic m => Some m | _ => None end) log.
Lemma received_log y c s sb log : y_heap y !! s = Some sb -> s_conn sb = c -> is_queue (s_dest sb) = false -> only_of_id y s sb ->
  (forall pre e post, log = pre ++ e :: post -> mev_ok c pre e y) ->
  payload <$> filter (for_id (s_id sb)) (frames_with (lit "MESSAGE") (wire log)) = payload <$> filter (for_id (s_id sb)) (topic_ins log).
Proof.
  intros Hs Hc Hq Ho. induction log as [|e log IH] using rev_ind; intros HP; [done|].
  unfold wire. rewrite fmap_app, concat_app, frames_with_app, filter_app, fmap_app. unfold topic_ins. rewrite omap_app, filter_app, fmap_app. f_equal.
  { apply IH. intros pre e' post E. apply (HP _ _ (post ++ [e])). by rewrite E, <-app_assoc. }
  specialize (HP log e [] eq_refl). unfold mev_ok in HP. cbn [fmap list_fmap concat omap list_omap]. rewrite app_nil_r. destruct (v_in e) as [m0| |m0|s'|].
  - by rewrite frames_with_none.
  - by rewrite frames_with_none.
  - destruct HP as (m & w & -> & Hcmd & Hp & Hg). unfold frames_with. cbn [omap list_omap fst]. rewrite bool_decide_eq_true_2 by exact Hcmd.
    destruct (decide (for_id (s_id sb) m)) as [Hf|Hf].
    + rewrite !filter_cons_True; [cbn; by rewrite Hp|unfold for_id; by rewrite <-Hg|done].
    + rewrite !filter_cons_False; [done|unfold for_id; by rewrite <-Hg|done].
  - destruct HP as (sb' & H1 & H2 & H3 & H4). rewrite filter_none; [done|]. intros m Hm Hf. apply elem_frames_with in Hm as [w Hw].
    specialize (H4 _ _ Hw). unfold for_id in Hf. assert (s' = s) as -> by (apply (Ho _ _ H1); congruence). congruence.
  - by rewrite frames_with_none.
Qed.
Definition conn_in (y : sys) (s : nat) : nat := match y_heap y !! s with Some sb => s_conn sb | None => 0 end.
Definition dest_in (y : sys) (s : nat) : str := match y_heap y !! s with Some sb => s_dest sb | None => [] end.
Lemma agrees_in y : agrees (conn_in y) (dest_in y) (id_in y) (y_heap y).
Proof. intros s sb H. unfold conn_in, dest_in, id_in. by rewrite H. Qed.
Lemma cnt_readied dest_of d s log : cnt s (readied dest_of d log) <= cnt s (rsub log.*1).
Proof.
  induction log as [|[r o] log IH]; [done|]. unfold readied, rsub in *. cbn [omap list_omap fmap list_fmap fst]. destruct r; cbn [cnt]; try done.
  destruct (bool_decide _); cbn [cnt]; lia.
Qed.
Lemma rcount_log y s : cnt s (rsub (y_blog y).*1) <= rcount y s.
Proof. unfold rcount, handed. rewrite rsub_app, cnt_app. lia. Qed.
Lemma topics_nodup cfg y : reach cfg y -> forall d, is_queue d = false -> NoDup (readied (dest_in y) d (y_blog y)).
Proof.
  intros Hr d Hd. apply cnt_nodup. intros s. destruct (reach_once _ _ Hr s) as [O1 O2]. pose proof (rcount_log y s). pose proof (cnt_readied (dest_in y) d s (y_blog y)).
  destruct (decide (s ∈ readied (dest_in y) d (y_blog y))) as [Hin|Hin]; [|rewrite cnt_0 by done; lia].
  unfold readied in Hin. apply elem_of_list_omap in Hin as ([r o] & H1 & H2). cbn in H2. destruct r; try done. destruct (bool_decide _) eqn:E; [|done]. injection H2 as ->.
  apply bool_decide_eq_true in E. unfold dest_in in E. destruct (y_heap y !! s) as [sb|] eqn:Es; [|rewrite O1 in * by done; lia].
  specialize (O2 _ eq_refl). rewrite E in O2. specialize (O2 Hd). lia.
Qed.
Lemma topic_received cfg y c n s sb : reach cfg y -> y_conns y !! c = Some n -> y_heap y !! s = Some sb -> s_conn sb = c -> is_queue (s_dest sb) = false ->
  only_of_id y s sb ->
  (payload <$> received (s_id sb) n) `prefix_of` (payload <$> during s (s_dest sb) false (y_blog y).*1) /\
  (n_phase n = Running -> n_write n = [] -> y_pout y = [] -> payload <$> received (s_id sb) n = payload <$> during s (s_dest sb) false (y_blog y).*1).
Proof.
  intros Hr Hn Hs Hc Hq Ho.
  assert (E1 : payload <$> received (s_id sb) n = payload <$> filter (for_id (s_id sb)) (topics_in n)).
  { apply (received_log y c s); try done. intros pre e post E. by eapply mevs_ok. }
  assert (E2 : payload <$> filter (for_id (s_id sb)) (topics_out c (y_blog y)) = payload <$> during s (s_dest sb) false (y_blog y).*1).
  { pose proof (topic_stream _ _ _ _ _ s (broker_history _ _ Hr _ _ _ (agrees_in y))) as Ht. assert (dest_in y s = s_dest sb /\ conn_in y s = c /\ id_in y s = s_id sb) as (F1 & F2 & F3) by (unfold dest_in, conn_in, id_in; by rewrite Hs).
    rewrite F1, F2, F3 in Ht. rewrite Ht; [|done|by eapply topics_nodup|].
    - rewrite <-list_fmap_compose. apply list_fmap_ext. intros _ m _. apply payload_with_sub.
    - intros s' Hin. assert (0 < rcount y s') as Hpos.
      { pose proof (rcount_log y s'). assert (0 < cnt s' (rsub (y_blog y).*1)); [|lia]. apply cnt_elem, elem_rsub. done. }
      destruct (reach_once _ _ Hr s') as [O1 _]. destruct (y_heap y !! s') as [sb'|] eqn:E; [|rewrite O1 in Hpos by done; lia].
      unfold conn_in, id_in. rewrite E. intros G1 G2. apply (Ho _ _ E); congruence. }
  destruct (tp_flow _ (reach_tops _ _ Hr) _ _ Hn) as (dl & D1 & D2). rewrite E1, <-E2, D1. split.
  - rewrite filter_app, fmap_app. by apply prefix_app_r.
  - intros H1 H2 H3. rewrite (D2 H1), H2, H3. cbn. by rewrite app_nil_r.
Qed.
