(** Proofs for FlowProps: which subscriptions a queue can have on its list, for
    every acknowledgement mode. *)
From Verif Require Import GoBase HeaderModel FrameModel GrammarSpec HeaderProofs NegotiationModel NegotiationSpec NegotiationLemmas
  BrokerModel BrokerSpec BrokerProofs ServerConnModel ServerConnSpec ServerConnProofs SystemModel SystemLemmas SystemSpec SystemProofs SystemTokens
  SystemMessages SystemUids SystemHistory SystemCleanup FlowSpec FlowProofs FlowTopics FlowSubs.

(** A subscription acknowledged by the client is put on the list of its queue
    at most once: what its connection holds stays marked, and the mark never
    goes away while the connection runs. *)
Definition jok (y : sys) (n : sconn) (s : nat) (sb : sub) : Prop :=
  rcount y s <= 1 \/ (s_inlist sb = true /\ s ∉ ready (y_broker y) (s_dest sb)) \/ (n_phase n <> Running /\ free y s = 0).
Record lists (y : sys) : Prop := mkLists {
  li_mark : forall c n s sb, y_conns y !! c = Some n -> s ∈ k_sublist (n_c n) -> y_heap y !! s = Some sb -> s_inlist sb = true;
  li_ok : forall s sb n, y_heap y !! s = Some sb -> is_queue (s_dest sb) = true -> s_ack sb <> ack_auto -> y_conns y !! s_conn sb = Some n -> jok y n s sb
}.
Lemma lists_init : lists sys_init.
Proof.
  split.
  - intros c n s sb H. cbn in H. by rewrite lookup_nil in H.
  - intros s sb n H. cbn in H. by rewrite lookup_empty in H.
Qed.
Lemma lists_upd y c n n' hp nx uid req pout blog fin lost : wf y -> lists y -> y_conns y !! c = Some n -> hext (y_heap y) hp ->
  (forall s, y_heap y !! s = None -> hp !! s = None) ->
  (forall s sb sb', y_heap y !! s = Some sb -> hp !! s = Some sb' -> s_inlist sb' = s_inlist sb) ->
  (forall s, s ∈ k_sublist (n_c n') -> s ∈ k_sublist (n_c n)) -> (n_phase n <> Running -> n_phase n' <> Running) ->
  (forall s, lfree n' req s = lfree n (y_req y) s) ->
  (forall s, cfree s n' + cnt s (rsub (blog.*1 ++ req)) = cfree s n + cnt s (rsub (handed y))) ->
  lists (mkSys (<[c := n']> (y_conns y)) hp nx uid req (y_broker y) pout blog fin lost).
Proof.
  intros HW [L J] Hn Hx Hnone Hin Hsub Hph Hfr Hrc. split; cbn [y_conns y_heap].
  - intros c0 n0 s sb' Hn0 Hs Hsb'. destruct (y_heap y !! s) as [sb|] eqn:E; [|rewrite Hnone in Hsb'; done].
    rewrite (Hin _ _ _ E Hsb'). destruct (conns_upd _ _ _ _ _ _ Hn Hn0) as [[-> ->]|[_ H']]; [eapply L; [done|by apply Hsub|done]|by eapply L].
  - intros s sb' n0 Hsb' Hq Ha Hn0. destruct (y_heap y !! s) as [sb|] eqn:E; [|rewrite Hnone in Hsb'; done].
    destruct (Hx _ _ E) as (sb1 & G1 & Hat). assert (sb1 = sb') as -> by congruence. injection Hat as A1 A2 A3 A4 A5. rewrite A1 in Hn0. rewrite A2 in Hq. rewrite A4 in Ha.
    assert (Hr : rcount (mkSys (<[c := n']> (y_conns y)) hp nx uid req (y_broker y) pout blog fin lost) s = rcount y s).
    { pose proof (rcount_upd y c n n' hp nx uid req (y_broker y) pout blog fin lost s Hn). specialize (Hrc s). lia. }
    assert (Hf : free (mkSys (<[c := n']> (y_conns y)) hp nx uid req (y_broker y) pout blog fin lost) s = free y s).
    { pose proof (free_upd y c n n' hp nx uid req pout blog fin lost s HW Hn Hx). specialize (Hfr s). lia. }
    unfold jok. rewrite Hr, Hf, A2. rewrite (Hin _ _ _ E Hsb'). cbn [y_broker].
    destruct (conns_upd _ _ _ _ _ _ Hn Hn0) as [[Ec ->]|[_ H']]; [|by eapply (J s sb n0)].
    destruct (J s sb n E Hq Ha) as [?|[?|[? ?]]]; [by rewrite Ec|by left|by right; left|right; right; auto].
Qed.
Lemma acks_inlist hp l hp' l' rs : acks hp l hp' l' rs -> forall s sb, hp !! s = Some sb -> exists sb', hp' !! s = Some sb' /\ s_inlist sb' = s_inlist sb.
Proof.
  induction 1 as [hp l|hp l hp' l' rs m Hm _ IH|hp l1 s l2 sb hp' l' rs Hs _ IH|hp l1 s l2 sb m hp' l' rs Hs Hm _ IH]; intros t tb Ht; [by exists tb|by apply IH|..].
  all: destruct (decide (t = s)) as [->|Hne]; [|by apply IH; rewrite lookup_insert_ne].
  all: assert (tb = sb) as -> by congruence; destruct (IH s (set_frame sb None)) as (sb' & E1 & E2); [by rewrite lookup_insert|]; exists sb'; split; [done|by rewrite E2].
Qed.
(** What an iteration does to the subscriptions there are. *)
Lemma take_lists cfg y c n x w1 w2 i n1 o s sb sb' : wf y -> y_conns y !! c = Some n -> take_input n x = Some (i, n1) ->
  conn_iter cfg c w1 w2 (n_c n) (y_heap y) (y_next y) i = Fine o -> y_heap y !! s = Some sb -> i_hp o !! s = Some sb' ->
  (s_inlist sb = true -> s_inlist sb' = true) /\ (s ∈ k_sublist (i_c o) -> s ∈ k_sublist (n_c n) \/ s_inlist sb' = true) /\
  (cnt s (rsub (i_push o)) = 0 \/ s_ack sb = ack_auto \/ s ∈ k_sublist (n_c n)).
Proof.
  intros HW Hn Ht Hi Hs Hs'. pose proof (wf_conns _ HW _ _ Hn) as HC.
  pose proof (conn_iter_shape _ _ _ _ _ _ _ _ _ (co_tx _ _ _ HC) Hi) as Hsh.
  assert (Hlt : s < y_next y) by (by eapply wf_next). destruct Hsh.
  - destruct (acks_inlist _ _ _ _ _ H0 _ _ Hs) as (sb1 & E1 & E2). assert (sb1 = sb') as -> by congruence. rewrite E2.
    destruct (acks_tok _ _ _ _ _ H0 s) as (A1 & _). split_and!; [done| |].
    + intros Hi'. left. apply cnt_elem in Hi'. apply cnt_elem. lia.
    + destruct (decide (cnt s (rsub (i_push o)) = 0)); [by left|]. right. right. apply cnt_elem. lia.
  - rewrite H in Hs'. assert (sb' = sb) as -> by congruence. rewrite H0, H3. split_and!; auto.
  - rewrite H1, lookup_insert_ne in Hs' by lia. assert (sb' = sb) as -> by congruence. rewrite H2, H5. split_and!; auto. left. cbn [rsub cnt]. rewrite decide_False by lia. done.
  - rewrite H1 in Hs'. assert (sb' = sb) as -> by congruence. rewrite H2, H5. split_and!; auto.
  - rewrite H1 in Hs'. assert (sb' = sb) as -> by congruence. rewrite H2, H4. split_and!; auto.
  - rewrite H1 in Hs'. rewrite H2, H5. cbn [set_last k_sublist]. destruct (decide (s0 = s)) as [->|Hne].
    + rewrite lookup_insert in Hs'. injection Hs' as <-. assert (sb0 = sb) as -> by congruence. cbn. split_and!; auto.
    + rewrite lookup_insert_ne in Hs' by done. assert (sb' = sb) as -> by congruence. split_and!; auto.
  - rewrite H1 in Hs'. rewrite H2, H6. cbn [set_last k_sublist rsub cnt]. destruct (decide (s0 = s)) as [->|Hne].
    + rewrite lookup_insert in Hs'. injection Hs' as <-. assert (sb0 = sb) as -> by congruence. cbn. split_and!; auto.
    + rewrite lookup_insert_ne in Hs' by done. assert (sb' = sb) as -> by congruence. split_and!; auto.
  - rewrite H1 in Hs'. rewrite H2, H7. cbn [set_last set_sublist k_sublist]. destruct (decide (s0 = s)) as [->|Hne].
    + rewrite lookup_insert in Hs'. injection Hs' as <-. cbn. split_and!; auto.
    + rewrite lookup_insert_ne in Hs' by done. assert (sb' = sb) as -> by congruence. split_and!; auto. rewrite elem_of_app, elem_of_list_singleton. intros [?|?]; [auto|congruence].
Qed.
(** The processor never makes a subscription freer. *)
Lemma serve_free b hp r b' hp' outs s d rs : serve_case b hp r b' hp' outs -> hdest hp s = d ->
  cnt s (rsub rs) + bfree b' d s <= cnt s (rsub (r :: rs)) + bfree b d s.
Proof.
  intros H Hd. unfold bfree. assert (forall s0 sb, hp !! s0 = Some sb -> s0 = s -> d = s_dest sb) as Hd'.
  { intros s0 sb E ->. unfold hdest in Hd. by rewrite E in Hd. }
  destruct H; try match goal with Hb : bis _ _ _ _ |- _ => destruct Hb as (B1 & B2 & B3); rewrite B2, B3 end; unfold fupd; cbn [rsub cnt].
  - destruct (decide (d = s_dest sb)) as [->|Hne]; [rewrite cnt_app; cbn [cnt]; lia|]. case_decide; [exfalso; eauto|lia].
  - lia.
  - destruct (decide (d = s_dest sb)) as [->|Hne]; [rewrite cnt_app; cbn [cnt]; lia|]. case_decide; [exfalso; eauto|lia].
  - destruct (decide (d = s_dest sb)) as [->|Hne]; [|lia]. rewrite H1, !cnt_app. cbn [cnt]. lia.
  - lia.
  - destruct (decide (d = s_dest sb)) as [->|Hne]; [|lia]. rewrite H1, !cnt_app. cbn [cnt]. lia.
  - lia.
  - lia.
  - lia.
  - assert (match r with RSubscribe s0 => s0 :: rsub rs | _ => rsub rs end = rsub rs) as -> by (by destruct H as [-> | ->]). destruct (decide (d = d0)) as [->|Hne]; [|lia]. rewrite H2. cbn [cnt]. lia.
  - lia.
  - lia.
  - destruct H as (? & [-> | ->]); lia.
Qed.
(** What serving a request does to one subscription. *)
Lemma serve_lists b hp r b' hp' outs s sb sb' : serve_case b hp r b' hp' outs -> hp !! s = Some sb -> hp' !! s = Some sb' ->
  (forall d t, t ∈ ready b d -> dst hp d t) ->
  (s ∉ ready b (s_dest sb) -> s_inlist sb = true -> s_inlist sb' = true) /\
  (s ∉ ready b (s_dest sb) -> s_inlist sb = true -> s ∉ ready b' (s_dest sb)).
Proof.
  intros H Hs Hs' Hdst.
  assert (Hsame : (s ∉ ready b (s_dest sb) -> s_inlist sb = true -> s_inlist sb = true) /\ (s ∉ ready b (s_dest sb) -> s_inlist sb = true -> s ∉ ready b (s_dest sb))) by auto.
  destruct H; try match goal with Hb : bis _ _ _ _ |- _ => destruct Hb as (B1 & B2 & B3); rewrite B2 end; unfold fupd.
  - destruct (decide (s0 = s)) as [->|Hne].
    + assert (sb0 = sb) as -> by congruence. split; congruence.
    + rewrite lookup_insert_ne in Hs' by done. assert (sb' = sb) as -> by congruence. split; [done|]. intros Hr _. case_decide as Hd; [|done]. rewrite <-Hd. set_solver.
  - destruct (decide (s0 = s)) as [->|Hne].
    + rewrite lookup_insert in Hs'. assert (sb0 = sb) as -> by congruence. injection Hs' as <-. cbn. done.
    + rewrite lookup_insert_ne in Hs' by done. assert (sb' = sb) as -> by congruence. done.
  - assert (sb' = sb) as -> by congruence. done.
  - destruct (decide (s0 = s)) as [->|Hne].
    + assert (sb0 = sb) as -> by congruence. rewrite H1. split; intros Hr; exfalso; set_solver.
    + rewrite lookup_insert_ne in Hs' by done. assert (sb' = sb) as -> by congruence. split; [done|]. intros Hr _. case_decide as Hd; [|done]. rewrite Hd, H1 in Hr. set_solver.
  - assert (sb' = sb) as -> by congruence. done.
  - assert (sb' = sb) as -> by congruence. done.
  - assert (sb' = sb) as -> by congruence. done.
  - assert (sb' = sb) as -> by congruence. done.
  - assert (sb' = sb) as -> by congruence. done.
  - destruct (decide (s0 = s)) as [->|Hne].
    + assert (sb0 = sb) as -> by congruence. destruct (Hdst d s) as (sb1 & E1 & E2); [rewrite H2; by left|]. assert (sb1 = sb) as -> by congruence. rewrite E2, H2. split; intros Hr; exfalso; apply Hr; by left.
    + rewrite lookup_insert_ne in Hs' by done. assert (sb' = sb) as -> by congruence. split; [done|]. intros Hr _. case_decide as Hd; [|done]. rewrite Hd, H2 in Hr. set_solver.
  - assert (sb' = sb) as -> by congruence. done.
  - assert (sb' = sb) as -> by congruence. done.
  - assert (sb' = sb) as -> by congruence. done.
Qed.
Lemma listed_free y d s : wf y -> s ∈ ready (y_broker y) d -> 0 < free y s.
Proof.
  intros HW Hin. destruct (wf_ready _ HW _ _ Hin) as [_ (sb & E1 & E2)]. unfold free, bfree, hdest. rewrite E1, E2. apply cnt_elem in Hin. lia.
Qed.
Lemma held_free y c n s : wf y -> tok y -> y_conns y !! c = Some n -> s ∈ k_sublist (n_c n) -> free y s = 0.
Proof.
  intros HW HT Hn Hin%cnt_elem. pose proof (tk_one _ HT s) as T1. pose proof (lhold_le y c n s Hn) as H. unfold lhold, chold in H. lia.
Qed.
Lemma lists_move cfg y y' : wf y -> tok y -> once y -> lists y -> move cfg y y' -> lists y'.
Proof.
  intros HW HT HO HL Hm. pose proof (move_hext _ _ _ HW Hm) as Hx. destruct Hm; cbn [y_heap set_conn] in Hx.
  - destruct HL as [L J]. split; cbn [y_conns y_heap].
    + intros c n s sb [Hn|[_ Hn]]%lookup_app_Some; [by eapply L|]. apply list_lookup_singleton_Some in Hn as [_ <-]. by intros ?%elem_of_nil.
    + intros s sb n Hs Hq Ha Hn. destruct (wf_sub _ HW _ _ Hs) as [Hc _]. rewrite lookup_app_l in Hn by done.
      destruct (J s sb n Hs Hq Ha Hn) as [H|[H|[H1 H2]]].
      * left. revert H. unfold rcount. cbn [y_conns]. rewrite sum_list_with_app. cbn [sum_list_with]. change (cfree s sconn_init) with 0. unfold handed. cbn [y_blog y_req]. lia.
      * right. by left.
      * right. right. split; [done|]. revert H2. unfold free. cbn [y_conns y_req y_broker y_heap]. rewrite sum_list_with_app. cbn [sum_list_with]. change (cfree s sconn_init) with 0. lia.
  - eapply lists_upd; try done. intros. congruence.
  - eapply lists_upd; try done. intros. congruence.
  - destruct (take_input_cases _ _ _ _ H2) as (I1 & I2 & I3 & I4 & I5 & I6). destruct HL as [L J].
    assert (Hnew : forall s sb', y_heap y !! s = None -> i_hp o !! s = Some sb' -> s_conn sb' = c /\ cnt s (rsub (i_push o)) <= 1).
    { intros s sb' E Hs'. destruct (take_new _ _ _ _ _ _ _ _ _ _ s HW H H2 H3 E) as [[? _]|(id & dest & ack & m & -> & -> & N1 & N2 & _)]; [congruence|].
      assert (sb' = new_sub c dest id ack) as -> by congruence. split; [done|]. rewrite N2. cbn [rsub cnt]. case_decide; lia. }
    split; cbn [y_conns y_heap].
    + intros c0 n0 s sb' Hn0 Hs Hsb'. destruct (conns_upd _ _ _ _ _ _ H Hn0) as [[-> ->]|[Hne H']].
      * assert (s ∈ k_sublist (i_c o)) as Hs0 by (revert Hs; cbn [taken n_c]; by destruct (i_stop o)).
        destruct (y_heap y !! s) as [sb|] eqn:E.
        -- destruct (take_lists _ _ _ _ _ _ _ _ _ _ _ _ _ HW H H2 H3 E Hsb') as (T1 & T2 & _). destruct (T2 Hs0) as [T|T]; [|done]. apply T1. by eapply L.
        -- exfalso. destruct (take_pushes _ _ _ _ _ _ _ _ _ _ s HW H H2 H3) as [(-> & _ & _ & _)|[T _]]; [|destruct (T E); congruence].
           pose proof (conn_iter_shape _ _ _ _ _ _ _ _ _ (co_tx _ _ _ (wf_conns _ HW _ _ H)) H3) as Hsh.
           assert (Hold : y_next y ∉ k_sublist (n_c n)).
           { intros Hin. destruct (co_list _ _ _ (wf_conns _ HW _ _ H) _ Hin) as ((sb & E' & _) & _). congruence. }
           destruct Hsh.
           ++ destruct (acks_tok _ _ _ _ _ H5 (y_next y)) as (A1 & _). apply cnt_elem in Hs0. apply Hold, cnt_elem. lia.
           ++ congruence.
           ++ congruence.
           ++ congruence.
           ++ congruence.
           ++ rewrite H7 in Hs0. done.
           ++ rewrite H7 in Hs0. done.
           ++ rewrite H7 in Hs0. cbn [set_last set_sublist k_sublist] in Hs0. apply elem_of_app in Hs0 as [Hs0|Hs0]; [done|]. apply elem_of_list_singleton in Hs0 as <-. congruence.
      * destruct (co_list _ _ _ (wf_conns _ HW _ _ H') _ Hs) as ((sb & E & _) & _).
        destruct (take_lists _ _ _ _ _ _ _ _ _ _ _ _ _ HW H H2 H3 E Hsb') as (T1 & _). apply T1. by eapply L.
    + intros s sb' n0 Hsb' Hq Ha Hn0.
      pose proof (rcount_upd y c n (taken n1 i o) (i_hp o) (i_next o) (y_uid y) (y_req y) (y_broker y) (y_pout y) (y_blog y)
                      (y_fin y ++ finals (y_heap y) (i_push o)) (y_lost y ++ losses (y_heap y) i (i_stop o)) s H) as Hc.
      pose proof (free_upd y c n (taken n1 i o) (i_hp o) (i_next o) (y_uid y) (y_req y) (y_pout y) (y_blog y)
                      (y_fin y ++ finals (y_heap y) (i_push o)) (y_lost y ++ losses (y_heap y) i (i_stop o)) s HW H Hx) as Hf.
      change ((y_blog y).*1 ++ y_req y) with (handed y) in Hc. unfold lfree in Hf.
      assert (cfree s n = 0) as E0 by (unfold cfree; by rewrite H1). change (cfree s (taken n1 i o)) with (cnt s (rsub (i_push o))) in Hc, Hf.
      destruct (y_heap y !! s) as [sb|] eqn:E.
      2: { destruct (Hnew _ _ E Hsb') as [N1 N2]. left. destruct (HO s) as [O1 _]. rewrite O1 in Hc by done. lia. }
      destruct (Hx _ _ E) as (sb1 & G1 & Hat). assert (sb1 = sb') as -> by congruence. injection Hat as A1 A2 A3 A4 A5. rewrite A1 in Hn0. rewrite A2 in Hq. rewrite A4 in Ha.
      destruct (take_lists _ _ _ _ _ _ _ _ _ _ _ _ _ HW H H2 H3 E Hsb') as (T1 & _ & [T|[T|T]]); [|done|].
      * assert (Hj : forall nn, y_conns y !! s_conn sb = Some nn -> (n_phase nn <> Running -> n_phase n0 <> Running) -> 
          jok (mkSys (<[c:=taken n1 i o]> (y_conns y)) (i_hp o) (i_next o) (y_uid y) (y_req y) (y_broker y) (y_pout y) (y_blog y) (y_fin y ++ finals (y_heap y) (i_push o)) (y_lost y ++ losses (y_heap y) i (i_stop o))) n0 s sb').
        { intros nn Hnn Hph. destruct (J s sb nn E Hq Ha Hnn) as [G|[[G2 G3]|[G2 G3]]]; [left; lia|right; left|right; right; split; [auto|lia]].
          split; [auto|]. by rewrite A2. }
        destruct (conns_upd _ _ _ _ _ _ H Hn0) as [[Ec ->]|[_ H']]; [|by eapply Hj]. apply (Hj n); [by rewrite Ec|done].
      * right. left. split; [apply T1; by eapply L|]. rewrite A2. cbn [y_broker]. intros Hin. apply (listed_free _ _ _ HW) in Hin. rewrite (held_free _ _ _ _ HW HT H T) in Hin. lia.
  - eapply lists_upd; try done.
    + intros. congruence.
    + intros s. unfold lfree, cfree. rewrite H0. cbn [with_out n_out]. rewrite rsub_app. change (r :: rs) with ([r] ++ rs). rewrite (rsub_app [r]), !cnt_app. lia.
    + intros s. unfold cfree, handed. rewrite H0. cbn [with_out n_out]. rewrite app_assoc, (rsub_app _ [r]). change (r :: rs) with ([r] ++ rs). rewrite (rsub_app [r]), !cnt_app. lia.
  - assert (Hfree : forall s, cfree s n' = cfree s n) by (intros s; by eapply clean_free).
    assert (Hph : n_phase n' <> Running).
    { destruct H3; cbn [with_out with_c with_phase with_write with_sub_ch n_phase]; try done. naive_solver. }
    destruct H3.
    1-3,5-6: eapply lists_upd; try done; try (intros; congruence); intros t; unfold lfree; by rewrite Hfree.
    destruct HL as [L J]. assert (Hh : s ∈ k_sublist (n_c n)) by (rewrite H4; by left). pose proof (held_free _ _ _ _ HW HT H Hh) as Hz.
    split; cbn [y_conns y_heap].
    + intros c0 n0 t tb Hn0 Ht Htb. destruct (decide (t = s)) as [->|Hne].
      * exfalso. destruct (conns_upd _ _ _ _ _ _ H Hn0) as [[-> ->]|[Hc H']].
        -- cbn [with_out with_c n_c set_sublist k_sublist] in Ht. pose proof (tk_one _ HT s) as T1. pose proof (lhold_le y c n s H) as Hl. unfold lhold, chold in Hl. rewrite H4 in Hl. cbn [cnt] in Hl. rewrite decide_True in Hl by done. apply cnt_elem in Ht. lia.
        -- destruct (co_list _ _ _ (wf_conns _ HW _ _ H') _ Ht) as ((sb1 & E1 & E2) & _). destruct (co_list _ _ _ (wf_conns _ HW _ _ H) _ Hh) as ((sb2 & E3 & E4) & _). congruence.
      * rewrite lookup_insert_ne in Htb by done. destruct (conns_upd _ _ _ _ _ _ H Hn0) as [[-> ->]|[Hc H']]; [|by eapply L].
        eapply L; [done| |done]. rewrite H4. cbn [with_out with_c n_c set_sublist k_sublist] in Ht. by right.
    + intros t tb' n0 Htb' Hq Ha Hn0.
      set (n' := with_out (with_c n (set_sublist (n_c n) l)) [RRequeue m]) in *.
      set (hp' := <[s:=set_inlist sb false]> (y_heap y)) in *.
      assert (Hr : rcount (mkSys (<[c := n']> (y_conns y)) hp' (y_next y) (y_uid y) (y_req y) (y_broker y) (y_pout y) (y_blog y) (y_fin y) (y_lost y)) t = rcount y t).
      { pose proof (rcount_upd y c n n' hp' (y_next y) (y_uid y) (y_req y) (y_broker y) (y_pout y) (y_blog y) (y_fin y) (y_lost y) t H) as Hc. change ((y_blog y).*1 ++ y_req y) with (handed y) in Hc. specialize (Hfree t). lia. }
      assert (Hf : free (mkSys (<[c := n']> (y_conns y)) hp' (y_next y) (y_uid y) (y_req y) (y_broker y) (y_pout y) (y_blog y) (y_fin y) (y_lost y)) t = free y t).
      { pose proof (free_upd y c n n' hp' (y_next y) (y_uid y) (y_req y) (y_pout y) (y_blog y) (y_fin y) (y_lost y) t HW H Hx) as Hc. unfold lfree in Hc. specialize (Hfree t). lia. }
      unfold jok. rewrite Hr, Hf. cbn [y_broker]. destruct (decide (t = s)) as [->|Hne].
      * right. right. split; [|done]. subst hp'. rewrite lookup_insert in Htb'. injection Htb' as <-. cbn [set_inlist s_conn] in Hn0.
        destruct (co_list _ _ _ (wf_conns _ HW _ _ H) _ Hh) as ((sb2 & E3 & E4) & _). assert (sb2 = sb) as -> by congruence. rewrite E4 in Hn0.
        destruct (conns_upd _ _ _ _ _ _ H Hn0) as [[_ ->]|[? _]]; [done|done].
      * subst hp'. rewrite lookup_insert_ne in Htb' by done. destruct (conns_upd _ _ _ _ _ _ H Hn0) as [[Ec ->]|[Hc H']]; [|by eapply (J t tb' n0)].
        destruct (J t tb' n Htb' Hq Ha) as [G|[G|[G1 G2]]]; [by rewrite Ec|by left|by right; left|by right; right].
  - destruct HL as [L J]. pose proof (serve_cases _ _ _ _ _ _ H1) as Hsc.
    assert (Hdst : forall d t, t ∈ ready (y_broker y) d -> dst (y_heap y) d t) by (intros d t Ht; apply (wf_ready _ HW _ _ Ht)).
    split; cbn [y_conns y_heap].
    + intros c n s sb' Hn Hin Hsb'. destruct (co_list _ _ _ (wf_conns _ HW _ _ Hn) _ Hin) as ((sb & E & _) & _).
      destruct (serve_lists _ _ _ _ _ _ _ _ _ Hsc E Hsb' Hdst) as [S1 _]. apply S1; [|by eapply L]. intros Hr. apply (listed_free _ _ _ HW) in Hr. rewrite (held_free _ _ _ _ HW HT Hn Hin) in Hr. lia.
    + intros s sb' n Hsb' Hq Ha Hn. destruct (y_heap y !! s) as [sb|] eqn:E; [|rewrite (serve_heap _ _ _ _ _ _ s Hsc E) in Hsb'; done].
      destruct (Hx _ _ E) as (sb1 & G1 & Hat). cbn [y_heap] in G1. assert (sb1 = sb') as -> by congruence. injection Hat as A1 A2 A3 A4 A5. rewrite A1 in Hn. rewrite A2 in Hq. rewrite A4 in Ha.
      destruct (serve_lists _ _ _ _ _ _ _ _ _ Hsc E Hsb' Hdst) as [S1 S2].
      destruct (J s sb n E Hq Ha Hn) as [G|[[G2 G3]|[G2 G3]]].
      * left. revert G. unfold rcount, handed. cbn [y_conns y_blog y_req]. rewrite H0, fmap_app, <-app_assoc. done.
      * right. left. rewrite A2. cbn [y_broker]. auto.
      * right. right. split; [done|]. revert G3. unfold free. cbn [y_conns y_req y_broker y_heap].
        assert (hdest hp s = hdest (y_heap y) s) as -> by (unfold hdest; by rewrite E, Hsb', A2).
        pose proof (serve_free _ _ _ _ _ _ s _ rs Hsc eq_refl). rewrite H0. lia.
  - eapply lists_upd; try done. intros. congruence.
  - eapply lists_upd; try done. intros. congruence.
Qed.
Lemma reach_lists cfg y : reach cfg y -> lists y.
Proof.
  revert y. apply reach_ind'; [apply lists_init|]. intros y y' Hr HL Hm.
  eapply lists_move; [by eapply reach_wf|by eapply reach_tok|by eapply reach_once|done|done].
Qed.
Lemma on_once s l : cnt s (rsub l) <= 1 -> (exists R, ab s l = RSubscribe s :: R) -> on_after s false l = true -> RUnsubscribe s ∉ l.
Proof.
  intros Hc [R HR] Hon Hin. rewrite on_after_ab, HR in Hon. cbn [on_after] in Hon. rewrite bool_decide_eq_true_2 in Hon by done. cbn [orb] in Hon.
  assert (Hc' : cnt s (rsub (ab s l)) <= 1).
  { clear -Hc. etrans; [|exact Hc]. clear Hc. induction l as [|r l IH]; [done|]. destruct (decide (about s r)) as [H|H].
    - rewrite filter_cons_True by done. destruct r; cbn [rsub cnt]; lia.
    - rewrite filter_cons_False by done. destruct r; cbn [rsub cnt]; lia. }
  rewrite HR in Hc'. cbn [rsub cnt] in Hc'. rewrite decide_True in Hc' by done.
  assert (Hu : RUnsubscribe s ∈ R).
  { assert (RUnsubscribe s ∈ ab s l) as H by (apply elem_of_list_filter; split; [by right|done]). rewrite HR in H. by apply elem_of_cons in H as [?|?]. }
  assert (Hs : RSubscribe s ∉ R) by (rewrite <-elem_rsub, <-cnt_elem; lia). revert Hon Hu Hs. clear. cut (forall b, on_after s b R = true -> RUnsubscribe s ∈ R -> RSubscribe s ∉ R -> False); [by eauto|].
  induction R as [|r R IH]; intros b Hon Hu Hs; [by apply elem_of_nil in Hu|]. apply not_elem_of_cons in Hs as [Hs1 Hs2]. apply elem_of_cons in Hu as [<-|Hu].
  - cbn [on_after] in Hon. rewrite bool_decide_eq_true_2, andb_false_r in Hon by done. revert Hon Hs2. clear. induction R as [|r R IH]; [intros H; by cbn in H|]. intros H [H1 H2]%not_elem_of_cons.
    destruct r; cbn [on_after] in H; try (by apply IH).
    rewrite bool_decide_eq_false_2 in H by congruence. by apply IH.
  - destruct r; cbn [on_after] in Hon; by eapply IH.
Qed.
(** Whoever is on a list of the processor is live, or the processor is about
    to be told otherwise. *)
Lemma listed cfg y d s sb n : reach cfg y -> s ∈ ready (y_broker y) d ++ members (y_broker y) d -> y_heap y !! s = Some sb -> y_conns y !! s_conn sb = Some n ->
  (is_queue (s_dest sb) = true -> s_ack sb = ack_auto -> only_of_id y s sb) ->
  lv n s sb \/ RUnsubscribe s ∈ n_out n ++ y_req y.
Proof.
  intros Hr Hin Hs Hn Hau. assert (Hon : on_after s false (y_blog y).*1 = true) by (apply elem_of_app in Hin as [?|?]; [by eapply ready_on|by eapply members_on]).
  destruct (decide (k_subs (n_c n) !! s_id sb = Some s)) as [?|Hlv]; [by left|right]. destruct (en_seq _ (reach_ends _ _ Hr) _ _ _ Hs Hn) as (_ & S2 & S3 & S4 & [R S5]).
  assert (Hdef : last (ab s (handed y) ++ ab s (n_out n)) = Some (RUnsubscribe s) -> RUnsubscribe s ∈ n_out n ++ y_req y).
  { intros Hlast. unfold handed in Hlast. rewrite ab_app, <-app_assoc, last_app in Hlast. destruct (last (ab s (y_req y) ++ ab s (n_out n))) as [r|] eqn:E.
    - injection Hlast as ->. apply last_Some in E as (l' & E). assert (RUnsubscribe s ∈ ab s (y_req y) ++ ab s (n_out n)) as Hi by (rewrite E; set_solver).
      apply elem_of_app in Hi as [[_ Hi]%elem_of_list_filter|[_ Hi]%elem_of_list_filter]; set_solver.
    - apply on_after_last in Hlast. congruence. }
  destruct (is_queue (s_dest sb)) eqn:Hq; [|apply Hdef; rewrite S3 by done; rewrite decide_False by done; done].
  destruct (decide (s_ack sb = ack_auto)) as [Ha|Ha]; [apply Hdef; auto|].
  assert (Hrd : s ∈ ready (y_broker y) (s_dest sb)).
  { pose proof (reach_wf _ _ Hr) as HW. apply elem_of_app in Hin as [Hin|Hin].
    - destruct (wf_ready _ HW _ _ Hin) as [_ (sb' & E1 & E2)]. assert (sb' = sb) as -> by congruence. by rewrite E2.
    - exfalso. destruct (bexec_places _ _ _ _ _ (broker_history _ _ Hr _ _ _ (agrees_in y))) as (_ & Hmo & _). destruct (Hmo _ _ Hin) as [Hd Hnq].
      unfold dest_in in Hd. rewrite Hs in Hd. congruence. }
  assert (Hone : rcount y s <= 1).
  { destruct (li_ok _ (reach_lists _ _ Hr) _ _ _ Hs Hq Ha Hn) as [?|[[_ ?]|[_ Hz]]]; [done|done|]. apply (listed_free _ _ _ (reach_wf _ _ Hr)) in Hrd. lia. }
  assert (Hnb : RUnsubscribe s ∉ (y_blog y).*1).
  { apply on_once; [|..]; [pose proof (rcount_log y s); lia| |done].
    destruct (ab s (y_blog y).*1) as [|r0 R0] eqn:E; [rewrite on_after_ab, E in Hon; done|].
    unfold handed in S5. rewrite ab_app, E in S5. injection S5 as -> _. by eexists. }
  apply S2 in Hlv. apply elem_of_app in Hlv as [[_ H]%elem_of_list_filter|[_ H]%elem_of_list_filter]; [|set_solver]. unfold handed in H. set_solver.
Qed.
