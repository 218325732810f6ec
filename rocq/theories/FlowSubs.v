(** Proofs for FlowProps: how subscriptions end, and that none is forgotten. *)
From Verif Require Import GoBase HeaderModel FrameModel GrammarSpec HeaderProofs NegotiationModel NegotiationSpec NegotiationLemmas
  BrokerModel BrokerSpec BrokerProofs ServerConnModel ServerConnSpec ServerConnProofs SystemModel SystemLemmas SystemSpec SystemProofs SystemTokens
  SystemMessages SystemUids SystemHistory SystemCleanup FlowSpec FlowProofs FlowTopics.

(* ------------------------------------------------------------------ *)
(** The requests about one subscription object. *)
Notation ab s l := (filter (about s) l).
Definition lv (n : sconn) (s : nat) (sb : sub) : Prop := k_subs (n_c n) !! s_id sb = Some s.
Lemma ab_nil s l : ab s l = [] <-> RSubscribe s ∉ l /\ RUnsubscribe s ∉ l.
Proof.
  split.
  - intros H. split; intros Hin; assert (Hf : (RSubscribe s ∈ ab s l) \/ (RUnsubscribe s ∈ ab s l)) by (rewrite !elem_of_list_filter; unfold about; tauto); rewrite H, !elem_of_nil in Hf; tauto.
  - intros [H1 H2]. apply filter_none. intros r Hr [-> | ->]; done.
Qed.
Lemma acks_no_unsub hp l hp' l' rs s : acks hp l hp' l' rs -> RUnsubscribe s ∉ rs.
Proof.
  induction 1; try (by intros ?%elem_of_nil); intros H'; repeat (apply elem_of_cons in H' as [H'|H']; [done|]); done.
Qed.
Inductive pushes (c : nat) (n : sconn) (s : nat) (sb : sub) (o : iout) : Prop :=
| pu_none : ab s (i_push o) = [] -> (k_subs (i_c o) !! s_id sb = Some s <-> lv n s sb) -> pushes c n s sb o
| pu_again : s_conn sb = c -> (forall r, r ∈ ab s (i_push o) -> r = RSubscribe s) -> is_queue (s_dest sb) = true -> (k_subs (i_c o) !! s_id sb = Some s <-> lv n s sb) ->
    (s_ack sb = ack_auto -> is_Some (k_subs (n_c n) !! s_id sb)) -> pushes c n s sb o
| pu_end : s_conn sb = c -> ab s (i_push o) = [RUnsubscribe s] -> lv n s sb -> k_subs (i_c o) !! s_id sb = None -> pushes c n s sb o.
Lemma take_about cfg y c n x w1 w2 i n1 o s sb : wf y -> y_conns y !! c = Some n -> take_input n x = Some (i, n1) ->
  conn_iter cfg c w1 w2 (n_c n) (y_heap y) (y_next y) i = Fine o -> y_heap y !! s = Some sb -> pushes c n s sb o.
Proof.
  intros HW Hn Ht Hi Hs. pose proof (wf_conns _ HW _ _ Hn) as HC.
  pose proof (conn_iter_shape _ _ _ _ _ _ _ _ _ (co_tx _ _ _ HC) Hi) as Hsh.
  assert (Hlt : s < y_next y) by (by eapply wf_next).
  assert (Hin : forall t, i = InSub t -> own (y_heap y) c t /\ onq (y_heap y) t).
  { intros t ->. destruct (take_input_cases _ _ _ _ Ht) as (_ & _ & _ & _ & _ & I6 & _). apply (co_sub _ _ _ HC). rewrite I6. by left. }
  assert (Hsb : forall P, (exists sb', y_heap y !! s = Some sb' /\ P sb') -> P sb) by (intros P (sb' & E & HP); by assert (sb' = sb) as -> by congruence).
  destruct Hsh.
  - destruct (acks_tok _ _ _ _ _ H0 s) as (A1 & _). pose proof (acks_no_unsub _ _ _ _ _ s H0) as Hu. destruct (decide (s ∈ rsub (i_push o))) as [Hin'|Hin'].
    + assert (s ∈ k_sublist (n_c n)) as Hl. { apply cnt_elem. apply cnt_elem in Hin'. lia. }
      destruct (co_list _ _ _ HC _ Hl) as (Ho & Hq & Hna). apply (pu_again c n s sb o); [by apply Hsb| |by apply Hsb|by rewrite H1|].
      * intros r [[-> | ->] Hr]%elem_of_list_filter; done.
      * intros Hau. destruct Hna as (sb' & E & Hna). assert (sb' = sb) as -> by congruence. done.
    + apply pu_none; [|by rewrite H1]. apply ab_nil. split; [|done]. by rewrite <-elem_rsub.
  - apply pu_none; [rewrite H3; apply ab_nil; split; by intros ?%elem_of_list_singleton|by rewrite H1].
  - apply pu_none.
    + rewrite H5. apply ab_nil. split; intros E%elem_of_list_singleton; [injection E as E; lia|done].
    + rewrite H3. destruct (decide (id = s_id sb)) as [->|Hne]; [|by rewrite lookup_insert_ne]. unfold lv. rewrite lookup_insert, H0. split; [intros [= E]; lia|done].
  - destruct (decide (s0 = s)) as [->|Hne].
    + destruct (co_subs _ _ _ HC _ _ H0) as [Ho Hnm]. assert (s_id sb = id) as Hid by (by apply Hsb). apply pu_end; [by apply Hsb| |unfold lv; by rewrite Hid|rewrite H3, Hid; by rewrite lookup_delete].
      rewrite H5. rewrite filter_cons_True by (by right). done.
    + apply pu_none.
      * rewrite H5. apply ab_nil. split; intros E%elem_of_list_singleton; congruence.
      * rewrite H3. destruct (decide (id = s_id sb)) as [->|Hne']; [|by rewrite lookup_delete_ne]. unfold lv. rewrite lookup_delete, H0. split; congruence.
  - apply pu_none; [rewrite H4; apply ab_nil; split; by intros ?%elem_of_list_singleton|by rewrite H2].
  - apply pu_none; [rewrite H5; apply ab_nil; split; by intros ?%elem_of_nil|by rewrite H2].
  - destruct (decide (s0 = s)) as [->|Hne].
    + destruct (Hin s eq_refl) as [Ho Hq]. assert (sb0 = sb) as -> by congruence. apply (pu_again c n s sb o); [by apply Hsb| |by apply Hsb|by rewrite H2|done].
      rewrite H6. intros r [_ Hr]%elem_of_list_filter. by apply elem_of_list_singleton in Hr.
    + apply pu_none; [rewrite H6; apply ab_nil; split; intros E%elem_of_list_singleton; congruence|by rewrite H2].
  - apply pu_none; [rewrite H7; apply ab_nil; split; by intros ?%elem_of_nil|by rewrite H2].
Qed.
Lemma take_new cfg y c n x w1 w2 i n1 o s : wf y -> y_conns y !! c = Some n -> take_input n x = Some (i, n1) ->
  conn_iter cfg c w1 w2 (n_c n) (y_heap y) (y_next y) i = Fine o -> y_heap y !! s = None ->
  i_hp o !! s = None /\ ab s (i_push o) = [] \/
  exists id dest ack m, s = y_next y /\ i = InFrame m /\ i_hp o !! s = Some (new_sub c dest id ack) /\ i_push o = [RSubscribe s] /\ k_subs (i_c o) !! id = Some s /\
    i_stop o = false /\ cmd_of m = SUBSCRIBE /\ hget_of m (lit "id") = Some id /\ hget_of m (lit "destination") = Some dest.
Proof.
  intros HW Hn Ht Hi Hs. pose proof (wf_conns _ HW _ _ Hn) as HC.
  pose proof (conn_iter_shape _ _ _ _ _ _ _ _ _ (co_tx _ _ _ HC) Hi) as Hsh.
  destruct (take_pushes _ _ _ _ _ _ _ _ _ _ s HW Hn Ht Hi) as [(-> & T1 & T2 & T3)|[T1 _]].
  - destruct Hsh; try (exfalso; destruct T2 as [tb T2]; match goal with Hx : i_hp o = _ |- _ => rewrite Hx in T2 end; rewrite ?lookup_insert_ne in T2 by congruence; congruence).
    + exfalso. destruct T2 as [tb T2]. destruct (acks_tok _ _ _ _ _ H0 (y_next y)) as (A1 & _ & A3 & _). rewrite A3 in T2; [congruence|].
      intros Hin%cnt_elem. assert (y_next y ∈ k_sublist (n_c n)) as Hl by (apply cnt_elem; lia). destruct (co_list _ _ _ HC _ Hl) as ((sb & E & _) & _). congruence.
    + right. exists id, dest, ack, m. rewrite H1, H3, lookup_insert, lookup_insert. done.
  - left. destruct (T1 Hs) as [T2 T3]. split; [done|]. apply ab_nil. split; [rewrite <-elem_rsub, <-cnt_elem; lia|]. intros Hu.
    destruct Hsh; try (match goal with Hx : i_push o = _ |- _ => rewrite Hx in Hu end; by apply elem_of_list_singleton in Hu || by apply elem_of_nil in Hu).
    + by apply (acks_no_unsub _ _ _ _ _ s H0) in Hu.
    + rewrite H5 in Hu. apply elem_of_list_singleton in Hu. injection Hu as <-. destruct (co_subs _ _ _ HC _ _ H0) as [(sb & E & _) _]. congruence.
Qed.

Definition seq_ok (y : sys) (n : sconn) (s : nat) (sb : sub) (R : list request) : Prop :=
  (lv n s sb -> RUnsubscribe s ∉ R) /\ (~ lv n s sb -> RUnsubscribe s ∈ R) /\
  (is_queue (s_dest sb) = false -> R = RSubscribe s :: if decide (k_subs (n_c n) !! s_id sb = Some s) then [] else [RUnsubscribe s]) /\
  (s_ack sb = ack_auto -> only_of_id y s sb -> ~ lv n s sb -> last R = Some (RUnsubscribe s)) /\
  (exists R', R = RSubscribe s :: R').
Record ends (y : sys) : Prop := mkEnds {
  en_none : forall s, y_heap y !! s = None -> ab s (handed y) = [] /\ forall c n, y_conns y !! c = Some n -> ab s (n_out n) = [];
  en_other : forall s sb c n, y_heap y !! s = Some sb -> y_conns y !! c = Some n -> c <> s_conn sb -> ab s (n_out n) = [];
  en_seq : forall s sb n, y_heap y !! s = Some sb -> y_conns y !! s_conn sb = Some n -> seq_ok y n s sb (ab s (handed y) ++ ab s (n_out n))
}.
Inductive adv (n n' : sconn) (s : nat) (sb : sub) (ex : list request) : Prop :=
| ad_none : ex = [] -> (lv n' s sb <-> lv n s sb) -> adv n n' s sb ex
| ad_again : (forall r, r ∈ ex -> r = RSubscribe s) -> is_queue (s_dest sb) = true -> (lv n' s sb <-> lv n s sb) ->
    (s_ack sb = ack_auto -> is_Some (k_subs (n_c n) !! s_id sb)) -> adv n n' s sb ex
| ad_end : ex = [RUnsubscribe s] -> lv n s sb -> ~ lv n' s sb -> adv n n' s sb ex.
Lemma only_back y y' s sb sb' : hext (y_heap y) (y_heap y') -> attr sb' = attr sb -> only_of_id y' s sb' -> only_of_id y s sb.
Proof.
  intros Hx Ha Ho s1 sb1 H1 H2 H3. destruct (Hx _ _ H1) as (sb1' & H1' & Ha1). injection Ha as A1 A2 A3 _ _. injection Ha1 as B1 B2 B3 _ _.
  apply (Ho _ _ H1'); congruence.
Qed.
Lemma seq_adv y y' n n' s sb sb' R ex : seq_ok y n s sb R -> adv n n' s sb ex -> hext (y_heap y) (y_heap y') -> attr sb' = attr sb ->
  (forall s1, k_subs (n_c n) !! s_id sb = Some s1 -> only_of_id y s sb -> s1 = s) -> seq_ok y' n' s sb' (R ++ ex).
Proof.
  intros (S1 & S2 & S3 & S4 & [R' S5]) Ha Hx Hat Hu. pose proof (only_back _ _ s _ _ Hx Hat) as Hob. injection Hat as A1 A2 A3 A4 A5.
  unfold seq_ok, lv. rewrite A2, A3, A4. fold (lv n' s sb). destruct Ha as [-> Hl|He Hq Hl Hau| -> Hl Hl'].
  - rewrite app_nil_r. split_and!; [tauto|tauto| |tauto|eauto]. intros Hq. rewrite (S3 Hq). f_equal. unfold lv in Hl. repeat case_decide; tauto.
  - split_and!.
    + intros H. rewrite elem_of_app. intros [H1|H1]; [apply (S1 (proj1 Hl H) H1)|]. by apply He in H1.
    + intros H. rewrite elem_of_app. left. tauto.
    + congruence.
    + intros H1 H2 H3. exfalso. apply H3, Hl. destruct (Hau H1) as [s1 E]. unfold lv. rewrite E. f_equal. apply Hu; auto.
    + rewrite S5. by eexists.
  - split_and!; [done|intros _; set_solver| |intros _ _ _; by rewrite last_snoc|rewrite S5; by eexists].
    intros Hq. rewrite (S3 Hq). unfold lv in Hl, Hl'. rewrite decide_True by done. by rewrite decide_False.
Qed.
Lemma ab_app s a b : ab s (a ++ b) = ab s a ++ ab s b.
Proof. apply filter_app. Qed.
Lemma clean_adv c n hp n' hp' s sb : conn_ok hp c n -> clean_case c n hp n' hp' -> n_out n = [] -> hp !! s = Some sb ->
  (s_conn sb <> c -> ab s (n_out n') = []) /\ adv n n' s sb (ab s (n_out n')).
Proof.
  intros HC H Ho Hs. destruct H; cbn [with_out with_c with_phase with_write with_sub_ch n_out]; rewrite ?Ho.
  - split; [done|]. by apply ad_none.
  - split; [done|]. by apply ad_none.
  - destruct (co_subs _ _ _ HC _ _ H0) as [(sb1 & O1 & O2) (sb2 & N1 & N2)]. destruct (decide (s0 = s)) as [->|Hne].
    + assert (sb1 = sb) as -> by congruence. assert (sb2 = sb) as -> by congruence. split; [done|]. apply ad_end.
      * rewrite filter_cons_True by (by right). done.
      * unfold lv. by rewrite N2.
      * unfold lv. cbn. rewrite N2, lookup_delete. done.
    + assert (E : ab s [RUnsubscribe s0] = []) by (apply ab_nil; split; intros E%elem_of_list_singleton; congruence).
      rewrite E. split; [done|]. apply ad_none; [done|]. unfold lv. cbn. destruct (decide (id = s_id sb)) as [->|]; [rewrite lookup_delete, H0; split; congruence|by rewrite lookup_delete_ne].
  - assert (E : ab s [RRequeue m] = []) by (apply ab_nil; split; by intros E%elem_of_list_singleton). rewrite E. split; [done|]. by apply ad_none.
  - assert (E : ab s [RRequeue m] = []) by (apply ab_nil; split; by intros E%elem_of_list_singleton). rewrite E. split; [done|]. by apply ad_none.
  - assert (E : ab s [RDisconnected c] = []) by (apply ab_nil; split; by intros E%elem_of_list_singleton). rewrite E. split; [done|]. by apply ad_none.
Qed.
Lemma subs_only y c n s sb s1 : wf y -> y_conns y !! c = Some n -> s_conn sb = c -> k_subs (n_c n) !! s_id sb = Some s1 -> only_of_id y s sb -> s1 = s.
Proof.
  intros HW Hn Hc Hk Ho. destruct (co_subs _ _ _ (wf_conns _ HW _ _ Hn) _ _ Hk) as [(sb1 & O1 & O2) (sb2 & N1 & N2)].
  assert (sb2 = sb1) as -> by congruence. apply (Ho _ _ O1); congruence.
Qed.
(** A change of one connection that hands over nothing. *)
Lemma ends_conn y c n n' hp nx uid req b pout blog fin lost : wf y -> ends y -> y_conns y !! c = Some n -> hext (y_heap y) hp ->
  (forall s, y_heap y !! s = None -> hp !! s = None) ->
  (forall s, y_heap y !! s = None -> ab s (n_out n') = ab s (n_out n) /\ ab s (blog.*1 ++ req) = ab s (handed y)) ->
  (forall s sb, y_heap y !! s = Some sb -> s_conn sb <> c -> ab s (n_out n') = [] /\ ab s (blog.*1 ++ req) = ab s (handed y)) ->
  (forall s sb, y_heap y !! s = Some sb -> s_conn sb = c -> exists ex, ab s (blog.*1 ++ req) ++ ab s (n_out n') = ab s (handed y) ++ ab s (n_out n) ++ ex /\ adv n n' s sb ex) ->
  ends (mkSys (<[c := n']> (y_conns y)) hp nx uid req b pout blog fin lost).
Proof.
  intros HW [E1 E2 E3] Hn Hx Hnone F0 F1 F2.
  assert (Hback : forall s sb', hp !! s = Some sb' -> exists sb, y_heap y !! s = Some sb /\ attr sb' = attr sb).
  { intros s sb' H. destruct (y_heap y !! s) as [sb|] eqn:E; [|rewrite Hnone in H; done]. destruct (Hx _ _ E) as (sb1 & H1 & Ha). exists sb. split; [done|congruence]. }
  split; unfold handed; cbn [y_heap y_conns y_blog y_req].
  - intros s Hs. assert (y_heap y !! s = None) as Hs'. { destruct (y_heap y !! s) as [sb|] eqn:E; [|done]. destruct (Hx _ _ E) as (sb1 & H1 & Ha). congruence. }
    destruct (F0 s Hs') as [F3 F4]. destruct (E1 _ Hs') as [E4 E5]. split; [by rewrite F4|]. intros c0 n0 H. destruct (conns_upd _ _ _ _ _ _ Hn H) as [[-> ->]|[_ ?]]; [rewrite F3|]; eauto.
  - intros s sb' c0 n0 Hs H Hne. destruct (Hback _ _ Hs) as (sb & Hsb & Ha). injection Ha as A1 _ _ _ _. rewrite A1 in Hne. destruct (conns_upd _ _ _ _ _ _ Hn H) as [[-> ->]|[_ ?]]; [|by eapply E2].
    destruct (F1 _ _ Hsb) as [? _]; [congruence|done].
  - intros s sb' n0 Hs H. destruct (Hback _ _ Hs) as (sb & Hsb & Ha). pose proof Ha as Ha'. injection Ha' as A1 _ _ _ _. rewrite A1 in H. destruct (conns_upd _ _ _ _ _ _ Hn H) as [[Ec ->]|[Hne H']].
    + rewrite Ec in *. destruct (F2 _ _ Hsb Ec) as (ex & -> & Had). rewrite app_assoc. eapply seq_adv; [apply (E3 _ _ _ Hsb); by rewrite Ec|done|done|done|]. intros s1. by eapply subs_only.
    + destruct (F1 _ _ Hsb) as [_ F3]; [done|]. rewrite F3. rewrite <-(app_nil_r (_ ++ _)). eapply seq_adv; [by apply (E3 _ _ _ Hsb)|by apply ad_none|done|done|]. intros s1. by eapply subs_only.
Qed.
Lemma taken_lv n1 i o s sb : lv (taken n1 i o) s sb <-> k_subs (i_c o) !! s_id sb = Some s.
Proof. unfold lv, taken. cbn [n_c]. by destruct (i_stop o). Qed.
Lemma ends_same_conn y c n n' hp nx uid req b pout blog fin lost : wf y -> ends y -> y_conns y !! c = Some n -> hext (y_heap y) hp ->
  (forall s, y_heap y !! s = None -> hp !! s = None) -> n_out n' = n_out n -> k_subs (n_c n') = k_subs (n_c n) -> blog.*1 ++ req = handed y ->
  ends (mkSys (<[c := n']> (y_conns y)) hp nx uid req b pout blog fin lost).
Proof.
  intros HW HE Hn Hx Hnone Ho Hk Hh. eapply ends_conn; try done; rewrite ?Hh, ?Ho; [done| |].
  - intros s sb Hs Hne. split; [|done]. by eapply (en_other _ HE).
  - intros s sb Hs Hc. exists []. rewrite app_nil_r. split; [done|]. apply ad_none; [done|]. unfold lv. by rewrite Hk.
Qed.
Lemma ends_move cfg y y' : wf y -> ends y -> move cfg y y' -> ends y'.
Proof.
  intros HW HE Hm. pose proof (move_hext _ _ _ HW Hm) as Hx. destruct Hm; cbn [y_heap set_conn] in Hx.
  - destruct HE as [E1 E2 E3]. split; unfold handed; cbn [y_heap y_conns y_blog y_req].
    + intros s Hs. destruct (E1 _ Hs) as [E4 E5]. split; [done|]. intros c n [H|[_ H]]%lookup_app_Some; [eauto|]. by apply list_lookup_singleton_Some in H as [_ <-].
    + intros s sb c n Hs [H|[_ H]]%lookup_app_Some Hne; [eauto|]. by apply list_lookup_singleton_Some in H as [_ <-].
    + intros s sb n Hs [H|[Hl H]]%lookup_app_Some.
      * destruct (E3 _ _ _ Hs H) as (S1 & S2 & S3 & S4 & S5). by split_and!.
      * destruct (wf_sub _ HW _ _ Hs) as [Hc _]. lia.
  - by eapply ends_same_conn.
  - by eapply ends_same_conn.
  - destruct (take_input_cases _ _ _ _ H2) as (I1 & I2 & I3 & I4 & I5 & I6).
    destruct (y_heap y !! y_next y) as [sb0|] eqn:Hfresh; [apply (wf_next _ HW) in Hfresh; lia|].
    destruct (take_new _ _ _ _ _ _ _ _ _ _ (y_next y) HW H H2 H3 Hfresh) as [[N1 N2]|(id & dest & ack & m & _ & _ & N1 & N2 & N3 & N4 & _)].
    + eapply ends_conn; try done.
      * intros s Hs. destruct (take_new _ _ _ _ _ _ _ _ _ _ s HW H H2 H3 Hs) as [[? _]|(? & ? & ? & ? & -> & _)]; done.
      * intros s Hs. split; [|done]. cbn [taken n_out]. rewrite H1. destruct (take_new _ _ _ _ _ _ _ _ _ _ s HW H H2 H3 Hs) as [[_ ?]|(? & ? & ? & ? & -> & _)]; [done|done].
      * intros s sb Hs Hne. split; [|done]. cbn [taken n_out]. by destruct (take_about _ _ _ _ _ _ _ _ _ _ _ _ HW H H2 H3 Hs).
      * intros s sb Hs Hc. exists (ab s (i_push o)). change ((y_blog y).*1 ++ y_req y) with (handed y). cbn [taken n_out]. rewrite H1. cbn [filter list_filter app]. split; [done|].
        destruct (take_about _ _ _ _ _ _ _ _ _ _ _ _ HW H H2 H3 Hs) as [P1 P2|P1 P2 P3 P4 P5|P1 P2 P3 P4].
        -- apply ad_none; [done|]. by rewrite taken_lv.
        -- apply ad_again; [done|done|by rewrite taken_lv|done].
        -- apply ad_end; [done|done|]. rewrite taken_lv. congruence.
    + destruct HE as [E1 E2 E3].
      assert (Hold : forall s sb', s <> y_next y -> i_hp o !! s = Some sb' -> exists sb, y_heap y !! s = Some sb /\ attr sb' = attr sb).
      { intros s sb' Hne Hs. destruct (y_heap y !! s) as [sb|] eqn:E; [destruct (Hx _ _ E) as (sb1 & G1 & G2); exists sb; split; [done|congruence]|].
        destruct (take_new _ _ _ _ _ _ _ _ _ _ s HW H H2 H3 E) as [[? _]|(? & ? & ? & ? & -> & _)]; congruence. }
      assert (Hnone : forall s, s <> y_next y -> ab s (i_push o) = []) by (intros s Hne; rewrite N2; apply ab_nil; split; intros E%elem_of_list_singleton; congruence).
      split; unfold handed; cbn [y_heap y_conns y_blog y_req].
      * intros s Hs. assert (s <> y_next y) as Hne by congruence. destruct (y_heap y !! s) as [sb|] eqn:E; [destruct (Hx _ _ E) as (sb1 & G1 & G2); congruence|].
        destruct (E1 _ E) as [E4 E5]. split; [done|]. intros c0 n0 H0'. destruct (conns_upd _ _ _ _ _ _ H H0') as [[-> ->]|[_ ?]]; [by apply Hnone|eauto].
      * intros s sb' c0 n0 Hs H0' Hne. destruct (decide (s = y_next y)) as [->|Hd].
        -- assert (sb' = new_sub c dest id ack) as -> by congruence. destruct (conns_upd _ _ _ _ _ _ H H0') as [[-> _]|[_ ?]]; [done|]. by apply (E1 _ Hfresh) with c0.
        -- destruct (Hold _ _ Hd Hs) as (sb & G1 & G2). injection G2 as G2 _ _ _ _. rewrite G2 in Hne.
           destruct (conns_upd _ _ _ _ _ _ H H0') as [[-> ->]|[_ ?]]; [by apply Hnone|]. by eapply E2.
      * intros s sb' n0 Hs H0'. change ((y_blog y).*1 ++ y_req y) with (handed y). destruct (decide (s = y_next y)) as [->|Hd].
        -- assert (sb' = new_sub c dest id ack) as -> by congruence. cbn [s_conn new_sub] in H0'. destruct (conns_upd _ _ _ _ _ _ H H0') as [[_ ->]|[? _]]; [|done].
           destruct (E1 _ Hfresh) as [-> _]. cbn [app taken n_out]. rewrite N2. assert (lv (taken n1 i o) (y_next y) (new_sub c dest id ack)) as Hlv by (by apply taken_lv).
           assert (ab (y_next y) [RSubscribe (y_next y)] = [RSubscribe (y_next y)]) as -> by (rewrite filter_cons_True by (by left); done).
           split_and!; [by intros _ E%elem_of_list_singleton|done| |done|by eexists]. intros _. unfold lv in Hlv. by rewrite decide_True.
        -- destruct (Hold _ _ Hd Hs) as (sb & G1 & G2). pose proof G2 as G3. injection G3 as G3 _ _ _ _. rewrite G3 in H0'.
           destruct (conns_upd _ _ _ _ _ _ H H0') as [[Ec ->]|[Hne H']].
           ++ cbn [taken n_out]. rewrite (Hnone _ Hd), app_nil_r. rewrite <-(app_nil_r (ab s (handed y))). rewrite Ec in H0'.
              eapply seq_adv; [|eapply ad_none; [done|]|done|done|intros s1; by eapply subs_only].
              ** pose proof (E3 _ _ n G1) as E6. rewrite Ec, H1 in E6. cbn [filter list_filter] in E6. rewrite app_nil_r in E6. by apply E6.
              ** rewrite taken_lv. destruct (take_about _ _ _ _ _ _ _ _ _ _ _ _ HW H H2 H3 G1) as [P1 P2|P1 P2 P3 P4 P5|P1 P2 P3 P4]; [done|done|]. rewrite Hnone in P2 by done. done.
           ++ rewrite <-(app_nil_r (ab s (handed y) ++ _)). eapply seq_adv; [by apply (E3 _ _ _ G1)|by apply ad_none|done|done|]. intros s1. by eapply subs_only.
  - assert (Hr : forall s, ab s [r] ++ ab s rs = ab s (n_out n)) by (intros s; rewrite <-ab_app, H0; done).
    assert (Hh : forall s, ab s ((y_blog y).*1 ++ y_req y ++ [r]) = ab s (handed y) ++ ab s [r]) by (intros s; by rewrite app_assoc, ab_app).
    eapply ends_conn; try done; cbn [with_out n_out].
    + intros s Hs. rewrite Hh. destruct (en_none _ HE _ Hs) as [G1 G2]. specialize (G2 _ _ H). rewrite <-Hr in G2. apply app_eq_nil in G2 as [G3 G4]. rewrite <-(Hr s), G3, G4, G1. done.
    + intros s sb Hs Hne. rewrite Hh. pose proof (en_other _ HE _ _ _ _ Hs H (not_eq_sym Hne)) as G2. rewrite <-Hr in G2. apply app_eq_nil in G2 as [G3 G4]. by rewrite G3, G4, app_nil_r.
    + intros s sb Hs Hc. exists []. rewrite Hh, app_nil_r, <-Hr, app_assoc. split; [done|]. by apply ad_none.
  - eapply ends_conn; try done.
    + intros s. by eapply clean_heap.
    + intros s Hs. split; [|done]. rewrite H0. cbn [filter list_filter]. pose proof (wf_conns _ HW _ _ H) as HC. apply ab_nil.
      destruct H3; cbn [with_out with_c with_phase with_write with_sub_ch n_out]; rewrite ?H0; split; try (by intros E%elem_of_nil); intros E%elem_of_list_singleton; try done.
      injection E as ->. destruct (co_subs _ _ _ HC _ _ H4) as [(sb & G & _) _]. congruence.
    + intros s sb Hs Hne. split; [|done]. by apply (clean_adv _ _ _ _ _ _ _ (wf_conns _ HW _ _ H) H3 H0 Hs).
    + intros s sb Hs Hc. exists (ab s (n_out n')). rewrite H0. cbn [filter list_filter app]. split; [done|]. by apply (clean_adv _ _ _ _ _ _ _ (wf_conns _ HW _ _ H) H3 H0 Hs).
  - assert (Hh : handed (mkSys (y_conns y) hp (y_next y) (y_uid y) rs b outs (y_blog y ++ [(r, outs)]) (y_fin y) (y_lost y)) = handed y).
    { unfold handed. cbn [y_blog y_req]. rewrite H0, fmap_app, <-app_assoc. done. }
    assert (Hback : forall s sb', hp !! s = Some sb' -> exists sb, y_heap y !! s = Some sb /\ attr sb' = attr sb).
    { intros s sb' Hs. destruct (y_heap y !! s) as [sb|] eqn:E; [destruct (Hx _ _ E) as (sb1 & G1 & G2); exists sb; split; [done|congruence]|].
      rewrite (serve_heap _ _ _ _ _ _ s (serve_cases _ _ _ _ _ _ H1) E) in Hs. done. }
    destruct HE as [E1 E2 E3]. split; rewrite ?Hh; cbn [y_heap y_conns].
    + intros s Hs. apply E1. destruct (y_heap y !! s) as [sb|] eqn:E; [|done]. destruct (Hx _ _ E) as (sb1 & G1 & G2). congruence.
    + intros s sb' c n Hs Hn Hne. destruct (Hback _ _ Hs) as (sb & G1 & G2). injection G2 as G2 _ _ _ _. eapply E2; [done|done|congruence].
    + intros s sb' n Hs Hn. destruct (Hback _ _ Hs) as (sb & G1 & G2). pose proof G2 as G3. injection G3 as G3 _ _ _ _. rewrite G3 in Hn.
      rewrite <-(app_nil_r (ab s (handed y) ++ _)). eapply seq_adv; [by apply (E3 _ _ _ G1)|by apply ad_none|done|done|]. intros s1. by eapply subs_only.
  - by eapply ends_same_conn.
  - by eapply ends_same_conn.
Qed.
Lemma reach_ends cfg y : reach cfg y -> ends y.
Proof.
  revert y. apply reach_ind'.
  - split; [|intros s sb c n H; cbn in H; by rewrite lookup_empty in H|intros s sb n H; cbn in H; by rewrite lookup_empty in H].
    intros s _. split; [done|]. intros c n H. cbn in H. by rewrite lookup_nil in H.
  - intros y y' Hr HE Hm. eapply ends_move; [by apply (reach_wf cfg)|done|done].
Qed.

(* ------------------------------------------------------------------ *)
(** A live queue subscription of a running connection is always somewhere:
    asked for, ready, or holding a message. *)
Lemma serve_token b hp r b' hp' outs s sb : serve_case b hp r b' hp' outs -> hp !! s = Some sb -> r <> RUnsubscribe s ->
  cnt s (rsub [r]) + bfree b (s_dest sb) s <= bfree b' (s_dest sb) s + cnt s (psub outs).
Proof.
  intros H Hs Hr. unfold bfree. destruct H; try match goal with Hb : bis _ _ _ _ |- _ => destruct Hb as (B1 & B2 & B3); rewrite B2, B3 end; unfold fupd; cbn [rsub psub cnt].
  - destruct (decide (s0 = s)) as [->|Hne].
    + assert (sb0 = sb) as -> by congruence. rewrite decide_True by done. rewrite cnt_app. cbn [cnt]. rewrite decide_True by done. lia.
    + destruct (decide (s_dest sb = s_dest sb0)) as [E|_]; [|lia]. rewrite cnt_app, <-E. lia.
  - lia.
  - destruct (decide (s0 = s)) as [->|Hne].
    + assert (sb0 = sb) as -> by congruence. rewrite decide_True by done. rewrite cnt_app. cbn [cnt]. rewrite decide_True by done. lia.
    + destruct (decide (s_dest sb = s_dest sb0)) as [E|_]; [|lia]. rewrite cnt_app, <-E. lia.
  - destruct (decide (s_dest sb = s_dest sb0)) as [E|_]; [|lia]. rewrite E, H1, !cnt_app. cbn [cnt]. rewrite decide_False by congruence. lia.
  - lia.
  - destruct (decide (s_dest sb = s_dest sb0)) as [E|_]; [|lia]. rewrite E, H1, !cnt_app. cbn [cnt]. rewrite decide_False by congruence. lia.
  - lia.
  - lia.
  - lia.
  - destruct (decide (s_dest sb = d)) as [E|_]; destruct H as [-> | ->]; cbn [cnt]; rewrite ?E, ?H2; cbn [cnt]; lia.
  - lia.
  - lia.
  - destruct H as (? & [-> | ->]); cbn [cnt]; lia.
Qed.
Lemma gone_dead cfg c w1 w2 k hp nx s sb o m : conn_iter cfg c w1 w2 k hp nx (InSub s) = Fine o -> hp !! s = Some sb -> i_push o = [RRequeue m] -> k_subs k !! s_id sb = None.
Proof.
  cbn [conn_iter]. intros Hi Hs. rewrite Hs in Hi. destruct (s_frame sb) as [m0|]; [|done]. destruct (k_subs k !! s_id sb) as [t|]; [|done].
  destruct (alloc_id _ _ _) as [k1 m1]. destruct (negb w1); [by injection Hi as <-|]. destruct (decide _); [by injection Hi as <-|].
  destruct (sl_add _ _ _) as [|[hp1 l1]]; [done|]. by injection Hi as <-.
Qed.
Definition token (y : sys) : Prop := forall s sb n, y_heap y !! s = Some sb -> is_queue (s_dest sb) = true -> y_conns y !! s_conn sb = Some n ->
  n_phase n = Running -> lv n s sb -> 1 <= free y s + hold y s.
Lemma free_hold_upd y c n n' hp nx uid req pout blog fin lost s : wf y -> y_conns y !! c = Some n -> hext (y_heap y) hp ->
  lfree n (y_req y) s + lhold n (y_pout y) s <= lfree n' req s + lhold n' pout s ->
  free y s + hold y s <= free (mkSys (<[c := n']> (y_conns y)) hp nx uid req (y_broker y) pout blog fin lost) s + hold (mkSys (<[c := n']> (y_conns y)) hp nx uid req (y_broker y) pout blog fin lost) s.
Proof.
  intros HW Hn Hx Hle. pose proof (free_upd y c n n' hp nx uid req pout blog fin lost s HW Hn Hx). pose proof (hold_upd y c n n' hp nx uid req pout blog fin lost s Hn). lia.
Qed.
Lemma token_move cfg y y' : wf y -> ends y -> token y -> move cfg y y' -> token y'.
Proof.
  intros HW HE HT Hm. pose proof (move_hext _ _ _ HW Hm) as Hx.
  assert (Hback : forall s sb', y_heap y' !! s = Some sb' -> (exists sb, y_heap y !! s = Some sb /\ attr sb' = attr sb) \/ y_heap y !! s = None).
  { intros s sb' H. destruct (y_heap y !! s) as [sb|] eqn:E; [|by right]. left. destruct (Hx _ _ E) as (sb1 & H1 & Ha). exists sb. split; [done|congruence]. }
  assert (Hloc : forall c n n' hp nx uid req pout blog fin lost, y_conns y !! c = Some n -> y' = mkSys (<[c := n']> (y_conns y)) hp nx uid req (y_broker y) pout blog fin lost ->
    (forall s, y_heap y !! s = None -> hp !! s = None) ->
    (n_phase n' = Running -> n_phase n = Running /\ k_subs (n_c n') = k_subs (n_c n)) ->
    (forall s sb, y_heap y !! s = Some sb -> s_conn sb <> c \/ n_phase n' = Running -> lfree n (y_req y) s + lhold n (y_pout y) s <= lfree n' req s + lhold n' pout s) -> token y').
  { intros c n n' hp nx uid req po blog fin lost Hn -> Hnn Hph Hle s sb' n0 Hs Hq Hn0 Hrun Hlv. cbn [y_heap y_conns] in *.
    destruct (Hback _ _ Hs) as [(sb & G1 & G2)|G]; [|rewrite Hnn in Hs; done]. injection G2 as A1 A2 A3 A4 A5. unfold lv in *. rewrite A1 in Hn0. rewrite A3 in Hlv. rewrite A2 in Hq.
    etrans; [|eapply free_hold_upd; [done|exact Hn|done|]]; [|apply (Hle _ _ G1)].
    - destruct (conns_upd _ _ _ _ _ _ Hn Hn0) as [[E ->]|[Hne H']].
      + destruct (Hph Hrun) as [P1 P2]. apply (HT s sb n); try done; [by rewrite E|]. unfold lv. by rewrite <-P2.
      + by apply (HT s sb n0).
    - destruct (conns_upd _ _ _ _ _ _ Hn Hn0) as [[E ->]|[Hne H']]; auto. }
  destruct Hm; cbn [y_heap set_conn] in Hx.
  - intros s sb n Hs Hq Hn Hrun Hlv. cbn [y_heap y_conns] in *. unfold free, hold. cbn [y_conns y_req y_broker y_heap y_pout]. rewrite !sum_list_with_app. cbn [sum_list_with].
    apply lookup_app_Some in Hn as [Hn|[_ Hn]]; [pose proof (HT s sb n Hs Hq Hn Hrun Hlv) as Ht; unfold free, hold in Ht; lia|].
    apply list_lookup_singleton_Some in Hn as [_ <-]. unfold lv in Hlv. cbn in Hlv. by rewrite lookup_empty in Hlv.
  - eapply Hloc; [done|reflexivity|done|done|done].
  - eapply Hloc; [done|reflexivity|done|done|done].
  - destruct (take_input_cases _ _ _ _ H2) as (I1 & I2 & I3 & I4 & I5 & I6).
    pose proof (wf_conns _ HW _ _ H) as HC.
    assert (shape c (n_c n) (y_heap y) (y_next y) i o) as Hsh by (eapply conn_iter_shape; [apply HC|done]).
    assert (Hq : forall s, lfree n (y_req y) s + lhold n (y_pout y) s = (match i with InSub t => if decide (t = s) then 1 else 0 | _ => 0 end) + cnt s (n_sub n1) + cnt s (k_sublist (n_c n)) + cnt s (psub (y_pout y)) + cnt s (rsub (y_req y))).
    { intros s. unfold lfree, cfree, lhold, chold. rewrite H1. cbn [rsub cnt]. destruct i; cbn [cnt].
      - destruct I6 as (_ & _ & ->). lia.
      - destruct I6 as (-> & _). lia.
      - destruct I6 as (_ & _ & ->). lia.
      - destruct I6 as (-> & _). cbn [cnt]. lia.
      - rewrite I6. lia. }
    assert (Hq' : forall s, lfree (taken n1 i o) (y_req y) s + lhold (taken n1 i o) (y_pout y) s = cnt s (rsub (i_push o)) + cnt s (n_sub n1) + cnt s (k_sublist (i_c o)) + cnt s (psub (y_pout y)) + cnt s (rsub (y_req y))).
    { intros s. unfold lfree, lhold. destruct (taken_fields n1 i o s) as [-> ->]. lia. }
    intros s sb' n0 Hs Hqu Hn0 Hrun Hlv. cbn [y_heap y_conns] in *.
    destruct (Hback _ _ Hs) as [(sb & G1 & G2)|G].
    + injection G2 as A1 A2 A3 A4 A5. unfold lv in Hlv. rewrite A1 in Hn0. rewrite A3 in Hlv. rewrite A2 in Hqu.
      assert (Hsub : forall t, i = InSub t -> own (y_heap y) c t) by (intros t ->; destruct I6 as (I6 & _); apply (co_sub _ _ _ HC); rewrite I6; by left).
      destruct (conns_upd _ _ _ _ _ _ H Hn0) as [[Ec ->]|[Hne H']].
      * assert (Hrn : i_stop o = false) by (destruct (i_stop o) eqn:E; [|done]; unfold taken in Hrun; rewrite E in Hrun; done).
        apply (taken_lv n1 i o s sb) in Hlv.
        assert (Hlv0 : lv n s sb) by (destruct (take_about _ _ _ _ _ _ _ _ _ _ _ _ HW H H2 H3 G1) as [P1 P2|P1 P2 P3 P4 P5|P1 P2 P3 P4]; [tauto|tauto|congruence]).
        etrans; [apply (HT s sb n); try done; by rewrite Ec|]. eapply free_hold_upd; [done|exact H|done|]. rewrite Hq, Hq'.
        destruct Hsh.
        -- destruct (acks_tok _ _ _ _ _ H5 s) as (B1 & _). assert (match i with InSub t => if decide (t = s) then 1 else 0 | _ => 0 end = 0) as -> by (destruct i; try done; by specialize (H4 s0)). lia.
        -- rewrite H5. lia.
        -- rewrite H7. lia.
        -- rewrite H7. lia.
        -- destruct (decide (s0 = s)) as [->|]; [|rewrite H7; lia]. assert (sb0 = sb) as -> by congruence. exfalso.
           pose proof (gone_dead _ _ _ _ _ _ _ _ _ _ _ H3 G1 H9) as Hg. unfold lv in Hlv0. congruence.
        -- congruence.
        -- rewrite H7, H11. cbn [rsub cnt set_last k_sublist]. lia.
        -- rewrite H7, H12. cbn [rsub cnt set_last set_sublist k_sublist]. rewrite cnt_app. cbn [cnt]. lia.
      * etrans; [by apply (HT s sb n0)|]. eapply free_hold_upd; [done|exact H|done|]. rewrite Hq, Hq'.
        assert (Hno : forall t, own (y_heap y) c t -> t <> s) by (intros t (tb & O1 & O2) ->; congruence).
        destruct Hsh.
        -- destruct (acks_tok _ _ _ _ _ H5 s) as (B1 & _). assert (match i with InSub t => if decide (t = s) then 1 else 0 | _ => 0 end = 0) as -> by (destruct i; try done; by specialize (H4 s0)). lia.
        -- rewrite H5. lia.
        -- rewrite H7. lia.
        -- rewrite H7. lia.
        -- rewrite decide_False by auto. rewrite H7. lia.
        -- rewrite decide_False by auto. rewrite H7. cbn [set_last k_sublist]. lia.
        -- rewrite decide_False by auto. rewrite H7. cbn [set_last k_sublist]. lia.
        -- rewrite decide_False by auto. rewrite H7. cbn [set_last set_sublist k_sublist]. rewrite cnt_app. lia.
    + destruct (take_new _ _ _ _ _ _ _ _ _ _ s HW H H2 H3 G) as [[? _]|(id & dest & ack & m & -> & -> & N1 & N2 & _)]; [congruence|].
      pose proof (free_upd y c n (taken n1 (InFrame m) o) (i_hp o) (i_next o) (y_uid y) (y_req y) (y_pout y) (y_blog y) (y_fin y ++ finals (y_heap y) (i_push o)) (y_lost y ++ losses (y_heap y) (InFrame m) (i_stop o)) (y_next y) HW H Hx) as Hf.
      unfold lfree in Hf. destruct (taken_fields n1 (InFrame m) o (y_next y)) as [E1 _]. rewrite N2 in E1. rewrite E1 in Hf. unfold cfree in Hf. rewrite H1 in Hf. cbn [rsub cnt] in Hf. rewrite decide_True in Hf by done. lia.
  - eapply Hloc; [done|reflexivity|done|done|]. intros s sb _ _. unfold lfree, lhold, cfree, chold. rewrite H0, rsub_app, cnt_app. cbn [with_out n_out n_sub n_c].
    assert (cnt s (rsub (r :: rs)) = cnt s (rsub [r]) + cnt s (rsub rs)) as -> by (destruct r; cbn [rsub cnt]; lia). lia.
  - pose proof (wf_conns _ HW _ _ H) as HC.
    eapply Hloc; [done|reflexivity|intros s; by eapply clean_heap| |].
    + intros Hr. exfalso. destruct H3; cbn in Hr; (congruence || naive_solver congruence).
    + intros s sb Hs [Hne|Hr]; [|exfalso; destruct H3; cbn in Hr; (congruence || naive_solver congruence)].
      assert (Hno : forall t, own (y_heap y) c t -> t <> s) by (intros t (tb & O1 & O2) ->; congruence).
      destruct H3; unfold lfree, lhold, cfree, chold; rewrite ?H0; cbn [with_out with_phase with_write with_sub_ch with_c n_out n_sub n_c rsub cnt k_sublist set_sublist set_subs]; rewrite ?H0; cbn [rsub cnt]; try lia.
      * rewrite H4. cbn [cnt]. rewrite decide_False; [lia|]. apply Hno. apply (co_list _ _ _ HC). rewrite H4. by left.
      * rewrite H4. cbn [cnt]. rewrite decide_False; [lia|]. apply Hno. apply (co_sub _ _ _ HC). rewrite H4. by left.
  - intros s sb' n Hs Hq Hn Hrun Hlv. cbn [y_heap y_conns] in *.
    destruct (serve_ok _ _ _ _ _ _ HW H0 H1) as (_ & Hsame & _). pose proof (serve_cases _ _ _ _ _ _ H1) as Hsc.
    destruct (Hback _ _ Hs) as [(sb & G1 & G2)|G]; [|rewrite (serve_heap _ _ _ _ _ _ s Hsc G) in Hs; done].
    injection G2 as A1 A2 A3 A4 A5. unfold lv in Hlv. rewrite A1 in Hn. rewrite A3 in Hlv. rewrite A2 in Hq.
    assert (r <> RUnsubscribe s) as Hr.
    { intros ->. destruct (en_seq _ HE _ _ _ G1 Hn) as (S1 & _). apply (S1 Hlv). apply elem_of_app. left. apply elem_of_list_filter. split; [by right|]. unfold handed. rewrite H0. set_solver. }
    pose proof (HT s sb n G1 Hq Hn Hrun Hlv) as Ht.
    pose proof (serve_token _ _ _ _ _ _ _ _ Hsc G1 Hr) as Hle.
    unfold free, hold in *. cbn [y_conns y_req y_broker y_heap y_pout]. rewrite H0, H in Ht. cbn [psub cnt] in Ht.
    assert (hdest hp s = s_dest sb) as -> by (unfold hdest; rewrite Hs; done). assert (hdest (y_heap y) s = s_dest sb) as Hd by (unfold hdest; by rewrite G1). rewrite Hd in Ht.
    assert (cnt s (rsub (r :: rs)) = cnt s (rsub [r]) + cnt s (rsub rs)) as E by (destruct r; cbn [rsub cnt]; lia). rewrite E in Ht. lia.
  - eapply Hloc; [done|reflexivity|done|done|]. intros s0 sb _ _. unfold lfree, lhold, cfree, chold. rewrite H. cbn [with_sub_ch n_out n_sub n_c psub cnt]. rewrite cnt_app. cbn [cnt]. lia.
  - eapply Hloc; [done|reflexivity|done|done|]. intros s0 sb _ _. unfold lfree, lhold, cfree, chold. rewrite H. cbn [with_write n_out n_sub n_c psub cnt]. lia.
Qed.
Lemma reach_token cfg y : reach cfg y -> token y.
Proof.
  revert y. apply reach_ind'.
  - intros s sb n H. cbn in H. by rewrite lookup_empty in H.
  - intros y y' Hr HT Hm. eapply token_move; [by eapply reach_wf|by eapply reach_ends|done|done].
Qed.
Lemma sum_with_zero {A} (f : A -> nat) l : (forall i x, l !! i = Some x -> f x = 0) -> sum_list_with f l = 0.
Proof.
  induction l as [|x l IH]; [done|]. intros H. cbn. rewrite (H 0 x) by done. rewrite IH; [done|]. intros i x' Hx. by apply (H (S i)).
Qed.
Lemma run_live cfg y c n : reach cfg y -> y_conns y !! c = Some n -> n_phase n = Running -> forall id, k_subs (n_c n) !! id = live id (n_log n).
Proof.
  intros Hr Hn Hp id. destruct (conn_history _ _ Hr _ _ (keeps_in _ (reach_wf _ _ Hr)) c n Hn) as (k & st & He & Hrun & _). destruct (Hrun Hp) as [-> ->]. by eapply subs_live.
Qed.
Lemma run_outstanding cfg y c n id_of ack_of : reach cfg y -> y_conns y !! c = Some n -> n_phase n = Running -> keeps id_of ack_of (y_heap y) ->
  k_sublist (n_c n) = outstanding ack_of (n_log n).
Proof.
  intros Hr Hn Hp Hk. destruct (conn_history _ _ Hr _ _ Hk c n Hn) as (k & st & He & Hrun & _). destruct (Hrun Hp) as [-> ->]. by eapply sublist_outstanding.
Qed.
(** Requests about s can only be in the queue of its connection. *)
Lemma work_conserved cfg y n s sb id_of ack_of : reach cfg y -> keeps id_of ack_of (y_heap y) -> y_heap y !! s = Some sb -> y_conns y !! s_conn sb = Some n -> n_phase n = Running ->
  live (s_id sb) (n_log n) = Some s -> is_queue (s_dest sb) = true -> n_out n = [] -> n_sub n = [] -> y_req y = [] -> y_pout y = [] ->
  waiting (y_broker y) (s_dest sb) <> [] -> s ∈ outstanding ack_of (n_log n).
Proof.
  intros Hr Hk Hs Hn Hp Hl Hq Ho Hsu Hreq Hpo Hw. pose proof (reach_wf _ _ Hr) as HW.
  rewrite <-(run_outstanding _ _ _ _ _ _ Hr Hn Hp Hk). rewrite <-(run_live _ _ _ _ Hr Hn Hp) in Hl.
  pose proof (reach_token _ _ Hr s sb n Hs Hq Hn Hp Hl) as Ht. unfold free, hold in Ht. rewrite Hreq, Hpo in Ht. cbn [rsub psub cnt] in Ht.
  assert (hdest (y_heap y) s = s_dest sb) as Hd by (unfold hdest; by rewrite Hs). rewrite Hd in Ht.
  destruct (queue_fifo _ _ _ _ _ (s_dest sb) (broker_history _ _ Hr _ _ _ (agrees_in y)) Hq) as [[?|Hrd] _]; [done|].
  unfold bfree in Ht. rewrite Hrd in Ht. cbn [cnt] in Ht.
  assert (cnt s (members (y_broker y) (s_dest sb)) = 0) as Hm.
  { apply cnt_0. intros Hin. destruct (bexec_places _ _ _ _ _ (broker_history _ _ Hr _ _ _ (agrees_in y))) as (_ & Hmo & _). destruct (Hmo _ _ Hin) as [_ Hnq]. congruence. }
  rewrite Hm in Ht.
  assert (sum_list_with (cfree s) (y_conns y) = 0) as Hz.
  { apply sum_with_zero. intros c n' Hn'. unfold cfree. destruct (decide (c = s_conn sb)) as [->|Hne].
    - assert (n' = n) as -> by congruence. by rewrite Ho.
    - apply cnt_0. rewrite elem_rsub. intros Hin. pose proof (en_other _ (reach_ends _ _ Hr) _ _ _ _ Hs Hn' Hne) as He. apply ab_nil in He. tauto. }
  rewrite Hz in Ht.
  assert (forall c n', y_conns y !! c = Some n' -> c <> s_conn sb -> chold s n' = 0) as Hoth.
  { intros c n' Hn' Hne. pose proof (wf_conns _ HW _ _ Hn') as HC. unfold chold. rewrite !cnt_0; [done| |].
    - intros Hin. destruct (co_list _ _ _ HC _ Hin) as ((sb' & E1 & E2) & _). congruence.
    - intros Hin. destruct (co_sub _ _ _ HC _ Hin) as ((sb' & E1 & E2) & _). congruence. }
  assert (0 < sum_list_with (chold s) (y_conns y)) as Hpos by lia.
  destruct (decide (cnt s (k_sublist (n_c n)) = 0)) as [E|E]; [|apply cnt_elem; lia]. exfalso.
  rewrite (sum_with_zero (chold s)) in Hpos; [lia|]. intros c n' Hn'. destruct (decide (c = s_conn sb)) as [->|Hne]; [|by eapply Hoth].
  assert (n' = n) as -> by congruence. unfold chold. by rewrite Hsu, E.
Qed.

(* ------------------------------------------------------------------ *)
(** Ends of subscriptions. *)
Lemma told cfg y n s sb : reach cfg y -> y_heap y !! s = Some sb -> y_conns y !! s_conn sb = Some n -> n_phase n = Dead -> RUnsubscribe s ∈ handed y.
Proof.
  intros Hr Hs Hn Hp. destruct (reach_phase _ _ Hr _ _ Hn) as [_ P2 _ P4]. specialize (P2 Hp).
  destruct (en_seq _ (reach_ends _ _ Hr) _ _ _ Hs Hn) as (_ & S2 & _). rewrite P2 in S2. cbn [filter list_filter] in S2. rewrite app_nil_r in S2.
  assert (RUnsubscribe s ∈ ab s (handed y)) as H; [|by apply elem_of_list_filter in H as [_ ?]].
  apply S2. unfold lv. rewrite P4 by (rewrite Hp; done). by rewrite lookup_empty.
Qed.
Lemma on_after_ab s on l : on_after s on l = on_after s on (ab s l).
Proof.
  revert on. induction l as [|r l IH]; intros on; [done|]. destruct (decide (about s r)) as [H|H].
  - rewrite filter_cons_True by done. destruct r; cbn [on_after]; apply IH.
  - rewrite filter_cons_False by done. rewrite <-IH. destruct r; cbn [on_after]; try done; (rewrite bool_decide_eq_false_2 by (intros ->; apply H; unfold about; auto)).
    + by rewrite orb_false_r.
    + by rewrite andb_true_r.
Qed.
Lemma on_after_last s l : last (ab s l) = Some (RUnsubscribe s) -> on_after s false l = false.
Proof.
  intros H. rewrite on_after_ab. apply last_Some in H as (l' & ->). rewrite on_after_snoc, bool_decide_eq_true_2 by done. apply andb_false_r.
Qed.
Lemma on_after_nil s l : ab s l = [] -> on_after s false l = false.
Proof. intros H. by rewrite on_after_ab, H. Qed.
(** Whoever the processor has on a queue's list of ready subscriptions asked
    for it after its last UNSUBSCRIBE. *)
Lemma ready_on cfg y : reach cfg y -> forall d s, s ∈ ready (y_broker y) d -> on_after s false (y_blog y).*1 = true.
Proof.
  revert y. apply (reach_ind' cfg (fun y => forall d s, s ∈ ready (y_broker y) d -> on_after s false (y_blog y).*1 = true)).
  - intros d s H. unfold ready in H. cbn in H. rewrite lookup_empty in H. by apply elem_of_nil in H.
  - intros y y' Hr IH Hm. destruct Hm; try done. cbn [y_broker y_blog]. intros d s Hin. rewrite fmap_app. cbn [fmap list_fmap fst]. rewrite on_after_snoc.
    pose proof (reach_wf _ _ Hr) as HW. pose proof (serve_cases _ _ _ _ _ _ H1) as Hsc.
    assert (Hsame : s ∈ ready (y_broker y) d -> (forall s0, r = RUnsubscribe s0 -> s0 <> s) ->
      match r with RSubscribe s' => on_after s false (y_blog y).*1 || bool_decide (s' = s) | RUnsubscribe s' => on_after s false (y_blog y).*1 && negb (bool_decide (s' = s)) | _ => on_after s false (y_blog y).*1 end = true).
    { intros Hi Hne. rewrite (IH _ _ Hi). destruct r as [s0|s0|?|?|?|?]; try done. specialize (Hne _ eq_refl). by rewrite bool_decide_eq_false_2. }
    assert (Hdest : forall d0 t, t ∈ ready (y_broker y) d0 -> dst (y_heap y) d0 t) by (intros d0 t Ht; apply (wf_ready _ HW _ _ Ht)).
    destruct Hsc; try match goal with Hb : bis _ _ _ _ |- _ => destruct Hb as (B1 & B2 & B3); try rewrite B2 in Hin end; unfold fupd in Hin.
    + destruct (decide (d = s_dest sb)) as [->|Hne]; [|by apply Hsame]. apply elem_of_app in Hin as [Hin|Hin]; [by apply Hsame|]. apply elem_of_list_singleton in Hin as ->. rewrite bool_decide_eq_true_2 by done. by rewrite orb_true_r.
    + apply Hsame; [done|]. intros ? E. congruence.
    + apply Hsame; [done|]. intros ? E. congruence.
    + destruct (decide (s0 = s)) as [->|Hne].
      * exfalso. assert (cnt s (ready (y_broker y) (s_dest sb)) <= 1) as Hc.
        { pose proof (tk_one _ (reach_tok _ _ Hr) s) as T1. unfold free, hold, bfree in T1. assert (hdest (y_heap y) s = s_dest sb) as Hd by (unfold hdest; by rewrite H2). rewrite Hd in T1. lia. }
        rewrite H4 in Hc. rewrite cnt_app in Hc. cbn [cnt] in Hc. rewrite decide_True in Hc by done.
        destruct (decide (d = s_dest sb)) as [->|Hne']; [|destruct (Hdest _ _ Hin) as (sb' & E1 & E2); congruence].
        assert (0 < cnt s (l1 ++ l2)) by (by apply cnt_elem). rewrite cnt_app in *. lia.
      * apply Hsame; [|intros ? [= ->]; done]. destruct (decide (d = s_dest sb)) as [->|]; [|done]. rewrite H4. set_solver.
    + apply Hsame; [done|]. intros s1 [= <-] ->. destruct (Hdest _ _ Hin) as (sb' & E1 & E2). apply H4. assert (sb' = sb) as -> by congruence. by rewrite E2.
    + apply Hsame; [done|]. intros s1 [= <-] ->. destruct (wf_ready _ HW _ _ Hin) as [Hq (sb' & E1 & E2)]. congruence.
    + apply Hsame; [done|]. intros s1 [= <-] ->. destruct (wf_ready _ HW _ _ Hin) as [Hq (sb' & E1 & E2)]. congruence.
    + by apply Hsame.
    + by apply Hsame.
    + apply Hsame; [|destruct H2 as [-> | ->]; done]. destruct (decide (d = d0)) as [->|]; [|done]. rewrite H5. by right.
    + by apply Hsame.
    + by apply Hsame.
    + apply Hsame; [done|]. destruct H2 as (? & [-> | ->]); done.
Qed.
(** Whoever the processor has on a topic's list is present by the requests. *)
Lemma members_on cfg y : reach cfg y -> forall d s, s ∈ members (y_broker y) d -> on_after s false (y_blog y).*1 = true.
Proof.
  intros Hr d s Hin. pose proof (broker_history _ _ Hr _ _ _ (agrees_in y)) as Hb.
  destruct (bexec_places _ _ _ _ _ Hb) as (_ & Hmo & _). destruct (Hmo _ _ Hin) as [Hd Hq].
  apply (on_present (dest_in y)). rewrite Hd. rewrite (topic_members _ _ _ _ _ _ Hb Hq) in Hin; [done|]. by apply (topics_nodup cfg).
Qed.
(* ------------------------------------------------------------------ *)
(** Where a subscription object comes from. *)
Definition origin (y : sys) : Prop := forall s sb n, y_heap y !! s = Some sb -> y_conns y !! s_conn sb = Some n ->
  exists e, e ∈ n_log n /\ subscribes e (s_id sb) (s_dest sb) s.
Lemma origin_conn y c n n' hp nx uid req b pout blog fin lost ex : origin y -> hext (y_heap y) hp -> y_conns y !! c = Some n ->
  (forall s, y_heap y !! s = None -> hp !! s = None) -> n_log n' = n_log n ++ ex ->
  origin (mkSys (<[c := n']> (y_conns y)) hp nx uid req b pout blog fin lost).
Proof.
  intros HO Hx Hn Hnone Hlog s sb' n0 Hs Hn0. cbn [y_heap y_conns] in *. destruct (y_heap y !! s) as [sb|] eqn:E; [|rewrite Hnone in Hs; done].
  destruct (Hx _ _ E) as (sb1 & G1 & Ha). assert (sb1 = sb') as -> by congruence. injection Ha as A1 A2 A3 _ _. rewrite A1 in Hn0. rewrite A2, A3.
  destruct (conns_upd _ _ _ _ _ _ Hn Hn0) as [[Ec ->]|[_ H']]; [|by eapply HO].
  destruct (HO _ _ n E) as (e & H1 & H2); [by rewrite Ec|]. exists e. split; [|done]. rewrite Hlog. set_solver.
Qed.
Lemma origin_move cfg y y' : wf y -> origin y -> move cfg y y' -> origin y'.
Proof.
  intros HW HO Hm. pose proof (move_hext _ _ _ HW Hm) as Hx. destruct Hm; cbn [y_heap set_conn] in Hx.
  - intros s sb n Hs [Hn|[Hl Hn]]%lookup_app_Some; [by eapply HO|]. cbn [y_heap] in Hs. destruct (wf_sub _ HW _ _ Hs) as [Hc _]. lia.
  - eapply (origin_conn _ _ _ _ _ _ _ _ _ _ _ _ _ []); try done. cbn [n_log]. by rewrite app_nil_r.
  - eapply (origin_conn _ _ _ _ _ _ _ _ _ _ _ _ _ []); try done. cbn [n_log]. by rewrite app_nil_r.
  - destruct (take_input_cases _ _ _ _ H2) as (I1 & I2 & I3 & I4 & I5 & I6).
    assert (Hlog : n_log (taken n1 i o) = n_log n ++ [new_event i o]) by (cbn [taken n_log]; by rewrite I5).
    intros s sb' n0 Hs Hn0. cbn [y_heap y_conns] in *. destruct (y_heap y !! s) as [sb|] eqn:E.
    + destruct (Hx _ _ E) as (sb1 & G1 & Ha). assert (sb1 = sb') as -> by congruence. injection Ha as A1 A2 A3 _ _. rewrite A1 in Hn0. rewrite A2, A3.
      destruct (conns_upd _ _ _ _ _ _ H Hn0) as [[Ec ->]|[_ H']]; [|by eapply HO].
      destruct (HO _ _ n E) as (e & G2 & G3); [by rewrite Ec|]. exists e. split; [|done]. rewrite Hlog. set_solver.
    + destruct (take_new _ _ _ _ _ _ _ _ _ _ s HW H H2 H3 E) as [[? _]|(id & dest & ack & m & -> & -> & N1 & N2 & N3 & N4 & N5 & N6 & N7)]; [congruence|].
      assert (sb' = new_sub c dest id ack) as -> by congruence. cbn [s_conn new_sub s_id s_dest] in *. destruct (conns_upd _ _ _ _ _ _ H Hn0) as [[_ ->]|[? _]]; [|done].
      exists (new_event (InFrame m) o). split; [rewrite Hlog; set_solver|]. exists m. unfold accepted, client_frame, new_event. cbn. by rewrite N4.
  - eapply (origin_conn _ _ _ _ _ _ _ _ _ _ _ _ _ []); try done. cbn [n_log with_out]. by rewrite app_nil_r.
  - eapply (origin_conn _ _ _ _ _ _ _ _ _ _ _ _ _ []); try done; [intros s; by eapply clean_heap|]. rewrite app_nil_r. by destruct H3.
  - intros s sb' n Hs Hn. cbn [y_heap y_conns] in *. destruct (y_heap y !! s) as [sb|] eqn:E; [|rewrite (serve_heap _ _ _ _ _ _ s (serve_cases _ _ _ _ _ _ H1) E) in Hs; done].
    destruct (Hx _ _ E) as (sb1 & G1 & Ha). cbn [y_heap] in G1. assert (sb1 = sb') as -> by congruence. injection Ha as A1 A2 A3 _ _. rewrite A1 in Hn. rewrite A2, A3. by eapply HO.
  - eapply (origin_conn _ _ _ _ _ _ _ _ _ _ _ _ _ []); try done. cbn [n_log with_sub_ch]. by rewrite app_nil_r.
  - eapply (origin_conn _ _ _ _ _ _ _ _ _ _ _ _ _ []); try done. cbn [n_log with_write]. by rewrite app_nil_r.
Qed.
Lemma reach_origin cfg y : reach cfg y -> origin y.
Proof.
  revert y. apply reach_ind'.
  - intros s sb n H. cbn in H. by rewrite lookup_empty in H.
  - intros y y' Hr HO Hm. eapply origin_move; [by eapply reach_wf|done|done].
Qed.
(** Objects not in the heap belong to no connection. *)
Definition conn_or_none (y : sys) (s : nat) : nat := match y_heap y !! s with Some sb => s_conn sb | None => length (y_conns y) end.
Lemma agrees_none y : agrees (conn_or_none y) (dest_in y) (id_in y) (y_heap y).
Proof. intros s sb H. unfold conn_or_none, dest_in, id_in. by rewrite H. Qed.
Lemma elem_topics_to c os m : m ∈ topics_to c os -> OutTopic c m ∈ os.
Proof.
  unfold topics_to. intros (o & H1 & H2)%elem_of_list_omap. destruct o as [|c' m']; [done|]. destruct (decide (c' = c)) as [->|]; [|done]. by injection H2 as ->.
Qed.
Definition comes_from (c : nat) (pre : list cev) (e : cev) (y : sys) : Prop :=
  forall m w, (Some m, w) ∈ v_wr e -> cmd_of m = MESSAGE -> exists e0 s id d, e0 ∈ pre /\ subscribes e0 id d s /\ hget_of m (lit "subscription") = Some id /\ hget_of m (lit "destination") = Some d.
Lemma message_origin cfg y : reach cfg y -> forall c n pre e post, y_conns y !! c = Some n -> n_log n = pre ++ e :: post -> comes_from c pre e y.
Proof.
  revert y. apply (log_inv_c cfg comes_from); [by intros|].
  intros y c n x w1 w2 i n1 o Hr Hn Hph Hout Hti Hci Hmv m w Hin Hm. unfold new_event in Hin. cbn [v_wr] in Hin.
  pose proof (reach_wf _ _ Hr) as HW. pose proof (wf_conns _ HW _ _ Hn) as HC. pose proof (co_tx _ _ _ HC) as Htx.
  destruct (take_input_cases _ _ _ _ Hti) as (_ & _ & _ & _ & _ & I6). destruct i as [m0| |m0|s|].
  - exfalso. revert Hm. by eapply frame_no_message.
  - injection Hci as <-. by apply elem_of_nil in Hin.
  - cbn [conn_iter] in Hci. destruct (alloc_id (k_last (n_c n)) None m0) as [k m1] eqn:Ha. injection Hci as <-. cbn [i_wr] in Hin. apply elem_of_list_singleton in Hin. injection Hin as -> _.
    destruct I6 as (I6 & _). assert (m0 ∈ topics_out c (y_blog y)) as Ht.
    { destruct (tp_flow _ (reach_tops _ _ Hr) _ _ Hn) as (dl & D1 & _). rewrite D1, I6. set_solver. }
    apply elem_topics_to in Ht. apply elem_of_list_In, in_concat in Ht as (os & Ho1 & Ho2). apply elem_of_list_In in Ho1, Ho2.
    apply elem_of_list_fmap in Ho1 as ([r os'] & -> & Hev).
    destruct (bexec_places _ _ _ _ _ (broker_history _ _ Hr _ _ _ (agrees_none y))) as (_ & _ & HF). rewrite Forall_forall in HF. specialize (HF _ Hev). rewrite Forall_forall in HF.
    destruct (HF _ Ho2) as (m2 & s & _ & E2 & _ & E4 & ->). unfold conn_or_none in E2. destruct (y_heap y !! s) as [sb|] eqn:Hs; [|apply lookup_lt_Some in Hn; lia].
    destruct (reach_origin _ _ Hr _ _ n Hs) as (e0 & G1 & G2); [by rewrite <-E2|]. exists e0, s, (s_id sb), (s_dest sb). split_and!; [done|done| |].
    + rewrite (alloc_id_get _ _ _ _ _ (lit "subscription") Ha) by neq_lits. unfold id_in. rewrite Hs. by apply (for_id_with (s_id sb)).
    + rewrite (alloc_id_get _ _ _ _ _ (lit "destination") Ha) by neq_lits. unfold dest_in in E4. rewrite Hs in E4. by apply (dest_with_sub _ (id_in y s)) in E4.
  - destruct (take_sub _ _ _ _ _ _ _ Hr Hn Hti) as (sb & m0 & H1 & H2 & H3). destruct I6 as (I6 & _).
    destruct (co_sub _ _ _ HC s) as [(sb1 & O1 & O2) _]; [rewrite I6; by left|]. assert (sb1 = sb) as -> by congruence.
    destruct (reach_origin _ _ Hr _ _ n H1) as (e0 & G1 & G2); [by rewrite O2|]. exists e0, s, (s_id sb), (s_dest sb). split; [done|]. split; [done|].
    pose proof (wf_sub _ HW _ _ H1) as (_ & _ & Hh). destruct (Hh _ H2) as (_ & _ & Hdst & Hsub).
    pose proof (conn_iter_shape _ _ _ _ _ _ _ _ _ Htx Hci) as Hs.
    inversion Hs; subst; try (by match goal with Hx : forall s0, InSub s <> InSub s0 |- _ => destruct (Hx s) end);
      match goal with Hw : i_wr o = _ |- _ => rewrite Hw in Hin end; [by apply elem_of_nil in Hin|..];
      (apply elem_of_list_singleton in Hin; injection Hin as -> _; rewrite <-Hsub, <-Hdst;
       match goal with Hx : y_heap y !! s = Some ?b |- _ => assert (b = sb) as -> by congruence end;
       match goal with Hx : s_frame sb = Some ?b |- _ => assert (b = m0) as -> by congruence end;
       split; (eapply alloc_id_get; [done|neq_lits..])).
  - injection Hci as <-. cbn in Hin. by apply elem_of_list_singleton in Hin.
Qed.

Lemma work_auto cfg y n s sb : reach cfg y -> y_heap y !! s = Some sb ->
  y_conns y !! s_conn sb = Some n -> n_phase n = Running -> live (s_id sb) (n_log n) = Some s -> is_queue (s_dest sb) = true -> s_ack sb = lit "auto" ->
  n_out n = [] -> n_sub n = [] -> y_req y = [] -> y_pout y = [] -> waiting (y_broker y) (s_dest sb) = [].
Proof.
  intros Hr Hs Hn Hp Hl Hq Ha H1 H2 H3 H4. destruct (decide (waiting (y_broker y) (s_dest sb) = [])) as [?|Hw]; [done|]. exfalso.
  pose proof (reach_wf _ _ Hr) as HW. pose proof (work_conserved _ _ _ _ _ _ _ Hr (keeps_in _ HW) Hs Hn Hp Hl Hq H1 H2 H3 H4 Hw) as Ho.
  rewrite <-(run_outstanding _ _ _ _ _ _ Hr Hn Hp (keeps_in _ HW)) in Ho. destruct (co_list _ _ _ (wf_conns _ HW _ _ Hn) _ Ho) as (_ & _ & (sb' & E & Hne)).
  assert (sb' = sb) as -> by congruence. done.
Qed.

(* ------------------------------------------------------------------ *)
(** Order from one sender to one topic subscriber. *)
Lemma during_sublist s d on rs : during s d on rs `sublist_of` enqueues rs.
Proof.
  revert on. induction rs as [|r rs IH]; intros on; [done|]. unfold enqueues in *. destruct r; cbn [during omap list_omap]; try apply IH.
  destruct (on && _); [by constructor|by constructor].
Qed.
Lemma filter_sublist {A} (P : A -> Prop) `{!forall x, Decision (P x)} l1 l2 : l1 `sublist_of` l2 -> filter P l1 `sublist_of` filter P l2.
Proof.
  induction 1 as [|x l1 l2 _ IH|x l1 l2 _ IH]; [done| |].
  - destruct (decide (P x)); [rewrite !filter_cons_True by done; by constructor|by rewrite !filter_cons_False].
  - destruct (decide (P x)); [rewrite filter_cons_True by done; by constructor|by rewrite filter_cons_False].
Qed.
Lemma fmap_sublist {A B} (f : A -> B) l1 l2 : l1 `sublist_of` l2 -> f <$> l1 `sublist_of` f <$> l2.
Proof. induction 1; cbn; by constructor. Qed.
Lemma filter_payload n (l : list msg) : payload <$> filter (sent_by n) l = filter (sent_by n) (payload <$> l).
Proof.
  induction l as [|m l IH]; [done|]. cbn [fmap list_fmap]. destruct (decide (sent_by n m)) as [H|H].
  - rewrite !filter_cons_True by done. cbn. by f_equal.
  - rewrite !filter_cons_False by done. done.
Qed.
Lemma topic_order cfg y c n s sb c' n' : reach cfg y -> y_conns y !! c = Some n -> y_conns y !! c' = Some n' ->
  y_heap y !! s = Some sb -> s_conn sb = c -> is_queue (s_dest sb) = false -> only_of_id y s sb ->
  (payload <$> filter (sent_by n') (received (s_id sb) n)) `sublist_of` (payload <$> client_sent n').
Proof.
  intros Hr Hn Hn' Hs Hc Hq Ho. destruct (topic_received _ _ _ _ _ _ Hr Hn Hs Hc Hq Ho) as [Hp _].
  rewrite filter_payload. transitivity (filter (sent_by n') (payload <$> during s (s_dest sb) false (y_blog y).*1));
    [apply filter_sublist; destruct Hp as [k Hp]; rewrite Hp; by apply sublist_inserts_r|].
  rewrite <-filter_payload. apply fmap_sublist. rewrite <-(or_eq _ (reach_ordered _ _ Hr) _ _ Hn'). apply sublist_inserts_r.
  apply filter_sublist. etrans; [apply during_sublist|]. unfold handed. rewrite enq_app. by apply sublist_inserts_r.
Qed.
