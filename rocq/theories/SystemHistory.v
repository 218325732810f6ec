(** What the histories of connections in the whole server look like. *)
From Verif Require Import GoBase HeaderModel FrameModel GrammarSpec HeaderProofs NegotiationModel NegotiationSpec NegotiationLemmas
  BrokerModel BrokerSpec BrokerProofs ServerConnModel ServerConnSpec ServerConnProofs SystemModel SystemLemmas SystemSpec SystemProofs SystemTokens
  SystemMessages SystemUids.

(** An invariant of single events of the histories. *)
Definition new_event (i : cin) (o : iout) : cev := mkCev i (i_wr o) (i_push o) (i_stop o).
Definition take_result (y : sys) (c : nat) (n1 : sconn) (i : cin) (o : iout) : sys :=
  mkSys (<[c := taken n1 i o]> (y_conns y)) (i_hp o) (i_next o) (y_uid y) (y_req y) (y_broker y) (y_pout y) (y_blog y)
                      (y_fin y ++ finals (y_heap y) (i_push o)) (y_lost y ++ losses (y_heap y) i (i_stop o)).
Lemma log_inv cfg (P : list cev -> cev -> sys -> Prop) :
  (forall y y' pre e, reach cfg y -> move cfg y y' -> P pre e y -> P pre e y') ->
  (forall y c n x w1 w2 i n1 o, reach cfg y -> y_conns y !! c = Some n -> n_phase n = Running -> n_out n = [] -> take_input n x = Some (i, n1) ->
    conn_iter cfg c w1 w2 (n_c n) (y_heap y) (y_next y) i = Fine o -> move cfg y (take_result y c n1 i o) ->
    P (n_log n) (new_event i o) (take_result y c n1 i o)) ->
  forall y, reach cfg y -> forall c n pre e post, y_conns y !! c = Some n -> n_log n = pre ++ e :: post -> P pre e y.
Proof.
  intros Hmono Hnew. apply (reach_ind' cfg (fun y => forall c n pre e post, y_conns y !! c = Some n -> n_log n = pre ++ e :: post -> P pre e y)).
  { intros c n pre e post H. cbn in H. by rewrite lookup_nil in H. }
  intros y y' Hr IH Hm.
  assert (Hold : forall c n pre e post, y_conns y !! c = Some n -> n_log n = pre ++ e :: post -> P pre e y') by (intros; eapply Hmono; eauto).
  assert (Hupd : forall c n n' hp nx uid req b po bl fi lo, y_conns y !! c = Some n ->
    y' = mkSys (<[c := n']> (y_conns y)) hp nx uid req b po bl fi lo -> n_log n' = n_log n ->
    forall c0 n0 pre e post, y_conns y' !! c0 = Some n0 -> n_log n0 = pre ++ e :: post -> P pre e y').
  { intros c n n' hp nx uid req b po bl fi lo H1 -> H2 c0 n0 pre e post H3 H4. cbn [y_conns] in H3.
    destruct (conns_upd _ _ _ _ _ _ H1 H3) as [[-> ->]|[? ?]]; [|by eapply Hold]. rewrite H2 in H4. by eapply Hold. }
  pose proof Hm as Hm'; destruct Hm'; try (eapply Hupd; [eassumption|reflexivity|reflexivity]).
  - cbn [y_conns]. intros c n pre e post. rewrite lookup_app_Some. intros [Hn|[_ Hn]]; [by eapply Hold|].
    apply list_lookup_singleton_Some in Hn as [_ <-]. cbn. by intros ?%app_cons_not_nil.
  - intros c0 n0 pre e0 post H4 H5. cbn [y_conns] in H4. destruct (conns_upd _ _ _ _ _ _ H H4) as [[-> ->]|[? ?]]; [|by eapply Hold].
    destruct (take_input_cases _ _ _ _ H2) as (T1 & T2 & T3 & T4 & T5 & T6). cbn [taken n_log] in H5. rewrite T5 in H5.
    destruct (decide (post = [])) as [->|Hp].
    + apply app_inj_tail in H5 as [<- <-]. apply (Hnew y c n x w1 w2 i n1 o); done.
    + destruct (exists_last Hp) as (post' & ev & ->). rewrite app_comm_cons, app_assoc in H5. apply app_inj_tail in H5 as [H5 _]. by eapply Hold.
  - eapply Hupd; [eassumption|reflexivity|]. by destruct H3.
  - intros c0 n0 pre e1 post H3 H4. cbn [y_conns] in H3. by eapply Hold.
Qed.

(** Canonical attributes. *)
Definition id_in (y : sys) (s : nat) : str := match y_heap y !! s with Some sb => s_id sb | None => [] end.
Definition ack_in (y : sys) (s : nat) : str := match y_heap y !! s with Some sb => s_ack sb | None => [] end.
Lemma keeps_in y : wf y -> keeps (id_in y) (ack_in y) (y_heap y).
Proof. intros HW s sb Hs. unfold id_in, ack_in. rewrite Hs. split_and!; [done|done|]. by destruct (wf_sub _ HW _ _ Hs) as (_ & ? & _). Qed.

Lemma sent_mono cfg y y' : move cfg y y' -> forall m, m ∈ sent y -> m ∈ sent y'.
Proof.
  intros Hm m. unfold sent.
  assert (Hupd : forall c n n', y_conns y !! c = Some n -> (exists l, n_log n' = n_log n ++ l) -> 
    m ∈ concat ((fun n => concat ((fun e => enqueues (v_push e)) <$> n_log n)) <$> y_conns y) ->
    m ∈ concat ((fun n => concat ((fun e => enqueues (v_push e)) <$> n_log n)) <$> <[c := n']> (y_conns y))).
  { intros c n n' Hn [l Hl]. rewrite !elem_of_list_In, !in_concat. intros (x & Hx & Hmx).
    rewrite <-elem_of_list_In in Hx. apply elem_of_list_fmap in Hx as (n0 & -> & Hn0). apply elem_of_list_lookup in Hn0 as [c0 Hn0].
    destruct (decide (c0 = c)) as [->|Hne].
    - assert (n0 = n) as -> by congruence. exists (concat ((fun e => enqueues (v_push e)) <$> n_log n')). split.
      + rewrite <-elem_of_list_In. apply elem_of_list_fmap. exists n'. split; [done|]. apply elem_of_list_lookup. exists c. apply list_lookup_insert.
        by eapply lookup_lt_Some.
      + rewrite Hl, fmap_app, concat_app. apply in_or_app. by left.
    - exists (concat ((fun e => enqueues (v_push e)) <$> n_log n0)). split; [|done].
      rewrite <-elem_of_list_In. apply elem_of_list_fmap. exists n0. split; [done|]. apply elem_of_list_lookup. exists c0. by rewrite list_lookup_insert_ne. }
  destruct Hm; cbn [y_conns]; try (eapply Hupd; [done|]; exists []; by rewrite app_nil_r).
  - rewrite fmap_app, concat_app. intros. apply elem_of_app. by left.
  - eapply Hupd; [done|]. destruct (take_input_cases _ _ _ _ H2) as (T1 & T2 & T3 & T4 & T5 & T6). cbn [taken n_log]. rewrite T5. eauto.
  - eapply Hupd; [done|]. exists []. rewrite app_nil_r. by destruct H3.
  - done.
Qed.
Lemma sent_new y c n1 i o n m : y_conns y !! c = Some n -> m ∈ enqueues (i_push o) -> m ∈ sent (take_result y c n1 i o).
Proof.
  intros Hn Hm. unfold sent, take_result. cbn [y_conns]. rewrite !elem_of_list_In, in_concat.
  exists (clog (taken n1 i o)). split.
  - rewrite <-elem_of_list_In. apply elem_of_list_fmap. exists (taken n1 i o). split; [done|]. apply elem_of_list_lookup. exists c. apply list_lookup_insert.
    by eapply lookup_lt_Some.
  - rewrite <-elem_of_list_In, clog_snoc. apply elem_of_app. by right.
Qed.

(** Messages somebody sent. *)
Definition from_sent (y : sys) (m : msg) : Prop := exists m0, m0 ∈ sent y /\ payload m = payload m0.
Lemma from_sent_mono cfg y y' m : move cfg y y' -> from_sent y m -> from_sent y' m.
Proof. intros Hm (m0 & H1 & H2). exists m0. split; [|done]. by eapply sent_mono. Qed.
Lemma from_sent_eq y m m' : payload m' = payload m -> from_sent y m -> from_sent y m'.
Proof. intros E (m0 & H1 & H2). exists m0. split; congruence. Qed.

(** Topic messages on their way. *)
Record topical (y : sys) : Prop := mkTopical {
  tp_out : forall c n m, y_conns y !! c = Some n -> REnqueue m ∈ n_out n -> from_sent y m;
  tp_req : forall m, REnqueue m ∈ y_req y -> from_sent y m;
  tp_pout : forall c m, OutTopic c m ∈ y_pout y -> from_sent y m;
  tp_write : forall c n m, y_conns y !! c = Some n -> m ∈ n_write n -> from_sent y m
}.
Lemma topical_move cfg y y' : move cfg y y' -> topical y -> topical y'.
Proof.
  intros Hm [T1 T2 T3 T4]. pose proof (fun m => from_sent_mono _ _ _ m Hm) as Hmono.
  assert (Hout : forall c n n', y_conns y !! c = Some n -> (forall m, REnqueue m ∈ n_out n' -> from_sent y' m) ->
    forall c0 n0, <[c := n']> (y_conns y) !! c0 = Some n0 -> forall m, REnqueue m ∈ n_out n0 -> from_sent y' m).
  { intros c n n' H1 H3 c0 n0 H4. destruct (conns_upd _ _ _ _ _ _ H1 H4) as [[-> ->]|[? ?]]; eauto. }
  assert (Hwr : forall c n n', y_conns y !! c = Some n -> (forall m, m ∈ n_write n' -> from_sent y' m) ->
    forall c0 n0, <[c := n']> (y_conns y) !! c0 = Some n0 -> forall m, m ∈ n_write n0 -> from_sent y' m).
  { intros c n n' H1 H3 c0 n0 H4. destruct (conns_upd _ _ _ _ _ _ H1 H4) as [[-> ->]|[? ?]]; eauto. }
  pose proof Hm as Hm'; destruct Hm'; (split; cbn [y_conns y_req y_pout] in *; [intros cz nz mz Hz; revert mz|intros mz|intros cz mz|intros cz nz mz Hz; revert mz]); eauto.
  - rewrite lookup_app_Some in Hz. destruct Hz as [Hz|[_ Hz]]; [eauto|]. apply list_lookup_singleton_Some in Hz as [_ <-]. intros m'. by intros ?%elem_of_nil.
  - rewrite lookup_app_Some in Hz. destruct Hz as [Hz|[_ Hz]]; [eauto|]. apply list_lookup_singleton_Some in Hz as [_ <-]. intros m'. by intros ?%elem_of_nil.
  - revert cz nz Hz. (eapply Hout || eapply Hwr); [done|]. cbn. eauto.
  - revert cz nz Hz. (eapply Hout || eapply Hwr); [done|]. cbn. eauto.
  - revert cz nz Hz. (eapply Hout || eapply Hwr); [done|]. cbn. eauto.
  - revert cz nz Hz. (eapply Hout || eapply Hwr); [done|]. cbn. eauto.
  - revert cz nz Hz. (eapply Hout || eapply Hwr); [done|]. intros m' Hin. cbn [taken n_out] in Hin. exists m'. split; [|done].
    apply (sent_new y c n1 i o n); [done|]. apply elem_of_list_omap. by exists (REnqueue m').
  - revert cz nz Hz. (eapply Hout || eapply Hwr); [done|]. intros m' Hin. cbn [taken n_write] in Hin. apply Hmono. eapply T4; [done|].
    destruct (take_input_cases _ _ _ _ H2) as (I1 & I2 & I3 & I4 & I5 & I6). destruct i.
    + by destruct I6 as (_ & <- & _).
    + by destruct I6 as (-> & _).
    + destruct I6 as (-> & _). by right.
    + by destruct I6 as (_ & _ & <-).
    + by rewrite <-I6.
  - revert cz nz Hz. (eapply Hout || eapply Hwr); [done|]. intros m' Hin. cbn [with_out n_out] in Hin. apply Hmono. eapply T1; [done|]. rewrite H0. by right.
  - rewrite elem_of_app, elem_of_list_singleton. intros [Hin|Hin]; [eauto|]. apply Hmono. eapply T1; [done|]. rewrite H0, Hin. by left.
  - revert cz nz Hz. (eapply Hout || eapply Hwr); [done|]. cbn. eauto.
  - revert cz nz Hz. (eapply Hout || eapply Hwr); [done|]. intros m' Hin. assert (REnqueue m' ∈ n_out n) as Hin'; [|eauto].
    destruct H3; cbn in Hin; try done; apply elem_of_list_singleton in Hin; done.
  - revert cz nz Hz. (eapply Hout || eapply Hwr); [done|]. intros m' Hin. apply Hmono. eapply T4; [done|].
    destruct H3; cbn in *; try done. rewrite H3. by right.
  - intros Hin. apply Hmono. apply T2. rewrite H0. by right.
  - intros Hin. apply serve_cases in H1. apply Hmono. destruct H1; cbn in Hin; try (by apply elem_of_nil in Hin); try (by apply elem_of_list_singleton in Hin).
    apply (from_sent_eq y m); [|apply T2; rewrite H0; by left]. apply elem_of_list_lookup in Hin as [k Hk].
    destruct (Forall2_lookup_r _ _ _ _ _ H3 Hk) as (s & _ & sb & _ & _ & E). injection E as -> ->. apply payload_with_sub.
  - revert cz nz Hz. (eapply Hout || eapply Hwr); [done|]. cbn. eauto.
  - intros Hin. apply Hmono. eapply T3. rewrite H. by right.
  - revert cz nz Hz. (eapply Hout || eapply Hwr); [done|]. cbn. eauto.
  - revert cz nz Hz. (eapply Hout || eapply Hwr); [done|]. cbn. eauto.
  - intros Hin. apply Hmono. eapply T3. rewrite H. by right.
  - revert cz nz Hz. (eapply Hout || eapply Hwr); [done|]. intros m' Hin. cbn [with_write n_write] in Hin. apply Hmono. apply elem_of_app in Hin as [Hin|Hin]; [eauto|].
    apply elem_of_list_singleton in Hin as ->. eapply T3. rewrite H. by left.
Qed.
Lemma reach_topical cfg y : reach cfg y -> topical y.
Proof.
  revert y. apply reach_ind'; [|intros; by eapply topical_move]. split; cbn.
  - intros c n m H. by rewrite lookup_nil in H.
  - intros m. by intros ?%elem_of_nil.
  - intros c m. by intros ?%elem_of_nil.
  - intros c n m H. by rewrite lookup_nil in H.
Qed.

(** Messages held by subscriptions and in the outstanding list. *)
Lemma conservation_in cfg y d m : reach cfg y -> is_queue d = true -> m ∈ whereabouts d y -> from_sent y m.
Proof.
  intros Hr Hq Hm. pose proof (conservation _ _ _ Hr Hq) as Hp. apply (elem_of_list_fmap_1 payload) in Hm. rewrite <-Hp in Hm.
  apply elem_of_list_fmap in Hm as (m0 & E & Hm). apply elem_of_list_filter in Hm as [_ Hm]. by exists m0.
Qed.
Lemma held_where cfg y c n s sb m : reach cfg y -> y_conns y !! c = Some n -> s ∈ n_sub n ++ k_sublist (n_c n) ->
  y_heap y !! s = Some sb -> s_frame sb = Some m -> is_queue (s_dest sb) = true /\ m ∈ whereabouts (s_dest sb) y.
Proof.
  intros Hr Hn Hs Hsb Hm. destruct (wf_sub _ (reach_wf _ _ Hr) _ _ Hsb) as (_ & _ & Hh). destruct (Hh m Hm) as (H1 & H2 & H3 & H4).
  split; [done|]. unfold whereabouts. apply elem_of_app. right. apply elem_of_list_filter. split; [done|]. apply elem_of_app. left. unfold assigned.
  apply elem_of_app. right. rewrite elem_of_list_In, in_concat. exists (omap (holds (y_heap y)) (n_sub n ++ k_sublist (n_c n))). rewrite <-!elem_of_list_In. split.
  - apply elem_of_list_fmap. exists n. split; [done|]. by eapply elem_of_list_lookup_2.
  - apply elem_of_list_omap. exists s. split; [done|]. unfold holds. by rewrite Hsb.
Qed.

Lemma frame_no_message cfg cid w1 w2 c hp nx m o m' w : tx_ok c -> conn_iter cfg cid w1 w2 c hp nx (InFrame m) = Fine o -> (Some m', w) ∈ i_wr o -> cmd_of m' <> MESSAGE.
Proof.
  intros Htx Ho Hin. pose proof (conn_iter_frame cfg cid w1 w2 c hp nx m Htx) as Hc. rewrite Ho in Hc.
  assert (Hrc : forall w0, (Some m', w) ∈ receipt_wr w0 m -> cmd_of m' <> MESSAGE).
  { intros w0. unfold receipt_wr. destruct (hd_contains (hdr m) h_receipt); [|by intros ?%elem_of_nil].
    intros E%elem_of_list_singleton. injection E as -> _. cbn. neq_lits. }
  inversion Hc; subst; cbn [i_wr] in Hin; try (by eapply Hrc); try (by apply elem_of_nil in Hin).
  - apply elem_of_list_singleton in Hin. injection Hin as -> _. cbn. neq_lits.
  - apply elem_of_app in Hin as [Hin|Hin]; [by eapply Hrc|]. apply elem_of_list_singleton in Hin. injection Hin as -> _. cbn. neq_lits.
  - apply elem_of_list_singleton in Hin. injection Hin as -> _. unfold cmd_of. cbn [g_frame].
    match goal with Hx : handle_connect _ _ = inr _ |- _ => rewrite (connected_cmd _ _ _ Hx) end. neq_lits.
Qed.

Lemma take_sub cfg y c n x n1 s : reach cfg y -> y_conns y !! c = Some n -> take_input n x = Some (InSub s, n1) ->
  exists sb m, y_heap y !! s = Some sb /\ s_frame sb = Some m /\ s ∈ n_sub n.
Proof.
  intros Hr Hn Ht. destruct (take_input_cases _ _ _ _ Ht) as (I1 & I2 & I3 & I4 & I5 & I6 & _ & _). assert (s ∈ n_sub n) as Hs by (rewrite I6; by left).
  pose proof (tk_hold _ (reach_tok _ _ Hr) s) as Hh. unfold fr, hold in Hh. pose proof (sum_pos (chold s) _ _ _ Hn) as Hp.
  assert (0 < chold s n) as H1 by (eapply hold_in; [done|]; set_solver). specialize (Hh ltac:(lia)). destruct (y_heap y !! s) as [sb|]; [|done]. cbn in Hh.
  destruct (s_frame sb) as [m|] eqn:E; [|done]. by exists sb, m.
Qed.

Lemma messages_from_sent cfg y : reach cfg y -> forall c n pre e post m w, y_conns y !! c = Some n -> n_log n = pre ++ e :: post ->
  (Some m, w) ∈ v_wr e -> cmd_of m = MESSAGE -> from_sent y m.
Proof.
  intros Hr c n pre e post m w Hn Hl Hin Hcmd.
  apply (log_inv cfg (fun pre e y => forall m w, (Some m, w) ∈ v_wr e -> cmd_of m = MESSAGE -> from_sent y m)) with (y := y) (c := c) (n := n) (pre := pre) (e := e) (post := post) (w := w); try done; clear.
  - intros y y' pre e Hr Hm HP m w H1 H2. eapply from_sent_mono; [done|]. by eapply HP.
  - intros y c n x w1 w2 i n1 o Hr Hn Hph Hout Hti Hci Hmv m w Hin Hcmd. cbn [new_event v_wr] in Hin. eapply from_sent_mono; [done|].
    pose proof (reach_wf _ _ Hr) as HW. pose proof (co_tx _ _ _ (wf_conns _ HW _ _ Hn)) as Htx. destruct i as [m0| |m0|s|].
    + by destruct (frame_no_message _ _ _ _ _ _ _ _ _ _ _ Htx Hci Hin).
    + injection Hci as <-. by apply elem_of_nil in Hin.
    + cbn [conn_iter] in Hci. destruct (alloc_id (k_last (n_c n)) None m0) as [k m1] eqn:Ha. injection Hci as <-. cbn in Hin.
      apply elem_of_list_singleton in Hin. injection Hin as -> ->. eapply from_sent_eq; [by eapply payload_alloc|].
      destruct (take_input_cases _ _ _ _ Hti) as (I1 & I2 & I3 & I4 & I5 & I6 & _ & _). eapply (tp_write _ (reach_topical _ _ Hr)); [done|]. rewrite I6. by left.
    + destruct (take_sub _ _ _ _ _ _ _ Hr Hn Hti) as (sb & m0 & H1 & H2 & H3).
      destruct (held_where _ _ _ _ s _ _ Hr Hn ltac:(set_solver) H1 H2) as [H4 H5].
      pose proof (conn_iter_sub cfg c w1 w2 (n_c n) (y_heap y) (y_next y) s) as Hc. rewrite Hci in Hc.
      assert (forall k m1, alloc_id (k_last (n_c n)) (Some (s_ack sb)) m0 = (k, m1) -> from_sent y m1) as Hfs.
      { intros k m1 Ha. eapply from_sent_eq; [by eapply payload_alloc|]. by eapply conservation_in. }
      inversion Hc; subst; cbn [i_wr] in Hin; [by apply elem_of_nil in Hin|..];
        (apply elem_of_list_singleton in Hin; injection Hin as -> _; assert (sb0 = sb) as -> by congruence; assert (m1 = m0) as -> by congruence; by eapply Hfs).
    + injection Hci as <-. cbn in Hin. by apply elem_of_list_singleton in Hin.
Qed.

(** C44, C49: what happens to an assigned message. *)
Definition delivery_ok (pre : list cev) (e : cev) (y : sys) : Prop := forall s, v_in e = InSub s ->
  (forall id_of ack_of, keeps id_of ack_of (y_heap y) -> s ∉ outstanding ack_of pre) /\
  exists m id, hget_of m (lit "subscription") = Some id /\
    (live id pre = None /\ v_wr e = [] /\ v_push e = [RRequeue m] /\ v_stop e = false \/
     is_Some (live id pre) /\ exists w, v_wr e = [(Some m, w)] /\ v_stop e = negb w /\
       forall id_of ack_of, keeps id_of ack_of (y_heap y) -> v_push e = if decide (w = true /\ ack_of s = lit "auto") then [RSubscribe s] else []).
Lemma deliveries_ok cfg y : reach cfg y -> forall c n pre e post, y_conns y !! c = Some n -> n_log n = pre ++ e :: post -> delivery_ok pre e y.
Proof.
  revert y. apply log_inv.
  - intros y y' pre e Hr Hm HP s Hin. destruct (HP s Hin) as (H1 & m & id & H2 & H3).
    assert (Hback : forall id_of ack_of, keeps id_of ack_of (y_heap y') -> keeps id_of ack_of (y_heap y)).
    { intros id_of ack_of Hk. eapply keeps_back; [|done]. eapply move_hext; [|done]. by eapply reach_wf. }
    split; [intros; by eapply H1, Hback|]. exists m, id. split; [done|]. destruct H3 as [H3|(H3 & w & H4 & H5 & H6)]; [by left|right].
    split; [done|]. exists w. split_and!; eauto.
  - intros y c n x w1 w2 i n1 o Hr Hn Hph Hout Hti Hci Hmv s Hin. cbn [new_event v_in v_wr v_push v_stop] in *. subst i.
    pose proof (reach_wf _ _ Hr) as HW. pose proof (move_hext _ _ _ HW Hmv) as Hx.
    destruct (take_sub _ _ _ _ _ _ _ Hr Hn Hti) as (sb & m & Hsb & Hfm & Hs).
    assert (Hhist : forall id_of ack_of, keeps id_of ack_of (y_heap y) -> cexec cfg c id_of ack_of (n_log n) (n_c n) false).
    { intros id_of ack_of Hk. destruct (conn_history _ _ Hr _ _ Hk _ _ Hn) as (k & st & He & Hrun & _). by destruct (Hrun Hph) as [-> ->]. }
    split.
    + intros id_of ack_of Hk%(keeps_back _ _ _ _ Hx). rewrite <-(sublist_outstanding _ _ _ _ _ _ _ (Hhist _ _ Hk)). intros Hsl.
      pose proof (tk_one _ (reach_tok _ _ Hr) s) as T1. pose proof (sum_pos (chold s) _ _ _ Hn) as T2. unfold hold, chold in *.
      apply cnt_elem in Hs, Hsl. lia.
    + destruct (wf_sub _ HW _ _ Hsb) as (_ & _ & Hh). destruct (Hh m Hfm) as (_ & _ & _ & Hsubh).
      pose proof (keeps_in _ HW) as Hk0. specialize (Hhist _ _ Hk0). pose proof (subs_live _ _ _ _ _ _ _ Hhist (s_id sb)) as Hlive.
      assert (Hack : forall id_of ack_of, keeps id_of ack_of (y_heap (take_result y c n1 (InSub s) o)) -> ack_of s = s_ack sb).
      { intros id_of ack_of Hk%(keeps_back _ _ _ _ Hx). by destruct (Hk _ _ Hsb) as (_ & -> & _). }
      assert (Hal : forall k m', alloc_id (k_last (n_c n)) (Some (s_ack sb)) m = (k, m') -> hget_of m' (lit "subscription") = Some (s_id sb)).
      { intros k m' Ha. rewrite <-Hsubh. apply (alloc_id_get _ _ _ _ _ h_subscription Ha); neq_lits. }
      pose proof (conn_iter_sub cfg c w1 w2 (n_c n) (y_heap y) (y_next y) s) as Hc. rewrite Hci in Hc.
      inversion Hc; subst; cbn [i_wr i_push i_stop]; assert (sb0 = sb) as -> by congruence; assert (m0 = m) as -> by congruence.
      * exists m, (s_id sb). split; [done|]. left. rewrite <-Hlive. done.
      * exists m', (s_id sb). split; [by eapply Hal|]. right. split; [rewrite <-Hlive; eauto|]. exists false. split_and!; try done.
      * exists m', (s_id sb). split; [by eapply Hal|]. right. split; [rewrite <-Hlive; eauto|]. exists true. split_and!; try done.
        intros id_of ack_of Hk. rewrite decide_True; [done|]. split; [done|]. by rewrite (Hack _ _ Hk).
      * exists m', (s_id sb). split; [by eapply Hal|]. right. split; [rewrite <-Hlive; eauto|]. exists true. split_and!; try done.
        intros id_of ack_of Hk. rewrite decide_False; [done|]. intros [_ E]. by rewrite (Hack _ _ Hk) in E.
Qed.

(** Finally delivered and lost messages. *)
Lemma transmitted_mono cfg y y' m w : move cfg y y' -> transmitted y m w -> transmitted y' m w.
Proof.
  intros Hm (c & n & e & m' & s & Hn & He & H1 & H2 & H3).
  enough (exists n', y_conns y' !! c = Some n' /\ e ∈ n_log n') as (n' & ? & ?) by (by exists c, n', e, m', s).
  assert (Hupd : forall c0 n0 n', y_conns y !! c0 = Some n0 -> (exists l, n_log n' = n_log n0 ++ l) ->
    exists n1, <[c0 := n']> (y_conns y) !! c = Some n1 /\ e ∈ n_log n1).
  { intros c0 n0 n' Hn0 [l Hl]. destruct (decide (c0 = c)) as [->|Hne].
    - exists n'. rewrite list_lookup_insert by (by eapply lookup_lt_Some). split; [done|]. assert (n0 = n) as -> by congruence. rewrite Hl. set_solver.
    - exists n. by rewrite list_lookup_insert_ne. }
  destruct Hm; cbn [y_conns]; try (eapply Hupd; [done|]; exists []; by rewrite app_nil_r).
  - exists n. split; [|done]. rewrite lookup_app_l; [done|]. by eapply lookup_lt_Some.
  - eapply Hupd; [done|]. destruct (take_input_cases _ _ _ _ H5) as (T1 & T2 & T3 & T4 & T5 & T6). cbn [taken n_log]. rewrite T5. eauto.
  - eapply Hupd; [done|]. exists []. rewrite app_nil_r. by destruct H6.
  - by exists n.
Qed.
Lemma transmitted_eq y m m' w : payload m' = payload m -> transmitted y m w -> transmitted y m' w.
Proof. intros E (c & n & e & m0 & s & Hn & He & H1 & H2 & H3). exists c, n, e, m0, s. split_and!; try done. congruence. Qed.
Lemma transmitted_new y c n n1 i o s m' w : y_conns y !! c = Some n -> i = InSub s -> i_wr o = [(Some m', w)] -> transmitted (take_result y c n1 i o) m' w.
Proof.
  intros Hn Hi Hw. exists c, (taken n1 i o), (new_event i o), m', s. split_and!; try done.
  - cbn. apply list_lookup_insert. by eapply lookup_lt_Some.
  - cbn. apply elem_of_app. right. by left.
Qed.
Lemma acks_finals hp l hp' l' rs m : acks hp l hp' l' rs -> NoDup l -> m ∈ finals hp rs -> exists s m0, s ∈ l /\ fr hp s = Some m0 /\ payload m = payload m0.
Proof.
  intros Ha Hnd Hin. pose proof (acks_msgs (payload m) _ _ _ _ _ Ha Hnd) as E.
  assert (0 < pc (payload m) (finals hp rs)) as E1. { unfold pc. apply cnt_elem. by apply elem_of_list_fmap_1. }
  assert (pc (payload m) (enqueues rs) <= pc (payload m) (rmsgs rs)) as E2.
  { clear. induction rs as [|r rs IH]; [done|]. destruct r; try exact IH.
    - change (enqueues (REnqueue m0 :: rs)) with (m0 :: enqueues rs). change (rmsgs (REnqueue m0 :: rs)) with (m0 :: rmsgs rs). 
      rewrite (pc_cons _ m0 (enqueues rs)), (pc_cons _ m0 (rmsgs rs)). lia.
    - change (enqueues (RRequeue m0 :: rs)) with (enqueues rs). change (rmsgs (RRequeue m0 :: rs)) with (m0 :: rmsgs rs). rewrite (pc_cons _ m0 (rmsgs rs)). lia. }
  assert (0 < pc (payload m) (hm hp l)) as E3 by lia. unfold pc in E3. apply cnt_elem, elem_of_list_fmap in E3 as (m0 & E4 & Hm0).
  unfold hm in Hm0. apply elem_of_list_omap in Hm0 as (s & Hs & Hf). by exists s, m0.
Qed.
Record dlv (y : sys) : Prop := mkDlv {
  dv_list : forall c n s m, y_conns y !! c = Some n -> s ∈ k_sublist (n_c n) -> fr (y_heap y) s = Some m -> transmitted y m true;
  dv_fin : forall m, m ∈ y_fin y -> transmitted y m true;
  dv_lost : forall m, m ∈ y_lost y -> transmitted y m false
}.
Lemma dlv_conn cfg y c n n' hp nx uid req b pout blog : tok y -> y_conns y !! c = Some n -> (forall s, s ∈ k_sublist (n_c n') -> s ∈ k_sublist (n_c n)) ->
  (forall s, 0 < hold y s -> fr hp s = fr (y_heap y) s) ->
  move cfg y (mkSys (<[c := n']> (y_conns y)) hp nx uid req b pout blog (y_fin y) (y_lost y)) ->
  dlv y -> dlv (mkSys (<[c := n']> (y_conns y)) hp nx uid req b pout blog (y_fin y) (y_lost y)).
Proof.
  intros HT Hn Hsl Hf Hm [D1 D2 D3]. split; cbn [y_conns y_heap y_fin y_lost].
  - intros c0 n0 s m H1 H2 H3. assert (exists c1 n1, y_conns y !! c1 = Some n1 /\ s ∈ k_sublist (n_c n1)) as (c1 & n1 & H4 & H5).
    { destruct (conns_upd _ _ _ _ _ _ Hn H1) as [[-> ->]|[? ?]]; [exists c, n; eauto|eauto]. }
    eapply transmitted_mono; [done|]. eapply D1; [done|done|]. rewrite <-Hf; [done|]. pose proof (sum_pos (chold s) _ _ _ H4). unfold hold.
    assert (0 < chold s n1) by (eapply hold_in; [done|]; set_solver). lia.
  - intros. eapply transmitted_mono; eauto.
  - intros. eapply transmitted_mono; eauto.
Qed.
Lemma dlv_move cfg y y' : wf y -> tok y -> move cfg y y' -> dlv y -> dlv y'.
Proof.
  intros HW HT Hm HD. pose proof (fun m w => transmitted_mono _ _ _ m w Hm) as Hmono. pose proof Hm as Hm'. destruct Hm'; try (eapply dlv_conn; by eauto).
  - destruct HD as [D1 D2 D3]. split; cbn [y_conns y_heap y_fin y_lost]; eauto. intros c n s m. rewrite lookup_app_Some. intros [Hn|[_ Hn]]; [eauto|].
    apply list_lookup_singleton_Some in Hn as [_ <-]. by intros ?%elem_of_nil.
  - destruct HD as [D1 D2 D3]. pose proof (fun c n H => co_tx _ _ _ (wf_conns _ HW c n H)) as Htx.
    destruct (take_input_cases _ _ _ _ H2) as (I1 & I2 & I3 & I4 & I5 & I6).
    assert (y_heap y !! y_next y = None) as Hnx. { destruct (y_heap y !! y_next y) eqn:E; [|done]. apply (wf_next _ HW) in E. lia. }
    assert (shape c (n_c n) (y_heap y) (y_next y) i o) as Hsh by (eapply conn_iter_shape; [by eapply Htx|done]).
    assert (NoDup (k_sublist (n_c n))) as Hnd.
    { apply cnt_nodup. intros s. pose proof (tk_one _ HT s). pose proof (sum_pos (chold s) _ _ _ H) as E. unfold hold, chold in *. lia. }
    assert (k_sublist (n_c (taken n1 i o)) = k_sublist (i_c o)) as Hsl by (cbn; by destruct (i_stop o)).
    assert (Hother : forall c0 n0 s m, c0 <> c -> y_conns y !! c0 = Some n0 -> s ∈ k_sublist (n_c n0) -> fr (i_hp o) s = Some m ->
      transmitted (take_result y c n1 i o) m true).
    { intros c0 n0 s m Hne Hn0 Hs Hfr. apply Hmono. eapply D1; [done|done|]. rewrite <-Hfr. symmetry.
      pose proof (tk_one _ HT s) as T1. pose proof (two_places (chold s) _ _ _ _ _ H Hn0 ltac:(congruence)) as T2.
      assert (0 < chold s n0) as T3 by (eapply hold_in; [done|]; set_solver). unfold hold in *.
      assert (chold s n = 0) as T4 by lia. unfold chold in T4. eapply iter_frames; [done|done|rewrite <-cnt_elem; lia|].
      intros ->. destruct I6 as [I6 _]. rewrite I6 in T4. cbn [cnt] in T4. rewrite decide_True in T4 by done. lia. }
    assert (Hpart : (forall s m, s ∈ k_sublist (i_c o) -> fr (i_hp o) s = Some m -> transmitted (take_result y c n1 i o) m true) /\
      (forall m, m ∈ finals (y_heap y) (i_push o) -> transmitted (take_result y c n1 i o) m true) /\
      (forall m, m ∈ losses (y_heap y) i (i_stop o) -> transmitted (take_result y c n1 i o) m false)).
    { assert (Hsame : k_sublist (i_c o) = k_sublist (n_c n) -> (forall s, s ∈ k_sublist (n_c n) -> fr (i_hp o) s = fr (y_heap y) s) ->
        forall s m, s ∈ k_sublist (i_c o) -> fr (i_hp o) s = Some m -> transmitted (take_result y c n1 i o) m true).
      { intros E1 E2 s m Hs Hfr. apply Hmono. rewrite E1 in Hs. eapply D1; [done|done|]. by rewrite <-E2. }
      assert (Hnl : (forall s, i <> InSub s) -> losses (y_heap y) i (i_stop o) = []).
      { intros Hi. destruct i; try done. by destruct (Hi s). }
      destruct Hsh.
      - rewrite Hnl by done. split_and!; [| |by intros m ?%elem_of_nil].
        + intros s m Hs Hfr. apply Hmono. destruct (acks_tok _ _ _ _ _ H5 s) as (A1 & A2 & A3 & A4).
          assert (s ∈ k_sublist (n_c n)) as Hs' by (apply cnt_elem; apply cnt_elem in Hs; lia).
          eapply D1; [done|done|]. rewrite <-Hfr. symmetry. unfold fr. rewrite A3; [done|]. rewrite <-cnt_elem.
          assert (cnt s (k_sublist (n_c n)) <= 1). { pose proof (tk_one _ HT s). pose proof (sum_pos (chold s) _ _ _ H) as E. unfold hold, chold in *. lia. }
          apply cnt_elem in Hs. lia.
        + intros m Hf. destruct (acks_finals _ _ _ _ _ _ H5 Hnd Hf) as (s & m0 & E1 & E2 & E3). apply Hmono. eapply transmitted_eq; [done|]. by eapply D1.
      - rewrite Hnl by done. split_and!; [|rewrite H8; by intros ? ?%elem_of_nil|by intros m0 ?%elem_of_nil]. apply Hsame; [done|]. by rewrite H4.
      - rewrite Hnl by done. split_and!; [| |by intros m0 ?%elem_of_nil].
        + apply Hsame; [done|]. intros s Hs. rewrite H6, fr_insert. destruct (decide (s = y_next y)) as [->|]; [|done].
          unfold fr. by rewrite Hnx.
        + rewrite H10, finals_fr. unfold fr. rewrite Hnx. by intros m0 ?%elem_of_nil.
      - rewrite Hnl by done. split_and!; [|rewrite H10; by intros ? ?%elem_of_nil|by intros m0 ?%elem_of_nil]. apply Hsame; [done|]. by rewrite H6.
      - split_and!; [|rewrite H9; by intros ? ?%elem_of_nil|rewrite H10; by intros ? ?%elem_of_nil]. apply Hsame; [by rewrite H7|]. by rewrite H6.
      - assert (s ∉ k_sublist (n_c n)) as Hns.
        { destruct I6 as [I6 _]. intros Hs%cnt_elem. pose proof (tk_one _ HT s). pose proof (sum_pos (chold s) _ _ _ H) as E. unfold hold, chold in *. rewrite I6 in E. cbn [cnt] in E. rewrite decide_True in E by done. lia. }
        split_and!; [|rewrite H10; by intros ? ?%elem_of_nil|].
        + apply Hsame; [by rewrite H7|]. intros t Ht. rewrite H6. by eapply fr_not_in.
        + rewrite H11. cbn [losses]. rewrite H4, H5. intros m0 ->%elem_of_list_singleton. apply transmitted_eq with m'; [symmetry; by eapply payload_alloc|].
          by eapply transmitted_new.
      - assert (s ∉ k_sublist (n_c n)) as Hns.
        { destruct I6 as [I6 _]. intros Hs%cnt_elem. pose proof (tk_one _ HT s). pose proof (sum_pos (chold s) _ _ _ H) as E. unfold hold, chold in *. rewrite I6 in E. cbn [cnt] in E. rewrite decide_True in E by done. lia. }
        split_and!; [| |rewrite H12; by intros ? ?%elem_of_nil].
        + apply Hsame; [by rewrite H7|]. intros t Ht. rewrite H6. by eapply fr_not_in.
        + rewrite H11, finals_fr. unfold fr. rewrite H4. cbn [mbind option_bind]. rewrite H5, ol_some. intros m0 ->%elem_of_list_singleton.
          apply transmitted_eq with m'; [symmetry; by eapply payload_alloc|]. by eapply transmitted_new.
      - assert (s ∉ k_sublist (n_c n)) as Hns.
        { destruct I6 as [I6 _]. intros Hs%cnt_elem. pose proof (tk_one _ HT s). pose proof (sum_pos (chold s) _ _ _ H) as E. unfold hold, chold in *. rewrite I6 in E. cbn [cnt] in E. rewrite decide_True in E by done. lia. }
        split_and!; [|rewrite H12; by intros ? ?%elem_of_nil|rewrite H13; by intros ? ?%elem_of_nil].
        rewrite H7, H6. cbn [set_sublist k_sublist]. intros t m0 Ht Hfr. apply elem_of_app in Ht as [Ht|Ht].
        + apply Hmono. eapply D1; [done|done|]. rewrite <-Hfr. symmetry. by eapply fr_not_in.
        + apply elem_of_list_singleton in Ht as ->. rewrite fr_insert, decide_True in Hfr by done. injection Hfr as <-. by eapply transmitted_new. }
    destruct Hpart as (P1 & P2 & P3). split; cbn [y_conns y_heap y_fin y_lost].
    + intros c0 n0 s m H4 H5 H6. destruct (conns_upd _ _ _ _ _ _ H H4) as [[-> ->]|[? ?]]; [|by eapply Hother]. rewrite Hsl in H5. by eapply P1.
    + intros m [Hin|Hin]%elem_of_app; [by apply Hmono, D2|by apply P2].
    + intros m [Hin|Hin]%elem_of_app; [by apply Hmono, D3|by apply P3].
  - eapply dlv_conn; try done.
    + intros s. destruct H3; cbn; try done. rewrite H4. by right.
    + intros s _. destruct H3; try done. rewrite fr_insert. destruct (decide (s = s0)) as [->|]; [|done]. unfold fr. by rewrite H5.
  - destruct HD as [D1 D2 D3]. split; cbn [y_conns y_heap y_fin y_lost]; eauto. intros c n s m Hn Hs Hfr. apply Hmono. eapply D1; [done|done|].
    rewrite <-Hfr. symmetry. eapply serve_frames; [by eapply serve_cases|]. apply (tk_hold _ HT). pose proof (sum_pos (chold s) _ _ _ Hn). unfold hold.
    assert (0 < chold s n) by (eapply hold_in; [done|]; set_solver). lia.
Qed.
Lemma reach_dlv cfg y : reach cfg y -> dlv y.
Proof.
  revert y. apply reach_ind'.
  - split; cbn; [intros c n s m H; by rewrite lookup_nil in H|by intros ? ?%elem_of_nil|by intros ? ?%elem_of_nil].
  - intros y y' Hr HD Hm. eapply dlv_move; try done; [by eapply reach_wf|by eapply reach_tok].
Qed.
