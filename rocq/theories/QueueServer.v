(** Queue messages in auto mode, and the frames that carry them. *)
From Verif Require Import GoBase HeaderModel FrameModel GrammarSpec HeaderProofs NegotiationModel NegotiationSpec NegotiationLemmas
  BrokerModel BrokerSpec BrokerProofs ServerConnModel ServerConnSpec ServerConnProofs SystemModel SystemLemmas SystemSpec SystemProofs SystemTokens SystemMessages SystemUids SystemHistory
  FlowSpec FlowTopics FlowSubs RestSpec RestProofs OnceSpec OnceProofs.

(** Every subscription to d is in auto mode. *)
Definition all_auto (y : sys) (d : str) : Prop := forall s sb, y_heap y !! s = Some sb -> s_dest sb = d -> s_ack sb = ack_auto.
Lemma hm_other y x d (l : list nat) : wf y -> hget_of x h_destination = Some d -> (forall s sb, s ∈ l -> y_heap y !! s = Some sb -> s_dest sb <> d) -> pc x (hm (y_heap y) l) = 0.
Proof.
  intros HW Hx. induction l as [|s l IH]; intros Hl; [done|]. rewrite hm_cons, pc_app, IH by (intros; eapply Hl; [by right|done]). destruct (fr (y_heap y) s) as [m|] eqn:Hf; [|done]. unfold fr in Hf. destruct (y_heap y !! s) as [sb|] eqn:Hs; [|done]. cbn in Hf. rename Hf into Hm.
  change (option_list (Some m)) with [m]. rewrite (pc_other x m d); [done|done|]. destruct (proj2 (proj2 (wf_sub _ HW _ _ Hs)) m Hm) as (_ & _ & Hd & _).
  intros E. rewrite Hd in E. injection E as E. eapply Hl; [by left|done|done].
Qed.
Lemma kept_other y x d c n : wf y -> hget_of x h_destination = Some d -> all_auto y d -> y_conns y !! c = Some n -> pc x (hm (y_heap y) (k_sublist (n_c n))) = 0.
Proof.
  intros HW Hx HA Hn. eapply hm_other; [done|done|]. intros s sb Hs Hh Hd. destruct (co_list _ _ _ (wf_conns _ HW _ _ Hn) _ Hs) as (_ & _ & (sb' & E & Hne)).
  assert (sb' = sb) as -> by congruence. by apply Hne, (HA s).
Qed.
(** Then what was transmitted is what is finished. *)
Lemma auto_exact cfg y d x : reach cfg y -> hget_of x h_destination = Some d -> all_auto y d -> pc x (attempts y) = pc x (finished y).
Proof.
  intros Hr Hx. revert y Hr. apply (reach_ind' cfg (fun y => all_auto y d -> pc x (attempts y) = pc x (finished y))); [done|]. intros y y' Hr IH Hm HA'.
  pose proof (reach_wf _ _ Hr) as HW.
  assert (all_auto y d) as HA.
  { intros s sb Hs Hd. destruct (move_hext _ _ _ HW Hm _ _ Hs) as (sb' & Hs' & E). injection E as E1 E2 E3 E4 E5. 
    assert (s_ack sb' = ack_auto) as <- by (eapply HA'; [done|congruence]). congruence. }
  specialize (IH HA). rewrite !attempts_pc in *. unfold finished in *. rewrite !pc_app in *.
  assert (HU : forall c n n', y_conns y !! c = Some n -> ctried x n' = ctried x n -> sum_list_with (ctried x) (<[c := n']> (y_conns y)) = sum_list_with (ctried x) (y_conns y)).
  { intros c n n' Hn E. pose proof (sum_upd (ctried x) _ _ _ n' Hn). lia. }
  destruct Hm; cbn [set_conn y_fin y_lost y_conns]; try (rewrite (HU c n); [done|done|done]).
  - rewrite sum_list_with_app. cbn [sum_list_with]. change (ctried x sconn_init) with 0. lia.
  - destruct (take_input_cases _ _ _ _ H2) as (I1 & I2 & I3 & I4 & I5 & I6). pose proof (sum_upd (ctried x) _ _ _ (taken n1 i o) H) as HS. rewrite ctried_taken in HS.
    assert (ctried x n1 = ctried x n) as E by (unfold ctried; by rewrite I5). rewrite E in HS. rewrite !pc_app.
    enough (pc x (tried (mkCev i (i_wr o) (i_push o) (i_stop o))) = pc x (finals (y_heap y) (i_push o)) + pc x (losses (y_heap y) i (i_stop o))) by lia.
    pose proof (co_tx _ _ _ (wf_conns _ HW _ _ H)) as Htx. pose proof (conn_iter_shape _ _ _ _ _ _ _ _ _ Htx H3) as Hsh. clear H3 HS E.
    pose proof (reach_tok _ _ Hr) as HT.
    assert (NoDup (k_sublist (n_c n))) as Hnd.
    { apply cnt_nodup. intros s. pose proof (tk_one _ HT s). pose proof (sum_pos (chold s) _ _ _ H) as E. unfold hold, chold in *. lia. }
    pose proof (kept_other _ _ _ _ _ HW Hx HA H) as HK.
    unfold tried. cbn [v_in v_wr]. inversion Hsh as
      [i0 o0 K0 K1 _ _ _ _|m o0 K1 K2 _ _ K5 K6|m o0 id dest ack _ _ K1 K2 _ _ K5 K6 _ _ _ _|m o0 id s _ _ K1 K2 _ _ K5 K6|s sb m o0 K K0 K1 K2 _ K5 K6 K7|
       s sb m o0 nn m' K K0 K1 K2 K3 _ K5 K6 K7 _|s sb m o0 nn m' K K0 K1 K2 K3 K4 _ K6 K7 K8 _|s sb m o0 nn m' K K0 K1 K2 K3 K4 K5 _ K7 K8 K9 _]; subst.
    + pose proof (acks_msgs x _ _ _ _ _ K1 Hnd) as HH. rewrite rmsgs_pc in HH. destruct i; try (by destruct (K0 s)); cbn [losses]; rewrite ?pc_nil; lia.
    + rewrite K5. cbn. done.
    + rewrite K5. rewrite finals_fr. assert (fr (y_heap y) (y_next y) = None) as ->; [|done]. unfold fr. destruct (y_heap y !! y_next y) eqn:En; [|done]. apply (wf_next _ HW) in En. lia.
    + rewrite K5. done.
    + rewrite K5, K6, K7. done.
    + rewrite K5, K6, K7. cbn [losses omap list_omap fst]. rewrite K, K0. by rewrite (pc_one x m m') by (by eapply payload_alloc).
    + rewrite K6, K7, K8. cbn [omap list_omap fst losses]. rewrite finals_fr. assert (fr (y_heap y) s = Some m) as -> by (unfold fr; by rewrite K).
      rewrite (pc_one x m m') by (by eapply payload_alloc). change (option_list (Some m)) with [m]. rewrite pc_app, (pc_nil x). change (finals (y_heap y) []) with (@nil msg). rewrite pc_nil. lia.
    + rewrite K7, K8, K9. cbn [omap list_omap fst losses]. rewrite (pc_one x m m') by (by eapply payload_alloc). rewrite (pc_other x m d); [done|done|].
      destruct (proj2 (proj2 (wf_sub _ HW _ _ K)) m K0) as (_ & _ & Hd & _). rewrite Hd. intros [= E]. by apply K4, (HA s).
  - rewrite (HU c n); [done|done|]. unfold ctried. by destruct H3.
  - done.
Qed.

(* ---------------- the frames that carry queue messages ---------------- *)
Definition wrote_for (c : nat) (pre : list cev) (e : cev) (y : sys) : Prop :=
  match v_in e with
  | InTopic _ => forall m w, (Some m, w) ∈ v_wr e -> exists d, hget_of m h_destination = Some d /\ is_queue d = false
  | InSub s => forall m w, (Some m, w) ∈ v_wr e -> cmd_of m = MESSAGE /\
      exists sb, y_heap y !! s = Some sb /\ s_conn sb = c /\ hget_of m (lit "subscription") = Some (s_id sb) /\ hget_of m (lit "destination") = Some (s_dest sb)
  | _ => forall m w, (Some m, w) ∈ v_wr e -> cmd_of m <> MESSAGE
  end.
Lemma reach_wrote cfg y : reach cfg y -> forall c n pre e post, y_conns y !! c = Some n -> n_log n = pre ++ e :: post -> wrote_for c pre e y.
Proof.
  revert y. apply (log_inv_c cfg wrote_for).
  - intros y y' c pre e Hr Hm HP. unfold wrote_for in *. destruct (v_in e); try done. intros m w Hin. destruct (HP m w Hin) as (H1 & sb & H2 & H3 & H4 & H5). split; [done|].
    destruct (move_hext _ _ _ (reach_wf _ _ Hr) Hm _ _ H2) as (sb' & Hs' & E). injection E as E1 E2 E3 E4 E5. exists sb'. split_and!; congruence.
  - intros y c n x w1 w2 i n1 o Hr Hn Hph Hout Hti Hci Hmv.
    pose proof (reach_wf _ _ Hr) as HW. pose proof (wf_conns _ HW _ _ Hn) as HC. pose proof (co_tx _ _ _ HC) as Htx.
    destruct (take_input_cases _ _ _ _ Hti) as (_ & _ & _ & _ & _ & I6). unfold wrote_for, new_event. cbn [v_in v_wr]. destruct i as [m0| |m0|s|]; intros m w Hin.
    + by eapply frame_no_message.
    + injection Hci as <-. by apply elem_of_nil in Hin.
    + cbn [conn_iter] in Hci. destruct (alloc_id (k_last (n_c n)) None m0) as [k m1] eqn:Ha. injection Hci as <-. cbn [i_wr] in Hin. apply elem_of_list_singleton in Hin. injection Hin as -> _.
      destruct I6 as (I6 & _). assert (m0 ∈ topics_out c (y_blog y)) as Ht.
      { destruct (tp_flow _ (reach_tops _ _ Hr) _ _ Hn) as (dl & D1 & _). rewrite D1, I6. set_solver. }
      apply elem_topics_to in Ht. apply elem_of_list_In, in_concat in Ht as (os & Ho1 & Ho2). apply elem_of_list_In in Ho1, Ho2.
      apply elem_of_list_fmap in Ho1 as ([r os'] & -> & Hev).
      destruct (bexec_places _ _ _ _ _ (broker_history _ _ Hr _ _ _ (agrees_none y))) as (_ & _ & HF). rewrite Forall_forall in HF. specialize (HF _ Hev). rewrite Forall_forall in HF.
      destruct (HF _ Ho2) as (m2 & s & _ & E2 & E3 & E4 & ->). exists (dest_in y s). split; [|done].
      rewrite (alloc_id_get _ _ _ _ _ h_destination Ha) by neq_lits. by apply (dest_with_sub _ (id_in y s)) in E4.
    + destruct (take_sub _ _ _ _ _ _ _ Hr Hn Hti) as (sb & m0 & H1 & H2 & H3). destruct I6 as (I6 & _).
      destruct (co_sub _ _ _ HC s) as [(sb1 & O1 & O2) _]; [rewrite I6; by left|]. assert (sb1 = sb) as -> by congruence.
      pose proof (wf_sub _ HW _ _ H1) as (_ & _ & Hh). destruct (Hh _ H2) as (Hmc & _ & Hdst & Hsub).
      destruct (move_hext _ _ _ HW Hmv _ _ H1) as (sb' & Hs' & E). injection E as E1 E2 E3 E4 E5.
      pose proof (conn_iter_shape _ _ _ _ _ _ _ _ _ Htx Hci) as Hs.
      enough (exists k a, alloc_id (k_last (n_c n)) a m0 = (k, m)) as (k & a & Ha).
      { destruct (alloc_id_cmd _ _ _ _ _ Ha) as [Hc _]. split; [by rewrite Hc|]. exists sb'. split_and!; [done|congruence| |].
        - rewrite (alloc_id_get _ _ _ _ _ (lit "subscription") Ha) by neq_lits. rewrite E3. exact Hsub.
        - rewrite (alloc_id_get _ _ _ _ _ (lit "destination") Ha) by neq_lits. rewrite E2. exact Hdst. }
      inversion Hs; subst; try (by match goal with Hx : forall s0, InSub s <> InSub s0 |- _ => destruct (Hx s) end);
        match goal with Hw : i_wr o = _ |- _ => rewrite Hw in Hin end; [by apply elem_of_nil in Hin|..];
        (apply elem_of_list_singleton in Hin; injection Hin as -> _;
         match goal with Hx : y_heap y !! s = Some ?b |- _ => assert (b = sb) as -> by congruence end;
         match goal with Hx : s_frame sb = Some ?b |- _ => assert (b = m0) as -> by congruence end; eauto).
    + injection Hci as <-. cbn in Hin. by apply elem_of_list_singleton in Hin.
Qed.
Lemma frames_with_app cmd a b : frames_with cmd (a ++ b) = frames_with cmd a ++ frames_with cmd b.
Proof. apply omap_app. Qed.
(** On a connection, MESSAGE frames for queues are those written for [InSub]. *)
Lemma queue_frames cfg y c n x d : reach cfg y -> y_conns y !! c = Some n -> hget_of x h_destination = Some d -> is_queue d = true ->
  pc x (frames_with MESSAGE (written n)) = ctried x n.
Proof.
  intros Hr Hn Hx Hq. unfold ctried, written, wire.
  assert (forall pre post, n_log n = pre ++ post -> pc x (frames_with MESSAGE (concat (v_wr <$> post))) = pc x (concat (tried <$> post))) as HH; [|by apply (HH [])].
  intros pre post. revert pre. induction post as [|e post IH]; intros pre El; [done|]. cbn [fmap list_fmap concat]. rewrite frames_with_app, !pc_app.
  rewrite (IH (pre ++ [e])) by (by rewrite <-app_assoc). f_equal. pose proof (reach_wrote _ _ Hr _ _ _ _ _ Hn El) as HP. unfold wrote_for in HP. unfold tried.
  assert (Hno : forall ws, (forall m w, (Some m, w) ∈ ws -> cmd_of m <> MESSAGE) -> frames_with MESSAGE ws = []).
  { clear. induction ws as [|[[m|] w] ws IH]; intros H; [done| |].
    - unfold frames_with. cbn [omap list_omap fst]. rewrite bool_decide_eq_false_2 by (eapply H; by left). apply IH. intros m' w' Hin. eapply H. by right.
    - apply IH. intros m' w' Hin. eapply H. by right. }
  destruct (v_in e) as [m0| |m0|s|]; try (by rewrite Hno).
  - rewrite pc_nil. induction (v_wr e) as [|[[m|] w] ws IHw]; [done| |apply IHw; intros; eapply HP; by right].
    unfold frames_with. cbn [omap list_omap fst]. specialize (IHw ltac:(intros; eapply HP; by right)). destruct (bool_decide _); [|done]. rewrite pc_cons. unfold frames_with in IHw. rewrite IHw.
    rewrite (pc_other x m d); [done|done|]. destruct (HP m w ltac:(by left)) as (d' & E & F). rewrite E. intros [= ->]. congruence.
  - f_equal. induction (v_wr e) as [|[[m|] w] ws IHw]; [done| |apply IHw; intros; eapply HP; by right].
    unfold frames_with. cbn [omap list_omap fst]. rewrite bool_decide_eq_true_2 by (by eapply HP; left). f_equal. apply IHw. intros. eapply HP. by right.
Qed.
(** ... and each bears the id of a subscription to its destination. *)
Lemma queue_frame_sub cfg y c n m d : reach cfg y -> y_conns y !! c = Some n -> m ∈ frames_with MESSAGE (written n) -> hget_of m h_destination = Some d -> is_queue d = true ->
  exists s sb, y_heap y !! s = Some sb /\ s_conn sb = c /\ s_dest sb = d /\ hget_of m (lit "subscription") = Some (s_id sb).
Proof.
  intros Hr Hn Hm Hd Hq. unfold frames_with in Hm. apply elem_of_list_omap in Hm as ([[m0|] w] & Hin & Hx); [|done]. cbn in Hx. destruct (bool_decide _) eqn:Hb; [|done]. injection Hx as ->. apply bool_decide_eq_true in Hb.
  unfold written, wire in Hin. apply elem_of_list_In, in_concat in Hin as (ws & H1 & H2). apply elem_of_list_In in H1, H2. apply elem_of_list_fmap in H1 as (e & -> & He).
  apply elem_of_list_split in He as (pre & post & El). pose proof (reach_wrote _ _ Hr _ _ _ _ _ Hn El) as HP. unfold wrote_for in HP. destruct (v_in e) as [m1| |m1|s|]; try (by destruct (HP _ _ H2)).
  - destruct (HP _ _ H2) as (d' & E & F). assert (Some d' = Some d) as [= ->] by (rewrite <-E; exact Hd). congruence.
  - destruct (HP _ _ H2) as (_ & sb & G1 & G2 & G3 & G4). exists s, sb. split_and!; try done. assert (Some (s_dest sb) = Some d) as [= ->] by (rewrite <-G4; exact Hd). done.
Qed.

(** What was transmitted was sent. *)
Lemma attempts_sent cfg y m : reach cfg y -> 0 < times m (attempts y) -> exists m', m' ∈ sent y /\ same_payload m m'.
Proof.
  intros Hr Ht. unfold times in Ht. destruct (filter (same_payload m) (attempts y)) as [|m1 l] eqn:Hf; [cbn in Ht; lia|].
  assert (m1 ∈ filter (same_payload m) (attempts y)) as Hm by (rewrite Hf; by left). apply elem_of_list_filter in Hm as [Hs Hm].
  unfold attempts in Hm. apply elem_of_list_In, in_concat in Hm as (ms & H1 & H2). apply elem_of_list_In in H1, H2.
  apply elem_of_list_fmap in H1 as (n & -> & Hn). apply elem_of_list_lookup in Hn as [c Hn].
  apply elem_of_list_In, in_concat in H2 as (es & H1 & H2). apply elem_of_list_In in H1, H2. apply elem_of_list_fmap in H1 as (e & -> & He).
  apply elem_of_list_split in He as (pre & post & El). pose proof (reach_wrote _ _ Hr _ _ _ _ _ Hn El) as HP. unfold wrote_for in HP. unfold tried in H2.
  destruct (v_in e) as [m0| |m0|s|]; try (by apply elem_of_nil in H2). apply elem_of_list_omap in H2 as ([o w] & Hin & Ho). cbn in Ho. subst o.
  destruct (messages_from_sent _ _ Hr _ _ _ _ _ _ _ Hn El Hin (proj1 (HP _ _ Hin))) as (m2 & Hm2 & Hp). exists m2. split; [done|]. unfold same_payload in *. congruence.
Qed.

(* ---------------- counting over connections and subscription ids ---------------- *)
Lemma keyed {A K} `{HE : EqDecision K} (key : A -> option K) (P : A -> Prop) `{HD : !forall a, Decision (P a)} (ks : list K) (W : list A) : NoDup ks ->
  sum_list_with (fun k => length (filter (fun a => key a = Some k /\ P a) W)) ks <= length (filter P W) /\
  ((forall a, a ∈ W -> P a -> exists k, k ∈ ks /\ key a = Some k) -> sum_list_with (fun k => length (filter (fun a => key a = Some k /\ P a) W)) ks = length (filter P W)).
Proof.
  intros Hnd. induction W as [|a W [IH1 IH2]].
  { assert (sum_list_with (fun k : K => length (filter (fun a => key a = Some k /\ P a) [])) ks = 0) as ->; [|done]. clear. induction ks; done. }
  assert (sum_list_with (fun k => length (filter (fun a => key a = Some k /\ P a) (a :: W))) ks =
    sum_list_with (fun k => if decide (key a = Some k /\ P a) then 1 else 0) ks + sum_list_with (fun k => length (filter (fun a => key a = Some k /\ P a) W)) ks) as ->.
  { clear. induction ks as [|k ks IH]; [done|]. cbn [sum_list_with]. rewrite IH, filter_cons. destruct (decide (key a = Some k /\ P a)); cbn [length]; lia. }
  assert (sum_list_with (fun k => if decide (key a = Some k /\ P a) then 1 else 0) ks <= (if decide (P a) then 1 else 0) /\
    ((P a -> exists k, k ∈ ks /\ key a = Some k) -> sum_list_with (fun k => if decide (key a = Some k /\ P a) then 1 else 0) ks = if decide (P a) then 1 else 0)) as [E1 E2].
  { clear IH1 IH2. destruct (decide (P a)) as [Hp|Hp].
    - assert (Hz : forall ks, (forall k, k ∈ ks -> key a <> Some k) -> sum_list_with (fun k => if decide (key a = Some k /\ P a) then 1 else 0) ks = 0).
      { clear. induction ks as [|k ks IH]; intros H; [done|]. cbn [sum_list_with]. rewrite decide_False by (intros [? _]; by apply (H k); [left|]). apply IH. intros k' ?. apply H. by right. }
      induction Hnd as [|k ks Hk Hnd [IH1 IH2]]; [split; [cbn; lia|]; intros H; destruct (H Hp) as (? & ?%elem_of_nil & _); done|]. cbn [sum_list_with]. destruct (decide (key a = Some k /\ P a)) as [[E _]|E].
      + rewrite Hz; [split; [lia|done]|]. intros k' Hk' E'. rewrite E in E'. injection E' as ->. done.
      + split; [lia|]. intros H. rewrite IH2; [done|]. intros _. destruct (H Hp) as (k' & [->|Hk']%elem_of_cons & E'); [by destruct E|eauto].
    - assert (sum_list_with (fun k => if decide (key a = Some k /\ P a) then 1 else 0) ks = 0) as ->; [|done]. clear -Hp. induction ks as [|k ks IH]; [done|]. cbn [sum_list_with]. by rewrite decide_False by tauto. }
  rewrite filter_cons. split.
  - destruct (decide (P a)); cbn [length]; lia.
  - intros H. rewrite E2, IH2; [destruct (decide (P a)); cbn [length]; lia|..]; [intros a' Ha'; apply H; by right|apply H; by left].
Qed.
Fixpoint tagged {A} (i : nat) (L : list (list A)) : list (nat * A) := match L with [] => [] | l :: L => (pair i <$> l) ++ tagged (S i) L end.
Lemma tagged_len {A} (P : A -> Prop) `{HD : !forall a, Decision (P a)} i L : length (filter (fun p : nat * A => P p.2) (tagged i L)) = sum_list_with (fun l => length (filter P l)) L.
Proof.
  revert i. induction L as [|l L IH]; intros i; [done|]. cbn [tagged sum_list_with]. rewrite filter_app, app_length, IH. f_equal. induction l as [|a l IHl]; [done|]. rewrite fmap_cons, !filter_cons. cbn [snd].
  destruct (decide (P a)); cbn [length]; by rewrite IHl.
Qed.
Lemma tagged_at {A} (P : A -> Prop) `{HD : !forall a, Decision (P a)} c i L : i <= c ->
  length (filter (fun p : nat * A => p.1 = c /\ P p.2) (tagged i L)) = match L !! (c - i) with Some l => length (filter P l) | None => 0 end.
Proof.
  revert i. induction L as [|l L IH]; intros i Hi; [done|]. cbn [tagged]. rewrite filter_app, app_length. destruct (decide (i = c)) as [->|Hne].
  - rewrite Nat.sub_diag. cbn [lookup list_lookup]. assert (filter (fun p : nat * A => p.1 = c /\ P p.2) (tagged (S c) L) = []) as ->.
    { assert (forall j, c < j -> filter (fun p : nat * A => p.1 = c /\ P p.2) (tagged j L) = []) as H; [|by apply H; lia]. clear. induction L as [|l L IH]; intros j Hj; [done|]. cbn [tagged]. rewrite filter_app, IH by lia.
      induction l as [|a l IHl]; [done|]. rewrite fmap_cons. cbn [app]. rewrite filter_cons_False; [exact IHl|]. cbn. lia. }
    rewrite Nat.add_0_r. clear. induction l as [|a l IHl]; [done|]. rewrite fmap_cons, !filter_cons. cbn [snd fst]. destruct (decide (P a)) as [Hp|Hp].
    + rewrite decide_True by done. cbn [length]. by rewrite IHl.
    + rewrite decide_False by tauto. done.
  - assert (filter (fun p : nat * A => p.1 = c /\ P p.2) (pair i <$> l) = []) as ->.
    { clear -Hne. induction l as [|a l IHl]; [done|]. rewrite fmap_cons, filter_cons_False; [exact IHl|]. cbn. tauto. }
    cbn [length Nat.add]. rewrite IH by lia. replace (c - i) with (S (c - S i)) by lia. done.
Qed.
Lemma in_tagged {A} (c : nat) (a : A) i L : (c, a) ∈ tagged i L -> exists l, L !! (c - i) = Some l /\ a ∈ l /\ i <= c.
Proof.
  revert i. induction L as [|l L IH]; intros i H; [by apply elem_of_nil in H|]. cbn [tagged] in H. apply elem_of_app in H as [H|H].
  - apply elem_of_list_fmap in H as (a' & [= -> ->] & H). exists l. rewrite Nat.sub_diag. by split_and!.
  - destruct (IH _ H) as (l' & H1 & H2 & H3). exists l'. replace (c - i) with (S (c - S i)) by lia. split_and!; [done|done|lia].
Qed.
Lemma pc_len x l : pc x l = length (filter (fun m => payload m = x) l).
Proof. unfold pc. induction l as [|a l IH]; [done|]. rewrite filter_cons. cbn [fmap list_fmap cnt]. destruct (decide (payload a = x)); cbn [length]; by rewrite IH. Qed.
(** Distinct pairs of a connection and a subscription id: what was received
    under them together is part of what was transmitted. *)
Lemma received_sum cfg y x d (ks : list (nat * str)) : reach cfg y -> hget_of x h_destination = Some d -> is_queue d = true -> NoDup ks ->
  let got := fun k : nat * str => match y_conns y !! k.1 with Some n => pc x (received k.2 n) | None => 0 end in
  sum_list_with got ks <= pc x (attempts y) /\
  ((forall s sb, y_heap y !! s = Some sb -> s_dest sb = d -> (s_conn sb, s_id sb) ∈ ks) -> sum_list_with got ks = pc x (attempts y)).
Proof.
  intros Hr Hx Hq Hnd got. set (L := (fun n => frames_with MESSAGE (written n)) <$> y_conns y).
  set (key := fun p : nat * msg => match hget_of p.2 (lit "subscription") with Some id => Some (p.1, id) | None => None end).
  destruct (keyed key (fun p : nat * msg => payload p.2 = x) ks (tagged 0 L) Hnd) as [K1 K2].
  assert (length (filter (fun p : nat * msg => payload p.2 = x) (tagged 0 L)) = pc x (attempts y)) as E1.
  { etransitivity; [exact (tagged_len (fun m => payload m = x) 0 L)|]. rewrite attempts_pc. unfold L. 
    assert (forall i n, y_conns y !! i = Some n -> length (filter (fun m => payload m = x) (frames_with MESSAGE (written n))) = ctried x n) as H by (intros i n Hn; rewrite <-pc_len; by eapply queue_frames).
    clear -H. induction (y_conns y) as [|n l IH]; [done|]. rewrite fmap_cons. cbn [sum_list_with]. rewrite (H 0 n) by done. rewrite IH; [done|]. intros i n' Hn'. by apply (H (S i)). }
  assert (sum_list_with (fun k => length (filter (fun a => key a = Some k /\ payload a.2 = x) (tagged 0 L))) ks = sum_list_with got ks) as E2.
  { clear K1 K2 Hnd. induction ks as [|[c id] ks IH]; [done|]. cbn [sum_list_with]. rewrite IH. f_equal. unfold got. cbn [fst snd].
    pose proof (tagged_at (fun m => hget_of m (lit "subscription") = Some id /\ payload m = x) c 0 L ltac:(lia)) as HT. rewrite Nat.sub_0_r in HT. unfold L in HT at 2. rewrite list_lookup_fmap in HT.
    transitivity (length (filter (fun p : nat * msg => p.1 = c /\ hget_of p.2 (lit "subscription") = Some id /\ payload p.2 = x) (tagged 0 L))).
    - f_equal. apply list_filter_iff. intros [c' m]. unfold key. cbn [fst snd]. destruct (hget_of m (lit "subscription")) as [id'|]; split.
      + intros [[= -> ->] ->]. done.
      + intros (-> & [= ->] & ->). done.
      + by intros [? _].
      + by intros (_ & ? & _).
    - rewrite HT. destruct (y_conns y !! c) as [n|]; [|done]. cbn [fmap option_fmap option_map]. rewrite pc_len. unfold received. rewrite list_filter_filter. f_equal. apply list_filter_iff. intros m. tauto. }
  rewrite E1, E2 in *. split; [done|]. intros H. apply K2. intros [c m] Hin Hp. cbn in Hp. apply in_tagged in Hin as (l & Hl & Hm & _). rewrite Nat.sub_0_r in Hl. unfold L in Hl. rewrite list_lookup_fmap in Hl.
  destruct (y_conns y !! c) as [n|] eqn:Hn; [|done]. injection Hl as <-.
  destruct (queue_frame_sub _ _ _ _ _ d Hr Hn Hm) as (s & sb & H1 & H2 & H3 & H4); [by rewrite <-payload_dest, Hp|done|]. exists (s_conn sb, s_id sb). split; [by eapply H|]. unfold key. cbn [fst snd]. by rewrite H4, H2.
Qed.
