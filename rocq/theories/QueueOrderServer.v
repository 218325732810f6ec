(** The order in which a queue's messages are written to a subscriber. *)
From stdpp Require Import gmap.
From Verif Require Import GoBase HeaderModel FrameModel GrammarSpec HeaderProofs NegotiationModel NegotiationSpec NegotiationLemmas
  BrokerModel BrokerSpec BrokerProofs ServerConnModel ServerConnSpec ServerConnProofs SystemModel SystemLemmas SystemSpec SystemProofs SystemTokens SystemMessages SystemUids SystemHistory
  FlowSpec FlowTopics FlowSubs FlowProofs OnceSpec OnceProofs QueueServer QueueOrderSpec.

(** What the processor assigned to subscription object s. *)
Definition outs_for (s : nat) (os : list pout) : list msg :=
  omap (fun o => match o with OutSub _ t m => if decide (t = s) then Some m else None | OutTopic _ _ => None end) os.
Definition given_to (s : nat) (blog : list bev) : list msg := concat (outs_for s <$> blog.*2).
(** ... and the connection has not taken yet. *)
Definition way (y : sys) (n : sconn) (s : nat) : list msg :=
  if decide (s ∈ psub (y_pout y) ++ n_sub n) then option_list (fr (y_heap y) s) else [].
Definition back (d : str) (y : sys) : Prop := exists m, m ∈ given_back y /\ to_dest d m.

Lemma back_move cfg d y y' : move cfg y y' -> back d y -> back d y'.
Proof.
  intros Hm (m & Hin & Hd). exists m. split; [|done]. unfold given_back in *. apply elem_of_app in Hin as [Hin|Hin].
  - apply elem_of_app. left. destruct Hm; try done; unfold handed in *; cbn [set_conn y_blog y_req] in *.
    + rewrite app_assoc, requeues_app. apply elem_of_app. by left.
    + rewrite H0 in Hin. rewrite fmap_app, <-app_assoc. exact Hin.
  - apply elem_of_list_In, in_concat in Hin as (l & H1 & H2). apply elem_of_list_In in H1, H2. apply elem_of_list_fmap in H1 as (n0 & -> & Hn0).
    assert (HK : forall cs : list sconn, (exists n', n' ∈ cs /\ m ∈ requeues (n_out n')) -> m ∈ concat ((fun n => requeues (n_out n)) <$> cs)).
    { intros cs (n' & K1 & K2). apply elem_of_list_In, in_concat. exists (requeues (n_out n')). split; apply elem_of_list_In; [|done]. apply elem_of_list_fmap. eauto. }
    assert (HU : forall c n n', y_conns y !! c = Some n -> (n0 = n -> m ∈ requeues (n_out n')) -> exists n'', n'' ∈ <[c := n']> (y_conns y) /\ m ∈ requeues (n_out n'')).
    { intros c n n' Hc HH. apply elem_of_list_lookup in Hn0 as [c0 Hc0]. destruct (decide (c0 = c)) as [->|Hne].
      - exists n'. split; [|apply HH; congruence]. apply elem_of_list_lookup. exists c. apply list_lookup_insert. by eapply lookup_lt_Some.
      - exists n0. split; [|done]. apply elem_of_list_lookup. exists c0. by rewrite list_lookup_insert_ne. }
    apply elem_of_app. destruct Hm; cbn [set_conn y_conns]; try (right; apply HK; eapply HU; [done|]; intros ->; exact H2).
    + right. apply HK. exists n0. split; [|done]. apply elem_of_app. by left.
    + right. apply HK. eapply HU; [done|]. intros ->. rewrite H1 in H2. by apply elem_of_nil in H2.
    + destruct (decide (m ∈ requeues (handed y ++ [r]))) as [Hr|Hr].
      * left. unfold handed in *. cbn [y_blog y_req]. by rewrite app_assoc.
      * right. apply HK. eapply HU; [done|]. intros ->. cbn [with_out n_out]. rewrite H0 in H2. change (r :: rs) with ([r] ++ rs) in H2. rewrite requeues_app in H2.
        apply elem_of_app in H2 as [H2|H2]; [|done]. destruct Hr. rewrite requeues_app. apply elem_of_app. by right.
    + right. apply HK. eapply HU; [done|]. intros ->. rewrite H0 in H2. by apply elem_of_nil in H2.
    + right. apply HK. eauto.
Qed.
Lemma back_in d y c n m : y_conns y !! c = Some n -> m ∈ requeues (n_out n) -> to_dest d m -> back d y.
Proof.
  intros Hn Hm Hd. exists m. split; [|done]. unfold given_back. apply elem_of_app. right. apply elem_of_list_In, in_concat. exists (requeues (n_out n)).
  split; apply elem_of_list_In; [|done]. apply elem_of_list_fmap. exists n. split; [done|]. by eapply elem_of_list_lookup_2.
Qed.
Lemma way_same y y' n n' s : (s ∈ psub (y_pout y') ++ n_sub n' <-> s ∈ psub (y_pout y) ++ n_sub n) ->
  (s ∈ psub (y_pout y) ++ n_sub n -> fr (y_heap y') s = fr (y_heap y) s) -> way y' n' s = way y n s.
Proof.
  intros H1 H2. unfold way. destruct (decide (s ∈ psub (y_pout y) ++ n_sub n)) as [H|H].
  - rewrite decide_True by (by apply H1). by rewrite H2.
  - rewrite decide_False; [done|]. by rewrite H1.
Qed.
Lemma way_held y c n s : y_conns y !! c = Some n -> s ∈ psub (y_pout y) ++ n_sub n -> 0 < lhold n (y_pout y) s.
Proof. intros Hn Hs. unfold lhold, chold. apply elem_of_app in Hs as [Hs|Hs]; apply cnt_elem in Hs; lia. Qed.
Lemma given_snoc s bl r outs : given_to s (bl ++ [(r, outs)]) = given_to s bl ++ outs_for s outs.
Proof. unfold given_to. rewrite !fmap_app, concat_app. cbn. by rewrite app_nil_r. Qed.
Lemma tried_snoc s n1 i o : tried_for s (taken n1 i o) = tried_for s n1 ++ tried_one s (mkCev i (i_wr o) (i_push o) (i_stop o)).
Proof. unfold tried_for, taken. cbn [n_log]. rewrite fmap_app, concat_app. cbn [fmap list_fmap concat]. by rewrite app_nil_r. Qed.

Definition qflow (y : sys) : Prop :=
  (forall s, y_heap y !! s = None -> given_to s (y_blog y) = []) /\
  (forall s c n, y_conns y !! c = Some n -> (forall sb, y_heap y !! s = Some sb -> s_conn sb = c) ->
     payload <$> given_to s (y_blog y) = payload <$> tried_for s n ++ way y n s \/ exists sb, y_heap y !! s = Some sb /\ back (s_dest sb) y).
Lemma qflow_conn cfg y y' c n n' : reach cfg y -> move cfg y y' -> qflow y -> y_conns y !! c = Some n -> y_conns y' = <[c := n']> (y_conns y) -> y_blog y' = y_blog y ->
  (forall s c0 n0, y_conns y !! c0 = Some n0 -> c0 <> c -> (forall sb, y_heap y !! s = Some sb -> s_conn sb = c0) -> way y' n0 s = way y n0 s) ->
  (forall s, (forall sb, y_heap y !! s = Some sb -> s_conn sb = c) -> payload <$> tried_for s n' ++ way y' n' s = payload <$> tried_for s n ++ way y n s \/
     exists sb, y_heap y' !! s = Some sb /\ back (s_dest sb) y') -> qflow y'.
Proof.
  intros Hr Hm [G1 G2] Hn Hc Hb Hoth Hme. pose proof (move_hext _ _ _ (reach_wf _ _ Hr) Hm) as Hx. split.
  - intros s Hs. rewrite Hb. apply G1. destruct (y_heap y !! s) eqn:E; [|done]. destruct (Hx _ _ E) as (sb' & E' & _). congruence.
  - intros s c0 n0 Hc0 Hown. rewrite Hc in Hc0. rewrite Hb.
    assert (Hown' : forall sb, y_heap y !! s = Some sb -> s_conn sb = c0).
    { intros sb E. destruct (Hx _ _ E) as (sb' & E' & F). injection F as F1 F2 F3 F4 F5. rewrite <-(Hown _ E'). congruence. }
    assert (Hold : (exists sb, y_heap y !! s = Some sb /\ back (s_dest sb) y) -> exists sb, y_heap y' !! s = Some sb /\ back (s_dest sb) y').
    { intros (sb & E & B). destruct (Hx _ _ E) as (sb' & E' & F). injection F as F1 F2 F3 F4 F5. exists sb'. split; [done|]. rewrite F2. by eapply back_move. }
    destruct (decide (c0 = c)) as [->|Hne].
    + rewrite list_lookup_insert in Hc0 by (by eapply lookup_lt_Some). injection Hc0 as <-. destruct (Hme s Hown') as [->|?]; [|by right]. destruct (G2 _ _ _ Hn Hown'); [by left|right; auto].
    + rewrite list_lookup_insert_ne in Hc0 by done. rewrite (Hoth s c0 n0) by done. destruct (G2 _ _ _ Hc0 Hown'); [by left|right; auto].
Qed.
Lemma serve_outs b hp r b' hp' outs s : serve_case b hp r b' hp' outs ->
  outs_for s outs = [] /\ s ∉ psub outs \/ exists c m, outs = [OutSub c s m] /\ outs_for s outs = [m] /\ fr hp' s = Some m /\ hp !! s <> None /\ (exists sb, hp !! s = Some sb /\ s_frame sb = None).
Proof.
  intros Hs. assert (Hone : forall c t m, outs = [OutSub c t m] -> fr hp' t = Some m -> (exists sb, hp !! t = Some sb /\ s_frame sb = None) ->
    outs_for s outs = [] /\ s ∉ psub outs \/ exists c m, outs = [OutSub c s m] /\ outs_for s outs = [m] /\ fr hp' s = Some m /\ hp !! s <> None /\ (exists sb, hp !! s = Some sb /\ s_frame sb = None)).
  { intros c t m -> Hf (sb & E & F). destruct (decide (t = s)) as [->|Hne].
    - right. exists c, m. split; [done|]. split; [unfold outs_for; cbn; by rewrite decide_True|]. split_and!; [done|congruence|eauto].
    - left. split; [unfold outs_for; cbn; by rewrite decide_False|]. cbn. set_solver. }
  destruct Hs; try (left; split; [done|apply not_elem_of_nil]).
  - eapply Hone; [done|by rewrite fr_insert, decide_True|eauto].
  - eapply Hone; [done|by rewrite fr_insert, decide_True|eauto].
  - left. clear Hone. induction H1 as [|t o l os (sb & _ & _ & ->) _ [IH1 IH2]]; [split; [done|apply not_elem_of_nil]|]. split; [exact IH1|exact IH2].
Qed.
Lemma qflow_reach cfg y : reach cfg y -> qflow y.
Proof.
  revert y. apply reach_ind'; [split; [done|intros s c n Hn; by apply lookup_lt_Some, Nat.nlt_0_r in Hn]|]. intros y y' Hr HF Hm0.
  pose proof (reach_wf _ _ Hr) as HW. pose proof (reach_tok _ _ Hr) as HT. pose proof Hm0 as Hm. pose proof (move_hext _ _ _ HW Hm0) as Hx. destruct Hm.
  - destruct HF as [G1 G2]. split; cbn [y_heap y_blog]; [done|]. intros s c n Hn Hown. cbn [y_conns] in Hn. apply lookup_app_Some in Hn as [Hn|[Hlen Hn]].
    + destruct (G2 _ _ _ Hn Hown) as [E|(sb & E & B)]; [by left|]. right. exists sb. split; [done|]. by eapply back_move.
    + apply list_lookup_singleton_Some in Hn as [Hz <-]. destruct (y_heap y !! s) as [sb|] eqn:Hs.
      * pose proof (Hown _ eq_refl). pose proof (proj1 (wf_sub _ HW _ _ Hs)). lia.
      * left. rewrite G1 by done. unfold way, tried_for. cbn. unfold fr. rewrite Hs. by case_decide.
  - eapply (qflow_conn cfg y _ c n); try done; intros; left; done.
  - eapply (qflow_conn cfg y _ c n); try done; intros; left; done.
  - destruct (take_input_cases _ _ _ _ H2) as (I1 & I2 & I3 & I4 & I5 & I6).
    pose proof (conn_iter_shape _ _ _ _ _ _ _ _ _ (co_tx _ _ _ (wf_conns _ HW _ _ H)) H3) as Hsh.
    assert (y_heap y !! y_next y = None) as Hfre. { destruct (y_heap y !! y_next y) eqn:E; [|done]. apply (wf_next _ HW) in E. lia. }
    assert (Hsub : n_sub n = match i with InSub t => t :: n_sub n1 | _ => n_sub n1 end).
    { destruct i; [by destruct I6 as (_ & _ & ->)|by destruct I6 as (-> & _)|by destruct I6 as (_ & _ & ->)|by destruct I6 as (-> & _)|by rewrite I6]. }
    eapply (qflow_conn cfg y _ c n); try done.
    + intros s c0 n0 Hc0 Hne Hown. apply way_same; [done|]. cbn [y_heap]. intros Hs. pose proof (way_held _ _ _ _ Hc0 Hs) as Hh.
      pose proof (tk_one _ HT s) as T1. pose proof (two_places (chold s) _ _ _ _ _ H Hc0 ltac:(congruence)) as T2. unfold hold, lhold in *.
      assert (chold s n = 0) as Z by lia. unfold chold in Z. rewrite Hsub in Z. eapply iter_frames; [done|done| |].
      * rewrite <-cnt_elem. lia.
      * intros ->. cbn [cnt] in Z. rewrite decide_True in Z by done. lia.
    + intros s Hown. rewrite tried_snoc. assert (tried_for s n1 = tried_for s n) as -> by (unfold tried_for; by rewrite I5).
      pose proof (tk_one _ HT s) as T1. pose proof (lhold_le _ _ _ s H) as T2. unfold lhold, chold in T2.
      assert (i = InSub s \/ i <> InSub s) as [->|Hi] by (destruct i; try (by right); destruct (decide (s0 = s)); [left|right]; congruence).
      * rewrite Hsub in T2. cbn [cnt] in T2. rewrite decide_True in T2 by done.
        assert (forall y1 n2, y_pout y1 = y_pout y -> n_sub n2 = n_sub n1 -> way y1 n2 s = []) as Hw'.
        { intros y1 n2 E1 E2. unfold way. rewrite decide_False; [done|]. rewrite E1, E2, elem_of_app, <-!cnt_elem. lia. }
        rewrite Hw' by done. rewrite app_nil_r.
        assert (forall m, fr (y_heap y) s = Some m -> way y n s = [m]) as Hw.
        { intros m E. unfold way. rewrite decide_True, E; [done|]. rewrite Hsub. set_solver. }
        inversion Hsh; subst; try (by match goal with Hz : forall s0, InSub s <> InSub s0 |- _ => destruct (Hz s) end).
        -- right. destruct (Hx _ _ H5) as (sb' & E' & F). injection F as F1 F2 F3 F4 F5. exists sb'. split; [done|]. rewrite F2.
           eapply (back_in _ _ c (taken n1 (InSub s) o) m).
           ++ apply list_lookup_insert. by eapply lookup_lt_Some.
           ++ cbn [taken n_out]. match goal with Hp : i_push o = _ |- _ => rewrite Hp end. by left.
           ++ by apply (proj2 (proj2 (wf_sub _ HW _ _ H5))).
        -- left. rewrite (Hw m) by (unfold fr; by rewrite H5). rewrite !fmap_app. f_equal. unfold tried_one. cbn [v_in v_wr]. rewrite decide_True by done.
           match goal with Hp : i_wr o = _ |- _ => rewrite Hp end. cbn. f_equal. by eapply payload_alloc.
        -- left. rewrite (Hw m) by (unfold fr; by rewrite H5). rewrite !fmap_app. f_equal. unfold tried_one. cbn [v_in v_wr]. rewrite decide_True by done.
           match goal with Hp : i_wr o = _ |- _ => rewrite Hp end. cbn. f_equal. by eapply payload_alloc.
        -- left. rewrite (Hw m) by (unfold fr; by rewrite H5). rewrite !fmap_app. f_equal. unfold tried_one. cbn [v_in v_wr]. rewrite decide_True by done.
           match goal with Hp : i_wr o = _ |- _ => rewrite Hp end. cbn. f_equal. by eapply payload_alloc.
      * left. assert (tried_one s (mkCev i (i_wr o) (i_push o) (i_stop o)) = []) as ->.
        { unfold tried_one. cbn [v_in]. destruct i; try done. by rewrite decide_False by congruence. }
        rewrite app_nil_r. f_equal. f_equal. apply way_same.
        -- cbn [y_pout taken n_sub]. rewrite Hsub. destruct i; try done. rewrite !elem_of_app, elem_of_cons. intuition congruence.
        -- cbn [y_heap]. intros Hs. pose proof (way_held _ _ _ _ H Hs) as Hh. unfold lhold, chold in Hh. apply elem_of_app in Hs.
           eapply iter_frames; [done|done| |done]. rewrite <-cnt_elem. rewrite <-!cnt_elem in Hs. lia.
  - eapply (qflow_conn cfg y _ c n); try done; intros; left; done.
  - assert (Hfr : forall s, fr hp' s = fr (y_heap y) s).
    { intros s. destruct H3; try done. rewrite fr_insert. destruct (decide (s = s0)) as [->|]; [|done]. unfold fr. by rewrite H5. }
    eapply (qflow_conn cfg y _ c n); try done.
    + intros s c0 n0 Hc0 Hne Hown. by apply way_same.
    + intros s Hown. assert (tried_for s n' = tried_for s n) as -> by (unfold tried_for; by destruct H3).
      destruct H3; try (left; f_equal; f_equal; by apply way_same). destruct (decide (s0 = s)) as [->|Hne].
      * right. exists sb. split; [done|]. eapply (back_in _ _ c (with_out (with_sub_ch n l) [RRequeue m]) m); [|by left|].
        -- apply list_lookup_insert. by eapply lookup_lt_Some.
        -- by apply (proj2 (proj2 (wf_sub _ HW _ _ H5))).
      * left. f_equal. f_equal. apply way_same; [|done]. cbn [y_pout with_out with_sub_ch n_sub]. rewrite H4, !elem_of_app, elem_of_cons. intuition congruence.
  - pose proof (serve_cases _ _ _ _ _ _ H1) as Hs. destruct HF as [G1 G2]. split; cbn [y_heap y_blog y_conns].
    + intros s Hn. rewrite given_snoc. cbn [y_heap] in Hx. assert (y_heap y !! s = None) as Hn'. { destruct (y_heap y !! s) eqn:E; [|done]. destruct (Hx _ _ E) as (sb' & E' & _). congruence. }
      rewrite G1 by done. destruct (serve_outs _ _ _ _ _ _ s Hs) as [[-> _]|(c & m & _ & _ & _ & F & _)]; [done|]. by destruct F.
    + intros s c n Hn Hown. cbn [y_heap] in Hx.
      assert (Hown' : forall sb, y_heap y !! s = Some sb -> s_conn sb = c).
      { intros sb E. destruct (Hx _ _ E) as (sb' & E' & F). injection F as F1 F2 F3 F4 F5. rewrite <-(Hown _ E'). congruence. }
      destruct (G2 _ _ _ Hn Hown') as [E|(sb & E & B)].
      2: { right. destruct (Hx _ _ E) as (sb' & E' & F). injection F as F1 F2 F3 F4 F5. exists sb'. split; [done|]. rewrite F2. by eapply back_move. }
      left. rewrite given_snoc, !fmap_app, E, fmap_app, <-app_assoc. f_equal.
      destruct (serve_outs _ _ _ _ _ _ s Hs) as [[-> Hp]|(c1 & m & Eo & Ef & Hf & _ & (sb & F1 & F2))].
      * cbn [fmap list_fmap]. rewrite app_nil_r. f_equal. symmetry. apply way_same.
        -- cbn [y_pout]. rewrite H, !elem_of_app. cbn [psub]. rewrite elem_of_nil. intuition.
        -- cbn [y_heap]. intros Hin. eapply serve_frames; [done|]. apply (tk_hold _ HT). pose proof (way_held _ _ _ _ Hn Hin). pose proof (lhold_le _ _ _ s Hn). lia.
      * assert (way y n s = []) as ->.
        { unfold way. destruct (decide _); [|done]. unfold fr. rewrite F1. cbn. by rewrite F2. }
        rewrite Ef. cbn [app fmap list_fmap]. unfold way. cbn [y_pout y_heap]. rewrite decide_True by (rewrite Eo; cbn; set_solver). by rewrite Hf.
  - assert (own (y_heap y) c s) as (sb & Hs & Hsc). { pose proof (wf_pout _ HW) as Hp. rewrite H in Hp. apply Forall_cons in Hp as [[Hp _] _]. exact Hp. }
    eapply (qflow_conn cfg y _ c n); try done.
    + intros t c0 n0 Hc0 Hne Hown. apply way_same; [|done]. cbn [y_pout]. rewrite H. cbn [psub]. rewrite !elem_of_app, elem_of_cons.
      assert (t <> s). { intros ->. apply Hne. rewrite <-(Hown _ Hs). done. } intuition.
    + intros t Hown. left. assert (tried_for t (with_sub_ch n (n_sub n ++ [s])) = tried_for t n) as -> by done. f_equal. f_equal.
      apply way_same; [|done]. cbn [y_pout with_sub_ch n_sub]. rewrite H. cbn [psub]. set_solver.
  - eapply (qflow_conn cfg y _ c n); try done.
    + intros t c0 n0 Hc0 Hne Hown. apply way_same; [|done]. cbn [y_pout]. by rewrite H.
    + intros t Hown. left. f_equal. f_equal. apply way_same; [|done]. cbn [y_pout with_write n_sub]. by rewrite H.
Qed.

(* ---------------- every MESSAGE frame is for a subscription object ---------------- *)
Definition from_sub (c : nat) (pre : list cev) (e : cev) (y : sys) : Prop := forall m w, (Some m, w) ∈ v_wr e -> cmd_of m = MESSAGE ->
  exists s sb, y_heap y !! s = Some sb /\ s_conn sb = c /\ hget_of m (lit "subscription") = Some (s_id sb) /\ (v_in e = InSub s \/ is_queue (s_dest sb) = false).
Lemma reach_from_sub cfg y : reach cfg y -> forall c n pre e post, y_conns y !! c = Some n -> n_log n = pre ++ e :: post -> from_sub c pre e y.
Proof.
  revert y. apply (log_inv_c cfg from_sub).
  - intros y y' c pre e Hr Hm HP m w Hin Hc. destruct (HP m w Hin Hc) as (s & sb & H2 & H3 & H4 & H5).
    destruct (move_hext _ _ _ (reach_wf _ _ Hr) Hm _ _ H2) as (sb' & Hs' & E). injection E as E1 E2 E3 E4 E5. exists s, sb'. rewrite E2. split_and!; congruence || done.
  - intros y c n x w1 w2 i n1 o Hr Hn Hph Hout Hti Hci Hmv m w Hin Hm.
    pose proof (reach_wf _ _ Hr) as HW. pose proof (wf_conns _ HW _ _ Hn) as HC. pose proof (co_tx _ _ _ HC) as Htx.
    destruct (take_input_cases _ _ _ _ Hti) as (_ & _ & _ & _ & _ & I6). unfold new_event in *. cbn [v_in v_wr] in *. destruct i as [m0| |m0|s|].
    + exfalso. revert Hm. by eapply frame_no_message.
    + injection Hci as <-. by apply elem_of_nil in Hin.
    + pose proof Hci as Hci'. cbn [conn_iter] in Hci. destruct (alloc_id (k_last (n_c n)) None m0) as [k m1] eqn:Ha. injection Hci as <-. cbn [i_wr] in Hin. apply elem_of_list_singleton in Hin. injection Hin as -> _.
      destruct I6 as (I6 & _). assert (m0 ∈ topics_out c (y_blog y)) as Ht.
      { destruct (tp_flow _ (reach_tops _ _ Hr) _ _ Hn) as (dl & D1 & _). rewrite D1, I6. set_solver. }
      apply elem_topics_to in Ht. apply elem_of_list_In, in_concat in Ht as (os & Ho1 & Ho2). apply elem_of_list_In in Ho1, Ho2.
      apply elem_of_list_fmap in Ho1 as ([r os'] & -> & Hev).
      destruct (bexec_places _ _ _ _ _ (broker_history _ _ Hr _ _ _ (agrees_none y))) as (_ & _ & HF). rewrite Forall_forall in HF. specialize (HF _ Hev). rewrite Forall_forall in HF.
      destruct (HF _ Ho2) as (m2 & s & _ & E2 & E3 & E4 & ->). unfold conn_or_none in E2. destruct (y_heap y !! s) as [sb|] eqn:Hs; [|apply lookup_lt_Some in Hn; lia].
      exists s, sb. cbn [y_heap i_hp]. split_and!; [done|done| |].
      * rewrite (alloc_id_get _ _ _ _ _ (lit "subscription") Ha) by neq_lits. unfold id_in. rewrite Hs. by apply (for_id_with (s_id sb)).
      * right. unfold dest_in in E3. by rewrite Hs in E3.
    + destruct (take_sub _ _ _ _ _ _ _ Hr Hn Hti) as (sb & m0 & H1 & H2 & H3). destruct I6 as (I6 & _).
      destruct (co_sub _ _ _ HC s) as [(sb1 & O1 & O2) _]; [rewrite I6; by left|]. assert (sb1 = sb) as -> by congruence.
      pose proof (wf_sub _ HW _ _ H1) as (_ & _ & Hh). destruct (Hh _ H2) as (Hmc & _ & Hdst & Hsub).
      destruct (move_hext _ _ _ HW Hmv _ _ H1) as (sb' & Hs' & E). injection E as E1 E2 E3 E4 E5.
      pose proof (conn_iter_shape _ _ _ _ _ _ _ _ _ Htx Hci) as Hs.
      enough (exists k a, alloc_id (k_last (n_c n)) a m0 = (k, m)) as (k & a & Ha).
      { exists s, sb'. split_and!; [done|congruence| |by left]. rewrite (alloc_id_get _ _ _ _ _ (lit "subscription") Ha) by neq_lits. rewrite E3. exact Hsub. }
      inversion Hs; subst; try (by match goal with Hx : forall s0, InSub s <> InSub s0 |- _ => destruct (Hx s) end);
        match goal with Hw : i_wr o = _ |- _ => rewrite Hw in Hin end; [by apply elem_of_nil in Hin|..];
        (apply elem_of_list_singleton in Hin; injection Hin as -> _;
         match goal with Hx : y_heap y !! s = Some ?b |- _ => assert (b = sb) as -> by congruence end;
         match goal with Hx : s_frame sb = Some ?b |- _ => assert (b = m0) as -> by congruence end; eauto).
    + injection Hci as <-. cbn in Hin. by apply elem_of_list_singleton in Hin.
Qed.
(** What a client is sent with the id of a queue subscription, if that id
    belongs to one subscription object only. *)
Lemma received_tried cfg y s sb n : reach cfg y -> y_heap y !! s = Some sb -> y_conns y !! s_conn sb = Some n -> is_queue (s_dest sb) = true -> only_of_id y s sb ->
  received (s_id sb) n = tried_for s n.
Proof.
  intros Hr Hs Hn Hq Ho. unfold received, tried_for, written, wire.
  assert (HH : forall pre post, n_log n = pre ++ post -> filter (fun m => hget_of m (lit "subscription") = Some (s_id sb)) (frames_with (lit "MESSAGE") (concat (v_wr <$> post))) = concat (tried_one s <$> post)); [|by apply (HH [])].
  intros pre post. revert pre. induction post as [|e post IH]; intros pre El; [done|]. cbn [fmap list_fmap concat]. rewrite FlowTopics.frames_with_app, filter_app.
  rewrite (IH (pre ++ [e])) by (by rewrite <-app_assoc). f_equal.
  pose proof (reach_from_sub _ _ Hr _ _ _ _ _ Hn El) as HF. pose proof (reach_wrote _ _ Hr _ _ _ _ _ Hn El) as HP. unfold wrote_for in HP. unfold tried_one.
  assert (Hno : (forall t, v_in e = InSub t -> t <> s) -> filter (fun m => hget_of m (lit "subscription") = Some (s_id sb)) (frames_with (lit "MESSAGE") (v_wr e)) = []).
  { intros Hne. apply filter_none. intros m Hm Hid. pose proof (elem_frames_with _ _ _ Hm) as [w Hw].
    assert (cmd_of m = MESSAGE) as Hc. { unfold frames_with in Hm. apply elem_of_list_omap in Hm as ([[m0|] w0] & _ & Hx); [|done]. cbn in Hx. destruct (bool_decide _) eqn:Hb; [|done]. injection Hx as ->. by apply bool_decide_eq_true in Hb. }
    destruct (HF _ _ Hw Hc) as (s' & sb' & F1 & F2 & F3 & F4). assert (s' = s) as -> by (eapply Ho; [done|congruence|congruence]).
    destruct F4 as [F4|F4]; [by destruct (Hne _ F4)|congruence]. }
  destruct (v_in e) as [m0| |m0|t|] eqn:Hi; try (by apply Hno).
  destruct (decide (t = s)) as [->|Hne]; [|apply Hno; intros t' [= <-]; done]. clear Hno HF IH El.
  induction (v_wr e) as [|[[m|] w] ws IHw]; [done| |apply IHw; intros; eapply HP; by right].
  destruct (HP m w ltac:(by left)) as (K1 & sb' & K2 & _ & K3 & _). unfold frames_with in *. cbn [omap list_omap fst]. rewrite bool_decide_eq_true_2 by exact K1.
  rewrite filter_cons_True by (rewrite K3; congruence). f_equal. apply IHw. intros. eapply HP. by right.
Qed.

(* ---------------- order ---------------- *)
Lemma none_back_iff d y : none_back d y <-> ~ back d y.
Proof.
  unfold none_back, back. split.
  - intros H (m & H1 & H2). assert (m ∈ filter (to_dest d) (given_back y)) as Hin by (by apply elem_of_list_filter). rewrite H in Hin. by apply elem_of_nil in Hin.
  - intros H. apply filter_none. intros m H1 H2. apply H. eauto.
Qed.
Lemma none_returned d y : none_back d y -> returned d (y_blog y) = [].
Proof.
  intros H%none_back_iff. destruct (returned d (y_blog y)) as [|m l] eqn:E; [done|]. exfalso. apply H. assert (m ∈ returned d (y_blog y)) as Hm by (rewrite E; by left).
  unfold returned in Hm. apply elem_of_list_omap in Hm as ([r o] & H1 & H2). cbn in H2. destruct r; try done. destruct (sent_to m0 d) eqn:Hs; [|done]. injection H2 as ->.
  exists m. split; [|by apply bool_decide_eq_true in Hs]. unfold given_back. apply elem_of_app. left. unfold requeues. apply elem_of_list_omap. exists (RRequeue m). split; [|done].
  unfold handed. apply elem_of_app. left. by apply (elem_of_list_fmap_1 fst) in H1.
Qed.
Lemma arrivals_asked d y : exists more, asked_for d y = arrivals d (y_blog y) ++ more.
Proof.
  exists (filter (to_dest d) (enqueues (y_req y))). unfold asked_for, handed. rewrite enq_app, filter_app. f_equal. induction (y_blog y) as [|[r o] l IH]; [done|].
  cbn [fmap list_fmap fst]. unfold enqueues, arrivals in *. cbn [omap list_omap fst]. destruct r; try exact IH. unfold sent_to. destruct (decide (to_dest d m)) as [Hd|Hd].
  - rewrite filter_cons_True, bool_decide_eq_true_2 by done. by f_equal.
  - rewrite filter_cons_False, bool_decide_eq_false_2 by done. done.
Qed.
Lemma given_handed y s d : dest_in y s = d -> given_to s (y_blog y) = (filter (fun sm : nat * msg => sm.1 = s) (BrokerSpec.handed (dest_in y) d (y_blog y))).*2.
Proof.
  intros Hd. unfold given_to, BrokerSpec.handed. induction (y_blog y) as [|[r os] l IH]; [done|]. cbn [fmap list_fmap concat snd]. rewrite filter_app, fmap_app, <-IH. f_equal. clear IH.
  unfold outs_for. induction os as [|o os IH]; [done|]. cbn [omap list_omap]. destruct o as [c t m|c m]; cbn [out_handed]; [|exact IH]. destruct (decide (t = s)) as [->|Hne].
  - rewrite bool_decide_eq_true_2 by done. rewrite filter_cons_True by done. cbn. by f_equal.
  - destruct (bool_decide _); [rewrite filter_cons_False by done|]; exact IH.
Qed.
Lemma copy_payload id m m' : copy_for id m m' -> payload m' = payload m.
Proof.
  intros (H1 & H2 & H3 & H4). unfold payload, cmd_of. rewrite H1, H2, H3, H4. f_equal. f_equal. apply strip_set. unfold per_delivery. in_list.
Qed.
Lemma given_all cfg y d : reach cfg y -> is_queue d = true -> none_back d y -> payload <$> (BrokerSpec.handed (dest_in y) d (y_blog y)).*2 `prefix_of` payload <$> asked_for d y.
Proof.
  intros Hr Hq Hb. destruct (queue_fifo _ _ _ _ _ d (broker_history _ _ Hr _ _ _ (agrees_none y)) Hq) as (_ & Hf & _). destruct (Hf (none_returned _ _ Hb)) as (given & E & HF).
  destruct (arrivals_asked d y) as [more Em]. rewrite Em, E, !fmap_app, <-app_assoc. assert (payload <$> given = payload <$> (BrokerSpec.handed (dest_in y) d (y_blog y)).*2) as ->; [|by apply prefix_app_r].
  clear E Hf Em. induction HF as [|m sm l l' Hc HF IH]; [done|]. cbn. rewrite IH. f_equal. symmetry. by eapply copy_payload.
Qed.
Lemma filter_sublist_self {A} (P : A -> Prop) `{!forall x, Decision (P x)} (l : list A) : filter P l `sublist_of` l.
Proof. induction l as [|x l IH]; [done|]. rewrite filter_cons. destruct (decide (P x)); by constructor. Qed.
Lemma tried_given cfg y s sb n : reach cfg y -> y_heap y !! s = Some sb -> y_conns y !! s_conn sb = Some n -> none_back (s_dest sb) y ->
  payload <$> tried_for s n `prefix_of` payload <$> given_to s (y_blog y).
Proof.
  intros Hr Hs Hn Hb%none_back_iff. destruct (qflow_reach _ _ Hr) as [_ G2]. destruct (G2 s _ _ Hn) as [E|(sb' & E & B)].
  - intros sb' E. congruence.
  - rewrite E, fmap_app. by apply prefix_app_r.
  - exfalso. apply Hb. congruence.
Qed.
Lemma prefix_sublist {A} (l k : list A) : l `prefix_of` k -> l `sublist_of` k.
Proof. intros [x ->]. by apply sublist_inserts_r. Qed.
Lemma tried_order cfg y s sb n : reach cfg y -> y_heap y !! s = Some sb -> y_conns y !! s_conn sb = Some n -> is_queue (s_dest sb) = true -> none_back (s_dest sb) y ->
  payload <$> tried_for s n `sublist_of` payload <$> asked_for (s_dest sb) y.
Proof.
  intros Hr Hs Hn Hq Hb. etrans; [apply prefix_sublist; by eapply tried_given|]. etrans; [|apply prefix_sublist; by eapply given_all].
  rewrite (given_handed y s (s_dest sb)) by (unfold dest_in; by rewrite Hs). apply fmap_sublist, fmap_sublist, filter_sublist_self.
Qed.
Lemma tried_single cfg y s sb n : reach cfg y -> y_heap y !! s = Some sb -> y_conns y !! s_conn sb = Some n -> is_queue (s_dest sb) = true -> none_back (s_dest sb) y ->
  (forall s' sb', y_heap y !! s' = Some sb' -> s_dest sb' = s_dest sb -> s' = s) -> payload <$> tried_for s n `prefix_of` payload <$> asked_for (s_dest sb) y.
Proof.
  intros Hr Hs Hn Hq Hb Ho. etrans; [by eapply tried_given|]. etrans; [|by eapply given_all].
  rewrite (given_handed y s (s_dest sb)) by (unfold dest_in; by rewrite Hs). rewrite filter_all; [done|].
  intros [t m] Hin. cbn. apply elem_of_list_In, in_concat in Hin as (l & H1 & H2). apply elem_of_list_In in H1, H2. apply elem_of_list_fmap in H1 as ([r os] & -> & Hl). cbn in H2.
  apply elem_of_list_omap in H2 as (o & Ho1 & Ho2). destruct o as [c0 t0 m0|]; [|done]. cbn in Ho2. destruct (bool_decide _) eqn:Hbd; [|done]. injection Ho2 as -> ->. apply bool_decide_eq_true in Hbd.
  unfold dest_in in Hbd. destruct (y_heap y !! t) as [sb'|] eqn:Ht; [by eapply Ho|]. destruct (qflow_reach _ _ Hr) as [G1 _]. specialize (G1 _ Ht). exfalso.
  assert (m ∈ given_to t (y_blog y)) as Hg; [|rewrite G1 in Hg; by apply elem_of_nil in Hg]. unfold given_to. apply elem_of_list_In, in_concat. exists (outs_for t os). split; apply elem_of_list_In.
  - apply elem_of_list_fmap. exists os. split; [done|]. apply elem_of_list_fmap. by exists (r, os).
  - unfold outs_for. apply elem_of_list_omap. exists (OutSub c0 t m). split; [done|]. by rewrite decide_True.
Qed.
