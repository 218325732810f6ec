(** What cleanupConn gives back. *)
From Verif Require Import GoBase HeaderModel FrameModel GrammarSpec HeaderProofs NegotiationModel NegotiationSpec NegotiationLemmas
  BrokerModel BrokerSpec BrokerProofs ServerConnModel ServerConnSpec ServerConnProofs SystemModel SystemLemmas SystemSpec SystemProofs SystemTokens
  SystemMessages SystemUids SystemHistory SystemPanics.

Lemma take_frames cfg y c n x w1 w2 i n1 o : wf y -> y_conns y !! c = Some n -> take_input n x = Some (i, n1) ->
  conn_iter cfg c w1 w2 (n_c n) (y_heap y) (y_next y) i = Fine o ->
  forall s, chold s n = 0 -> is_Some (y_heap y !! s) -> fr (i_hp o) s = fr (y_heap y) s.
Proof.
  intros HW Hn Ht Hi s Hs [sb Hsb].
  assert (shape c (n_c n) (y_heap y) (y_next y) i o) as Hsh by (eapply conn_iter_shape; [apply (wf_conns _ HW _ _ Hn)|done]).
  destruct (take_input_cases _ _ _ _ Ht) as (I1 & I2 & I3 & I4 & I5 & I6). unfold chold in Hs.
  assert (Hs0 : forall s0, i = InSub s0 -> s <> s0).
  { intros s0 -> ->. destruct I6 as [I6 _]. rewrite I6 in Hs. cbn [cnt] in Hs. rewrite decide_True in Hs by done. lia. }
  destruct Hsh.
  - destruct (acks_tok _ _ _ _ _ H0 s) as (A1 & _ & A3 & _). unfold fr. rewrite A3; [done|]. rewrite <-cnt_elem. lia.
  - by rewrite H.
  - rewrite H1, fr_insert. rewrite decide_False; [done|]. intros ->. apply (wf_next _ HW) in Hsb. lia.
  - by rewrite H1.
  - by rewrite H1.
  - rewrite H1, fr_insert, decide_False; [done|by apply Hs0].
  - rewrite H1, fr_insert, decide_False; [done|by apply Hs0].
  - rewrite H1, fr_insert, decide_False; [done|by apply Hs0].
Qed.
Lemma serve_frames_held y r rs b hp outs : wf y -> tok y -> y_req y = r :: rs -> serve (y_broker y) (y_heap y) r = Fine (b, hp, outs) ->
  forall s, 0 < hold y s -> fr hp s = fr (y_heap y) s.
Proof.
  intros HW HT Hq Hs s Hh. apply serve_cases in Hs. pose proof (tk_one _ HT s) as T1.
  assert (Hf : forall s0 d, s0 ∈ ready (y_broker y) d -> s <> s0).
  { intros s0 d Hin ->. destruct (ready_free _ _ _ HW Hin) as (_ & _ & _ & ?). lia. }
  assert (Hr : forall s0, r = RSubscribe s0 -> s <> s0).
  { intros s0 -> ->. unfold free in T1. rewrite Hq in T1. cbn [rsub cnt] in T1. rewrite decide_True in T1 by done. lia. }
  destruct Hs; try done; rewrite fr_insert; destruct (decide (s = s0)) as [->|]; try done; try (by exfalso; eapply Hr); cbn [set_inlist s_frame];
    try (unfold fr; by match goal with E : y_heap y !! _ = Some _ |- _ => rewrite E end).
  exfalso. eapply (Hf s0 d); [|done]. match goal with E : ready _ d = _ |- _ => rewrite E end. by left.
Qed.
Lemma handed_mono cfg y y' r : move cfg y y' -> r ∈ handed y -> r ∈ handed y'.
Proof.
  unfold handed. destruct 1; cbn [y_blog y_req]; try done.
  - rewrite !elem_of_app. tauto.
  - rewrite H0, fmap_app, !elem_of_app, elem_of_cons. cbn. rewrite elem_of_list_singleton. tauto.
Qed.

Lemma kept_move cfg y y' c n s m : wf y -> tok y -> move cfg y y' -> y_conns y !! c = Some n -> n_phase n <> Running ->
  s ∈ with_conn n -> fr (y_heap y) s = Some m ->
  exists n', y_conns y' !! c = Some n' /\ n_phase n' <> Running /\ (s ∈ with_conn n' /\ fr (y_heap y') s = Some m \/ RRequeue m ∈ n_out n').
Proof.
  intros HW HT Hm Hn Hph Hs Hf. unfold with_conn in *.
  assert (Hh : 0 < hold y s) by (by destruct (held_frame y c n s HW HT Hn)).
  assert (Hsm : is_Some (y_heap y !! s)) by (destruct (held_frame y c n s HW HT Hn) as [_ (sb & ? & ? & _)]; [done|eauto]).
  assert (Hoth : forall c0 n0 n', y_conns y !! c0 = Some n0 -> (c0 = c -> n0 = n -> n_phase n' <> Running /\ forall s, s ∈ with_conn n -> s ∈ with_conn n') ->
    exists n2, <[c0 := n']> (y_conns y) !! c = Some n2 /\ n_phase n2 <> Running /\ s ∈ with_conn n2).
  { intros c0 n0 n' Hn0 Hsame. destruct (decide (c0 = c)) as [->|Hne].
    - exists n'. rewrite list_lookup_insert by (by eapply lookup_lt_Some). assert (n0 = n) as -> by congruence. destruct (Hsame eq_refl eq_refl) as [Hp Hi].
      split_and!; [done|done|]. by apply Hi.
    - exists n. by rewrite list_lookup_insert_ne. }
  assert (Hfin : forall (conns : list sconn) hp, (exists n2, conns !! c = Some n2 /\ n_phase n2 <> Running /\ s ∈ with_conn n2) -> fr hp s = fr (y_heap y) s ->
    exists n', conns !! c = Some n' /\ n_phase n' <> Running /\ (s ∈ n_sub n' ++ k_sublist (n_c n') /\ fr hp s = Some m \/ RRequeue m ∈ n_out n')).
  { intros conns hp (n2 & H1 & H2 & H3) E. exists n2. split_and!; [done|done|]. left. split; [done|congruence]. }
  destruct Hm; cbn [y_conns y_heap].
  - apply Hfin; [|done]. exists n. split_and!; [|done|done]. rewrite lookup_app_l; [done|by eapply lookup_lt_Some].
  - apply Hfin; [|done]. eapply Hoth; [done|]. by intros _ ->.
  - apply Hfin; [|done]. eapply Hoth; [done|]. by intros _ ->.
  - assert (c0 <> c) as Hne by (intros ->; congruence). apply Hfin.
    + exists n. by rewrite list_lookup_insert_ne.
    + eapply (take_frames cfg y c0 n0); try done. pose proof (two_places (chold s) _ _ _ _ _ H Hn Hne) as T2. pose proof (hold_in y c n s Hn Hs). pose proof (tk_one _ HT s).
      unfold hold in *. lia.
  - apply Hfin; [|done]. eapply Hoth; [done|]. by intros _ ->.
  - destruct (decide (c0 = c)) as [->|Hne].
    + assert (n0 = n) as -> by congruence. exists n'. rewrite list_lookup_insert by (by eapply lookup_lt_Some). split; [done|].
      destruct H3; cbn [with_write with_phase with_out with_c with_sub_ch n_phase n_sub n_c n_out set_subs set_sublist k_sublist].
      * split; [done|]. by left.
      * split; [|by left]. intros ->. naive_solver.
      * split; [by rewrite H3|]. by left.
      * split; [by rewrite H3|]. destruct (decide (s = s0)) as [->|Hs0].
        -- right. unfold fr in Hf. rewrite H5 in Hf. cbn in Hf. assert (m0 = m) as -> by congruence. by left.
        -- left. split; [|by rewrite fr_insert, decide_False]. rewrite H4 in Hs. set_solver.
      * split; [by destruct H3 as [-> | ->]|]. destruct (decide (s = s0)) as [->|Hs0].
        -- right. unfold fr in Hf. rewrite H5 in Hf. cbn in Hf. assert (m0 = m) as -> by congruence. by left.
        -- left. split; [|done]. rewrite H4 in Hs. set_solver.
      * split; [done|]. by left.
    + apply Hfin; [exists n; by rewrite list_lookup_insert_ne|]. destruct H3; try done. rewrite fr_insert. destruct (decide (s = s0)) as [->|]; [|done].
      unfold fr. by rewrite H5.
  - apply Hfin; [eauto|]. by eapply serve_frames_held.
  - apply Hfin; [|done]. eapply Hoth; [done|]. intros _ ->. split; [done|]. unfold with_conn. cbn [with_sub_ch n_sub n_c]. set_solver.
  - apply Hfin; [|done]. eapply Hoth; [done|]. by intros _ ->.
Qed.
Lemma out_move cfg y y' c n r : move cfg y y' -> y_conns y !! c = Some n -> n_phase n <> Running -> r ∈ n_out n ->
  exists n', y_conns y' !! c = Some n' /\ n_phase n' <> Running /\ (r ∈ n_out n' \/ r ∈ handed y').
Proof.
  intros Hm Hn Hph Hr.
  assert (Hoth : forall c0 n0 n', y_conns y !! c0 = Some n0 -> (c0 = c -> n0 = n -> n_phase n' <> Running /\ (r ∈ n_out n' \/ r ∈ handed y')) ->
    exists n2, <[c0 := n']> (y_conns y) !! c = Some n2 /\ n_phase n2 <> Running /\ (r ∈ n_out n2 \/ r ∈ handed y')).
  { intros c0 n0 n' Hn0 Hsame. destruct (decide (c0 = c)) as [->|Hne].
    - exists n'. rewrite list_lookup_insert by (by eapply lookup_lt_Some). assert (n0 = n) as -> by congruence. destruct (Hsame eq_refl eq_refl). done.
    - exists n. rewrite list_lookup_insert_ne by done. auto. }
  destruct Hm; cbn [y_conns] in *; try (eapply Hoth; [done|]; intros _ ->; split; [done|by left]).
  - exists n. split_and!; [|done|auto]. rewrite lookup_app_l; [done|by eapply lookup_lt_Some].
  - eapply Hoth; [done|]. intros -> ->. split; [done|]. rewrite H0 in Hr. apply elem_of_cons in Hr as [->|Hr]; [right|by left]. unfold handed. cbn. rewrite !elem_of_app, elem_of_list_singleton. auto.
  - eapply Hoth; [done|]. intros -> ->. rewrite H0 in Hr. by apply elem_of_nil in Hr.
  - exists n. auto.
Qed.

(** Facts about each phase. *)
Definition late (p : phase) : bool := match p with CDiscard2 | CDrain1 | CTell | CDiscard3 | CDrain2 | Dead => true | _ => false end.
Record phase_ok (cfg : scfg) (y : sys) (n : sconn) : Prop := mkPhaseOk {
  ph_late : late (n_phase n) = true -> k_sublist (n_c n) = [];
  ph_dead : n_phase n = Dead -> n_out n = [];
  ph_first : n_phase n = CDiscard1 \/ n_phase n = CUnsub -> forall id_of ack_of, keeps id_of ack_of (y_heap y) -> k_sublist (n_c n) = outstanding ack_of (n_log n);
  ph_subs : n_phase n <> Running -> n_phase n <> CDiscard1 -> n_phase n <> CUnsub -> k_subs (n_c n) = ∅
}.
Lemma reach_phase cfg y : reach cfg y -> forall c n, y_conns y !! c = Some n -> phase_ok cfg y n.
Proof.
  revert y. apply (reach_ind' cfg (fun y => forall c n, y_conns y !! c = Some n -> phase_ok cfg y n)).
  { intros c n H. cbn in H. by rewrite lookup_nil in H. }
  intros y y' Hr IH Hm. pose proof (reach_wf _ _ Hr) as HW. pose proof (move_hext _ _ _ HW Hm) as Hx.
  assert (Hy : forall n, phase_ok cfg y n -> phase_ok cfg y' n).
  { intros n [A1 A2 A3 A4]. split; try done. intros Hp id_of ack_of Hk. apply (A3 Hp id_of ack_of). by eapply keeps_back. }
  assert (Hupd : forall c n n', y_conns y !! c = Some n -> (phase_ok cfg y n -> phase_ok cfg y' n') ->
    forall c0 n0, <[c := n']> (y_conns y) !! c0 = Some n0 -> phase_ok cfg y' n0).
  { intros c n n' H1 H2 c0 n0 H3. destruct (conns_upd _ _ _ _ _ _ H1 H3) as [[-> ->]|[? ?]]; eauto. }
  pose proof Hm as Hm'. destruct Hm'; cbn [y_conns] in *.
  - intros c n. rewrite lookup_app_Some. intros [Hn|[_ Hn]]; [eauto|]. apply list_lookup_singleton_Some in Hn as [_ <-]. split; cbn; try done; intuition done.
  - eapply Hupd; [done|]. intros [A1 A2 A3 A4]%Hy. by split.
  - eapply Hupd; [done|]. intros [A1 A2 A3 A4]%Hy. by split.
  - eapply Hupd; [done|]. intros [A1 A2 A3 A4]. split.
    + cbn [taken n_phase]. by destruct (i_stop o).
    + cbn [taken n_phase]. by destruct (i_stop o).
    + intros _ id_of ack_of Hk. assert (k_sublist (n_c (taken n1 i o)) = k_sublist (i_c o)) as -> by (cbn; by destruct (i_stop o)).
      assert (Hr' : reach cfg (take_result y c n1 i o)).
      { eapply reach_step with (a := ATake c x w1 w2); [exact Hr|]. cbn [step]. unfold do_take. rewrite H, H0. unfold idle. rewrite H1, H2, H3. done. }
      destruct (conn_history _ _ Hr' _ _ Hk c (taken n1 i o)) as (k & st & He & Hrun & Hstop).
      { cbn. apply list_lookup_insert. by eapply lookup_lt_Some. }
      destruct (conn_history _ _ Hr id_of ack_of (keeps_back _ _ _ _ Hx Hk) c n H) as (k0 & st0 & He0 & Hrun0 & _).
      destruct (Hrun0 H0) as [-> ->]. destruct (take_input_cases _ _ _ _ H2) as (T1 & T2 & T3 & T4 & T5 & T6).
      rewrite <-(sublist_outstanding cfg c id_of ack_of (n_log (taken n1 i o)) (i_c o) (i_stop o)); [done|].
      cbn [taken n_log]. rewrite T5. eapply ce_step; [done|by eapply keeps_back| |done|done].
      destruct i as [m| |m|s|]; cbn [from_broker]; try done.
      * destruct T6 as (T6 & _). destruct (wf_conns _ HW _ _ H) as [_ _ _ _ _ C6]. rewrite T6 in C6. by apply Forall_cons in C6 as [? _].
      * intros sb m Hsb Hfm. destruct (wf_sub _ HW _ _ Hsb) as (_ & _ & Hh). by destruct (Hh m Hfm).
    + cbn [taken n_phase]. by destruct (i_stop o).
  - eapply Hupd; [done|]. intros [A1 A2 A3 A4]%Hy. split; try done. cbn [with_out n_phase n_out]. intros Hd. specialize (A2 Hd). congruence.
  - eapply Hupd; [done|]. intros [A1 A2 A3 A4]%Hy. destruct H3; cbn [y_heap] in *.
    + by split.
    + split; cbn [with_phase n_phase n_c n_out n_log].
      * intros Hl. destruct_or! H4; destruct H4 as (E1 & E2 & E3); rewrite E1 in H3; rewrite ?E2 in *; try done; apply A1; by rewrite H3.
      * done.
      * intros Hp. apply A3. destruct_or! H4; destruct H4 as (E1 & E2 & E3); rewrite E1 in H3; rewrite ?E2 in *; try (by destruct Hp); auto.
      * intros N1 N2 N3. destruct_or! H4; destruct H4 as (E1 & E2 & E3); rewrite E1 in H3; rewrite ?E2 in *; try done; apply A4; by rewrite H3.
    + split; cbn [with_out with_c n_phase n_c n_out n_log set_subs k_sublist k_subs]; rewrite H3; try done. intros _. apply A3. auto.
    + split; cbn [with_out with_c n_phase n_c n_out n_log set_sublist k_sublist k_subs]; rewrite H3; try done; [intuition done|]. intros. apply A4; by rewrite H3.
    + split; cbn [with_out with_sub_ch n_phase n_c n_out n_log]; try done.
    + split; cbn [with_out with_phase n_phase n_c n_out n_log]; try done; [intros _; apply A1; by rewrite H3|intuition done|]. intros _ _ _. apply A4; by rewrite H3.
  - intros c n Hn. apply Hy. eauto.
  - eapply Hupd; [done|]. intros [A1 A2 A3 A4]%Hy. by split.
  - eapply Hupd; [done|]. intros [A1 A2 A3 A4]%Hy. by split.
Qed.

Lemma run_reach cfg y l y' : reach cfg y -> run cfg y l = Some (Fine y') -> reach cfg y'.
Proof.
  revert y. induction l as [|a l IH]; intros y Hr; cbn [run]; [by intros [= <-]|]. destruct (step cfg y a) as [[p|y1]|] eqn:E; try done.
  apply IH. by eapply reach_step.
Qed.
Lemma no_return cfg y y' c n : move cfg y y' -> y_conns y !! c = Some n -> n_phase n = Dead -> exists n', y_conns y' !! c = Some n' /\ n_phase n' = Dead.
Proof.
  intros Hm Hn Hp.
  assert (Hoth : forall c0 n0 n', y_conns y !! c0 = Some n0 -> (c0 = c -> n0 = n -> n_phase n' = Dead) ->
    exists n2, <[c0 := n']> (y_conns y) !! c = Some n2 /\ n_phase n2 = Dead).
  { intros c0 n0 n' Hn0 Hsame. destruct (decide (c0 = c)) as [->|Hne].
    - exists n'. rewrite list_lookup_insert by (by eapply lookup_lt_Some). split; [done|]. apply Hsame; [done|congruence].
    - exists n. by rewrite list_lookup_insert_ne. }
  destruct Hm; cbn [y_conns]; try (eapply Hoth; [done|]; by intros _ ->).
  - exists n. split; [|done]. rewrite lookup_app_l; [done|by eapply lookup_lt_Some].
  - eapply Hoth; [done|]. intros -> ->. congruence.
  - eauto.
Qed.
Lemma gives_back cfg y c n s m l y' n' : reach cfg y -> y_conns y !! c = Some n -> n_phase n <> Running -> n_phase n <> Dead ->
  s ∈ with_conn n -> holds (y_heap y) s = Some m -> run cfg y l = Some (Fine y') -> y_conns y' !! c = Some n' -> n_phase n' = Dead ->
  RRequeue m ∈ handed y'.
Proof.
  intros Hr Hn Hp1 Hp2 Hs Hf Hrun Hn' Hd.
  enough (H : exists n2, y_conns y' !! c = Some n2 /\ (n_phase n2 <> Running /\ (s ∈ with_conn n2 /\ fr (y_heap y') s = Some m /\ n_phase n2 <> Dead \/
    RRequeue m ∈ n_out n2 \/ RRequeue m ∈ handed y'))).
  { destruct H as (n2 & E & _ & [(_ & _ & ?)|[H|H]]); [congruence| |done]. assert (n2 = n') as -> by congruence.
    rewrite (ph_dead _ _ _ (reach_phase _ _ (run_reach _ _ _ _ Hr Hrun) _ _ Hn') Hd) in H. by apply elem_of_nil in H. }
  clear n' Hn' Hd.
  assert (H0 : exists n2, y_conns y !! c = Some n2 /\ (n_phase n2 <> Running /\ (s ∈ with_conn n2 /\ fr (y_heap y) s = Some m /\ n_phase n2 <> Dead \/
    RRequeue m ∈ n_out n2 \/ RRequeue m ∈ handed y))) by (exists n; split_and!; [done|done|by left]).
  clear n Hn Hp1 Hp2 Hs Hf. revert y Hr Hrun H0. induction l as [|a l IH]; intros y Hr; cbn [run]; [by intros [= <-]|].
  destruct (step cfg y a) as [[p|y1]|] eqn:E; try done. intros Hrun Hinv. eapply IH; [by eapply reach_step|done|]. clear IH Hrun.
  pose proof (step_move _ _ _ _ E) as Hm. pose proof (reach_wf _ _ Hr) as HW. pose proof (reach_tok _ _ Hr) as HT.
  destruct Hinv as (n & Hn & Hph & [(Hs & Hf & Hd)|[Hin|Hin]]).
  - destruct (kept_move _ _ _ _ _ _ _ HW HT Hm Hn Hph Hs Hf) as (n1 & Hn1 & Hph1 & [[Hs1 Hf1]|Hin]).
    + exists n1. split_and!; try done. left. split_and!; try done. intros Hd1.
      pose proof (reach_phase _ _ (reach_step _ _ _ _ Hr E) _ _ Hn1) as [P1 _ _ _]. unfold with_conn in Hs1. rewrite P1 in Hs1 by (by rewrite Hd1). rewrite app_nil_r in Hs1.
      (* the only way to become Dead is with an empty channel *)
      clear -Hm Hn Hd Hn1 Hd1 Hs1.
      assert (Hoth : forall c0 n0 n', y_conns y !! c0 = Some n0 -> n_phase n' = n_phase n0 -> <[c0 := n']> (y_conns y) !! c = Some n1 -> False).
      { intros c0 n0 n' Hn0 Hp H. destruct (conns_upd _ _ _ _ _ _ Hn0 H) as [[-> ->]|[_ ?]]; congruence. }
      destruct Hm; cbn [y_conns set_conn] in Hn1;
        try (match goal with H : y_conns y !! ?c0 = Some ?n0 |- _ => match type of Hn1 with <[?c0 := ?n']> _ !! _ = _ => exact (Hoth c0 n0 n' H eq_refl Hn1) end end).
      * rewrite lookup_app_l in Hn1 by (by eapply lookup_lt_Some). congruence.
      * destruct (conns_upd _ _ _ _ _ _ H Hn1) as [[-> ->]|[_ ?]]; [|congruence]. cbn in Hd1. by destruct (i_stop o).
      * destruct (conns_upd _ _ _ _ _ _ H Hn1) as [[-> ->]|[_ ?]]; [|congruence]. destruct H3; cbn [with_write with_phase with_out with_c with_sub_ch n_phase n_sub] in *; try congruence.
        destruct_or! H4; destruct H4 as (E1 & E2 & E3); rewrite E1 in H3; rewrite ?E2 in *; try done. rewrite E3 in Hs1. by apply elem_of_nil in Hs1.
      * congruence.
    + exists n1. split_and!; try done. right. by left.
  - destruct (out_move _ _ _ _ _ _ Hm Hn Hph Hin) as (n1 & Hn1 & Hph1 & [H|H]); exists n1; split_and!; try done; right; [by left|by right].
  - assert (exists n1, y_conns y1 !! c = Some n1 /\ n_phase n1 <> Running) as (n1 & Hn1 & Hp1).
    { clear -Hm Hn Hph.
      assert (Hoth : forall c0 n0 n', y_conns y !! c0 = Some n0 -> (c0 = c -> n0 = n -> n_phase n' <> Running) ->
        exists n2, <[c0 := n']> (y_conns y) !! c = Some n2 /\ n_phase n2 <> Running).
      { intros c0 n0 n' Hn0 Hsame. destruct (decide (c0 = c)) as [->|Hne].
        - exists n'. rewrite list_lookup_insert by (by eapply lookup_lt_Some). split; [done|]. apply Hsame; [done|congruence].
        - exists n. by rewrite list_lookup_insert_ne. }
      destruct Hm; cbn [y_conns]; try (eapply Hoth; [done|]; by intros _ ->).
      - exists n. split; [|done]. rewrite lookup_app_l; [done|by eapply lookup_lt_Some].
      - eapply Hoth; [done|]. intros -> ->. destruct H3; cbn [with_write with_phase with_out with_c with_sub_ch n_phase]; try done. intros ->. naive_solver.
      - eauto. }
    exists n1. split_and!; try done. right; right. by eapply handed_mono.
Qed.
