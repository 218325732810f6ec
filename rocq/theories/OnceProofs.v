(** How often a queue message is transmitted. *)
From Verif Require Import GoBase HeaderModel FrameModel GrammarSpec HeaderProofs NegotiationModel NegotiationSpec NegotiationLemmas
  BrokerModel BrokerSpec BrokerProofs ServerConnModel ServerConnSpec ServerConnProofs SystemModel SystemLemmas SystemSpec SystemProofs SystemTokens SystemMessages SystemUids SystemHistory OnceSpec.

Lemma times_pc m l : times m l = pc (payload m) l.
Proof.
  unfold times, pc. induction l as [|a l IH]; [done|]. rewrite filter_cons. cbn [fmap list_fmap cnt]. destruct (decide (same_payload m a)) as [E|E]; unfold same_payload in E.
  - rewrite (decide_True (P := payload a = payload m)) by done. cbn [length]. by rewrite IH.
  - rewrite (decide_False (P := payload a = payload m)) by congruence. by rewrite IH.
Qed.
Lemma requeues_app a b : requeues (a ++ b) = requeues a ++ requeues b.
Proof. apply omap_app. Qed.
Lemma rmsgs_pc x rs : pc x (rmsgs rs) = pc x (enqueues rs) + pc x (requeues rs).
Proof.
  induction rs as [|r rs IH]; [done|]. destruct r; try exact IH.
  - change (rmsgs (REnqueue m :: rs)) with (m :: rmsgs rs). change (enqueues (REnqueue m :: rs)) with (m :: enqueues rs). change (requeues (REnqueue m :: rs)) with (requeues rs).
    rewrite (pc_cons x m (rmsgs rs)), (pc_cons x m (enqueues rs)). lia.
  - change (rmsgs (RRequeue m :: rs)) with (m :: rmsgs rs). change (enqueues (RRequeue m :: rs)) with (enqueues rs). change (requeues (RRequeue m :: rs)) with (m :: requeues rs).
    rewrite (pc_cons x m (rmsgs rs)), (pc_cons x m (requeues rs)). lia.
Qed.

(** Attempts are accounted for: finished, lost, still unacknowledged, or given back. *)
Definition ctried (x : msg) (n : sconn) : nat := pc x (concat (tried <$> n_log n)).
Definition ckept (x : msg) (hp : sheap) (n : sconn) : nat := pc x (requeues (n_out n)) + pc x (hm hp (k_sublist (n_c n))).
Definition covered (x : msg) (y : sys) : Prop :=
  sum_list_with (ctried x) (y_conns y) <= sum_list_with (ckept x (y_heap y)) (y_conns y) + pc x (requeues (handed y)) + pc x (y_fin y) + pc x (y_lost y).
Lemma ckept_other x y c n n0 c0 hp' : tok y -> y_conns y !! c = Some n -> y_conns y !! c0 = Some n0 -> c0 <> c ->
  (forall s, chold s n = 0 -> 0 < hold y s -> fr hp' s = fr (y_heap y) s) -> ckept x hp' n0 = ckept x (y_heap y) n0.
Proof.
  intros HT Hn Hn0 Hne Hf. unfold ckept. rewrite !(hm_ext (y_heap y) hp'); [done|].
  intros s Hs. pose proof (tk_one _ HT s) as T1. pose proof (two_places (chold s) _ _ _ _ _ Hn Hn0 ltac:(congruence)) as T2.
  assert (0 < chold s n0) as T3 by (eapply hold_in; [done|]; set_solver). unfold hold in *. apply Hf; lia.
Qed.
Lemma covered_conn x y c n n' hp nx uid req b pout blog fin lost : tok y -> y_conns y !! c = Some n ->
  (forall s, chold s n = 0 -> 0 < hold y s -> fr hp s = fr (y_heap y) s) ->
  ctried x n' + ckept x (y_heap y) n + pc x (requeues (handed y)) + pc x (y_fin y) + pc x (y_lost y) <=
  ctried x n + ckept x hp n' + pc x (requeues (blog.*1 ++ req)) + pc x fin + pc x lost ->
  covered x y -> covered x (mkSys (<[c := n']> (y_conns y)) hp nx uid req b pout blog fin lost).
Proof.
  intros HT Hn Hf He HB. unfold covered in *. unfold handed at 1. cbn [y_conns y_heap y_req y_blog y_fin y_lost].
  pose proof (sum_upd (ctried x) _ _ _ n' Hn) as E1.
  pose proof (sum_upd2 (ckept x (y_heap y)) (ckept x hp) _ _ _ n' Hn) as E2.
  assert (forall c' n0, c' <> c -> y_conns y !! c' = Some n0 -> ckept x hp n0 = ckept x (y_heap y) n0) as E3.
  { intros c' n0 Hne Hn0. exact (ckept_other x y c n n0 c' hp HT Hn Hn0 Hne Hf). }
  specialize (E2 E3). lia.
Qed.
Lemma ctried_taken x n1 i o : ctried x (taken n1 i o) = ctried x n1 + pc x (tried (mkCev i (i_wr o) (i_push o) (i_stop o))).
Proof. unfold ctried, taken. cbn [n_log]. rewrite fmap_app, concat_app, pc_app. cbn [fmap list_fmap concat]. by rewrite app_nil_r. Qed.
Lemma iter_tries x cid c hp nx i o : shape cid c hp nx i o -> hp !! nx = None -> NoDup (match i with InSub s => [s] | _ => [] end ++ k_sublist c) ->
  pc x (tried (mkCev i (i_wr o) (i_push o) (i_stop o))) + pc x (hm hp (k_sublist c)) <=
  pc x (hm (i_hp o) (k_sublist (i_c o))) + pc x (requeues (i_push o)) + pc x (finals hp (i_push o)) + pc x (losses hp i (i_stop o)).
Proof.
  intros Hsh Hnx Hnd. unfold tried. cbn [v_in v_wr]. destruct Hsh as
    [i o H H0 _ _ _ _|m o H1 H2 _ _ H5 _|m o id dest ack _ _ H1 H2 _ _ H5 _ _ _ _ _|m o id s _ _ H1 H2 _ _ H5 _|s sb m o H H0 H1 H2 _ H5 H6 H7|
     s sb m o n m' H H0 H1 H2 H3 _ H5 H6 H7 _|s sb m o n m' H H0 H1 H2 H3 H4 _ H6 H7 H8 _|s sb m o n m' H H0 H1 H2 H3 H4 H5 _ H7 H8 H9 _].
  - assert (match i with InSub s => [s] | _ => [] end = []) as E1. { destruct i; try done. by destruct (H s). }
    rewrite E1 in Hnd. pose proof (acks_msgs x _ _ _ _ _ H0 Hnd) as HH. rewrite rmsgs_pc in HH.
    assert (match i with InSub _ => omap fst (i_wr o) | _ => [] end = []) as ->. { destruct i; done. } rewrite pc_nil. lia.
  - rewrite H1, H2, pc_nil. lia.
  - rewrite H1, H2, pc_nil. rewrite (hm_ext hp (<[nx := new_sub cid dest id ack]> hp)); [lia|].
    intros s Hs. rewrite fr_insert. destruct (decide (s = nx)) as [->|]; [|done]. unfold fr. by rewrite Hnx.
  - rewrite H1, H2, pc_nil. lia.
  - rewrite H7, H1, H2. change (omap fst []) with (@nil msg). rewrite pc_nil. lia.
  - apply NoDup_cons in Hnd as [Hni _]. rewrite H7, H1, H2, H6. cbn [set_last k_sublist losses]. rewrite H, H0. change (omap fst [(Some m', false)]) with [m'].
    rewrite (pc_one x m m') by (by eapply payload_alloc). rewrite (hm_ext hp (<[s := _]> hp)) by (intros; by eapply fr_not_in). lia.
  - apply NoDup_cons in Hnd as [Hni _]. rewrite H8, H1, H2, H6. cbn [set_last k_sublist]. change (omap fst [(Some m', true)]) with [m']. rewrite finals_fr.
    assert (fr hp s = Some m) as -> by (unfold fr; by rewrite H). rewrite (pc_one x m m') by (by eapply payload_alloc). rewrite (hm_ext hp (<[s := _]> hp)) by (intros; by eapply fr_not_in).
    rewrite ol_some, pc_app. lia.
  - apply NoDup_cons in Hnd as [Hni _]. rewrite H9, H1, H2. cbn [set_last set_sublist k_sublist]. change (omap fst [(Some m', true)]) with [m'].
    rewrite hm_app, pc_app. rewrite (hm_ext hp (<[s := set_inlist (set_frame sb (Some m')) true]> hp) (k_sublist c)) by (intros; by eapply fr_not_in).
    rewrite hm_cons, fr_insert, decide_True by done. cbn [set_inlist set_frame s_frame]. rewrite ol_some. change (hm _ []) with (@nil msg). rewrite app_nil_r. lia.
Qed.
Lemma covered_move cfg x y y' : wf y -> tok y -> move cfg y y' -> covered x y -> covered x y'.
Proof.
  intros HW HT Hm HB. pose proof HW as [W1 W2 W3 W4 W5 W6 W7 W8]. destruct Hm.
  - unfold covered in *. unfold handed in *. cbn [y_conns y_heap y_req y_blog y_fin y_lost] in *. rewrite !sum_list_with_app. cbn [sum_list_with].
    change (ctried x sconn_init) with 0. lia.
  - eapply covered_conn; try done.
  - eapply covered_conn; try done.
  - destruct (take_input_cases _ _ _ _ H2) as (I1 & I2 & I3 & I4 & I5 & I6). pose proof (co_tx _ _ _ (W3 _ _ H)) as Htx.
    assert (y_heap y !! y_next y = None) as Hnx. { destruct (y_heap y !! y_next y) eqn:E; [|done]. apply W1 in E. lia. }
    assert (shape c (n_c n) (y_heap y) (y_next y) i o) as Hsh by (by eapply conn_iter_shape).
    assert (Hfr : forall s, chold s n = 0 -> 0 < hold y s -> fr (i_hp o) s = fr (y_heap y) s).
    { intros s Hz _. unfold chold in Hz. eapply iter_frames; [done|done| |].
      - rewrite <-cnt_elem. lia.
      - intros ->. destruct I6 as [I6 _]. rewrite I6 in Hz. cbn [cnt] in Hz. rewrite decide_True in Hz by done. lia. }
    assert (Hsub : n_sub n = match i with InSub s => [s] | _ => [] end ++ n_sub n1).
    { destruct i; try (by destruct I6 as (_ & _ & ->)); try (by destruct I6 as (-> & _)). by rewrite I6. }
    assert (NoDup (n_sub n ++ k_sublist (n_c n))) as Hnd.
    { apply cnt_nodup. intros s. rewrite cnt_app. pose proof (tk_one _ HT s). pose proof (sum_pos (chold s) _ _ _ H) as E. unfold hold, chold in *. lia. }
    assert (NoDup (match i with InSub s => [s] | _ => [] end ++ k_sublist (n_c n))) as Hnd'.
    { rewrite Hsub, <-app_assoc in Hnd. apply NoDup_app in Hnd as (N1 & N2 & N3). apply NoDup_app in N3 as (_ & _ & N3). apply NoDup_app. split_and!; try done. intros s Hs Hk. apply (N2 s Hs). set_solver. }
    pose proof (iter_tries x _ _ _ _ _ _ Hsh Hnx Hnd') as Hit.
    eapply covered_conn; try done. rewrite ctried_taken. unfold ckept. cbn [taken n_out]. rewrite H1. change (requeues []) with (@nil msg). rewrite pc_nil.
    assert (ctried x n1 = ctried x n) as -> by (unfold ctried; by rewrite I5).
    assert (k_sublist (n_c (taken n1 i o)) = k_sublist (i_c o)) as -> by (cbn; by destruct (i_stop o)). rewrite !pc_app. unfold handed. lia.
  - eapply covered_conn; try done. unfold ctried, ckept, handed. cbn [with_out n_c n_out n_log]. rewrite H0, app_assoc, (requeues_app _ [r]), pc_app.
    change (r :: rs) with ([r] ++ rs). rewrite requeues_app, pc_app. lia.
  - assert (Hfr : forall s, fr hp' s = fr (y_heap y) s).
    { intros s. destruct H3; try done. rewrite fr_insert. destruct (decide (s = s0)) as [->|]; [|done]. unfold fr. by rewrite H5. }
    eapply covered_conn; try done. unfold ctried. assert (n_log n' = n_log n) as -> by (by destruct H3). unfold ckept. rewrite !(hm_ext (y_heap y) hp') by auto. rewrite H0.
    change (requeues []) with (@nil msg). rewrite pc_nil. unfold handed.
    enough (pc x (hm (y_heap y) (k_sublist (n_c n))) <= pc x (requeues (n_out n')) + pc x (hm (y_heap y) (k_sublist (n_c n')))) by lia.
    destruct H3; cbn [with_out with_phase with_write with_sub_ch with_c n_out n_sub n_c k_sublist set_sublist set_subs]; try lia.
    rewrite H4, hm_cons. assert (fr (y_heap y) s = Some m) as -> by (unfold fr; by rewrite H5). change (requeues [RRequeue m]) with [m]. rewrite ol_some, pc_app. lia.
  - pose proof (serve_cases _ _ _ _ _ _ H1) as Hs. unfold covered in *. unfold handed in *. cbn [y_conns y_heap y_req y_blog y_fin y_lost].
    assert (sum_list_with (ckept x hp) (y_conns y) = sum_list_with (ckept x (y_heap y)) (y_conns y)) as ->.
    { assert (forall c n, y_conns y !! c = Some n -> ckept x hp n = ckept x (y_heap y) n) as Hl.
      { intros c n Hn. unfold ckept. rewrite !(hm_ext (y_heap y) hp); [done|].
        intros s Hin. eapply serve_frames; [done|]. apply (tk_hold _ HT). unfold hold. pose proof (sum_pos (chold s) _ _ _ Hn).
        assert (0 < chold s n) by (eapply hold_in; [done|]; set_solver). lia. }
      clear -Hl. induction (y_conns y) as [|a l IH]; [done|]. cbn. rewrite (Hl 0 a) by done. rewrite IH; [done|]. intros c n. apply (Hl (S c)). }
    rewrite fmap_app, <-app_assoc. cbn [fmap list_fmap fst app]. rewrite H0 in HB. exact HB.
  - eapply covered_conn; try done.
  - eapply covered_conn; try done.
Qed.
Lemma covered_reach cfg x y : reach cfg y -> covered x y.
Proof. revert y. apply reach_ind'; [unfold covered; cbn; lia|]. intros y y' Hr HB Hm. eapply covered_move; try done; [by eapply reach_wf|by eapply reach_tok]. Qed.
Lemma pc_flat {A} x (f : A -> list msg) l : sum_list_with (fun a => pc x (f a)) l = pc x (concat (f <$> l)).
Proof. symmetry. apply pc_concat. Qed.
Lemma attempts_pc x y : pc x (attempts y) = sum_list_with (ctried x) (y_conns y).
Proof. unfold attempts. rewrite <-pc_flat. done. Qed.
Lemma given_back_pc x y : pc x (given_back y) = pc x (requeues (handed y)) + sum_list_with (fun n => pc x (requeues (n_out n))) (y_conns y).
Proof. unfold given_back. by rewrite pc_app, <-pc_flat. Qed.
Lemma sent_pc cfg x y : reach cfg y -> pc x (sent y) <= 1.
Proof.
  intros Hr. pose proof (sent_once _ _ Hr) as Hn. unfold pc. revert Hn. generalize (sent y). intros l. induction l as [|a l IH]; [cbn; lia|]. cbn [fmap list_fmap cnt]. intros [Ha Hl]%NoDup_cons.
  destruct (decide (payload a = x)) as [<-|]; [|by apply IH]. assert (cnt (payload a) (payload <$> l) = 0) as ->; [|lia].
  apply cnt_0. intros (b & E & Hb)%elem_of_list_fmap. apply Ha. apply elem_of_list_fmap. exists b. split; [|done]. change (g_uid (payload a) = g_uid (payload b)). by rewrite E.
Qed.
(** At most one attempt for every time the message was with the processor. *)
Lemma attempts_bound cfg y d m : reach cfg y -> is_queue d = true -> hget_of m h_destination = Some d -> times m (attempts y) <= times m (sent y) + times m (given_back y).
Proof.
  intros Hr Hq Hd. rewrite !times_pc. set (x := payload m). assert (hget_of x h_destination = Some d) as Hx by (unfold x; by rewrite payload_dest).
  pose proof (balance_reach _ x d y Hx Hq Hr) as HB. pose proof (covered_reach _ x _ Hr) as HC. unfold balance in HB. unfold covered in HC. rewrite attempts_pc, given_back_pc.
  assert (pc x (sent y) = sum_list_with (csent x) (y_conns y)) as -> by (unfold sent; by rewrite <-pc_flat).
  rewrite HB. unfold ckept in HC. rewrite sum_plus in HC.
  assert (sum_list_with (fun n => pc x (hm (y_heap y) (k_sublist (n_c n)))) (y_conns y) <= sum_list_with (cheld x (y_heap y)) (y_conns y)) as HS.
  { clear. induction (y_conns y) as [|n l IH]; [done|]. cbn [sum_list_with]. unfold cheld at 1. lia. }
  lia.
Qed.
Lemma attempts_once cfg y d m : reach cfg y -> is_queue d = true -> hget_of m h_destination = Some d -> times m (attempts y) <= 1 + times m (given_back y).
Proof. intros Hr Hq Hd. pose proof (attempts_bound _ _ _ _ Hr Hq Hd). pose proof (sent_pc _ (payload m) _ Hr). rewrite <-times_pc in H0. lia. Qed.

(** A message that is finished is never tried again. *)
Lemma fin_once cfg x d y : reach cfg y -> is_queue d = true -> hget_of x h_destination = Some d -> 0 < pc x (finished y) ->
  sum_list_with (cheld x (y_heap y)) (y_conns y) = 0 /\ pc x (rmsgs (y_req y)) = 0 /\ pc x (waiting (y_broker y) d) = 0 /\ pc x (hm (y_heap y) (psub (y_pout y))) = 0.
Proof.
  intros Hr Hq Hx Hf. pose proof (balance_reach _ x d y Hx Hq Hr) as HB. pose proof (sent_pc _ x _ Hr) as HS. unfold balance in HB. unfold finished in Hf. rewrite pc_app in Hf.
  assert (pc x (sent y) = sum_list_with (csent x) (y_conns y)) as E by (unfold sent; by rewrite <-pc_flat). lia.
Qed.
Lemma fin_move cfg x d y y' : reach cfg y -> is_queue d = true -> hget_of x h_destination = Some d -> 0 < pc x (finished y) -> move cfg y y' ->
  0 < pc x (finished y') /\ pc x (attempts y') = pc x (attempts y).
Proof.
  intros Hr Hq Hx Hf Hm. destruct (fin_once _ _ _ _ Hr Hq Hx Hf) as (F1 & _). rewrite !attempts_pc. unfold finished in *. rewrite pc_app in Hf. rewrite pc_app.
  assert (HU : forall c n n', y_conns y !! c = Some n -> ctried x n' = ctried x n -> sum_list_with (ctried x) (<[c := n']> (y_conns y)) = sum_list_with (ctried x) (y_conns y)).
  { intros c n n' Hn E. pose proof (sum_upd (ctried x) _ _ _ n' Hn). lia. }
  destruct Hm; cbn [set_conn y_fin y_lost y_conns]; try (split; [done|]; by eapply HU).
  - split; [done|]. rewrite sum_list_with_app. cbn [sum_list_with]. change (ctried x sconn_init) with 0. lia.
  - split; [rewrite !pc_app; lia|]. eapply HU; [done|]. rewrite ctried_taken. destruct (take_input_cases _ _ _ _ H2) as (I1 & I2 & I3 & I4 & I5 & I6).
    assert (ctried x n1 = ctried x n) as -> by (unfold ctried; by rewrite I5). enough (pc x (tried (mkCev i (i_wr o) (i_push o) (i_stop o))) = 0) by lia.
    unfold tried. cbn [v_in v_wr]. destruct i as [m| |m|s|]; try done. destruct I6 as [I6 _].
    pose proof (sum_pos (cheld x (y_heap y)) _ _ _ H) as HP. rewrite F1 in HP. unfold cheld in HP. rewrite I6, hm_cons, pc_app in HP.
    pose proof (co_tx _ _ _ (wf_conns _ (reach_wf _ _ Hr) _ _ H)) as Htx. apply conn_iter_shape in H3; [|done].
    inversion H3 as [? ? K|?|?|?|s0 sb m o0 K1 K2 _ _ _ _ _ K3|s0 sb m o0 nn m' K1 K2 _ _ K4 _ _ _ K3 _|s0 sb m o0 nn m' K1 K2 _ _ K4 _ _ _ _ K3 _|s0 sb m o0 nn m' K1 K2 _ _ K4 _ _ _ _ _ K3 _]; subst; [by destruct (K s)|by rewrite K3|..];
      (rewrite K3; cbn [omap list_omap fst]; assert (fr (y_heap y) s = Some m) as E by (unfold fr; by rewrite K1); rewrite E, ol_some in HP; rewrite (pc_one x m) by (by eapply payload_alloc); lia).
  - split; [done|]. eapply HU; [done|]. unfold ctried. by destruct H3.
  - done.
Qed.
Lemma fin_run cfg x d y l y' : reach cfg y -> is_queue d = true -> hget_of x h_destination = Some d -> 0 < pc x (finished y) -> run cfg y l = Some (Fine y') -> pc x (attempts y') = pc x (attempts y).
Proof.
  intros Hr Hq Hx. revert y Hr. induction l as [|a l IH]; intros y Hr Hf Hl; cbn in Hl; [by injection Hl as <-|].
  destruct (step cfg y a) as [[p|y1]|] eqn:E; [done| |done]. apply step_move in E as Hm. destruct (fin_move _ _ _ _ _ Hr Hq Hx Hf Hm) as [F1 F2]. rewrite <-F2. apply IH; [|done|done]. by eapply reach_step.
Qed.

(** A message written to a subscription in auto mode is finished. *)
Lemma fin_grows cfg x y y' : move cfg y y' -> pc x (y_fin y) <= pc x (y_fin y').
Proof. intros Hm. destruct Hm; cbn [y_fin set_conn]; rewrite ?pc_app; lia. Qed.
Lemma auto_fin cfg y c n e s m' sb : reach cfg y -> y_conns y !! c = Some n -> e ∈ n_log n -> v_in e = InSub s -> v_wr e = [(Some m', true)] ->
  y_heap y !! s = Some sb -> s_ack sb = ack_auto -> 0 < pc (payload m') (y_fin y).
Proof.
  intros Hr Hn He Hi Hw Hs Ha.
  set (P := fun (_ : list cev) (e : cev) (y : sys) => forall s m', v_in e = InSub s -> v_wr e = [(Some m', true)] ->
    exists sb, y_heap y !! s = Some sb /\ (s_ack sb = ack_auto -> 0 < pc (payload m') (y_fin y))).
  apply elem_of_list_split in He as (pre & post & He).
  assert (P pre e y) as HP.
  { eapply (log_inv cfg P); [| |done..]; clear.
    - intros y y' pre e Hr Hm HP s m' Hi Hw. destruct (HP _ _ Hi Hw) as (sb & Hs & Hf).
      destruct (move_hext _ _ _ (reach_wf _ _ Hr) Hm _ _ Hs) as (sb' & Hs' & E). exists sb'. split; [done|]. intros Ha.
      pose proof (fin_grows _ (payload m') _ _ Hm). assert (s_ack sb = ack_auto) as Hb by (unfold attr in E; congruence). specialize (Hf Hb). lia.
    - intros y c n x w1 w2 i n1 o Hr Hn Hp Ho Ht Hc Hm s m' Hi Hw. cbn in Hi, Hw. subst i. unfold take_result. cbn [y_heap y_fin].
      pose proof (co_tx _ _ _ (wf_conns _ (reach_wf _ _ Hr) _ _ Hn)) as Htx. apply conn_iter_shape in Hc; [|done].
      inversion Hc as [? ? K|?|?|?|s0 sb m o0 K1 K2 _ _ _ _ _ K3|s0 sb m o0 nn m0 K1 K2 _ _ K4 _ _ _ K3 _|s0 sb m o0 nn m0 K1 K2 K5 _ K4 _ _ K6 _ K3 _|s0 sb m o0 nn m0 K1 K2 K5 _ K4 K6 _ _ _ _ K3 _]; subst;
        [by destruct (K s)|by rewrite K3 in Hw|by rewrite K3 in Hw|..].
      + rewrite K3 in Hw. injection Hw as <-. rewrite K5, lookup_insert. eexists. split; [done|]. intros _. rewrite pc_app, K6, finals_fr.
        assert (fr (y_heap y) s = Some m) as -> by (unfold fr; by rewrite K1). rewrite ol_some, pc_app.
        assert (pc (payload m0) [m] = 1) as ->; [|lia]. rewrite (payload_alloc _ _ _ _ _ K4). unfold pc. cbn [fmap list_fmap cnt]. by rewrite decide_True.
      + rewrite K5, lookup_insert. eexists. split; [done|]. cbn. done. }
  destruct (HP _ _ Hi Hw) as (sb0 & Hs0 & Hf). apply Hf. congruence.
Qed.
