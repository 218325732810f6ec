(** When the server can move, and requeueing several messages. *)
From Verif Require Import GoBase HeaderModel FrameModel GrammarSpec HeaderProofs NegotiationModel NegotiationSpec NegotiationLemmas
  BrokerModel BrokerSpec BrokerProofs ServerConnModel ServerConnSpec ServerConnProofs SystemModel SystemLemmas SystemSpec SystemProofs SystemTokens
  SystemMessages SystemUids SystemHistory SystemPanics SystemCleanup.

Global Instance phase_eq : EqDecision phase.
Proof. solve_decision. Defined.
Lemma iter_enabled cfg y c n x i n1 : y_conns y !! c = Some n -> n_phase n = Running -> n_out n = [] -> take_input n x = Some (i, n1) ->
  step cfg y (ATake c x true true) <> None.
Proof.
  intros Hn Hp Ho Ht. cbn [step]. unfold do_take. rewrite Hn, Hp. unfold idle. rewrite Ho, Ht. by destruct (conn_iter _ _ _ _ _ _ _ _).
Qed.
Lemma clean_enabled cfg y c n : y_conns y !! c = Some n -> n_phase n <> Running -> n_phase n <> Dead -> n_out n = [] ->
  exists pick, step cfg y (AClean c pick) <> None.
Proof.
  intros Hn Hp1 Hp2 Ho.
  assert (exists pick r, clean_step c n (y_heap y) pick = Some r) as (pick & r & Hr).
  { unfold clean_step. destruct (n_phase n); try done; try (exists []; eexists; reflexivity).
    - destruct (decide (k_subs (n_c n) = ∅)) as [|Hne]; [exists []; eauto|]. apply map_choose in Hne as (k & s & Hk). exists k. rewrite Hk. eauto.
    - exists []. destruct (sl_get _ _) as [[[s hp'] l]|]; [|eauto]. destruct (hp' !! s) as [sb|]; [|eauto]. destruct (s_frame sb); eauto. }
  exists pick. cbn [step]. unfold do_clean. rewrite Hn. unfold idle. rewrite Ho, Hr. by destruct r as [p|[n' hp']].
Qed.
Lemma stalled_reason cfg y : reach cfg y -> stalled cfg y -> pending y ->
  exists n, processor_waits y n /\ (n_phase n = Dead \/ n_out n <> [] /\ length (y_req y) = cap_req).
Proof.
  intros Hr Hs Hp. pose proof (reach_wf _ _ Hr) as HW.
  assert (Hlen : length (y_req y) <= cap_req).
  { clear -Hr. revert y Hr. apply (reach_ind' cfg (fun y => length (y_req y) <= cap_req)); [cbn; lia|]. intros y y' _ IH Hm. destruct Hm; cbn [y_req set_conn] in *; try done.
    - rewrite app_length. cbn. lia.
    - rewrite H0 in IH. cbn in IH. lia. }
  assert (Hpush : forall c n, y_conns y !! c = Some n -> n_out n <> [] -> length (y_req y) = cap_req).
  { intros c n Hn Ho. specialize (Hs (APush c) I). cbn [step] in Hs. unfold do_push in Hs. rewrite Hn in Hs. destruct (n_out n); [done|].
    destruct (decide _); [done|]. lia. }
  assert (Hreq : y_req y <> [] -> y_pout y <> []).
  { intros Hq Hpo. specialize (Hs AProc I). cbn [step] in Hs. unfold do_proc in Hs. rewrite Hpo in Hs. destruct (y_req y); [done|].
    by destruct (serve _ _ _) as [|[[b hp] outs]]. }
  assert (Htake : forall c n, y_conns y !! c = Some n -> n_phase n = Running -> n_out n = [] -> n_read n = [] /\ n_write n = [] /\ n_sub n = []).
  { intros c n Hn Hph Ho. split_and!.
    - destruct (n_read n) as [|m l] eqn:E; [done|]. exfalso. eapply (iter_enabled cfg y c n SelRead); [done|done|done|cbn; by rewrite E|by apply Hs].
    - destruct (n_write n) as [|m l] eqn:E; [done|]. exfalso. eapply (iter_enabled cfg y c n SelWrite); [done|done|done|cbn; by rewrite E|by apply Hs].
    - destruct (n_sub n) as [|m l] eqn:E; [done|]. exfalso. eapply (iter_enabled cfg y c n SelSub); [done|done|done|cbn; by rewrite E|by apply Hs]. }
  assert (Hpo : y_pout y <> []).
  { destruct Hp as [H|[H|(c & n & Hn & Hp)]]; [auto|done|].
    assert (n_out n <> [] -> y_pout y <> []) as Hout.
    { intros Ho. apply Hreq. specialize (Hpush _ _ Hn Ho). intros E. rewrite E in Hpush. done. }
    destruct Hp as [Ho|[[P1 P2]|[P1 P2]]]; [auto|..]; (destruct (n_out n) eqn:Ho; [|by apply Hout]); exfalso.
    - destruct (clean_enabled cfg y c n Hn P1 P2 Ho) as [pick Hc]. apply Hc. by apply Hs.
    - destruct (Htake _ _ Hn P1 Ho) as (E1 & E2 & E3). rewrite E1, E2, E3 in P2. by destruct P2 as [?|[?|?]]. }
  destruct (y_pout y) as [|o os] eqn:Epo; [done|]. pose proof (wf_pout _ HW) as Wp. rewrite Epo in Wp. apply Forall_cons in Wp as [Wo _].
  specialize (Hs AOut I) as Hao. cbn [step] in Hao. unfold do_out in Hao. rewrite Epo in Hao.
  assert (Hfin : forall c n, y_conns y !! c = Some n -> processor_waits y n -> cap_write <= length (n_sub n) \/ cap_write <= length (n_write n) ->
    exists n, processor_waits y n /\ (n_phase n = Dead \/ n_out n <> [] /\ length (y_req y) = cap_req)).
  { intros c n Hn Hw Hfull. exists n. split; [done|]. destruct (n_out n) as [|r rs] eqn:Ho.
    - destruct (decide (n_phase n = Dead)) as [|Hd]; [by left|]. exfalso. destruct (decide (n_phase n = Running)) as [Hrn|Hrn].
      + destruct (Htake _ _ Hn Hrn Ho) as (_ & E1 & E2). rewrite E1, E2 in Hfull. unfold cap_write in Hfull. cbn in Hfull. lia.
      + destruct (clean_enabled cfg y c n Hn Hrn Hd Ho) as [pick Hc]. apply Hc. by apply Hs.
    - right. split; [done|]. eapply Hpush; [done|]. by rewrite Ho. }
  destruct o as [c s m|c m]; cbn [pout_ok] in Wo.
  - destruct Wo as [(sb & Hsb & Hc) _]. destruct (wf_sub _ HW _ _ Hsb) as (Hlt & _). rewrite Hc in Hlt. apply lookup_lt_is_Some in Hlt as [n Hn].
    rewrite Hn in Hao. destruct (decide (length (n_sub n) < cap_write)) as [|Hfull]; [done|]. apply (Hfin c n Hn); [|lia].
    exists (OutSub c s m), os, c. split_and!; (done || lia).
  - destruct Wo as [Hlt _]. apply lookup_lt_is_Some in Hlt as [n Hn].
    rewrite Hn in Hao. destruct (decide (length (n_write n) < cap_write)) as [|Hfull]; [done|]. apply (Hfin c n Hn); [|lia].
    exists (OutTopic c m), os, c. split_and!; (done || lia).
Qed.

(** A check that a state is stuck. *)
Definition still (full : bool) (n : sconn) : bool :=
  match n_out n with
  | _ :: _ => full
  | [] => match n_phase n with
          | Dead => true
          | Running => bool_decide (n_read n = []) && negb (n_eof n) && bool_decide (n_write n = []) && bool_decide (n_sub n = []) && negb (0 <? k_wt (n_c n))%Z
          | _ => false
          end
  end.
Definition stuckb (y : sys) : bool :=
  forallb (still (bool_decide (cap_req <= length (y_req y)))) (y_conns y) &&
  match y_pout y with
  | [] => bool_decide (y_req y = [])
  | o :: _ => let c := match o with OutSub c _ _ | OutTopic c _ => c end in
              match y_conns y !! c with
              | None => true
              | Some n => match o with OutSub _ _ _ => bool_decide (cap_write <= length (n_sub n)) | OutTopic _ _ => bool_decide (cap_write <= length (n_write n)) end
              end
  end.
Lemma stuckb_ok cfg y : stuckb y = true -> stuck cfg y.
Proof.
  unfold stuckb. rewrite andb_true_iff. intros [H1 H2] a Ha. rewrite forallb_forall in H1.
  assert (Hst : forall c n, y_conns y !! c = Some n -> still (bool_decide (cap_req <= length (y_req y))) n = true).
  { intros c n Hn. apply H1. apply elem_of_list_In. by eapply elem_of_list_lookup_2. }
  destruct a as [|c f|c|c x w1 w2|c|c pick| |]; try done; cbn [step].
  - unfold do_take. destruct (y_conns y !! c) as [n|] eqn:Hn; [|done]. specialize (Hst _ _ Hn). unfold still in Hst. destruct (n_phase n); try done. unfold idle.
    destruct (n_out n); [|done]. rewrite !andb_true_iff, !bool_decide_eq_true, !negb_true_iff in Hst. destruct Hst as ((((E1 & E2) & E3) & E4) & E5).
    destruct x; cbn [take_input]; [rewrite E1, E2|rewrite E3|rewrite E4|rewrite E5]; done.
  - unfold do_push. destruct (y_conns y !! c) as [n|] eqn:Hn; [|done]. specialize (Hst _ _ Hn). unfold still in Hst. destruct (n_out n); [done|].
    apply bool_decide_eq_true in Hst. by rewrite decide_False by lia.
  - unfold do_clean. destruct (y_conns y !! c) as [n|] eqn:Hn; [|done]. specialize (Hst _ _ Hn). unfold still in Hst. unfold idle. destruct (n_out n); [|done].
    unfold clean_step. by destruct (n_phase n).
  - unfold do_proc. destruct (y_pout y); [|done]. apply bool_decide_eq_true in H2. by rewrite H2.
  - unfold do_out. destruct (y_pout y) as [|o os]; [done|]. destruct o as [c s m|c m]; cbn in H2; destruct (y_conns y !! c) as [n|]; try done; apply bool_decide_eq_true in H2;
      by rewrite decide_False by lia.
Qed.

(** Requeueing. *)
Lemma requeue_waits b hp d m : hget_of m h_destination = Some d -> is_queue d = true -> ready b d = [] ->
  exists b', serve b hp (RRequeue m) = Fine (b', hp, []) /\ waiting b' d = m :: waiting b d /\ ready b' d = [] /\
    (forall d', d' <> d -> waiting b' d' = waiting b d').
Proof.
  intros Hd Hq Hr. unfold hget_of in Hd. cbn [serve]. rewrite Hd, Hq. unfold queue_requeue, queue_send, sl_get. rewrite Hr. eexists. split; [reflexivity|].
  unfold waiting, ready, mq_requeue, mq_list in *. cbn [b_store b_ready]. rewrite lookup_insert. split_and!; [done|done|]. intros d' Hne. by rewrite lookup_insert_ne.
Qed.
Lemma requeue_many b hp d ms : is_queue d = true -> ready b d = [] -> Forall (fun m => hget_of m h_destination = Some d) ms ->
  exists b', serve_all b hp (RRequeue <$> ms) = Fine (b', hp, []) /\ waiting b' d = reverse ms ++ waiting b d /\
    (forall d', d' <> d -> waiting b' d' = waiting b d').
Proof.
  intros Hq Hr HF. revert b Hr. induction HF as [|m ms Hm HF IH]; intros b Hr; cbn [fmap list_fmap serve_all].
  - exists b. done.
  - destruct (requeue_waits b hp d m Hm Hq Hr) as (b1 & E1 & W1 & R1 & O1). rewrite E1. destruct (IH b1 R1) as (b2 & E2 & W2 & O2). rewrite E2.
    exists b2. split_and!; [done| |].
    + rewrite W2, W1, reverse_cons, <-app_assoc. done.
    + intros d' Hne. by rewrite O2, O1.
Qed.
