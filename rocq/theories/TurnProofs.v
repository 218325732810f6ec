(** Proofs about waiting for one's turn. *)
From Verif Require Import GoBase HeaderModel FrameModel BrokerModel ServerConnModel ServerConnSpec ServerConnProofs SystemModel SystemSpec
  SystemLemmas SystemProofs SystemCleanup SystemTokens RestProofs TurnSpec.

Lemma serve_sends b hp r b' hp' outs N : serve b hp r = Fine (b', hp', outs) -> (forall d, length (members b d) <= N) -> length outs <= 1 `max` N.
Proof.
  intros Hs HN. apply serve_cases in Hs. destruct Hs; cbn [length]; try lia.
  apply Forall2_length in H1. specialize (HN d). lia.
Qed.
Lemma iter_next cfg y c n w1 w2 i o : reach cfg y -> y_conns y !! c = Some n ->
  conn_iter cfg c w1 w2 (n_c n) (y_heap y) (y_next y) i = Fine o -> y_next y <= i_next o.
Proof.
  intros Hr Hn Ho. pose proof (conn_iter_shape _ _ _ _ _ _ _ _ _ (co_tx _ _ _ (wf_conns _ (reach_wf _ _ Hr) _ _ Hn)) Ho) as Hs.
  destruct Hs; lia.
Qed.

(** The processor's channel. *)
Record req_turn (y y' : sys) (p q : nat) : Prop := {
  rt_log : exists more, y_blog y' = y_blog y ++ more;
  rt_line : exists new, (y_blog y').*1 ++ y_req y' = (y_blog y).*1 ++ y_req y ++ new;
  rt_len : length (y_blog y') = length (y_blog y) + p;
  rt_next : y_next y <= y_next y';
  rt_out : q + length (y_pout y') <= length (y_pout y) + p * (1 `max` y_next y')
}.
Lemma req_turn_refl y : req_turn y y 0 0.
Proof. split; try lia; [exists []|exists []]; by rewrite ?app_nil_r. Qed.
Lemma req_turn_trans y1 y2 y3 p q p' q' : req_turn y1 y2 p q -> req_turn y2 y3 p' q' -> req_turn y1 y3 (p + p') (q + q').
Proof.
  intros [[m1 A1] [n1 A2] A3 A4 A5] [[m2 B1] [n2 B2] B3 B4 B5]. split; [|..|lia|lia|].
  - exists (m1 ++ m2). by rewrite B1, A1, <- app_assoc.
  - exists (n1 ++ n2). rewrite B2, app_assoc, A2, <- !app_assoc. done.
  - assert (p * (1 `max` y_next y2) <= p * (1 `max` y_next y3)) by (apply Nat.mul_le_mono_l; lia). lia.
Qed.
Lemma same_req_turn y y' : y_blog y' = y_blog y -> y_req y' = y_req y -> y_pout y' = y_pout y -> y_next y <= y_next y' -> req_turn y y' 0 0.
Proof. intros E1 E2 E3 H. split; rewrite ?E1, ?E2, ?E3; try lia; exists []; by rewrite ?app_nil_r. Qed.
Lemma step_req cfg y a y' : reach cfg y -> step cfg y a = Some (Fine y') -> req_turn y y' (takes_request a) (hands_over a).
Proof.
  intros Hr. destruct a as [|c f|c|c x w1 w2|c|c pick| |]; cbn [step takes_request hands_over].
  - intros [= <-]. by apply same_req_turn.
  - intros H%fine_Some. unfold do_recv in H. destruct (y_conns y !! c) as [n|] eqn:Hn; [|done]. destruct (n_eof n) eqn:He; [done|].
    destruct (decide _); [|done]. injection H as <-. by apply same_req_turn.
  - intros H%fine_Some. unfold do_eof in H. destruct (y_conns y !! c) as [n|] eqn:Hn; [|done]. destruct (n_eof n) eqn:He; [done|].
    injection H as <-. by apply same_req_turn.
  - unfold do_take. destruct (y_conns y !! c) as [n|] eqn:Hn; [|done]. destruct (n_phase n) eqn:Hp; try done.
    destruct (idle n) eqn:Hi; [|done]. destruct (take_input n x) as [[i n1]|] eqn:Ht; [|done].
    destruct (conn_iter cfg c w1 w2 (n_c n) (y_heap y) (y_next y) i) as [p|o] eqn:Ho; [done|]. intros [= <-].
    apply same_req_turn; try done. cbn [y_next]. by eapply iter_next.
  - intros H%fine_Some. unfold do_push in H. destruct (y_conns y !! c) as [n|] eqn:Hn; [|done]. destruct (n_out n) as [|r rs] eqn:He; [done|].
    destruct (decide _); [|done]. injection H as <-. split; cbn [y_blog y_req y_next y_pout]; try lia; [exists []; by rewrite app_nil_r|by exists [r]].
  - unfold do_clean. destruct (y_conns y !! c) as [n|] eqn:Hn; [|done]. destruct (idle n) eqn:Hi; [|done].
    destruct (clean_step c n (y_heap y) pick) as [[p|[n' hp']]|] eqn:E; [done| |done]. intros [= <-]. by apply same_req_turn.
  - unfold do_proc. destruct (y_pout y) eqn:Ho; [|done]. destruct (y_req y) as [|r rs] eqn:Hrq; [done|].
    destruct (serve (y_broker y) (y_heap y) r) as [p|[[b hp] outs]] eqn:E; [done|]. intros [= <-].
    split; cbn [y_blog y_req y_next y_pout]; try lia.
    + by exists [(r, outs)].
    + exists []. rewrite Hrq, fmap_app, app_nil_r, <- app_assoc. done.
    + rewrite app_length. done.
    + rewrite Ho. cbn [length]. assert (length outs <= 1 `max` y_next y); [|lia]. eapply serve_sends; [done|]. intros d.
      apply members_bound; [by eapply reach_wf|by eapply reach_tok].
  - intros H%fine_Some. unfold do_out in H. destruct (y_pout y) as [|o os] eqn:Ho; [done|].
    destruct o as [c s m|c m]; (destruct (y_conns y !! c) as [n|] eqn:Hn; [|done]); (destruct (decide _); [|done]); injection H as <-;
      (split; cbn [y_blog y_req y_next y_pout]; rewrite ?Ho; cbn [length]; try lia; exists []; by rewrite ?app_nil_r).
Qed.
Lemma run_req cfg l y y' : reach cfg y -> run cfg y l = Some (Fine y') -> req_turn y y' (total takes_request l) (total hands_over l).
Proof.
  revert y. induction l as [|a l IH]; intros y Hr; cbn [run].
  - intros [= <-]. apply req_turn_refl.
  - destruct (step cfg y a) as [[p|y1]|] eqn:Hs; [done| |done]. intros Hrun. unfold total. cbn [sum_list_with]. eapply req_turn_trans; [by eapply step_req|].
    apply IH; [by eapply reach_step|done].
Qed.
Lemma req_len cfg y : reach cfg y -> length (y_req y) <= cap_req.
Proof.
  revert y. apply (reach_ind' cfg (fun y => length (y_req y) <= cap_req)); [cbn; lia|]. intros y y' _ IH Hm. destruct Hm; cbn [y_req set_conn] in *; try done.
  - rewrite app_length. cbn. lia.
  - rewrite H0 in IH. cbn in IH. lia.
Qed.
Lemma served cfg l y y' k r : reach cfg y -> run cfg y l = Some (Fine y') -> y_req y !! k = Some r ->
  if decide (k < total takes_request l) then (y_blog y').*1 !! (length (y_blog y) + k) = Some r else y_req y' !! (k - total takes_request l) = Some r.
Proof.
  intros Hr Hrun Hk. destruct (run_req _ _ _ _ Hr Hrun) as [_ [new H2] H3 _ _].
  assert (((y_blog y').*1 ++ y_req y') !! (length (y_blog y) + k) = Some r) as H.
  { rewrite H2. rewrite lookup_app_r; rewrite fmap_length; [|lia]. replace (_ + k - _) with k by lia. by apply lookup_app_l_Some. }
  destruct (decide _) as [Hlt|Hge].
  - rewrite lookup_app_l in H; [done|]. rewrite fmap_length. lia.
  - rewrite lookup_app_r in H; rewrite fmap_length in *; [|lia]. rewrite <- H. f_equal. lia.
Qed.
Lemma busy cfg l y y' k : reach cfg y -> run cfg y l = Some (Fine y') ->
  length (y_pout y) + k * (1 + 1 `max` y_next y') < total takes_request l + total hands_over l -> k < total takes_request l.
Proof.
  intros Hr Hrun Hk. destruct (run_req _ _ _ _ Hr Hrun) as [_ _ _ _ H]. destruct (decide (k < total takes_request l)); [done|]. exfalso.
  assert (total takes_request l * (1 `max` y_next y') <= k * (1 `max` y_next y')) by (apply Nat.mul_le_mono_r; lia). lia.
Qed.

(** A connection's channels. *)
Definition line_turn (x : sel) (n n' : sconn) (t : nat) : Prop :=
  (exists new, past x n' ++ line x n' = past x n ++ line x n ++ new) /\ length (past x n') = length (past x n) + t.
Lemma line_turn_trans x n1 n2 n3 t t' : line_turn x n1 n2 t -> line_turn x n2 n3 t' -> line_turn x n1 n3 (t + t').
Proof.
  intros [[l1 A1] A2] [[l2 B1] B2]. split; [|lia]. exists (l1 ++ l2). by rewrite B1, app_assoc, A1, <- !app_assoc.
Qed.
Lemma same_line x n n' : n_log n' = n_log n -> (exists new, line x n' = line x n ++ new) -> line_turn x n n' 0.
Proof. intros E [new H]. unfold line_turn, past. rewrite E, H. split; [by exists new|lia]. Qed.
Lemma line_turn_refl x n : line_turn x n n 0.
Proof. apply same_line; [done|]. exists []. by rewrite app_nil_r. Qed.
Lemma take_line cfg cid w1 w2 x x' n i n1 hp nx o : take_input n x' = Some (i, n1) -> conn_iter cfg cid w1 w2 (n_c n) hp nx i = Fine o -> i_stop o = false ->
  line_turn x n (taken n1 i o) (takes_from cid x (ATake cid x' w1 w2)).
Proof.
  intros Ht Ho Hst. unfold line_turn, past, takes_from, taken. cbn [n_log].
  destruct x'; cbn [take_input] in Ht.
  - destruct (n_read n) as [|m l] eqn:E.
    + destruct (n_eof n); [|done]. injection Ht as <- <-. cbn in Ho. by injection Ho as <-.
    + injection Ht as <- <-. cbn [n_log]. rewrite fmap_app, concat_app. cbn [fmap list_fmap concat v_in from_line]. destruct x; cbn [line n_read n_write n_sub from_line]; rewrite ?E.
      * rewrite decide_True by done. cbn. split; [exists []; by rewrite app_nil_r, <- app_assoc|by rewrite app_length].
      * split; [exists []; by rewrite !app_nil_r|rewrite app_nil_r; lia].
      * split; [exists []; by rewrite !app_nil_r|rewrite app_nil_r; lia].
      * split; [exists []; by rewrite !app_nil_r|rewrite app_nil_r; lia].
  - destruct (n_write n) as [|m l] eqn:E; [done|].
    injection Ht as <- <-. cbn [n_log]. rewrite fmap_app, concat_app. cbn [fmap list_fmap concat v_in from_line]. destruct x; cbn [line n_read n_write n_sub from_line]; rewrite ?E.
    2: { rewrite decide_True by done. cbn. split; [exists []; by rewrite app_nil_r, <- app_assoc|by rewrite app_length]. }
    all: split; [exists []; by rewrite !app_nil_r|rewrite app_nil_r; lia].
  - destruct (n_sub n) as [|m l] eqn:E; [done|].
    injection Ht as <- <-. cbn [n_log]. rewrite fmap_app, concat_app. cbn [fmap list_fmap concat v_in from_line]. destruct x; cbn [line n_read n_write n_sub from_line]; rewrite ?E.
    3: { rewrite decide_True by done. cbn. split; [exists []; by rewrite app_nil_r, <- app_assoc|by rewrite app_length]. }
    all: split; [exists []; by rewrite !app_nil_r|rewrite app_nil_r; lia].
  - destruct (0 <? k_wt (n_c n))%Z; [|done]. injection Ht as <- <-. rewrite fmap_app, concat_app. cbn [fmap list_fmap concat v_in].
    destruct x; cbn [line n_read n_write n_sub from_line app]; (split; [exists []; by rewrite !app_nil_r|rewrite app_nil_r; lia]).
Qed.
Lemma step_line cfg y a y' c x n n' : step cfg y a = Some (Fine y') -> y_conns y !! c = Some n -> y_conns y' !! c = Some n' -> n_phase n' = Running ->
  n_phase n = Running /\ line_turn x n n' (takes_from c x a).
Proof.
  intros Hs Hn Hn' Hp.
  assert (Hupd : forall c0 n0 n2 k, y_conns y !! c0 = Some n0 -> <[c0 := n2]> (y_conns y) !! c = Some n' ->
    (c0 <> c -> k = 0) -> (c0 = c -> n0 = n -> n_phase n2 = Running -> n_phase n = Running /\ line_turn x n n2 k) ->
    n_phase n = Running /\ line_turn x n n' k).
  { intros c0 n0 n2 k E1 E2 Hk H. destruct (decide (c0 = c)) as [->|Hne].
    - rewrite list_lookup_insert in E2 by (by eapply lookup_lt_Some). injection E2 as ->. apply H; [done|congruence|done].
    - rewrite list_lookup_insert_ne in E2 by done. rewrite Hk by done. assert (n' = n) as -> by congruence. split; [done|apply line_turn_refl]. }
  revert Hs. destruct a as [|c0 f|c0|c0 x' w1 w2|c0|c0 pick| |]; cbn [step].
  - intros [= <-]. cbn [y_conns] in Hn'. rewrite lookup_app_l in Hn' by (by eapply lookup_lt_Some). assert (n' = n) as -> by congruence.
    split; [done|apply line_turn_refl].
  - intros H%fine_Some. unfold do_recv in H. destruct (y_conns y !! c0) as [n0|] eqn:Hn0; [|done]. destruct (n_eof n0) eqn:He; [done|].
    destruct (decide _); [|done]. injection H as <-. eapply Hupd; [done|exact Hn'|done|]. intros _ -> Hq. split; [exact Hq|].
    apply same_line; [done|]. destruct x; cbn [line n_read n_write n_sub]; [eexists; by rewrite fmap_app|..]; exists []; by rewrite app_nil_r.
  - intros H%fine_Some. unfold do_eof in H. destruct (y_conns y !! c0) as [n0|] eqn:Hn0; [|done]. destruct (n_eof n0) eqn:He; [done|].
    injection H as <-. eapply Hupd; [done|exact Hn'|done|]. intros _ -> Hq. split; [exact Hq|].
    apply same_line; [done|]. exists []. rewrite app_nil_r. by destruct x.
  - unfold do_take. destruct (y_conns y !! c0) as [n0|] eqn:Hn0; [|done]. destruct (n_phase n0) eqn:Hp0; try done.
    destruct (idle n0) eqn:Hi; [|done]. destruct (take_input n0 x') as [[i n1]|] eqn:Ht; [|done].
    destruct (conn_iter cfg c0 w1 w2 (n_c n0) (y_heap y) (y_next y) i) as [p|o] eqn:Ho; [done|]. intros [= <-]. cbn [y_conns] in Hn'.
    eapply Hupd; [done|exact Hn'| |].
    + intros Hne. unfold takes_from. destruct x, x'; try done; by rewrite decide_False.
    + intros -> -> Hq. split; [done|]. eapply take_line; [done|done|]. cbn [n_phase] in Hq. by destruct (i_stop o).
  - intros H%fine_Some. unfold do_push in H. destruct (y_conns y !! c0) as [n0|] eqn:Hn0; [|done]. destruct (n_out n0) as [|r rs] eqn:He; [done|].
    destruct (decide _); [|done]. injection H as <-. eapply Hupd; [done|exact Hn'|done|]. intros _ -> Hq. split; [exact Hq|].
    apply same_line; [done|]. exists []. rewrite app_nil_r. by destruct x.
  - unfold do_clean. destruct (y_conns y !! c0) as [n0|] eqn:Hn0; [|done]. destruct (idle n0) eqn:Hi; [|done].
    destruct (clean_step c0 n0 (y_heap y) pick) as [[p|[n2 hp']]|] eqn:E; [done| |done]. intros [= <-].
    eapply Hupd; [done|exact Hn'|done|]. intros -> -> Hq. exfalso.
    assert (n_phase n <> Running) as Hnr by (intros Hr; unfold clean_step in E; by rewrite Hr in E).
    apply clean_cases in E. destruct E; cbn in Hq; try congruence.
    repeat match goal with H : _ \/ _ |- _ => destruct H | H : _ /\ _ |- _ => destruct H end; congruence.
  - unfold do_proc. destruct (y_pout y) eqn:Ho; [|done]. destruct (y_req y) as [|r rs] eqn:Hrq; [done|].
    destruct (serve (y_broker y) (y_heap y) r) as [p|[[b hp] outs]] eqn:E; [done|]. intros [= <-]. cbn [y_conns] in Hn'.
    assert (n' = n) as -> by congruence. split; [done|apply line_turn_refl].
  - intros H%fine_Some. unfold do_out in H. destruct (y_pout y) as [|o os] eqn:Ho; [done|].
    destruct o as [c0 s m|c0 m]; (destruct (y_conns y !! c0) as [n0|] eqn:Hn0; [|done]); (destruct (decide _); [|done]); injection H as <-;
      (eapply Hupd; [done|exact Hn'|done|]); intros _ -> Hq; (split; [exact Hq|]); (apply same_line; [done|]);
      destruct x; cbn [line with_sub_ch with_write n_read n_write n_sub]; rewrite ?fmap_app; try (by eexists); exists []; by rewrite app_nil_r.
Qed.
Lemma step_conns cfg y a y' c n : step cfg y a = Some (Fine y') -> y_conns y !! c = Some n -> is_Some (y_conns y' !! c).
Proof.
  intros Hs%step_move Hn. apply lookup_lt_is_Some. apply lookup_lt_Some in Hn.
  destruct Hs; cbn [y_conns set_conn]; rewrite ?app_length, ?insert_length; lia.
Qed.
Lemma run_line cfg l y y' c x n n' : run cfg y l = Some (Fine y') -> y_conns y !! c = Some n -> y_conns y' !! c = Some n' -> n_phase n' = Running ->
  n_phase n = Running /\ line_turn x n n' (total (takes_from c x) l).
Proof.
  revert y n. induction l as [|a l IH]; intros y n; cbn [run].
  - intros [= <-] Hn Hn' Hp. assert (n' = n) as -> by congruence. split; [done|apply line_turn_refl].
  - destruct (step cfg y a) as [[p|y1]|] eqn:Hs; [done| |done]. intros Hrun Hn Hn' Hp. destruct (step_conns _ _ _ _ _ _ Hs Hn) as [n1 Hn1].
    destruct (IH _ _ Hrun Hn1 Hn' Hp) as [Hp1 H2]. destruct (step_line _ _ _ _ _ x _ _ Hs Hn Hn1 Hp1) as [Hp0 H1].
    split; [done|]. unfold total. cbn [sum_list_with]. by eapply line_turn_trans.
Qed.
Lemma read_off cfg l y y' c x n n' k i : run cfg y l = Some (Fine y') -> y_conns y !! c = Some n -> y_conns y' !! c = Some n' -> n_phase n' = Running ->
  line x n !! k = Some i ->
  if decide (k < total (takes_from c x) l) then past x n' !! (length (past x n) + k) = Some i else line x n' !! (k - total (takes_from c x) l) = Some i.
Proof.
  intros Hrun Hn Hn' Hp Hk. destruct (run_line _ _ _ _ _ x _ _ Hrun Hn Hn' Hp) as [_ [[new H2] H3]].
  assert ((past x n' ++ line x n') !! (length (past x n) + k) = Some i) as H.
  { rewrite H2. rewrite lookup_app_r by lia. replace (_ + k - _) with k by lia. by apply lookup_app_l_Some. }
  destruct (decide _) as [Hlt|Hge].
  - rewrite lookup_app_l in H; [done|]. lia.
  - rewrite lookup_app_r in H by lia. rewrite <- H. f_equal. lia.
Qed.
Lemma step_caps cfg y a y' : step cfg y a = Some (Fine y') ->
  (forall c n x, y_conns y !! c = Some n -> length (line x n) <= 16) -> forall c n x, y_conns y' !! c = Some n -> length (line x n) <= 16.
Proof.
  intros Hs IH c n' x Hn'.
  assert (Hupd : forall c0 n0 n2, y_conns y !! c0 = Some n0 -> <[c0 := n2]> (y_conns y) !! c = Some n' ->
    (length (line x n0) <= 16 -> length (line x n2) <= 16) -> length (line x n') <= 16).
  { intros c0 n0 n2 E1 E2 H. destruct (decide (c0 = c)) as [->|Hne].
    - rewrite list_lookup_insert in E2 by (by eapply lookup_lt_Some). injection E2 as ->. apply H. by eapply IH.
    - rewrite list_lookup_insert_ne in E2 by done. by eapply IH. }
  revert Hs. destruct a as [|c0 f|c0|c0 x' w1 w2|c0|c0 pick| |]; cbn [step].
  - intros [= <-]. cbn [y_conns] in Hn'. apply lookup_app_Some in Hn' as [H|[_ H]]; [by eapply IH|]. apply list_lookup_singleton_Some in H as [_ <-]. destruct x; cbn; lia.
  - intros H%fine_Some. unfold do_recv in H. destruct (y_conns y !! c0) as [n0|] eqn:Hn0; [|done]. destruct (n_eof n0) eqn:He; [done|].
    destruct (decide _) as [Hd|]; [|done]. injection H as <-. eapply Hupd; [done|exact Hn'|]. unfold cap_read in Hd.
    destruct x; cbn [line n_read n_write n_sub]; try done. rewrite !fmap_length, app_length. cbn. lia.
  - intros H%fine_Some. unfold do_eof in H. destruct (y_conns y !! c0) as [n0|] eqn:Hn0; [|done]. destruct (n_eof n0) eqn:He; [done|].
    injection H as <-. eapply Hupd; [done|exact Hn'|]. by destruct x.
  - unfold do_take. destruct (y_conns y !! c0) as [n0|] eqn:Hn0; [|done]. destruct (n_phase n0) eqn:Hp0; try done.
    destruct (idle n0) eqn:Hi; [|done]. destruct (take_input n0 x') as [[i n1]|] eqn:Ht; [|done].
    destruct (conn_iter cfg c0 w1 w2 (n_c n0) (y_heap y) (y_next y) i) as [p|o] eqn:Ho; [done|]. intros [= <-]. cbn [y_conns] in Hn'.
    eapply Hupd; [done|exact Hn'|]. clear -Ht. intros H.
    assert (length (line x n1) <= length (line x n0)).
    { destruct x'; cbn [take_input] in Ht.
      - destruct (n_read n0) eqn:E; [destruct (n_eof n0); [|done]|]; injection Ht as <- <-; destruct x; cbn [line n_read n_write n_sub]; rewrite ?E; cbn [fmap list_fmap length]; lia.
      - destruct (n_write n0) eqn:E; [done|]; injection Ht as <- <-; destruct x; cbn [line n_read n_write n_sub]; rewrite ?E; cbn [fmap list_fmap length]; lia.
      - destruct (n_sub n0) eqn:E; [done|]; injection Ht as <- <-; destruct x; cbn [line n_read n_write n_sub]; rewrite ?E; cbn [fmap list_fmap length]; lia.
      - destruct (0 <? _)%Z; [|done]. by injection Ht as <- <-. }
    destruct x; cbn [line n_read n_write n_sub] in *; lia.
  - intros H%fine_Some. unfold do_push in H. destruct (y_conns y !! c0) as [n0|] eqn:Hn0; [|done]. destruct (n_out n0) as [|r rs] eqn:He; [done|].
    destruct (decide _); [|done]. injection H as <-. eapply Hupd; [done|exact Hn'|]. by destruct x.
  - unfold do_clean. destruct (y_conns y !! c0) as [n0|] eqn:Hn0; [|done]. destruct (idle n0) eqn:Hi; [|done].
    destruct (clean_step c0 n0 (y_heap y) pick) as [[p|[n2 hp']]|] eqn:E; [done| |done]. intros [= <-].
    eapply Hupd; [done|exact Hn'|]. apply clean_cases in E. destruct E; destruct x; cbn [line with_write with_phase with_out with_c with_sub_ch n_read n_write n_sub]; try done;
      match goal with H : _ = _ :: _ |- _ => rewrite H end; cbn [fmap list_fmap length]; lia.
  - unfold do_proc. destruct (y_pout y) eqn:Ho; [|done]. destruct (y_req y) as [|r rs] eqn:Hrq; [done|].
    destruct (serve (y_broker y) (y_heap y) r) as [p|[[b hp] outs]] eqn:E; [done|]. intros [= <-]. by eapply IH.
  - intros H%fine_Some. unfold do_out in H. destruct (y_pout y) as [|o os] eqn:Ho; [done|].
    destruct o as [c0 s m|c0 m]; (destruct (y_conns y !! c0) as [n0|] eqn:Hn0; [|done]); (destruct (decide _) as [Hd|]; [|done]); injection H as <-;
      (eapply Hupd; [done|exact Hn'|]); unfold cap_write in Hd;
      destruct x; cbn [line with_sub_ch with_write n_read n_write n_sub]; try done; rewrite !fmap_length, app_length; cbn; lia.
Qed.
Lemma line_len cfg y c n x : reach cfg y -> y_conns y !! c = Some n -> length (line x n) <= 16.
Proof. intros Hr. revert c n x. induction Hr as [|y a y' Hr IH Hs]; [done|]. by eapply step_caps. Qed.
