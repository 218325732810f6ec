(** Proofs for FlowProps: order and completeness of what flows through the
    server's channels. *)
From Coq Require Import Sorted.
From Verif Require Import GoBase HeaderModel FrameModel GrammarSpec HeaderProofs NegotiationModel NegotiationSpec NegotiationLemmas
  BrokerModel BrokerSpec BrokerProofs ServerConnModel ServerConnSpec ServerConnProofs SystemModel SystemLemmas SystemSpec SystemProofs SystemTokens
  SystemMessages SystemUids SystemHistory SystemCleanup FlowSpec.

(* ------------------------------------------------------------------ *)
(** Frames are handled in the order of their arrival. *)
Definition sorted_uids (y : sys) : Prop := forall c n, y_conns y !! c = Some n ->
  StronglySorted lt (g_uid <$> frames_of (n_log n) ++ n_read n) /\ Forall (fun u => u < y_uid y) (g_uid <$> frames_of (n_log n) ++ n_read n).
Lemma sorted_snoc l u : StronglySorted lt l -> Forall (fun x => x < u) l -> StronglySorted lt (l ++ [u]).
Proof.
  induction 1 as [|x l Hl IH Hx]; intros HF; cbn; [repeat constructor|]. apply Forall_cons in HF as [H1 H2]. constructor; [auto|].
  apply Forall_app. split; [done|]. by repeat constructor.
Qed.
Lemma frames_of_snoc log e : frames_of (log ++ [e]) = frames_of log ++ match client_frame e with Some m => [m] | None => [] end.
Proof. unfold frames_of. rewrite omap_app. cbn. by destruct (client_frame e). Qed.
Lemma client_sent_taken n1 i o : client_sent (taken n1 i o) = client_sent n1 ++ enqueues (i_push o).
Proof. unfold client_sent, taken. cbn [n_log]. rewrite fmap_app, concat_app. cbn. by rewrite app_nil_r. Qed.
Lemma same_log_sent n n' : n_log n' = n_log n -> client_sent n' = client_sent n.
Proof. unfold client_sent. by intros ->. Qed.

Lemma sorted_move cfg y y' : sorted_uids y -> move cfg y y' -> sorted_uids y'.
Proof.
  intros HS Hm.
  assert (Hupd : forall c n n', y_conns y !! c = Some n -> frames_of (n_log n') ++ n_read n' = frames_of (n_log n) ++ n_read n ->
    forall c0 n0, <[c := n']> (y_conns y) !! c0 = Some n0 ->
    StronglySorted lt (g_uid <$> frames_of (n_log n0) ++ n_read n0) /\ Forall (fun u => u < y_uid y) (g_uid <$> frames_of (n_log n0) ++ n_read n0)).
  { intros c n n' Hn E c0 n0 H. destruct (conns_upd _ _ _ _ _ _ Hn H) as [[-> ->]|[_ ?]]; [rewrite E|]; eauto. }
  destruct Hm; unfold sorted_uids; cbn [y_conns y_uid set_conn]; try (by eapply Hupd).
  - intros c n Hn. apply lookup_app_Some in Hn as [Hn|[_ Hn]]; [by apply (HS c)|]. apply list_lookup_singleton_Some in Hn as [_ <-].
    split; [constructor|constructor].
  - intros c0 n0 Hn0. destruct (conns_upd _ _ _ _ _ _ H Hn0) as [[-> ->]|[_ ?]].
    + cbn [n_log n_read]. rewrite app_assoc, fmap_app. destruct (HS _ _ H) as [S1 S2]. cbn. split.
      * by apply sorted_snoc.
      * apply Forall_app. split; [eapply Forall_impl; [done|]; cbn; lia|]. repeat constructor; lia.
    + destruct (HS _ _ H1) as [S1 S2]. split; [done|]. eapply Forall_impl; [done|]. cbn; lia.
  - eapply Hupd; [done|]. unfold taken. cbn [n_log n_read]. destruct (take_input_cases _ _ _ _ H2) as (_ & _ & _ & _ & I5 & I6). rewrite I5, frames_of_snoc, <-app_assoc. f_equal.
    unfold client_frame. cbn [v_in]. destruct i as [m| |m|s|]; cbn [app].
    + by destruct I6 as (-> & _).
    + by destruct I6 as (-> & _).
    + by destruct I6 as (_ & -> & _).
    + by destruct I6 as (_ & -> & _).
    + by subst n1.
  - eapply Hupd; [done|]. by destruct H3.
  - exact HS.
Qed.
Lemma reach_sorted cfg y : reach cfg y -> sorted_uids y.
Proof. revert y. apply reach_ind'; [intros c n H; cbn in H; by rewrite lookup_nil in H|]. intros y y' _ H Hm. by eapply sorted_move. Qed.

(* ------------------------------------------------------------------ *)
(** Messages reach the processor in the order their connection sent them. *)
Lemma sum_two {A} (f : A -> nat) (l : list A) i j a b : i <> j -> l !! i = Some a -> l !! j = Some b -> f a + f b <= sum_list_with f l.
Proof.
  revert i j. induction l as [|x l IH]; intros [|i] [|j] Hne; cbn; try done.
  - intros [= ->] H. apply (sum_pos f) in H. lia.
  - intros H [= ->]. apply (sum_pos f) in H. lia.
  - intros H1 H2. assert (f a + f b <= sum_list_with f l) by (eapply IH; [|done|done]; congruence). lia.
Qed.
Lemma sent_by_uc n m : sent_by n m <-> 0 < uc (g_uid m) (client_sent n).
Proof. unfold sent_by, uc. by rewrite cnt_elem. Qed.
Lemma cu_sent n u : uc u (client_sent n) <= cu u n.
Proof. unfold cu, client_sent, clog. lia. Qed.
Lemma sent_by_one y c n c' n' m : uids y -> y_conns y !! c = Some n -> y_conns y !! c' = Some n' -> sent_by n m -> sent_by n' m -> c = c'.
Proof.
  intros HU Hn Hn' H1%sent_by_uc H2%sent_by_uc. destruct (decide (c = c')) as [|Hne]; [done|].
  destruct (HU (g_uid m)) as [H3 _]. pose proof (sum_two (cu (g_uid m)) _ _ _ _ _ Hne Hn Hn'). pose proof (cu_sent n (g_uid m)). pose proof (cu_sent n' (g_uid m)). lia.
Qed.
Lemma sent_nodup y c n u : uids y -> y_conns y !! c = Some n -> uc u (client_sent n) <= 1.
Proof. intros HU Hn. destruct (HU u) as [H _]. pose proof (sum_pos (cu u) _ _ _ Hn). pose proof (cu_sent n u). lia. Qed.

Record ordered (y : sys) : Prop := mkOrdered {
  or_eq : forall c n, y_conns y !! c = Some n -> filter (sent_by n) (enqueues (handed y)) ++ enqueues (n_out n) = client_sent n;
  or_src : forall m, m ∈ enqueues (handed y) -> exists c n, y_conns y !! c = Some n /\ sent_by n m
}.
Lemma enq_app a b : enqueues (a ++ b) = enqueues a ++ enqueues b.
Proof. unfold enqueues. by rewrite omap_app. Qed.
Lemma filter_ext_in {A} (P Q : A -> Prop) `{!forall x, Decision (P x), !forall x, Decision (Q x)} (l : list A) :
  (forall x, x ∈ l -> (P x <-> Q x)) -> filter P l = filter Q l.
Proof.
  induction l as [|x l IH]; intros Hq; [done|].
  assert (filter P l = filter Q l) as E by (apply IH; intros; apply Hq; by right).
  assert (P x <-> Q x) as Hx by (apply Hq; by left).
  destruct (decide (P x)); [rewrite !filter_cons_True by tauto|rewrite !filter_cons_False by tauto]; congruence.
Qed.
Lemma filter_none {A} (P : A -> Prop) `{!forall x, Decision (P x)} (l : list A) : (forall x, x ∈ l -> ~ P x) -> filter P l = [].
Proof. induction l as [|x l IH]; intros Hq; [done|]. rewrite filter_cons_False; [apply IH; intros y Hy; apply Hq; by right|apply Hq; by left]. Qed.
Lemma filter_all {A} (P : A -> Prop) `{!forall x, Decision (P x)} (l : list A) : (forall x, x ∈ l -> P x) -> filter P l = l.
Proof. induction l as [|x l IH]; intros Hq; [done|]. rewrite filter_cons_True; [f_equal; apply IH; intros y Hy; apply Hq; by right|apply Hq; by left]. Qed.
Lemma ordered_same y y' : ordered y -> handed y' = handed y ->
  (forall c n', y_conns y' !! c = Some n' -> exists n, y_conns y !! c = Some n /\ client_sent n' = client_sent n /\ enqueues (n_out n') = enqueues (n_out n)) ->
  (forall c n, y_conns y !! c = Some n -> exists n', y_conns y' !! c = Some n' /\ client_sent n' = client_sent n) -> ordered y'.
Proof.
  intros [O1 O2] Hh H1 H2. split.
  - intros c n' Hn'. destruct (H1 _ _ Hn') as (n & Hn & E1 & E2). rewrite Hh, E2, E1. rewrite <-(O1 _ _ Hn). f_equal. apply filter_ext_in.
    intros m _. unfold sent_by. by rewrite E1.
  - rewrite Hh. intros m Hm. destruct (O2 _ Hm) as (c & n & Hn & Hs). destruct (H2 _ _ Hn) as (n' & Hn' & E). exists c, n'. split; [done|].
    unfold sent_by in *. by rewrite E.
Qed.
Lemma upd_fwd {A} (l : list A) c n n' c0 n0 (R : A -> A -> Prop) : l !! c = Some n -> (forall x, R x x) -> R n n' -> l !! c0 = Some n0 -> exists n1, <[c := n']> l !! c0 = Some n1 /\ R n0 n1.
Proof.
  intros Hn Hr HR H. destruct (decide (c = c0)) as [<-|Hne].
  - exists n'. rewrite list_lookup_insert by (by eapply lookup_lt_Some). split; [done|]. by assert (n0 = n) as -> by congruence.
  - exists n0. by rewrite list_lookup_insert_ne.
Qed.
Lemma ordered_conn y c n n' hp nx uid req b pout blog fin lost : ordered y -> y_conns y !! c = Some n -> client_sent n' = client_sent n -> enqueues (n_out n') = enqueues (n_out n) ->
  blog.*1 ++ req = handed y -> ordered (mkSys (<[c := n']> (y_conns y)) hp nx uid req b pout blog fin lost).
Proof.
  intros HO Hn E1 E2 Hh. eapply ordered_same; [done|done| |]; cbn [y_conns].
  - intros c0 n0 H. destruct (conns_upd _ _ _ _ _ _ Hn H) as [[-> ->]|[_ ?]]; eauto.
  - intros c0 n0 H. by eapply (upd_fwd _ _ _ _ _ _ (fun a b => client_sent b = client_sent a)).
Qed.
Lemma clean_sent cid n hp n' hp' : clean_case cid n hp n' hp' -> n_out n = [] -> n_log n' = n_log n /\ enqueues (n_out n') = enqueues (n_out n).
Proof. intros H Ho. rewrite Ho. destruct H; cbn [with_out with_c with_phase with_write with_sub_ch n_log n_out]; split; try done; by rewrite Ho. Qed.
Lemma ordered_move cfg y y' : wf y -> uids y -> uids y' -> ordered y -> move cfg y y' -> ordered y'.
Proof.
  intros HW HU HU' HO Hm. destruct Hm.
  - destruct HO as [O1 O2]. split; unfold handed in *; cbn [y_conns y_blog y_req] in *.
    + intros c n Hn. apply lookup_app_Some in Hn as [Hn|[Hc Hn]]; [by apply (O1 _ _ Hn)|].
      apply list_lookup_singleton_Some in Hn as [_ <-]. cbn. rewrite app_nil_r. apply filter_none.
      intros m _. unfold sent_by. apply not_elem_of_nil.
    + intros m Hm. destruct (O2 _ Hm) as (c & n & Hn & Hs). exists c, n. split; [by apply lookup_app_l_Some|done].
  - by eapply ordered_conn.
  - by eapply ordered_conn.
  - destruct HO as [O1 O2].
    assert (n_log n1 = n_log n) as El by (by destruct (take_input_cases _ _ _ _ H2) as (_ & _ & _ & _ & I5 & _)).
    assert (client_sent (taken n1 i o) = client_sent n ++ enqueues (i_push o)) as Es by (rewrite client_sent_taken; f_equal; by apply same_log_sent).
    assert (Hnew : y_conns (take_result y c n1 i o) !! c = Some (taken n1 i o)).
    { unfold take_result. cbn [y_conns]. apply list_lookup_insert. by eapply lookup_lt_Some. }
    change (uids (take_result y c n1 i o)) in HU'. change (ordered (take_result y c n1 i o)).
    split; change (handed (take_result y c n1 i o)) with (handed y).
    + intros c0 n0 Hn0. change (<[c:=taken n1 i o]> (y_conns y) !! c0 = Some n0) in Hn0. destruct (conns_upd _ _ _ _ _ _ H Hn0) as [[-> ->]|[_ Hn0']]; [|by apply (O1 c0)].
      rewrite Es. change (n_out (taken n1 i o)) with (i_push o). f_equal. rewrite <-(O1 _ _ H), H1. cbn [enqueues omap list_omap]. rewrite app_nil_r. apply filter_ext_in.
      intros m Hm. split; [|unfold sent_by; rewrite Es, fmap_app; set_solver]. intros Hs.
      destruct (O2 _ Hm) as (c1 & n1' & Hn1 & Hs1). destruct (decide (c1 = c)) as [->|Hne]; [by assert (n1' = n) as -> by congruence|].
      exfalso. apply Hne. eapply (sent_by_one _ _ _ _ _ m HU'); [|exact Hnew|done|done].
      unfold take_result. cbn [y_conns]. by rewrite list_lookup_insert_ne.
    + intros m Hm. destruct (O2 _ Hm) as (c1 & n1' & Hn1 & Hs1).
      destruct (upd_fwd (y_conns y) c n (taken n1 i o) c1 n1' (fun a b => sent_by a m -> sent_by b m)) as (n2 & Hn2 & Hi); [done|done| |done|eauto].
      unfold sent_by. rewrite Es, fmap_app. set_solver.
  - destruct HO as [O1 O2].
    assert (Hh : handed (mkSys (<[c:=with_out n rs]> (y_conns y)) (y_heap y) (y_next y) (y_uid y) (y_req y ++ [r]) (y_broker y) (y_pout y) (y_blog y) (y_fin y) (y_lost y)) = handed y ++ [r]).
    { unfold handed. cbn [y_blog y_req]. by rewrite app_assoc. }
    assert (Hout : client_sent n = filter (sent_by n) (enqueues (handed y)) ++ enqueues [r] ++ enqueues rs).
    { rewrite <-(O1 _ _ H), H0. f_equal. change (r :: rs) with ([r] ++ rs). by rewrite enq_app. }
    assert (Hr : forall m, m ∈ enqueues [r] -> sent_by n m).
    { intros m Hm. unfold sent_by. rewrite Hout, !fmap_app, !elem_of_app. right; left. by apply elem_of_list_fmap_1. }
    split; rewrite Hh, enq_app; cbn [y_conns].
    + intros c0 n0 Hn0. rewrite filter_app. destruct (conns_upd _ _ _ _ _ _ H Hn0) as [[-> ->]|[Hne Hn0']].
      * change (client_sent (with_out n rs)) with (client_sent n). rewrite Hout at 1. cbn [with_out n_out]. rewrite <-app_assoc. f_equal.
        f_equal. apply filter_all. intros m Hm. by apply (Hr m Hm).
      * rewrite (filter_none (sent_by n0) (enqueues [r])).
        -- rewrite app_nil_r. by apply (O1 c0).
        -- intros m Hm Hs. pose proof (sent_by_one y _ n0 _ n m HU Hn0' H Hs (Hr m Hm)). congruence.
    + intros m Hm. assert (exists c1 n1, y_conns y !! c1 = Some n1 /\ sent_by n1 m) as (c1 & n1 & Hn1 & Hs).
      { apply elem_of_app in Hm as [Hm|Hm]; [by apply O2|]. exists c, n. auto. }
      destruct (upd_fwd (y_conns y) c n (with_out n rs) c1 n1 (fun a b => sent_by a m -> sent_by b m)) as (n2 & Hn2 & Hi); [done|done|done|done|eauto].
  - destruct (clean_sent _ _ _ _ _ H3 H0). eapply ordered_conn; [done|done|by apply same_log_sent|done|done].
  - destruct HO as [O1 O2]. assert (Hh : handed (mkSys (y_conns y) hp (y_next y) (y_uid y) rs b outs (y_blog y ++ [(r, outs)]) (y_fin y) (y_lost y)) = handed y).
    { unfold handed. cbn [y_blog y_req]. rewrite H0, fmap_app, <-app_assoc. done. }
    split; rewrite Hh; cbn [y_conns]; done.
  - by eapply ordered_conn.
  - by eapply ordered_conn.
Qed.
Lemma reach_ordered cfg y : reach cfg y -> ordered y.
Proof.
  revert y. apply reach_ind'.
  - split; [intros c n H; cbn in H; by rewrite lookup_nil in H|]. intros m H. by apply elem_of_nil in H.
  - intros y y' Hr H Hm. pose proof (reach_uids _ _ Hr). pose proof (reach_wf _ _ Hr). eapply ordered_move; try done. by eapply uids_move.
Qed.
