(** For RealtimeProps: what the server keeps along a run. *)
From Coq Require Import Sorted.
From stdpp Require Import gmap.
From Verif Require Import GoBase HeaderModel FrameModel GrammarSpec HeaderProofs NegotiationModel NegotiationSpec NegotiationLemmas
  BrokerModel BrokerSpec BrokerProofs ServerConnModel ServerConnSpec ServerConnProofs SystemModel SystemLemmas SystemSpec SystemProofs SystemTokens
  SystemMessages SystemUids SystemHistory SystemCleanup FlowSpec FlowProofs.

Definition inbox (y : sys) (c : nat) : list msg := match y_conns y !! c with Some n => frames_of (n_log n) ++ n_read n | None => [] end.
Lemma inbox_some y c n : y_conns y !! c = Some n -> inbox y c = frames_of (n_log n) ++ n_read n.
Proof. unfold inbox. by intros ->. Qed.

Lemma handed_move cfg y y' : move cfg y y' -> handed y `prefix_of` handed y'.
Proof.
  unfold handed. destruct 1; cbn [y_blog y_req set_conn]; try done.
  - exists [r]. by rewrite app_assoc.
  - rewrite H0, fmap_app, <-app_assoc. done.
Qed.
Lemma inbox_move cfg y y' : move cfg y y' -> y_uid y <= y_uid y' /\ forall c, exists new, inbox y' c = inbox y c ++ new /\ Forall (fun m => y_uid y <= g_uid m) new.
Proof.
  intros Hm.
  assert (Hsame : forall c n n', y_conns y !! c = Some n -> frames_of (n_log n') ++ n_read n' = frames_of (n_log n) ++ n_read n ->
    forall c0, exists new, match <[c := n']> (y_conns y) !! c0 with Some n => frames_of (n_log n) ++ n_read n | None => [] end = inbox y c0 ++ new /\ Forall (fun m => y_uid y <= g_uid m) new).
  { intros c n n' Hn E c0. exists []. rewrite app_nil_r. split; [|constructor]. unfold inbox. destruct (decide (c0 = c)) as [->|Hne].
    - rewrite list_lookup_insert by (by eapply lookup_lt_Some). by rewrite Hn.
    - by rewrite list_lookup_insert_ne. }
  destruct Hm; unfold inbox at 1; cbn [y_conns y_uid set_conn]; (split; [lia|]); try (by eapply Hsame).
  - intros c. exists []. rewrite app_nil_r. split; [|constructor]. unfold inbox. destruct (y_conns y !! c) as [n|] eqn:E; [by rewrite (lookup_app_l_Some _ _ _ _ E)|].
    rewrite lookup_app_r by (by apply lookup_ge_None). by destruct (c - length (y_conns y)) as [|k].
  - intros c0. unfold inbox. destruct (decide (c0 = c)) as [->|Hne].
    + rewrite list_lookup_insert by (by eapply lookup_lt_Some). rewrite H. cbn [n_log n_read]. exists [mkMsg (y_uid y) f]. rewrite app_assoc. split; [done|]. by repeat constructor.
    + rewrite list_lookup_insert_ne by done. exists []. rewrite app_nil_r. split; [done|constructor].
  - eapply Hsame; [done|]. unfold taken. cbn [n_log n_read]. destruct (take_input_cases _ _ _ _ H2) as (_ & _ & _ & _ & I5 & I6). rewrite I5, frames_of_snoc, <-app_assoc. f_equal.
    unfold client_frame. cbn [v_in]. destruct i as [m| |m|s|]; cbn [app].
    + by destruct I6 as (-> & _).
    + by destruct I6 as (-> & _).
    + by destruct I6 as (_ & -> & _).
    + by destruct I6 as (_ & -> & _).
    + by subst n1.
  - eapply Hsame; [done|]. by destruct H3.
  - intros c. exists []. rewrite app_nil_r. split; [done|constructor].
Qed.
Lemma log_move cfg y y' c n : move cfg y y' -> y_conns y !! c = Some n -> exists n', y_conns y' !! c = Some n' /\ n_log n `prefix_of` n_log n'.
Proof.
  intros Hm Hn.
  assert (Hupd : forall c0 n0 n', y_conns y !! c0 = Some n0 -> n_log n0 `prefix_of` n_log n' -> exists n1, <[c0 := n']> (y_conns y) !! c = Some n1 /\ n_log n `prefix_of` n_log n1).
  { intros c0 n0 n' H0 Hp. destruct (decide (c0 = c)) as [->|Hne]; [rewrite list_lookup_insert by (by eapply lookup_lt_Some); simplify_eq; eauto|rewrite list_lookup_insert_ne by done; eauto]. }
  destruct Hm; cbn [y_conns set_conn]; try (by eapply Hupd); try (by eauto).
  - exists n. split; [by apply lookup_app_l_Some|done].
  - eapply Hupd; [done|]. unfold taken. cbn [n_log]. destruct (take_input_cases _ _ _ _ H2) as (_ & _ & _ & _ & -> & _). by eexists.
  - eapply Hupd; [done|]. by destruct H3.
Qed.

Definition smoves (cfg : scfg) : sys -> sys -> Prop := rtc (move cfg).
Lemma handed_moves cfg y y' : smoves cfg y y' -> handed y `prefix_of` handed y'.
Proof. induction 1 as [|y y1 y' Hm _ IH]; [done|]. etrans; [by eapply handed_move|done]. Qed.
Lemma inbox_moves cfg y y' : smoves cfg y y' -> y_uid y <= y_uid y' /\ forall c, exists new, inbox y' c = inbox y c ++ new /\ Forall (fun m => y_uid y <= g_uid m) new.
Proof.
  induction 1 as [y|y y1 y' Hm _ [U IH]].
  - split; [done|]. intros c. exists []. rewrite app_nil_r. split; [done|constructor].
  - destruct (inbox_move _ _ _ Hm) as [U1 H1]. split; [lia|]. intros c. destruct (H1 c) as (n1 & E1 & F1), (IH c) as (n2 & E2 & F2). exists (n1 ++ n2). rewrite E2, E1, app_assoc. split; [done|].
    apply Forall_app. split; [done|]. eapply Forall_impl; [exact F2|]. cbn. lia.
Qed.
Lemma log_moves cfg y y' c n : smoves cfg y y' -> y_conns y !! c = Some n -> exists n', y_conns y' !! c = Some n' /\ n_log n `prefix_of` n_log n'.
Proof.
  intros H. revert n. induction H as [y|y y1 y' Hm _ IH]; intros n Hn; [eauto|]. destruct (log_move _ _ _ _ _ Hm Hn) as (n1 & H1 & P1). destruct (IH _ H1) as (n2 & H2 & P2).
  exists n2. split; [done|]. by etrans.
Qed.

(** What an iteration of processLoop asks the processor for is on the request
    channel before the next iteration begins. *)
Definition pushed (y : sys) : Prop := forall c n pre e post r, y_conns y !! c = Some n -> n_log n = pre ++ e :: post -> r ∈ v_push e -> r ∈ handed y \/ post = [] /\ r ∈ n_out n.
Lemma pushed_move cfg y y' : pushed y -> move cfg y y' -> pushed y'.
Proof.
  intros HP Hm. pose proof (handed_move _ _ _ Hm) as Hpre.
  assert (Hgrow : forall r, r ∈ handed y -> r ∈ handed y') by (intros r; destruct Hpre as [t ->]; intros; apply elem_of_app; by left).
  assert (Hupd : forall c0 n0 n', y_conns y !! c0 = Some n0 -> n_log n' = n_log n0 -> (forall r, r ∈ n_out n0 -> r ∈ n_out n' \/ r ∈ handed y') ->
    forall c n pre e post r, <[c0 := n']> (y_conns y) !! c = Some n -> n_log n = pre ++ e :: post -> r ∈ v_push e -> r ∈ handed y' \/ post = [] /\ r ∈ n_out n).
  { intros c0 n0 n' H0 El Ho c n pre e post r Hn Hl Hr. destruct (conns_upd _ _ _ _ _ _ H0 Hn) as [[-> ->]|[_ Hn']].
    - rewrite El in Hl. destruct (HP _ _ _ _ _ _ H0 Hl Hr) as [H|[-> H]]; [left; by apply Hgrow|]. destruct (Ho _ H); auto.
    - destruct (HP _ _ _ _ _ _ Hn' Hl Hr) as [H|[-> H]]; [left; by apply Hgrow|auto]. }
  destruct Hm; unfold pushed; cbn [y_conns set_conn].
  - intros c n pre e post r Hn Hl Hr. apply lookup_app_Some in Hn as [Hn|[_ Hn]]; [destruct (HP _ _ _ _ _ _ Hn Hl Hr) as [H|H]; [left; by apply Hgrow|by right]|].
    apply list_lookup_singleton_Some in Hn as [_ <-]. by destruct pre.
  - eapply Hupd; [done|done|]. cbn. auto.
  - eapply Hupd; [done|done|]. cbn. auto.
  - intros c0 n0 pre e post r Hn Hl Hr. destruct (conns_upd _ _ _ _ _ _ H Hn) as [[-> ->]|[_ Hn']].
    + unfold taken in Hl |- *. cbn [n_log n_out] in Hl |- *. destruct (take_input_cases _ _ _ _ H2) as (_ & _ & _ & _ & I5 & _). rewrite I5 in Hl.
      destruct post as [|e' post' _] using rev_ind.
      * apply app_inj_tail in Hl as [_ <-]. right. done.
      * left. apply Hgrow. change (e :: post' ++ [e']) with ((e :: post') ++ [e']) in Hl. rewrite app_assoc in Hl. apply app_inj_tail in Hl as [Hl _].
        destruct (HP _ _ _ _ _ _ H Hl Hr) as [?|[_ Ho]]; [done|]. rewrite H1 in Ho. by apply elem_of_nil in Ho.
    + destruct (HP _ _ _ _ _ _ Hn' Hl Hr) as [H'|H']; [left; by apply Hgrow|by right].
  - eapply Hupd; [done|done|]. intros r0. rewrite H0. intros [->|Hr]%elem_of_cons; [right|by left]. unfold handed. cbn [y_blog y_req]. set_solver.
  - eapply Hupd; [done|by destruct H3|]. intros r. rewrite H0. by intros ?%elem_of_nil.
  - intros c n pre e post r0 Hn Hl Hr. destruct (HP _ _ _ _ _ _ Hn Hl Hr) as [H'|H']; [left; by apply Hgrow|by right].
  - eapply Hupd; [done|done|]. cbn. auto.
  - eapply Hupd; [done|done|]. cbn. auto.
Qed.
Lemma reach_pushed cfg y : reach cfg y -> pushed y.
Proof. revert y. apply reach_ind'; [intros c n pre e post r H; cbn in H; by rewrite lookup_nil in H|]. intros y y' _ H Hm. by eapply pushed_move. Qed.

