(** Proofs for RestProps: how much the server does per input. *)
From Verif Require Import GoBase HeaderModel FrameModel GrammarSpec HeaderProofs NegotiationModel NegotiationSpec NegotiationLemmas
  BrokerModel BrokerSpec BrokerProofs ServerConnModel ServerConnSpec ServerConnProofs SystemModel SystemLemmas SystemSpec SystemProofs SystemTokens
  SystemMessages SystemUids SystemHistory SystemPanics SystemCleanup SystemProgress FlowSpec FlowProofs FlowTopics FlowSubs RestSpec.

(* ------------------------------------------------------------------ *)
(** Sums. *)
Lemma sum_perm {A} (f : A -> nat) l k : l ≡ₚ k -> sum_list_with f l = sum_list_with f k.
Proof. induction 1; cbn; lia. Qed.
Definition tsize (t : gmap str (list msg)) : nat := sum_list_with (fun kv => length kv.2) (map_to_list t).
Lemma tsize_empty : tsize ∅ = 0.
Proof. unfold tsize. by rewrite map_to_list_empty. Qed.
Lemma tsize_new t k l : t !! k = None -> tsize (<[k := l]> t) = length l + tsize t.
Proof. intros H. unfold tsize. by rewrite (sum_perm _ _ _ (map_to_list_insert _ _ l H)). Qed.
Lemma tsize_delete t k l : t !! k = Some l -> length l + tsize (delete k t) = tsize t.
Proof. intros H. unfold tsize. by rewrite <-(sum_perm _ _ _ (map_to_list_delete _ _ _ H)). Qed.
Lemma tsize_set t k l l' : t !! k = Some l -> tsize (<[k := l']> t) + length l = tsize t + length l'.
Proof.
  intros H. rewrite <-insert_delete_insert. rewrite tsize_new by apply lookup_delete. pose proof (tsize_delete _ _ _ H). lia.
Qed.
Lemma nodup_bound (l : list nat) n : NoDup l -> (forall x, x ∈ l -> x < n) -> length l <= n.
Proof.
  intros H1 H2. rewrite <-(seq_length n 0). apply submseteq_length, NoDup_submseteq; [done|]. intros x Hx. apply elem_of_seq. specialize (H2 _ Hx). lia.
Qed.

(* ------------------------------------------------------------------ *)
(** What is left to do, counted in moves; [N] bounds the number of
    subscriptions. *)
Section weight.
Context (N : nat).
Definition wreq (r : request) : nat :=
  match r with RSubscribe _ => 11 | RUnsubscribe _ => 1 | REnqueue _ => 2 * N + 12 | RRequeue _ => 11 | RConnected _ | RDisconnected _ => 1 end.
Definition wout (r : request) : nat := S (wreq r).
Definition wpout (o : pout) : nat := match o with OutSub _ _ _ => 15 | OutTopic _ _ => 2 end.
Definition wphase (p : phase) : nat :=
  match p with Running => 20 | CDiscard1 => 10 | CUnsub => 9 | CRequeue => 8 | CDiscard2 => 7 | CDrain1 => 6 | CTell => 5 | CDiscard3 => 2 | CDrain2 => 1 | Dead => 0 end.
Definition wframe : nat := 13 * N + 20.
Definition wstored : nat := 2 * N + 14.
Definition wcst (c : cst) : nat := 13 * length (k_sublist c) + 3 * size (k_subs c) + wstored * tsize (k_tx c).
Definition wconn (n : sconn) : nat :=
  wphase (n_phase n) + wframe * length (n_read n) + length (n_write n) + 14 * length (n_sub n) + sum_list_with wout (n_out n) + wcst (n_c n).
Definition wbroker (D : list str) (b : broker) : nat := sum_list_with (fun d => 10 * length (waiting b d) + 10 * length (ready b d)) D.
Definition wsys (D : list str) (y : sys) : nat :=
  sum_list_with wconn (y_conns y) + sum_list_with wreq (y_req y) + sum_list_with wpout (y_pout y) + wbroker D (y_broker y).
Definition cov (D : list str) (b : broker) : Prop := NoDup D /\ forall d, d ∉ D -> waiting b d = [] /\ ready b d = [].

Lemma wbroker_ext D b b' : (forall d, d ∈ D -> length (waiting b' d) = length (waiting b d) /\ length (ready b' d) = length (ready b d)) -> wbroker D b' = wbroker D b.
Proof.
  intros H. unfold wbroker. induction D as [|d D IH]; [done|]. cbn [sum_list_with]. destruct (H d) as [-> ->]; [by left|]. rewrite IH; [done|]. intros d' Hd. apply H. by right.
Qed.
(** A change at one destination. *)
Lemma wbroker_upd D b b' d W R : cov D b -> (forall d', waiting b' d' = fupd d W (waiting b) d') -> (forall d', ready b' d' = fupd d R (ready b) d') ->
  exists D', cov D' b' /\ wbroker D' b' + 10 * length (waiting b d) + 10 * length (ready b d) = wbroker D b + 10 * length W + 10 * length R.
Proof.
  intros [Hnd Hc] HW HR.
  assert (Hin : forall D, NoDup D -> d ∈ D -> wbroker D b' + 10 * length (waiting b d) + 10 * length (ready b d) = wbroker D b + 10 * length W + 10 * length R).
  { clear D Hnd Hc. intros D. induction D as [|d0 D IH]; [by intros _ ?%elem_of_nil|]. intros [Hd0 Hnd]%NoDup_cons Hin. change (wbroker (d0 :: D) ?x) with (10 * length (waiting x d0) + 10 * length (ready x d0) + wbroker D x).
    destruct (decide (d0 = d)) as [->|Hne].
    - rewrite HW, HR. unfold fupd. rewrite !decide_True by done. rewrite (wbroker_ext D b b'); [lia|]. intros d' Hd'. rewrite HW, HR. unfold fupd. rewrite !decide_False; [done|intros ->; done..].
    - apply elem_of_cons in Hin as [?|Hin]; [congruence|]. specialize (IH Hnd Hin). rewrite HW, HR. unfold fupd. rewrite !decide_False by done. lia. }
  destruct (decide (d ∈ D)) as [Hd|Hd].
  - exists D. split; [split; [done|]|by apply Hin]. intros d' Hd'. rewrite HW, HR. unfold fupd. rewrite !decide_False by (intros ->; done). by apply Hc.
  - exists (d :: D). split.
    + split; [by constructor|]. intros d' [Hd1 Hd2]%not_elem_of_cons. rewrite HW, HR. unfold fupd. rewrite !decide_False by done. by apply Hc.
    + rewrite Hin; [|by constructor|by left]. change (wbroker (d :: D) b) with (10 * length (waiting b d) + 10 * length (ready b d) + wbroker D b). destruct (Hc _ Hd) as [-> ->]. cbn. lia.
Qed.

(** Acknowledging. *)
Lemma sl_ack_weight hp l k hp' l' rs : sl_ack hp l k = Fine (hp', l', rs) -> sum_list_with wout rs + 24 * length l' <= 24 * length l.
Proof.
  revert hp hp' l' rs. induction l as [|s l IH]; intros hp hp' l' rs; cbn [sl_ack]; [intros [= <- <- <-]; cbn; lia|].
  destruct (hp !! s) as [sb|]; [|done]. destruct (is_acked_by sb k) as [[]|]; [| |done].
  - destruct (sl_ack _ l k) as [p|[[h r] rs0]] eqn:E; [done|]. intros [= <- <- <-]. specialize (IH _ _ _ _ E). cbn. lia.
  - destruct (sl_ack _ l k) as [p|[[h r] rs0]] eqn:E; [done|]. intros [= <- <- <-]. specialize (IH _ _ _ _ E). cbn. lia.
Qed.
Lemma sl_nack_weight hp l k hp' l' rs : sl_nack hp l k = Fine (hp', l', rs) -> sum_list_with wout rs + 24 * length l' <= 24 * length l.
Proof.
  revert hp hp' l' rs. induction l as [|s l IH]; intros hp hp' l' rs; cbn [sl_nack]; [intros [= <- <- <-]; cbn; lia|].
  destruct (hp !! s) as [sb|]; [|done]. destruct (is_nacked_by sb k).
  - destruct (s_frame sb); [|done]. destruct (sl_nack _ l k) as [p|[[h r] rs0]] eqn:E; [done|]. intros [= <- <- <-]. specialize (IH _ _ _ _ E). cbn. lia.
  - destruct (sl_nack _ l k) as [p|[[h r] rs0]] eqn:E; [done|]. intros [= <- <- <-]. specialize (IH _ _ _ _ E). cbn. lia.
Qed.
Lemma sl_of_weight cmd hp l k hp' l' rs : sl_of cmd hp l k = Fine (hp', l', rs) -> sum_list_with wout rs + 24 * length l' <= 24 * length l.
Proof. unfold sl_of. destruct (decide (cmd = ACK)); [apply sl_ack_weight|apply sl_nack_weight]. Qed.
Lemma replay_weight l hp sl hp' sl' rs : replay hp sl l = Fine (hp', sl', rs) -> sum_list_with wout rs + 24 * length sl' <= 24 * length sl + (2 * N + 13) * length l.
Proof.
  revert hp sl hp' sl' rs. induction l as [|m l IH]; intros hp sl hp' sl' rs; cbn [replay]; [intros [= <- <- <-]; cbn; lia|].
  destruct (apply_one hp sl m) as [p|[[hp1 sl1] rs1]] eqn:Ha; [done|].
  destruct (replay hp1 sl1 l) as [p|[[hp2 sl2] rs2]] eqn:Hr; [done|]. intros [= <- <- <-].
  specialize (IH _ _ _ _ _ Hr). rewrite sum_list_with_app. cbn [length].
  assert (sum_list_with wout rs1 + 24 * length sl1 <= 24 * length sl + (2 * N + 13)); [|nia].
  unfold apply_one in Ha. destruct (decide (cmd_of m = SEND)); [|destruct (ack_id m)].
  - injection Ha as <- <- <-. cbn. lia.
  - injection Ha as <- <- <-. cbn. lia.
  - pose proof (sl_of_weight _ _ _ _ _ _ _ Ha). lia.
Qed.
End weight.

(** One iteration of processLoop. *)
Lemma take_weight N cfg c w1 w2 n x i n1 o hp nx : tx_ok (n_c n) -> length (k_sublist (n_c n)) <= N -> n_phase n = Running -> n_out n = [] ->
  take_input n x = Some (i, n1) -> conn_iter cfg c w1 w2 (n_c n) hp nx i = Fine o ->
  wconn N (taken n1 i o) + match x with SelTimer => 0 | _ => 1 end <= wconn N n.
Proof.
  intros Htx Hlen Hp Ho Ht Hi. destruct (take_input_cases _ _ _ _ Ht) as (I1 & I2 & I3 & I4 & I5 & I6).
  assert (Hx : (x = SelTimer /\ i = InTimer) \/ (x <> SelTimer /\ i <> InTimer)).
  { destruct x; cbn in Ht.
    - right. destruct (n_read n); [destruct (n_eof n); [|done]|]; injection Ht as <- _; done.
    - right. destruct (n_write n); [done|]; injection Ht as <- _; done.
    - right. destruct (n_sub n); [done|]; injection Ht as <- _; done.
    - left. destruct (0 <? k_wt (n_c n))%Z; [|done]. injection Ht as <- _. done. }
  assert (Hgoal : wconn N (taken n1 i o) + match i with InTimer => 0 | _ => 1 end <= wconn N n).
  2: { destruct Hx as [[-> ->]|[Hx Hi']]; [done|]. destruct x, i; done. }
  clear Hx Ht. unfold wconn, taken. cbn [n_phase n_read n_write n_sub n_out n_c]. rewrite Hp, Ho. cbn [wphase sum_list_with]. unfold wcst, wframe, wstored.
  destruct i as [m| |m|s|].
  - destruct I6 as (I6 & I7 & I8). rewrite I6, I7, I8. cbn [length].
    pose proof (conn_iter_frame cfg c w1 w2 (n_c n) hp nx m Htx) as Hc. rewrite Hi in Hc.
    inversion Hc; subst; cbn [i_stop i_c i_push set_tx set_sublist set_subs k_sublist k_subs k_tx sum_list_with wout wreq wphase]; rewrite ?tsize_empty.
    + unfold wout; cbn [wreq]; nia.
    + unfold wout; cbn [wreq]; nia.
    + unfold wout; cbn [wreq]; nia.
    + unfold wout; cbn [wreq]; nia.
    + match goal with H : k_tx _ !! _ = None |- _ => rewrite (tsize_new _ _ _ H) end. cbn [length]. nia.
    + match goal with H : k_tx _ !! _ = Some _ |- _ => pose proof (tsize_delete _ _ _ H) end. nia.
    + match goal with H : k_tx _ !! _ = Some _ |- _ => pose proof (tsize_delete _ _ _ H) end.
      match goal with H : replay _ _ _ = _ |- _ => pose proof (replay_weight N _ _ _ _ _ _ H) end. nia.
    + match goal with H : k_tx _ !! _ = Some ?l |- context [<[_ := ?l']> _] => pose proof (tsize_set _ _ _ l' H) as Hts end. rewrite app_length in Hts. cbn [length] in Hts. nia.
    + unfold wout; cbn [wreq]; nia.
    + match goal with H : sl_of _ _ _ _ = _ |- _ => pose proof (sl_of_weight N _ _ _ _ _ _ _ H) end. nia.
    + rewrite map_size_insert_None by done. unfold wout; cbn [wreq]; nia.
    + rewrite map_size_delete_Some by eauto. unfold wout; cbn [wreq]; nia.
  - injection Hi as <-. destruct I6 as (-> & I6 & I7). cbn [i_stop i_c i_push set_tx k_sublist k_subs k_tx sum_list_with wphase]. rewrite tsize_empty. nia.
  - destruct I6 as (I6 & I7 & I8). rewrite I6, I7, I8. cbn [conn_iter] in Hi. destruct (alloc_id (k_last (n_c n)) None m) as [k m']. injection Hi as <-. cbn [i_stop i_c i_push set_last k_sublist k_subs k_tx sum_list_with length].
    destruct (negb w1 || _); cbn [set_tx set_last k_sublist k_subs k_tx wphase]; rewrite ?tsize_empty; nia.
  - destruct I6 as (I6 & I7 & I8). rewrite I6, I7, I8. cbn [length]. pose proof (conn_iter_shape _ _ _ _ _ _ _ _ _ Htx Hi) as Hs.
    inversion Hs; subst; [by match goal with H : forall s0, InSub s <> InSub s0 |- _ => destruct (H s) end|..];
      repeat match goal with H : i_c o = _ |- _ => rewrite H; clear H | H : i_push o = _ |- _ => rewrite H; clear H | H : i_stop o = _ |- _ => rewrite H; clear H end;
      unfold wout; cbn [set_tx set_last set_sublist k_sublist k_subs k_tx sum_list_with wreq wphase]; rewrite ?tsize_empty, ?app_length; cbn [length]; nia.
  - injection Hi as <-. rewrite I6. cbn [i_stop i_c i_push sum_list_with]. destruct (negb w1); cbn [set_tx k_sublist k_subs k_tx wphase]; rewrite ?tsize_empty; nia.
Qed.
(** One turn of cleanupConn. *)
Lemma clean_weight N c n hp n' hp' : n_out n = [] -> n_phase n <> Dead -> clean_case c n hp n' hp' -> wconn N n' + 1 <= wconn N n.
Proof.
  intros Ho Hd H. unfold wconn, wcst. destruct H; cbn [with_out with_c with_phase with_write with_sub_ch n_phase n_read n_write n_sub n_out n_c set_sublist set_subs k_sublist k_subs k_tx];
    rewrite ?Ho; unfold wout; cbn [sum_list_with wreq].
  - rewrite H. cbn [length]. lia.
  - rewrite H. clear Hd H. destruct H0 as [(-> & -> & _)|[(-> & -> & _)|[(-> & -> & _)|[(-> & -> & _)|[(-> & -> & _)|[(-> & -> & _)|(-> & -> & _)]]]]]]; cbn [wphase]; lia.
  - rewrite map_size_delete_Some by eauto. assert (size (k_subs (n_c n)) <> 0). { intros E. apply map_size_empty_inv in E. rewrite E, lookup_empty in H0. done. } lia.
  - rewrite H0. cbn [length]. lia.
  - rewrite H0. cbn [length]. lia.
  - rewrite H. cbn [wphase]. lia.
Qed.
(** One request. *)
Lemma serve_weight N D b hp r b' hp' outs : serve_case b hp r b' hp' outs -> cov D b -> (forall d, is_queue d = false -> length (members b d) <= N) ->
  exists D', cov D' b' /\ wbroker D' b' + sum_list_with wpout outs + 1 <= wbroker D b + wreq N r.
Proof.
  intros H Hc Hm.
  assert (Hsame : forall b1, bis b1 (waiting b) (ready b) (members b) -> cov D b1 /\ wbroker D b1 = wbroker D b).
  { intros b1 (B1 & B2 & B3). split; [split; [apply Hc|]; intros d Hd; rewrite B1, B2; by apply Hc|]. apply wbroker_ext. intros d _. by rewrite B1, B2. }
  assert (Hsame' : forall b1 M, bis b1 (waiting b) (ready b) M -> cov D b1 /\ wbroker D b1 = wbroker D b).
  { intros b1 M (B1 & B2 & B3). split; [split; [apply Hc|]; intros d Hd; rewrite B1, B2; by apply Hc|]. apply wbroker_ext. intros d _. by rewrite B1, B2. }
  assert (Hf : forall {A} (f : str -> A) d d', f d' = fupd d (f d) f d') by (intros A f d d'; unfold fupd; by case_decide as Hdd; [rewrite Hdd|]).
  destruct H; cbn [wreq sum_list_with wpout].
  - destruct H3 as (B1 & B2 & B3). destruct (wbroker_upd D b b' (s_dest sb) (waiting b (s_dest sb)) (ready b (s_dest sb) ++ [s]) Hc) as (D' & C1 & C2); [intros; by rewrite B1, <-Hf|done|].
    rewrite app_length in C2. cbn [length] in C2. exists D'. split; [done|lia].
  - destruct H3 as (B1 & B2 & B3). destruct (wbroker_upd D b b' (s_dest sb) w (ready b (s_dest sb)) Hc) as (D' & C1 & C2); [done|intros; by rewrite B2, <-Hf|].
    rewrite H1 in C2. cbn [length] in C2. exists D'. split; [done|lia].
  - destruct (Hsame' _ _ H1) as [C1 C2]. exists D. split; [done|lia].
  - destruct H2 as (B1 & B2 & B3). destruct (wbroker_upd D b b' (s_dest sb) (waiting b (s_dest sb)) (l1 ++ l2) Hc) as (D' & C1 & C2); [intros; by rewrite B1, <-Hf|done|].
    rewrite H1, !app_length in C2. cbn [length] in C2. exists D'. split; [done|lia].
  - destruct (Hsame _ H2) as [C1 C2]. exists D. split; [done|lia].
  - destruct (Hsame' _ _ H2) as [C1 C2]. exists D. split; [done|lia].
  - destruct (Hsame _ H2) as [C1 C2]. exists D. split; [done|lia].
  - destruct H2 as (B1 & B2 & B3). destruct (wbroker_upd D b b' d (waiting b d ++ [m]) (ready b d) Hc) as (D' & C1 & C2); [done|intros; by rewrite B2, <-Hf|].
    rewrite app_length in C2. cbn [length] in C2. exists D'. split; [done|lia].
  - destruct H2 as (B1 & B2 & B3). destruct (wbroker_upd D b b' d (m :: waiting b d) (ready b d) Hc) as (D' & C1 & C2); [done|intros; by rewrite B2, <-Hf|].
    cbn [length] in C2. exists D'. split; [done|lia].
  - destruct H5 as (B1 & B2 & B3). destruct (wbroker_upd D b b' d (waiting b d) l Hc) as (D' & C1 & C2); [intros; by rewrite B1, <-Hf|done|].
    rewrite H2 in C2. cbn [length] in C2. exists D'. split; [done|]. destruct H as [-> | ->]; cbn [wreq]; lia.
  - exists D. split; [done|]. specialize (Hm _ H0). assert (sum_list_with wpout outs = 2 * length (members b d)) as ->; [|lia].
    clear -H1. induction H1 as [|s o l os (sb & _ & _ & ->) _ IH]; [done|]. cbn [sum_list_with wpout length]. lia.
  - exists D. split; [done|lia].
  - exists D. split; [done|]. destruct H as (? & [-> | ->]); cbn [wreq]; lia.
Qed.

(* ------------------------------------------------------------------ *)
(** One action. *)
Definition input_weight (N : nat) (a : act) : nat := match a with ARecv _ _ => wframe N | AAccept => 20 | _ => 0 end.
Lemma sublist_bound y c n : wf y -> tok y -> y_conns y !! c = Some n -> length (k_sublist (n_c n)) <= y_next y.
Proof.
  intros HW HT Hn. apply nodup_bound.
  - apply cnt_nodup. intros s. pose proof (tk_one _ HT s) as T1. pose proof (lhold_le y c n s Hn) as H. unfold lhold, chold in H. lia.
  - intros s Hin. destruct (co_list _ _ _ (wf_conns _ HW _ _ Hn) _ Hin) as ((sb & E & _) & _). by apply (wf_next _ HW) in E.
Qed.
Lemma members_bound y d : wf y -> tok y -> length (members (y_broker y) d) <= y_next y.
Proof.
  intros HW HT. assert (Hm : forall s, s ∈ members (y_broker y) d -> exists sb, y_heap y !! s = Some sb /\ s_dest sb = d).
  { intros s Hin. destruct (wf_members _ HW _ _ Hin) as [_ (sb & E1 & E2)]. eauto. }
  apply nodup_bound.
  - apply cnt_nodup. intros s. destruct (decide (s ∈ members (y_broker y) d)) as [Hin|Hin]; [|rewrite cnt_0 by done; lia].
    destruct (Hm _ Hin) as (sb & E1 & E2). pose proof (tk_one _ HT s) as T1. unfold free, bfree, hdest in T1. rewrite E1, E2 in T1. lia.
  - intros s Hin. destruct (Hm _ Hin) as (sb & E1 & E2). by apply (wf_next _ HW) in E1.
Qed.
Lemma wsys_conn N D y c n n' hp nx uid req pout blog fin lost : y_conns y !! c = Some n ->
  wsys N D (mkSys (<[c := n']> (y_conns y)) hp nx uid req (y_broker y) pout blog fin lost) + wconn N n + sum_list_with (wreq N) (y_req y) + sum_list_with wpout (y_pout y) =
  wsys N D y + wconn N n' + sum_list_with (wreq N) req + sum_list_with wpout pout.
Proof. intros Hn. unfold wsys. cbn [y_conns y_req y_pout y_broker]. pose proof (sum_upd (wconn N) _ _ _ n' Hn). lia. Qed.
Lemma step_weight N cfg y a y' D : reach cfg y -> y_next y <= N -> cov D (y_broker y) -> step cfg y a = Some (Fine y') ->
  exists D', cov D' (y_broker y') /\ wsys N D' y' + (if decide (work_act a) then 1 else 0) <= wsys N D y + input_weight N a.
Proof.
  intros Hr HN Hc. pose proof (reach_wf _ _ Hr) as HW. pose proof (reach_tok _ _ Hr) as HT. destruct a as [|c f|c|c x w1 w2|c|c pick| |]; cbn [step].
  - intros [= <-]. exists D. split; [done|]. unfold wsys. cbn [y_conns y_req y_pout y_broker input_weight]. rewrite sum_list_with_app. cbn [sum_list_with].
    assert (wconn N sconn_init = 20) as -> by (unfold wconn, wcst; cbn [sconn_init cst_init n_phase n_read n_write n_sub n_out n_c k_sublist k_subs k_tx wphase sum_list_with length]; rewrite tsize_empty, map_size_empty; lia). destruct (decide (work_act AAccept)) as [[]|]. lia.
  - intros H%fine_Some. unfold do_recv in H. destruct (y_conns y !! c) as [n|] eqn:Hn; [|done]. destruct (n_eof n) eqn:He; [done|].
    destruct (decide _); [|done]. injection H as <-. exists D. split; [done|]. cbn [input_weight].
    match goal with |- context [<[c := ?n']> _] => pose proof (wsys_conn N D y c n n' (y_heap y) (y_next y) (S (y_uid y)) (y_req y) (y_pout y) (y_blog y) (y_fin y) (y_lost y) Hn) as Hs end.
    unfold wconn in Hs. cbn [n_phase n_read n_write n_sub n_out n_c] in Hs. rewrite app_length in Hs. cbn [length] in Hs. destruct (decide (work_act (ARecv c f))) as [[]|]. nia.
  - intros H%fine_Some. unfold do_eof in H. destruct (y_conns y !! c) as [n|] eqn:Hn; [|done]. destruct (n_eof n) eqn:He; [done|].
    injection H as <-. exists D. split; [done|]. cbn [input_weight]. unfold set_conn.
    match goal with |- context [<[c := ?n']> _] => pose proof (wsys_conn N D y c n n' (y_heap y) (y_next y) (y_uid y) (y_req y) (y_pout y) (y_blog y) (y_fin y) (y_lost y) Hn) as Hs end.
    unfold wconn in Hs. cbn [n_phase n_read n_write n_sub n_out n_c] in Hs. destruct (decide (work_act (AEof c))) as [[]|]. lia.
  - unfold do_take. destruct (y_conns y !! c) as [n|] eqn:Hn; [|done]. destruct (n_phase n) eqn:Hp; try done.
    destruct (idle n) eqn:Hi; [|done]. apply idle_true in Hi. destruct (take_input n x) as [[i n1]|] eqn:Ht; [|done].
    destruct (conn_iter cfg c w1 w2 (n_c n) (y_heap y) (y_next y) i) as [p|o] eqn:Ho; [done|]. intros [= <-]. exists D. split; [done|]. cbn [input_weight].
    pose proof (take_weight N _ _ _ _ _ _ _ _ _ _ _ (co_tx _ _ _ (wf_conns _ HW _ _ Hn)) ltac:(pose proof (sublist_bound _ _ _ HW HT Hn); lia) Hp Hi Ht Ho) as Hw.
    pose proof (wsys_conn N D y c n (taken n1 i o) (i_hp o) (i_next o) (y_uid y) (y_req y) (y_pout y) (y_blog y)
                      (y_fin y ++ finals (y_heap y) (i_push o)) (y_lost y ++ losses (y_heap y) i (i_stop o)) Hn) as Hs. unfold taken in Hs, Hw.
    destruct x; (destruct (decide (work_act (ATake c _ w1 w2))) as [Hd|Hd]; try (by destruct Hd)); lia.
  - intros H%fine_Some. unfold do_push in H. destruct (y_conns y !! c) as [n|] eqn:Hn; [|done]. destruct (n_out n) as [|r rs] eqn:He; [done|].
    destruct (decide _); [|done]. injection H as <-. exists D. split; [done|]. cbn [input_weight].
    pose proof (wsys_conn N D y c n (with_out n rs) (y_heap y) (y_next y) (y_uid y) (y_req y ++ [r]) (y_pout y) (y_blog y) (y_fin y) (y_lost y) Hn) as Hs.
    rewrite sum_list_with_app in Hs. unfold wconn in Hs. cbn [with_out n_phase n_read n_write n_sub n_out n_c sum_list_with] in Hs. rewrite He in Hs. cbn [sum_list_with] in Hs. unfold wout in Hs at 1.
    destruct (decide (work_act (APush c))); lia.
  - unfold do_clean. destruct (y_conns y !! c) as [n|] eqn:Hn; [|done]. destruct (idle n) eqn:Hi; [|done]. apply idle_true in Hi.
    destruct (clean_step c n (y_heap y) pick) as [[p|[n' hp']]|] eqn:E; [done| |done]. intros [= <-]. exists D. split; [done|]. cbn [input_weight].
    assert (n_phase n <> Dead) as Hd. { intros Hp. unfold clean_step in E. by rewrite Hp in E. }
    pose proof (clean_weight N _ _ _ _ _ Hi Hd (clean_cases _ _ _ _ _ _ E)) as Hw.
    pose proof (wsys_conn N D y c n n' hp' (y_next y) (y_uid y) (y_req y) (y_pout y) (y_blog y) (y_fin y) (y_lost y) Hn) as Hs.
    destruct (decide (work_act (AClean c pick))); lia.
  - unfold do_proc. destruct (y_pout y) eqn:Ho; [|done]. destruct (y_req y) as [|r rs] eqn:Hrq; [done|].
    destruct (serve (y_broker y) (y_heap y) r) as [p|[[b hp] outs]] eqn:E; [done|]. intros [= <-]. cbn [input_weight y_broker].
    destruct (serve_weight N D _ _ _ _ _ _ (serve_cases _ _ _ _ _ _ E) Hc) as (D' & C1 & C2); [intros d _; pose proof (members_bound y d HW HT); lia|].
    exists D'. split; [done|]. unfold wsys. cbn [y_conns y_req y_pout y_broker]. rewrite Hrq, Ho. cbn [sum_list_with]. destruct (decide (work_act AProc)); lia.
  - intros H%fine_Some. unfold do_out in H. destruct (y_pout y) as [|o os] eqn:Ho; [done|]. cbn [input_weight].
    destruct o as [c s m|c m]; (destruct (y_conns y !! c) as [n|] eqn:Hn; [|done]); (destruct (decide _); [|done]); injection H as <-; exists D; (split; [done|]).
    + pose proof (wsys_conn N D y c n (with_sub_ch n (n_sub n ++ [s])) (y_heap y) (y_next y) (y_uid y) (y_req y) os (y_blog y) (y_fin y) (y_lost y) Hn) as Hs.
      unfold wconn in Hs. cbn [with_sub_ch n_phase n_read n_write n_sub n_out n_c] in Hs. rewrite app_length, Ho in Hs. cbn [length sum_list_with wpout] in Hs. destruct (decide (work_act AOut)); lia.
    + pose proof (wsys_conn N D y c n (with_write n (n_write n ++ [m])) (y_heap y) (y_next y) (y_uid y) (y_req y) os (y_blog y) (y_fin y) (y_lost y) Hn) as Hs.
      unfold wconn in Hs. cbn [with_write n_phase n_read n_write n_sub n_out n_c] in Hs. rewrite app_length, Ho in Hs. cbn [length sum_list_with wpout] in Hs. destruct (decide (work_act AOut)); lia.
Qed.

(* ------------------------------------------------------------------ *)
(** Runs. *)
Definition inbox (y : sys) : nat := y_next y + sum_list_with (fun n => length (n_read n)) (y_conns y).
Lemma step_inbox cfg y a y' : reach cfg y -> step cfg y a = Some (Fine y') -> inbox y' <= inbox y + match a with ARecv _ _ => 1 | _ => 0 end.
Proof.
  intros Hr. assert (Hu : forall c n n', y_conns y !! c = Some n -> sum_list_with (fun n => length (n_read n)) (<[c := n']> (y_conns y)) + length (n_read n) =
    sum_list_with (fun n => length (n_read n)) (y_conns y) + length (n_read n')) by (intros c n n' Hn; apply (sum_upd (fun n => length (n_read n)) _ _ _ n' Hn)).
  unfold inbox. destruct a as [|c f|c|c x w1 w2|c|c pick| |]; cbn [step].
  - intros [= <-]. cbn [y_conns y_next]. rewrite sum_list_with_app. cbn. lia.
  - intros H%fine_Some. unfold do_recv in H. destruct (y_conns y !! c) as [n|] eqn:Hn; [|done]. destruct (n_eof n) eqn:He; [done|].
    destruct (decide _); [|done]. injection H as <-. cbn [y_conns y_next]. match goal with |- context [<[c := ?n']> _] => specialize (Hu _ _ n' Hn) end. cbn [n_read] in Hu. rewrite app_length in Hu. cbn in Hu. lia.
  - intros H%fine_Some. unfold do_eof in H. destruct (y_conns y !! c) as [n|] eqn:Hn; [|done]. destruct (n_eof n) eqn:He; [done|].
    injection H as <-. cbn [set_conn y_conns y_next]. match goal with |- context [<[c := ?n']> _] => specialize (Hu _ _ n' Hn) end. cbn [n_read] in Hu. lia.
  - unfold do_take. destruct (y_conns y !! c) as [n|] eqn:Hn; [|done]. destruct (n_phase n) eqn:Hp; try done.
    destruct (idle n) eqn:Hi; [|done]. destruct (take_input n x) as [[i n1]|] eqn:Ht; [|done].
    destruct (conn_iter cfg c w1 w2 (n_c n) (y_heap y) (y_next y) i) as [p|o] eqn:Ho; [done|]. intros [= <-]. cbn [y_conns y_next].
    match goal with |- context [<[c := ?n']> _] => specialize (Hu _ _ n' Hn) end. cbn [n_read] in Hu. destruct (take_input_cases _ _ _ _ Ht) as (_ & _ & _ & _ & _ & I6).
    assert (Hk : i_next o + length (n_read n1) <= y_next y + length (n_read n)); [|lia].
    pose proof (conn_iter_shape _ _ _ _ _ _ _ _ _ (co_tx _ _ _ (wf_conns _ (reach_wf _ _ Hr) _ _ Hn)) Ho) as Hs.
    destruct Hs; repeat match goal with H : _ /\ _ |- _ => destruct H end; repeat match goal with H : n_read _ = _ |- _ => rewrite H end; cbn [length]; try lia.
    destruct i; repeat match goal with H : _ /\ _ |- _ => destruct H end; subst; repeat match goal with H : n_read _ = _ |- _ => rewrite H end; cbn [length]; lia.
  - intros H%fine_Some. unfold do_push in H. destruct (y_conns y !! c) as [n|] eqn:Hn; [|done]. destruct (n_out n) as [|r rs] eqn:He; [done|].
    destruct (decide _); [|done]. injection H as <-. cbn [y_conns y_next]. specialize (Hu _ _ (with_out n rs) Hn). cbn [with_out n_read] in *. lia.
  - unfold do_clean. destruct (y_conns y !! c) as [n|] eqn:Hn; [|done]. destruct (idle n) eqn:Hi; [|done].
    destruct (clean_step c n (y_heap y) pick) as [[p|[n' hp']]|] eqn:E; [done| |done]. intros [= <-]. cbn [y_conns y_next]. specialize (Hu _ _ n' Hn).
    assert (n_read n' = n_read n) as Hrd by (apply clean_cases in E; by destruct E). rewrite Hrd in Hu. lia.
  - unfold do_proc. destruct (y_pout y) eqn:Ho; [|done]. destruct (y_req y) as [|r rs] eqn:Hrq; [done|].
    destruct (serve (y_broker y) (y_heap y) r) as [p|[[b hp] outs]] eqn:E; [done|]. intros [= <-]. cbn [y_conns y_next]. lia.
  - intros H%fine_Some. unfold do_out in H. destruct (y_pout y) as [|o os] eqn:Ho; [done|].
    destruct o as [c s m|c m]; (destruct (y_conns y !! c) as [n|] eqn:Hn; [|done]); (destruct (decide _); [|done]); injection H as <-; cbn [y_conns y_next];
      match goal with |- context [<[c := ?n']> _] => specialize (Hu _ _ n' Hn) end; cbn [with_sub_ch with_write n_read] in Hu; lia.
Qed.
Lemma run_weight N cfg l y y' D : reach cfg y -> inbox y + frames l <= N -> cov D (y_broker y) -> run cfg y l = Some (Fine y') ->
  exists D', cov D' (y_broker y') /\ moves l + wsys N D' y' <= wsys N D y + frames l * wframe N + 20 * clients l.
Proof.
  revert y D. induction l as [|a l IH]; intros y D Hr HN Hc; cbn [run].
  - intros [= <-]. exists D. split; [done|]. cbn. lia.
  - destruct (step cfg y a) as [[p|y1]|] eqn:Hs; [done| |done]. intros Hrun.
    pose proof (step_inbox _ _ _ _ Hr Hs) as Hin. unfold frames in HN. cbn [sum_list_with] in HN. fold (frames l) in HN.
    destruct (step_weight N cfg y a y1 D Hr) as (D1 & C1 & C2); [unfold inbox in HN; lia|done|done|].
    destruct (IH y1 D1) as (D' & C3 & C4); [by eapply reach_step|lia|done|done|]. exists D'. split; [done|].
    unfold moves, frames, clients. cbn [sum_list_with]. fold (frames l) (clients l).
    assert (length (filter work_act (a :: l)) = (if decide (work_act a) then 1 else 0) + moves l) as -> by (rewrite filter_cons; unfold moves; by case_decide).
    unfold input_weight in C2. destruct a; lia.
Qed.
Lemma cov_init : cov [] broker_init.
Proof. split; [constructor|]. intros d _. unfold waiting, ready. cbn. by rewrite !lookup_empty. Qed.
Lemma run_bounded cfg l y : run cfg sys_init l = Some (Fine y) -> moves l <= frames l * (13 * frames l + 20) + 20 * clients l.
Proof.
  intros Hrun. destruct (run_weight (frames l) cfg l sys_init y []) as (D' & _ & H); [constructor|cbn; lia|apply cov_init|done|].
  assert (wsys (frames l) [] sys_init = 0) as E by done. rewrite E in H. unfold wframe in H. lia.
Qed.

(* ------------------------------------------------------------------ *)
(** Coming to rest. *)
Definition candidates (y : sys) : list act :=
  AProc :: AOut :: concat (imap (fun c n => ATake c SelRead true true :: ATake c SelWrite true true :: ATake c SelSub true true :: APush c :: AClean c [] ::
    ((fun kv => AClean c kv.1) <$> map_to_list (k_subs (n_c n)))) (y_conns y)).
Lemma candidate_conn y c n a : y_conns y !! c = Some n ->
  a ∈ ATake c SelRead true true :: ATake c SelWrite true true :: ATake c SelSub true true :: APush c :: AClean c [] :: ((fun kv => AClean c kv.1) <$> map_to_list (k_subs (n_c n))) ->
  a ∈ candidates y.
Proof.
  intros Hn Ha. unfold candidates. do 2 right. apply elem_of_list_In, in_concat. eexists. split; [|apply elem_of_list_In; exact Ha].
  apply elem_of_list_In, elem_of_lookup_imap. eauto.
Qed.
Lemma candidates_ok cfg y : Forall (fun a => step cfg y a = None) (candidates y) -> stalled cfg y.
Proof.
  intros HF a Ha. rewrite Forall_forall in HF. destruct a as [|c f|c|c x w1 w2|c|c pick| |]; try done.
  - cbn [step]. unfold do_take. destruct (y_conns y !! c) as [n|] eqn:Hn; [|done]. destruct (n_phase n) eqn:Hp; try done. destruct (idle n) eqn:Hi; [|done].
    destruct (take_input n x) as [[i n1]|] eqn:Ht; [|done]. exfalso.
    eapply (iter_enabled cfg y c n x); [done|done|by apply idle_true|done|]. apply HF. eapply candidate_conn; [done|]. destruct x; try done; [left|right; left|do 2 right; left].
  - cbn [step]. destruct (y_conns y !! c) as [n|] eqn:Hn; [|unfold do_push; by rewrite Hn].
    apply (HF (APush c)). eapply candidate_conn; [done|]. do 3 right. left.
  - cbn [step]. unfold do_clean. destruct (y_conns y !! c) as [n|] eqn:Hn; [|done]. destruct (idle n) eqn:Hi; [|done].
    destruct (clean_step c n (y_heap y) pick) as [r|] eqn:E; [|done]. exfalso.
    assert (exists pick' r', AClean c pick' ∈ candidates y /\ clean_step c n (y_heap y) pick' = Some r') as (pick' & r' & Hin & E').
    { destruct (decide (n_phase n = CUnsub)) as [Hp|Hp].
      - destruct (k_subs (n_c n) !! pick) as [s|] eqn:Hk.
        + exists pick, r. split; [|done]. eapply candidate_conn; [done|]. do 5 right. apply elem_of_list_fmap. exists (pick, s). split; [done|]. by apply elem_of_map_to_list.
        + exists []. unfold clean_step in E |- *. rewrite Hp in E |- *. destruct (decide (k_subs (n_c n) = ∅)); [|by rewrite Hk in E].
          eexists. split; [|done]. eapply candidate_conn; [done|]. do 4 right. left.
      - exists [], r. split; [eapply candidate_conn; [done|]; do 4 right; left|]. unfold clean_step in E |- *. by destruct (n_phase n). }
    specialize (HF _ Hin). cbn [step] in HF. unfold do_clean in HF. rewrite Hn, Hi, E' in HF. by destruct r' as [|[??]].
  - apply HF. left.
  - apply HF. right. left.
Qed.
Lemma candidates_work y a : a ∈ candidates y -> work_act a.
Proof.
  unfold candidates. rewrite !elem_of_cons. intros [->|[->|H]]; [done..|]. apply elem_of_list_In, in_concat in H as (l & Hl & Ha). apply elem_of_list_In in Hl, Ha.
  apply elem_of_lookup_imap in Hl as (c & n & -> & _). rewrite !elem_of_cons in Ha. destruct Ha as [->|[->|[->|[->|[->|Ha]]]]]; try done.
  apply elem_of_list_fmap in Ha as (kv & -> & _). done.
Qed.
Lemma stalled_or_not cfg y : stalled cfg y \/ exists a r, work_act a /\ step cfg y a = Some r.
Proof.
  destruct (decide (Forall (fun a => step cfg y a = None) (candidates y))) as [H|H]; [left; by apply candidates_ok|]. right.
  apply not_Forall_Exists in H; [|apply _]. apply Exists_exists in H as (a & Ha & Hs). exists a. cbn in Hs. destruct (step cfg y a) as [r|] eqn:E; [|done].
  exists r. split; [|done]. by eapply candidates_work.
Qed.
Lemma cov_exists b : exists D, cov D b.
Proof.
  exists (elements (dom (b_store b) ∪ dom (b_ready b))). split; [apply NoDup_elements|]. intros d Hd. rewrite elem_of_elements in Hd.
  unfold waiting, ready. apply not_elem_of_union in Hd as [H1%not_elem_of_dom H2%not_elem_of_dom]. unfold mq_list. by rewrite H1, H2.
Qed.
Lemma settles cfg y : reach cfg y -> exists l, Forall work_act l /\
  ((exists p, run cfg y l = Some (Panicked p)) \/ (exists y', run cfg y l = Some (Fine y') /\ stalled cfg y')).
Proof.
  intros Hr. destruct (cov_exists (y_broker y)) as [D HD]. remember (inbox y) as N eqn:HN. assert (inbox y <= N) as HN' by lia. clear HN.
  remember (wsys N D y) as k eqn:Hk. assert (wsys N D y <= k) as Hle by lia. clear Hk.
  revert y D Hr HD HN' Hle. induction k as [|k IH]; intros y D Hr HD HN Hle; (destruct (stalled_or_not cfg y) as [Hs|(a & r & Ha & Hs)]; [exists []; split; [constructor|right; by exists y]|]);
    (destruct r as [p|y']; [exists [a]; split; [by repeat constructor|left; exists p; cbn; by rewrite Hs]|]).
  all: pose proof (step_inbox _ _ _ _ Hr Hs) as Hin; destruct (step_weight N cfg y a y' D Hr ltac:(unfold inbox in HN; lia) HD Hs) as (D' & C1 & C2); rewrite decide_True in C2 by done.
  all: assert (input_weight N a = 0) as Hz by (by destruct a).
  - lia.
  - destruct (IH y' D') as (l & L1 & L2); [by eapply reach_step|done|destruct a; try done; lia|lia|].
    exists (a :: l). split; [by constructor|]. cbn [run]. rewrite Hs. done.
Qed.
Lemma run_app cfg y l l' : run cfg y (l ++ l') = match run cfg y l with Some (Fine y1) => run cfg y1 l' | o => o end.
Proof. revert y. induction l as [|a l IH]; intros y; cbn [app run]; [done|]. destruct (step cfg y a) as [[p|y1]|]; [done|apply IH|done]. Qed.
Lemma moves_app l l' : moves (l ++ l') = moves l + moves l'.
Proof. unfold moves. by rewrite filter_app, app_length. Qed.
Lemma work_frames l : Forall work_act l -> moves l = length l /\ frames l = 0 /\ clients l = 0.
Proof.
  unfold moves. induction 1 as [|a l Ha Hl (I1 & I2 & I3)]; [done|]. rewrite filter_cons_True by done. unfold frames, clients in *. cbn [sum_list_with length]. destruct a; try done; lia.
Qed.
Lemma rest_bounded cfg l0 l y y' : run cfg sys_init l0 = Some (Fine y) -> Forall work_act l -> run cfg y l = Some (Fine y') ->
  moves l0 + length l <= frames l0 * (13 * frames l0 + 20) + 20 * clients l0.
Proof.
  intros H0 Hl H1. destruct (work_frames l Hl) as (E1 & E2 & E3). pose proof (run_bounded cfg (l0 ++ l) y') as H. rewrite run_app, H0 in H. specialize (H H1).
  rewrite moves_app in H. unfold frames, clients in *. rewrite !sum_list_with_app in H. rewrite E2, E3, !Nat.add_0_r in H. lia.
Qed.
Lemma rests cfg y : reach cfg y -> stalled cfg y -> at_rest y \/ deadlocked y.
Proof.
  intros Hr Hs.
  assert (pending y \/ ~ pending y) as [Hp|Hp].
  { destruct (y_req y) eqn:E1; [|left; left; by rewrite E1]. destruct (y_pout y) eqn:E2; [|left; right; left; by rewrite E2].
    set (P := fun n => n_out n <> [] \/ n_phase n <> Running /\ n_phase n <> Dead \/ n_phase n = Running /\ (n_read n <> [] \/ n_write n <> [] \/ n_sub n <> [])).
    assert (forall n, Decision (P n)) as HD.
    { intros n. unfold P. assert (forall A (l : list A), Decision (l <> [])) by (intros A l; destruct l; [by right; auto|by left]). apply _. }
    destruct (decide (Exists P (y_conns y))) as [H|H].
    - left. right. right. apply Exists_exists in H as (n & Hn & HP). apply elem_of_list_lookup in Hn as [c Hn]. by exists c, n.
    - right. intros [?|[?|(c & n & Hn & HP)]]; [congruence..|]. apply H. apply Exists_exists. exists n. split; [by eapply elem_of_list_lookup_2|done]. }
  - right. by apply (stalled_reason cfg).
  - left. assert (y_req y = []) as E1 by (destruct (y_req y) eqn:E; [done|exfalso; apply Hp; left; by rewrite E]).
    assert (y_pout y = []) as E2 by (destruct (y_pout y) eqn:E; [done|exfalso; apply Hp; right; left; by rewrite E]).
    split_and!; [done|done|]. apply Forall_forall. intros n Hn. apply elem_of_list_lookup in Hn as [c Hn].
    assert (Hq : ~ (n_out n <> [] \/ n_phase n <> Running /\ n_phase n <> Dead \/ n_phase n = Running /\ (n_read n <> [] \/ n_write n <> [] \/ n_sub n <> []))) by (intros H; apply Hp; right; right; by exists c, n).
    assert (n_out n = []) as E3 by (destruct (n_out n) eqn:E; [done|exfalso; apply Hq; by left]). split; [done|].
    destruct (decide (n_phase n = Dead)) as [|Hd]; [by left|]. right.
    assert (n_phase n = Running) as Hrn by (destruct (decide (n_phase n = Running)) as [|Hne]; [done|exfalso; apply Hq; right; by left]).
    assert (n_read n = []) as E4 by (destruct (n_read n) eqn:E; [done|exfalso; apply Hq; right; right; split; [done|by left]]).
    split_and!; [done|done| | |].
    + destruct (n_eof n) eqn:E; [|done]. exfalso. eapply (iter_enabled cfg y c n SelRead); [done|done|done|cbn; by rewrite E4, E|by apply Hs].
    + destruct (n_write n) eqn:E; [done|exfalso; apply Hq; right; right; split; [done|right; by left]].
    + destruct (n_sub n) eqn:E; [done|exfalso; apply Hq; right; right; split; [done|by right; right]].
Qed.
Lemma rest_stalled cfg y : at_rest y -> stalled cfg y.
Proof.
  intros (E1 & E2 & HF) a Ha. assert (HQ : forall c n, y_conns y !! c = Some n -> quiet n) by (intros c n Hn; exact (Forall_lookup_1 _ _ _ _ HF Hn)).
  destruct a as [|c f|c|c x w1 w2|c|c pick| |]; try done; cbn [step].
  - unfold do_take. destruct (y_conns y !! c) as [n|] eqn:Hn; [|done]. destruct (HQ _ _ Hn) as (Q1 & [Q2|(Q2 & Q3 & Q4 & Q5 & Q6)]); rewrite Q2; [done|]. destruct (idle n); [|done].
    destruct x; cbn [take_input]; rewrite ?Q3, ?Q4, ?Q5, ?Q6; done.
  - unfold do_push. destruct (y_conns y !! c) as [n|] eqn:Hn; [|done]. destruct (HQ _ _ Hn) as (-> & _). done.
  - unfold do_clean. destruct (y_conns y !! c) as [n|] eqn:Hn; [|done]. destruct (idle n); [|done]. unfold clean_step. destruct (HQ _ _ Hn) as (Q1 & [Q2|(Q2 & _)]); by rewrite Q2.
  - unfold do_proc. by rewrite E1, E2.
  - unfold do_out. by rewrite E2.
Qed.
Lemma rest_whereabouts cfg d y id_of ack_of : reach cfg y -> keeps id_of ack_of (y_heap y) -> at_rest y ->
  whereabouts d y ≡ₚ waiting (y_broker y) d ++ filter (to_dest d) (unacked ack_of y ++ stranded y ++ y_fin y ++ y_lost y).
Proof.
  intros Hr Hk (E1 & E2 & HF). unfold whereabouts, assigned, in_transit, finished. rewrite E1, E2. cbn [pmsgs rmsgs omap list_omap app]. rewrite !app_nil_r. f_equiv.
  assert (concat ((fun n => rmsgs (n_out n)) <$> y_conns y) = []) as ->.
  { induction HF as [|n l (Q1 & _) HF IH]; [done|]. cbn [fmap list_fmap concat]. rewrite Q1. exact IH. }
  cbn [app]. rewrite (assoc_L (++) (unacked ack_of y)). apply filter_Permutation, Permutation_app_tail.
  assert (HC : Forall (fun n => (n_phase n = Dead -> k_sublist (n_c n) = []) /\ (n_phase n = Running -> k_sublist (n_c n) = outstanding ack_of (n_log n))) (y_conns y)).
  { apply Forall_lookup. intros c n Hn. split; intros Hp.
    - apply (ph_late _ _ _ (reach_phase _ _ Hr _ _ Hn)). by rewrite Hp.
    - exact (run_outstanding _ _ _ _ _ _ Hr Hn Hp Hk). }
  unfold unacked, stranded. clear E1 E2. induction HF as [|n l (Q1 & Q2) HF IH]; [done|]. apply Forall_cons in HC as [[C1 C2] HC]. specialize (IH HC).
  cbn [fmap list_fmap concat]. destruct Q2 as [Q2|(Q2 & _ & _ & _ & Q6)]; rewrite Q2.
  - rewrite (C1 Q2), app_nil_r. cbn [app]. rewrite IH. by rewrite !(assoc_L (++)), (Permutation_app_comm (omap _ _)).
  - rewrite (C2 Q2), Q6. cbn [app]. by rewrite IH, (assoc_L (++)).
Qed.
