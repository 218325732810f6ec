(** The order of a queue's messages from program to program. *)
From stdpp Require Import gmap.
From Verif Require Import GoBase GoBaseProofs HeaderModel HeaderProofs FrameModel GrammarSpec CodecProofs NegotiationModel NegotiationLemmas ClientApiModel ClientModel ClientSpec ClientLemmas ClientProofs ClientCalls ClientRequests ClientChannels
  ClientReceipts ClientDelivery ClientLive ClientMessages ClientRouting ClientReady ClientRestSpec ClientRest.
From Verif Require Import BrokerModel BrokerSpec ServerConnModel ServerConnSpec ServerConnProofs SystemModel SystemSpec SystemLemmas SystemHistory SystemProofs SystemTokens SystemMessages FlowSpec FlowTopics FlowSubs RestSpec RestProofs PeerSpec PeerProofs RefusalSpec RefusalProofs
  FlowProofs NetModel NetSpec NetLinks NetProofs NetTopics NetRestSpec NetRest NetSettled NetRestProps OnceSpec OnceProofs QueueServer NetQueueSpec NetQueue QueueOrderSpec QueueOrderServer.

Lemma sublist_fmap_inv {A B} (f : A -> B) (k : list B) (l : list A) : k `sublist_of` f <$> l -> exists l', l' `sublist_of` l /\ f <$> l' = k.
Proof.
  revert k. induction l as [|x l IH]; intros k H; cbn in H.
  - apply sublist_nil_r in H as ->. by exists [].
  - apply sublist_cons_r in H as [H|(k' & -> & H)].
    + destruct (IH _ H) as (l' & H1 & H2). exists l'. split; [by constructor|done].
    + destruct (IH _ H) as (l' & H1 & <-). exists (x :: l'). split; [by constructor|done].
Qed.
Lemma takes_object cfg x c s0 f fs : nreach cfg x -> takes x c s0 f fs -> fs <> [] ->
  exists s sb n, y_heap (x_sys x) !! s = Some sb /\ y_conns (x_sys x) !! s_conn sb = Some n /\ hd_contains (f_hdr f) h_destination = Some (s_dest sb) /\ only_of_id (x_sys x) s sb /\
  exists rs, rs `prefix_of` received (s_id sb) n /\ fs = g_frame <$> rs /\ forall m, m ∈ rs -> cmd_of m = MESSAGE.
Proof.
  intros Hr Ht Hne. pose proof Ht as (l & o & h & k & y & b & Hl & Hp & Hw & (Hb & (r & id & rt & Hg & Ho) & Hrc & Hso) & ->). destruct (conn_of_link _ _ _ _ Hr Hl) as [n Hn].
  destruct (no_object _ _ _ _ _ _ _ _ _ _ _ _ _ _ _ Hr Hl Hn Hp Hw Hb Hg Ho Hrc Hso Hne) as (s & sb & Hs & Hc & Hid & Hd). exists s, sb, n. split_and!; [done|by rewrite Hc|done| |].
  - eapply only_object; try done. by rewrite Hid.
  - destruct (takes_prefix _ _ _ _ _ _ _ Hr Ht Hn) as (rs & R1 & R2). exists rs. rewrite Hid. split_and!; [done|done|]. intros m Hm. eapply received_msg. by eapply elem_of_prefix.
Qed.
Lemma takes_order cfg x c s0 f fs d : nreach cfg x -> takes x c s0 f fs -> hd_contains (f_hdr f) h_destination = Some d -> is_queue d = true -> none_back d (x_sys x) ->
  exists ms, ms `sublist_of` asked_for d (x_sys x) /\ Forall2 copy_of ms fs.
Proof.
  intros Hr Ht Hd Hq Hb. destruct (decide (fs = [])) as [->|Hne]; [exists []; split; [apply sublist_nil_l|constructor]|].
  destruct (takes_object _ _ _ _ _ _ Hr Ht Hne) as (s & sb & n & Hs & Hn & Hd' & Ho & rs & R1 & -> & R3). assert (s_dest sb = d) as <- by congruence.
  pose proof (ni_reach _ _ (nreach_inv _ _ Hr)) as Hsr. rewrite (received_tried _ _ _ _ _ Hsr Hs Hn Hq Ho) in R1.
  destruct (sublist_fmap_inv payload (payload <$> rs) (asked_for (s_dest sb) (x_sys x))) as (ms & M1 & M2).
  - etrans; [apply fmap_sublist, prefix_sublist, R1|]. by eapply tried_order.
  - exists ms. split; [done|]. by apply payload_copies.
Qed.
Lemma prefix_fmap {A B} (f : A -> B) (l k : list A) : l `prefix_of` k -> f <$> l `prefix_of` f <$> k.
Proof. intros [z ->]. rewrite fmap_app. by apply prefix_app_r. Qed.
Lemma takes_single cfg x c s0 f fs d : nreach cfg x -> takes x c s0 f fs -> hd_contains (f_hdr f) h_destination = Some d -> is_queue d = true -> none_back d (x_sys x) ->
  (forall s sb s' sb', y_heap (x_sys x) !! s = Some sb -> y_heap (x_sys x) !! s' = Some sb' -> s_dest sb = d -> s_dest sb' = d -> s' = s) ->
  exists ms, ms `prefix_of` asked_for d (x_sys x) /\ Forall2 copy_of ms fs.
Proof.
  intros Hr Ht Hd Hq Hb Hone. destruct (decide (fs = [])) as [->|Hne]; [exists []; split; [apply prefix_nil|constructor]|].
  destruct (takes_object _ _ _ _ _ _ Hr Ht Hne) as (s & sb & n & Hs & Hn & Hd' & Ho & rs & R1 & -> & R3). assert (s_dest sb = d) as <- by congruence.
  pose proof (ni_reach _ _ (nreach_inv _ _ Hr)) as Hsr. rewrite (received_tried _ _ _ _ _ Hsr Hs Hn Hq Ho) in R1.
  destruct (prefix_fmap_inv payload (payload <$> rs) (asked_for (s_dest sb) (x_sys x))) as (ms & M1 & M2).
  - etrans; [apply prefix_fmap, R1|]. eapply tried_single; try done. intros s' sb' Hs' Hd''. by apply (Hone s sb s' sb').
  - exists ms. split; [done|]. by apply payload_copies.
Qed.
(** What the processor was asked to distribute was sent. *)
Lemma sum_ge {A} (f : A -> nat) (l : list A) x : x ∈ l -> f x <= sum_list_with f l.
Proof. intros [i Hi]%elem_of_list_lookup. by eapply sum_pos. Qed.
Lemma cover_length {A B} (Q : B -> Prop) `{!forall b, Decision (Q b)} (P : A -> B -> Prop) `{!forall a b, Decision (P a b)} (ns : list A) (l : list B) :
  (forall m, m ∈ l -> exists n, n ∈ ns /\ P n m) -> length (filter Q l) <= sum_list_with (fun n => length (filter Q (filter (P n) l))) ns.
Proof.
  induction l as [|m l IH]; intros Hcov; [cbn; lia|]. specialize (IH ltac:(intros; apply Hcov; by right)).
  destruct (decide (Q m)) as [Hq|Hq].
  - destruct (Hcov m ltac:(by left)) as (n & Hn & Hp). rewrite filter_cons_True by done. cbn [length].
    enough (S (sum_list_with (fun n => length (filter Q (filter (P n) l))) ns) <= sum_list_with (fun n => length (filter Q (filter (P n) (m :: l)))) ns) by lia.
    clear -Hn Hp Hq. induction ns as [|a ns IH]; [by apply elem_of_nil in Hn|]. cbn [sum_list_with].
    assert (forall a', length (filter Q (filter (P a') l)) <= length (filter Q (filter (P a') (m :: l)))) as Hle.
    { intros a'. rewrite (filter_cons (P a')). destruct (decide _); [rewrite filter_cons; destruct (decide _); cbn; lia|lia]. }
    apply elem_of_cons in Hn as [<-|Hn].
    + rewrite (filter_cons_True (P n)), filter_cons_True by done. cbn [length]. enough (sum_list_with (fun n => length (filter Q (filter (P n) l))) ns <= sum_list_with (fun n => length (filter Q (filter (P n) (m :: l)))) ns) by lia.
      clear IH. induction ns as [|a ns IH]; [done|]. cbn [sum_list_with]. specialize (Hle a). lia.
    + specialize (IH Hn). specialize (Hle a). lia.
  - rewrite filter_cons_False by done. etrans; [exact IH|]. clear. induction ns as [|a ns IH]; [done|]. cbn [sum_list_with].
    enough (length (filter Q (filter (P a) l)) <= length (filter Q (filter (P a) (m :: l)))) by lia. rewrite (filter_cons (P a)). destruct (decide _); [rewrite filter_cons; destruct (decide _); cbn; lia|lia].
Qed.
Lemma asked_sent cfg y d : reach cfg y -> length (asked_for d y) <= length (filter (to_dest d) (sent y)).
Proof.
  intros Hr. pose proof (reach_ordered _ _ Hr) as [O1 O2]. etrans; [apply (cover_length (to_dest d) sent_by (y_conns y))|].
  - intros m Hm. destruct (O2 m Hm) as (c & n & Hn & Hs). exists n. split; [by eapply elem_of_list_lookup_2|done].
  - assert (forall n, n ∈ y_conns y -> length (filter (to_dest d) (filter (sent_by n) (enqueues (handed y)))) <= length (filter (to_dest d) (client_sent n))) as HH.
    { intros n [c Hc]%elem_of_list_lookup. rewrite <-(O1 _ _ Hc), filter_app, app_length. lia. }
    unfold sent. fold client_sent. clear -HH. induction (y_conns y) as [|n ns IH]; [done|]. cbn [fmap list_fmap concat sum_list_with]. rewrite filter_app, app_length.
    specialize (IH ltac:(intros; apply HH; by right)). pose proof (HH n ltac:(by left)). unfold client_sent in *. lia.
Qed.
Lemma consumes_in_order cfg x c s0 f fs d : rested cfg x -> consumes x c s0 f fs -> hd_contains (f_hdr f) h_destination = Some d -> is_queue d = true -> none_back d (x_sys x) ->
  (exists s sb, y_heap (x_sys x) !! s = Some sb /\ s_dest sb = d /\ s_ack sb = lit "auto" /\ s_conn sb = c /\ s_id sb = sub_key f /\ forall s' sb', y_heap (x_sys x) !! s' = Some sb' -> s_dest sb' = d -> s' = s) ->
  Forall2 copy_of (asked_for d (x_sys x)) fs /\ length (asked_for d (x_sys x)) = length (filter (to_dest d) (sent (x_sys x))).
Proof.
  intros HR HC Hd Hq Hb (s & sb & Hs & Hsd & Ha & Hsc & Hid & Hone). pose proof HR as (Hr & _).
  destruct (consumes_exactly cfg x d [(c, s0)] [fs] HR Hq ltac:(by apply NoDup_singleton)) as (parts & P1 & P2).
  - constructor; [|constructor]. by exists f.
  - intros s' sb' Hs' Hd'. assert (s' = s) as -> by (by eapply Hone). assert (sb' = sb) as -> by congruence. split; [done|]. exists (c, s0), f, fs. split_and!; [set_solver|done|done|done].
  - eauto.
  - apply Forall2_cons_inv_r in P1 as (part & parts' & P3 & P4 & ->). apply Forall2_nil_inv_r in P4 as ->. cbn [concat] in P2. rewrite app_nil_r in P2.
    destruct (takes_single cfg x c s0 f fs d Hr (consumes_takes _ _ _ _ _ HC) Hd Hq Hb) as (ms & [z E] & M2).
    { intros t tb t' tb' Ht Ht' Hd1 Hd2. rewrite (Hone _ _ Ht Hd1). by eapply Hone. }
    pose proof (asked_sent _ _ d (ni_reach _ _ (nreach_inv _ _ Hr))) as Hl. apply Permutation_length in P2. apply Forall2_length in P3. pose proof (Forall2_length _ _ _ M2) as P5.
    rewrite E, app_length in Hl. assert (length z = 0) as Hz by lia. destruct z; [|done]. rewrite app_nil_r in E. rewrite E. split; [done|]. lia.
Qed.
