(** Invariants of the whole server. *)
From Verif Require Import GoBase HeaderModel FrameModel GrammarSpec HeaderProofs NegotiationModel NegotiationSpec NegotiationLemmas
  BrokerModel BrokerSpec BrokerProofs ServerConnModel ServerConnSpec ServerConnProofs SystemModel SystemLemmas.

(* ------------------------------------------------------------------ *)
(** Subscription objects never disappear and keep their attributes. *)
Definition attr (sb : sub) := (s_conn sb, s_dest sb, s_id sb, s_ack sb, s_msgid sb).
Definition hext (hp hp' : sheap) : Prop := forall s sb, hp !! s = Some sb -> exists sb', hp' !! s = Some sb' /\ attr sb' = attr sb.
Lemma hext_refl hp : hext hp hp.
Proof. intros s sb H. eauto. Qed.
Lemma hext_trans a b c : hext a b -> hext b c -> hext a c.
Proof. intros H1 H2 s sb H. destruct (H1 _ _ H) as (sb' & H' & E). destruct (H2 _ _ H') as (sb'' & H'' & E'). exists sb''. split; [done|congruence]. Qed.
Lemma hext_insert hp s sb sb' : hp !! s = Some sb -> attr sb' = attr sb -> hext hp (<[s := sb']> hp).
Proof.
  intros H E t tb Ht. destruct (decide (t = s)) as [->|Hne]; [rewrite lookup_insert; eexists; split; [done|congruence]|].
  rewrite lookup_insert_ne by done. eauto.
Qed.
Lemma hext_new hp s sb : hp !! s = None -> hext hp (<[s := sb]> hp).
Proof. intros H t tb Ht. rewrite lookup_insert_ne by congruence. eauto. Qed.

Definition own (hp : sheap) (c s : nat) : Prop := exists sb, hp !! s = Some sb /\ s_conn sb = c.
Definition named (hp : sheap) (id : str) (s : nat) : Prop := exists sb, hp !! s = Some sb /\ s_id sb = id.
Definition dst (hp : sheap) (d : str) (s : nat) : Prop := exists sb, hp !! s = Some sb /\ s_dest sb = d.
Definition onq (hp : sheap) (s : nat) : Prop := exists sb, hp !! s = Some sb /\ is_queue (s_dest sb) = true.
Definition nonauto (hp : sheap) (s : nat) : Prop := exists sb, hp !! s = Some sb /\ s_ack sb <> ack_auto.
Ltac hmono := let sb := fresh in let H := fresh in let H1 := fresh in let H2 := fresh in let H3 := fresh in let H4 := fresh in
  intros H (sb & H1 & H2); destruct (H _ _ H1) as (? & H3 & H4); injection H4 as ?; eexists; split; [exact H3|congruence].
Lemma own_ext hp hp' c s : hext hp hp' -> own hp c s -> own hp' c s. Proof. hmono. Qed.
Lemma named_ext hp hp' c s : hext hp hp' -> named hp c s -> named hp' c s. Proof. hmono. Qed.
Lemma dst_ext hp hp' c s : hext hp hp' -> dst hp c s -> dst hp' c s. Proof. hmono. Qed.
Lemma onq_ext hp hp' s : hext hp hp' -> onq hp s -> onq hp' s. Proof. hmono. Qed.
Lemma nonauto_ext hp hp' s : hext hp hp' -> nonauto hp s -> nonauto hp' s. Proof. hmono. Qed.

Definition is_msg (m : msg) : Prop := cmd_of m = MESSAGE.
Definition qmsg (m : msg) : Prop := is_msg m /\ exists d, hget_of m h_destination = Some d /\ is_queue d = true.
Definition held_ok (sb : sub) : Prop := forall m, s_frame sb = Some m ->
  is_msg m /\ is_queue (s_dest sb) = true /\ hget_of m h_destination = Some (s_dest sb) /\ hget_of m h_subscription = Some (s_id sb).
Definition sub_ok (k : nat) (sb : sub) : Prop := s_conn sb < k /\ s_msgid sb = 0%N /\ held_ok sb.
Definition req_ok (hp : sheap) (r : request) : Prop :=
  match r with
  | RSubscribe s | RUnsubscribe s => exists c, own hp c s
  | REnqueue m => is_msg m
  | RRequeue m => qmsg m
  | _ => True
  end.
Definition pout_ok (k : nat) (hp : sheap) (o : pout) : Prop :=
  match o with
  | OutSub c s _ => own hp c s /\ onq hp s
  | OutTopic c m => c < k /\ is_msg m
  end.
Record conn_ok (hp : sheap) (c : nat) (n : sconn) : Prop := mkConnOk {
  co_tx : tx_ok (n_c n);
  co_subs : forall id s, k_subs (n_c n) !! id = Some s -> own hp c s /\ named hp id s;
  co_list : forall s, s ∈ k_sublist (n_c n) -> own hp c s /\ onq hp s /\ nonauto hp s;
  co_sub : forall s, s ∈ n_sub n -> own hp c s /\ onq hp s;
  co_out : Forall (req_ok hp) (n_out n);
  co_write : Forall is_msg (n_write n)
}.
Record wf (y : sys) : Prop := mkWf {
  wf_next : forall s sb, y_heap y !! s = Some sb -> s < y_next y;
  wf_sub : forall s sb, y_heap y !! s = Some sb -> sub_ok (length (y_conns y)) sb;
  wf_conns : forall c n, y_conns y !! c = Some n -> conn_ok (y_heap y) c n;
  wf_req : Forall (req_ok (y_heap y)) (y_req y);
  wf_waiting : forall d m, m ∈ waiting (y_broker y) d -> is_msg m /\ is_queue d = true /\ hget_of m h_destination = Some d;
  wf_ready : forall d s, s ∈ ready (y_broker y) d -> is_queue d = true /\ dst (y_heap y) d s;
  wf_members : forall d s, s ∈ members (y_broker y) d -> is_queue d = false /\ dst (y_heap y) d s;
  wf_pout : Forall (pout_ok (length (y_conns y)) (y_heap y)) (y_pout y)
}.

Lemma req_ok_ext hp hp' r : hext hp hp' -> req_ok hp r -> req_ok hp' r.
Proof. intros H. destruct r; cbn; try done; intros [c Hc]; exists c; by eapply own_ext. Qed.
Lemma pout_ok_ext k k' hp hp' o : k <= k' -> hext hp hp' -> pout_ok k hp o -> pout_ok k' hp' o.
Proof. intros Hk H. destruct o; cbn; [intros []; split; [by eapply own_ext|by eapply onq_ext]|intros []; split; [lia|done]]. Qed.
Lemma conn_ok_ext hp hp' c n : hext hp hp' -> conn_ok hp c n -> conn_ok hp' c n.
Proof.
  intros H [H1 H2 H3 H4 H5 H6]. split; try done.
  - intros id s Hs. destruct (H2 _ _ Hs). split; [by eapply own_ext|by eapply named_ext].
  - intros s Hs. destruct (H3 _ Hs) as (?&?&?). split_and!; [by eapply own_ext|by eapply onq_ext|by eapply nonauto_ext].
  - intros s Hs. destruct (H4 _ Hs). split; [by eapply own_ext|by eapply onq_ext].
  - eapply Forall_impl; [done|]. intros r Hr. by eapply req_ok_ext.
Qed.
Lemma sub_ok_le k k' sb : k <= k' -> sub_ok k sb -> sub_ok k' sb.
Proof. intros Hk (?&?&?). split_and!; [lia|done|done]. Qed.
Lemma sub_ok_none k sb : sub_ok k sb -> sub_ok k (set_frame sb None).
Proof. intros (?&?&?). split_and!; done. Qed.
Lemma sub_ok_inlist k sb b : sub_ok k sb -> sub_ok k (set_inlist sb b).
Proof. intros (?&?&?). split_and!; done. Qed.

(** Effects on the headers that matter. *)
Lemma with_sub_dest m id : hget_of (with_sub m id) h_destination = hget_of m h_destination.
Proof. unfold hget_of, with_sub. cbn. apply hd_contains_set_other. neq_lits. Qed.
Lemma with_sub_sub m id : hget_of (with_sub m id) h_subscription = Some id.
Proof. unfold hget_of, with_sub. cbn. apply hd_contains_set_same. Qed.
Lemma alloc_id_get n a m n' m' k : alloc_id n a m = (n', m') -> k <> h_message_id -> k <> h_id -> k <> h_ack -> hget_of m' k = hget_of m k.
Proof.
  intros H H1 H2 H3. unfold alloc_id in H. destruct (decide _); [|congruence]. injection H as <- <-. unfold hget_of. cbn [with_hdr g_frame f_hdr].
  destruct (decide (a = None \/ a = Some ack_auto)).
  - rewrite hd_contains_del_other, !hd_contains_set_other by done. done.
  - rewrite !hd_contains_set_other by done. done.
Qed.
Lemma alloc_id_held sb n m n' m' : held_ok sb -> s_frame sb = Some m -> alloc_id n (Some (s_ack sb)) m = (n', m') -> held_ok (set_frame sb (Some m')).
Proof.
  intros Hh Hm Ha m0 [= <-]. destruct (Hh m Hm) as (?&?&?&?). destruct (alloc_id_cmd _ _ _ _ _ Ha) as [Hc _].
  split_and!; cbn [set_frame s_dest s_id]; [unfold is_msg; by rewrite Hc|done| |].
  - rewrite (alloc_id_get _ _ _ _ _ h_destination Ha) by neq_lits. done.
  - rewrite (alloc_id_get _ _ _ _ _ h_subscription Ha) by neq_lits. done.
Qed.

Lemma acks_ok k hp l hp' l' rs : acks hp l hp' l' rs -> (forall s sb, hp !! s = Some sb -> sub_ok k sb) ->
  hext hp hp' /\ (forall s sb, hp' !! s = Some sb -> sub_ok k sb) /\ (forall s, s ∈ l' -> s ∈ l) /\ Forall (req_ok hp) rs /\
  (forall s, is_Some (hp' !! s) <-> is_Some (hp !! s)).
Proof.
  assert (Hfr : forall hp s sb rs, hp !! s = Some sb -> Forall (req_ok (<[s := set_frame sb None]> hp)) rs -> Forall (req_ok hp) rs).
  { intros hp0 s sb rs0 Hs HF. eapply Forall_impl; [done|]. intros r Hr.
    assert (forall t, (exists c, own (<[s := set_frame sb None]> hp0) c t) -> exists c, own hp0 c t) as Ht.
    { intros t (c & tb & H1 & H2). destruct (decide (t = s)) as [->|Hne]; [by exists (s_conn sb), sb|].
      rewrite lookup_insert_ne in H1 by done. by exists c, tb. }
    destruct r; cbn in *; eauto. }
  assert (Hin : forall k (hp : sheap) s sb, hp !! s = Some sb -> (forall s sb, hp !! s = Some sb -> sub_ok k sb) ->
    (forall t tb, <[s := set_frame sb None]> hp !! t = Some tb -> sub_ok k tb)).
  { intros k0 hp0 s sb Hs H t tb. destruct (decide (t = s)) as [->|Hne]; [rewrite lookup_insert; intros [= <-]; apply sub_ok_none; eauto|].
    rewrite lookup_insert_ne by done. eauto. }
  assert (Hsm : forall (hp : sheap) s sb (x : sub) t, hp !! s = Some sb -> is_Some (<[s := x]> hp !! t) <-> is_Some (hp !! t)).
  { intros hp0 s sb x t Hs. destruct (decide (t = s)) as [->|Hne]; [rewrite lookup_insert, Hs; split; eauto|by rewrite lookup_insert_ne]. }
  induction 1 as [hp l|hp l hp' l' rs m Hm Ha IH|hp l1 s l2 sb hp' l' rs Hs Ha IH|hp l1 s l2 sb m hp' l' rs Hs Hm Ha IH]; intros Hok.
  - split_and!; [apply hext_refl|done|done|constructor|done].
  - destruct (IH Hok) as (?&?&?&?&?). split_and!; try done. by constructor.
  - destruct (IH (Hin _ _ _ _ Hs Hok)) as (?&?&?&?&Hx). split_and!; try done.
    + eapply hext_trans; [|done]. by eapply hext_insert.
    + intros t Ht. rewrite elem_of_app, elem_of_cons. specialize (H1 t Ht). rewrite elem_of_app in H1. tauto.
    + constructor; [by exists (s_conn sb), sb|]. by eapply Hfr.
    + intros t. rewrite Hx. by eapply Hsm.
  - destruct (IH (Hin _ _ _ _ Hs Hok)) as (?&?&?&?&Hx). split_and!; try done.
    + eapply hext_trans; [|done]. by eapply hext_insert.
    + intros t Ht. rewrite elem_of_app, elem_of_cons. specialize (H1 t Ht). rewrite elem_of_app in H1. tauto.
    + constructor; [|constructor; [by exists (s_conn sb), sb|by eapply Hfr]].
      destruct (Hok _ _ Hs) as (_ & _ & Hh). destruct (Hh m Hm) as (?&?&?&?). split; [done|]. eauto.
    + intros t. rewrite Hx. by eapply Hsm.
Qed.

Lemma take_input_cases n x i n1 : take_input n x = Some (i, n1) ->
  n_c n1 = n_c n /\ n_phase n1 = n_phase n /\ n_eof n1 = n_eof n /\ n_out n1 = n_out n /\ n_log n1 = n_log n /\
  match i with
  | InFrame m => n_read n = m :: n_read n1 /\ n_write n1 = n_write n /\ n_sub n1 = n_sub n
  | InTopic m => n_write n = m :: n_write n1 /\ n_read n1 = n_read n /\ n_sub n1 = n_sub n
  | InSub s => n_sub n = s :: n_sub n1 /\ n_read n1 = n_read n /\ n_write n1 = n_write n
  | InClosed => n1 = n /\ n_read n = [] /\ n_eof n = true
  | InTimer => n1 = n
  end.
Proof.
  destruct x; cbn.
  - destruct (n_read n) eqn:Hr; [destruct (n_eof n) eqn:He; [|done]; intros [= <- <-]; done|intros [= <- <-]; done].
  - destruct (n_write n) eqn:Hr; [done|intros [= <- <-]; done].
  - destruct (n_sub n) eqn:Hr; [done|intros [= <- <-]; done].
  - destruct (0 <? k_wt (n_c n))%Z; [|done]. intros [= <- <-]. done.
Qed.

Lemma conns_upd {A} (l : list A) c n c' n' x : l !! c = Some n -> <[c := x]> l !! c' = Some n' -> c' = c /\ n' = x \/ c' <> c /\ l !! c' = Some n'.
Proof.
  intros H1 H2. apply list_lookup_insert_Some in H2 as [(-> & -> & _)|[? ?]]; auto.
Qed.

(** One iteration of a connection, seen from outside. *)
Lemma shape_ok k cid n i n1 o hp nx : (forall s sb, hp !! s = Some sb -> s < nx) -> (forall s sb, hp !! s = Some sb -> sub_ok k sb) -> cid < k ->
  conn_ok hp cid n -> (forall s, i = InSub s -> s ∈ n_sub n) -> tx_ok (i_c o) -> n_c n1 = n_c n ->
  (forall s, s ∈ n_sub n1 -> s ∈ n_sub n) -> Forall is_msg (n_write n1) ->
  shape cid (n_c n) hp nx i o ->
  hext hp (i_hp o) /\ (forall s sb, i_hp o !! s = Some sb -> s < i_next o) /\ (forall s sb, i_hp o !! s = Some sb -> sub_ok k sb) /\
  conn_ok (i_hp o) cid (taken n1 i o).
Proof.
  intros Hnx Hok Hcid [C1 C2 C3 C4 C5 C6] Hin Htx Hc1 Hsub Hw Hsh.
  assert (Hfresh : hp !! nx = None).
  { destruct (hp !! nx) eqn:E; [|done]. apply Hnx in E. lia. }
  assert (Htk : forall P : cst -> Prop, P (i_c o) -> P (set_tx (i_c o) ∅) -> P (n_c (taken n1 i o))).
  { intros P H1 H2. unfold taken. cbn. by destruct (i_stop o). }
  assert (Htx' : tx_ok (n_c (taken n1 i o))).
  { apply Htk; [done|]. intros t l. cbn. by rewrite lookup_empty. }
  assert (Hks : k_subs (n_c (taken n1 i o)) = k_subs (i_c o)) by (by apply Htk).
  assert (Hkl : k_sublist (n_c (taken n1 i o)) = k_sublist (i_c o)) by (by apply Htk).
  assert (Hupd : forall s sb sb', hp !! s = Some sb -> attr sb' = attr sb -> sub_ok k sb' ->
    hext hp (<[s := sb']> hp) /\ (forall s0 sb0, <[s := sb']> hp !! s0 = Some sb0 -> s0 < nx) /\
    (forall s0 sb0, <[s := sb']> hp !! s0 = Some sb0 -> sub_ok k sb0)).
  { intros s sb sb' H1 H2 H3. split_and!; [by eapply hext_insert| |]; intros t tb; rewrite lookup_insert_Some; intros [[<- <-]|[? ?]]; eauto. }
  assert (Hco : forall hp', hext hp hp' -> i_hp o = hp' -> k_subs (i_c o) = k_subs (n_c n) ->
     (forall s, s ∈ k_sublist (i_c o) -> own hp' cid s /\ onq hp' s /\ nonauto hp' s) -> Forall (req_ok hp') (i_push o) ->
     conn_ok (i_hp o) cid (taken n1 i o)).
  { intros hp' Hx -> Hs1 Hs2 Hp. split; [done| | | |done|done].
    - rewrite Hks, Hs1. intros id s Hs. destruct (C2 _ _ Hs). split; [by eapply own_ext|by eapply named_ext].
    - by rewrite Hkl.
    - intros s Hs. destruct (C4 s (Hsub s Hs)). split; [by eapply own_ext|by eapply onq_ext]. }
  assert (Hold : forall hp', hext hp hp' -> (forall s, s ∈ k_sublist (n_c n) -> own hp' cid s /\ onq hp' s /\ nonauto hp' s)).
  { intros hp' Hx s Hs. destruct (C3 s Hs) as (?&?&?). split_and!; [by eapply own_ext|by eapply onq_ext|by eapply nonauto_ext]. }
  destruct Hsh.
  - destruct (acks_ok k _ _ _ _ _ H0 Hok) as (A1 & A2 & A3 & A4 & A5). split_and!; try done.
    + intros s sb Hs. destruct (A5 s) as [A5' _]. destruct A5' as [sb' Hsb]; [by exists sb|]. rewrite H2. by eapply Hnx.
    + eapply Hco; [exact A1|done|done| |].
      * intros s Hs. eapply Hold; [done|]. by apply A3.
      * eapply Forall_impl; [done|]. intros r Hr. by eapply req_ok_ext.
  - rewrite H, H2. split_and!; try done; [apply hext_refl|]. rewrite <-H. eapply Hco; [apply hext_refl|done|done| |].
    + rewrite H0. apply Hold. apply hext_refl.
    + rewrite H3. by repeat constructor.
  - assert (hext hp (i_hp o)) as Hx by (rewrite H1; by apply hext_new). split_and!; [done| | |].
    + rewrite H1, H4. intros s sb. rewrite lookup_insert_Some. intros [[<- <-]|[? Hs]]; [lia|]. apply Hnx in Hs. lia.
    + rewrite H1. intros s sb. rewrite lookup_insert_Some. intros [[<- <-]|[? Hs]]; [|eauto]. split_and!; done.
    + split; [done| | | |cbn; rewrite H5; constructor; [|constructor]|done].
      * rewrite Hks, H3. intros id0 s. rewrite lookup_insert_Some. intros [[<- <-]|[? Hs]].
        -- rewrite H1. split; eexists; (split; [apply lookup_insert|done]).
        -- destruct (C2 _ _ Hs). split; [by eapply own_ext|by eapply named_ext].
      * rewrite Hkl, H2. by apply Hold.
      * intros s Hs. destruct (C4 s (Hsub s Hs)). split; [by eapply own_ext|by eapply onq_ext].
      * cbn. exists cid. rewrite H1. eexists. split; [apply lookup_insert|done].
  - rewrite H1, H4. split_and!; try done; [apply hext_refl|]. split; [done| | | |cbn; rewrite H5; constructor; [|constructor]|done].
    + rewrite Hks, H3. intros id0 s0. rewrite lookup_delete_Some. intros [_ Hs]. eauto.
    + rewrite Hkl, H2. apply Hold, hext_refl.
    + intros s0 Hs. eauto.
    + destruct (C2 _ _ H0). cbn. eauto.
  - rewrite H1, H3. split_and!; try done; [apply hext_refl|]. rewrite <-H1. eapply Hco; [apply hext_refl|done|by rewrite H2| |].
    + rewrite H2. apply Hold, hext_refl.
    + rewrite H4. constructor; [|constructor]. destruct (Hok _ _ H) as (_&_&Hh). destruct (Hh m H0) as (?&?&?&?). split; [done|]. eauto.
  - destruct (Hupd s sb (set_frame sb (Some m')) H ltac:(done)) as (U1 & U2 & U3).
    { destruct (Hok _ _ H) as (?&?&?). split_and!; [done|done|by eapply alloc_id_held]. }
    rewrite H1, H4. split_and!; try done. rewrite <-H1. eapply Hco; [exact U1|done|by rewrite H2| |].
    + rewrite H2. by apply Hold.
    + rewrite H5. constructor.
  - destruct (Hupd s sb (set_frame sb None) H ltac:(done)) as (U1 & U2 & U3).
    { apply sub_ok_none. eauto. }
    rewrite H1, H5. split_and!; try done. rewrite <-H1. eapply Hco; [exact U1|done|by rewrite H2| |].
    + rewrite H2. by apply Hold.
    + rewrite H6. constructor; [|constructor]. cbn. exists cid. eapply own_ext; [done|]. apply C4. by apply Hin.
  - destruct (Hupd s sb (set_inlist (set_frame sb (Some m')) true) H ltac:(done)) as (U1 & U2 & U3).
    { apply sub_ok_inlist. destruct (Hok _ _ H) as (?&?&?). split_and!; [done|done|by eapply alloc_id_held]. }
    rewrite H1, H6. split_and!; try done. rewrite <-H1. eapply Hco; [exact U1|done|by rewrite H2| |].
    + rewrite H2. cbn. intros t. rewrite elem_of_app, elem_of_list_singleton. intros [Ht| ->]; [by apply Hold|].
      destruct (C4 s (Hin s eq_refl)). split_and!; [by eapply own_ext|by eapply onq_ext|]. eapply nonauto_ext; [done|]. exists sb. done.
    + rewrite H7. constructor.
Qed.

Lemma clean_ok k cid n hp n' hp' : (forall s sb, hp !! s = Some sb -> sub_ok k sb) -> conn_ok hp cid n -> n_out n = [] -> clean_case cid n hp n' hp' ->
  hext hp hp' /\ (forall s, is_Some (hp' !! s) <-> is_Some (hp !! s)) /\ (forall s sb, hp' !! s = Some sb -> sub_ok k sb) /\ conn_ok hp' cid n'.
Proof.
  intros Hok HC Hout Hcl. pose proof HC as [C1 C2 C3 C4 C5 C6].
  assert (Hqm : forall s sb m, hp !! s = Some sb -> s_frame sb = Some m -> qmsg m).
  { intros s sb m Hs Hm. destruct (Hok _ _ Hs) as (_&_&Hh). destruct (Hh m Hm) as (?&?&?&?). split; [done|]. eauto. }
  destruct Hcl.
  - split_and!; [apply hext_refl|done|done|]. split; try done. cbn. rewrite H in C6. by inversion C6.
  - split_and!; [apply hext_refl|done|done|]. split; try done.
  - split_and!; [apply hext_refl|done|done|]. split; try done.
    + cbn. intros id0 s0. rewrite lookup_delete_Some. intros [_ Hs]. eauto.
    + cbn. constructor; [|constructor]. destruct (C2 _ _ H0). cbn. eauto.
  - assert (hext hp (<[s := set_inlist sb false]> hp)) as Hx by (by eapply hext_insert). split_and!; try done.
    + intros t. rewrite lookup_insert_is_Some. destruct (decide (t = s)) as [->|Hne]; [rewrite H1; split; eauto|]. naive_solver.
    + intros t tb. rewrite lookup_insert_Some. intros [[<- <-]|[? ?]]; [apply sub_ok_inlist|]; eauto.
    + eapply conn_ok_ext; [done|]. split; try done; cbn.
      * intros t Ht. apply C3. rewrite H0. set_solver.
      * constructor; [|constructor]. by eapply Hqm.
  - split_and!; [apply hext_refl|done|done|]. split; try done; cbn.
    + intros t Ht. apply C4. rewrite H0. set_solver.
    + constructor; [|constructor]. by eapply Hqm.
  - split_and!; [apply hext_refl|done|done|]. split; try done; cbn. by repeat constructor.
Qed.

Lemma serve_ok y r rs b hp outs : wf y -> y_req y = r :: rs -> serve (y_broker y) (y_heap y) r = Fine (b, hp, outs) ->
  hext (y_heap y) hp /\ (forall s, is_Some (hp !! s) <-> is_Some (y_heap y !! s)) /\ (forall s sb, hp !! s = Some sb -> sub_ok (length (y_conns y)) sb) /\
  (forall d m, m ∈ waiting b d -> is_msg m /\ is_queue d = true /\ hget_of m h_destination = Some d) /\
  (forall d s, s ∈ ready b d -> is_queue d = true /\ dst hp d s) /\
  (forall d s, s ∈ members b d -> is_queue d = false /\ dst hp d s) /\
  Forall (pout_ok (length (y_conns y)) hp) outs.
Proof.
  intros [W1 W2 W3 W4 W5 W6 W7 W8] Hreq Hs. apply serve_cases in Hs. rewrite Hreq in W4. apply Forall_cons in W4 as [Wr _].
  assert (Hset : forall s sb sb', y_heap y !! s = Some sb -> attr sb' = attr sb -> sub_ok (length (y_conns y)) sb' ->
    hext (y_heap y) (<[s := sb']> (y_heap y)) /\ (forall t, is_Some (<[s := sb']> (y_heap y) !! t) <-> is_Some (y_heap y !! t)) /\
    (forall t tb, <[s := sb']> (y_heap y) !! t = Some tb -> sub_ok (length (y_conns y)) tb)).
  { intros s sb sb' H1 H2 H3. split_and!; [by eapply hext_insert| |].
    - intros t. rewrite lookup_insert_is_Some. destruct (decide (t = s)) as [->|Hne]; [rewrite H1; split; eauto|]. naive_solver.
    - intros t tb. rewrite lookup_insert_Some. intros [[<- <-]|[? ?]]; eauto. }
  assert (Hsub : forall s sb m d, y_heap y !! s = Some sb -> is_msg m -> hget_of m h_destination = Some d -> is_queue d = true -> s_dest sb = d ->
    sub_ok (length (y_conns y)) (set_frame sb (Some (with_sub m (s_id sb))))).
  { intros s sb m d H1 H2 H3 H4 <-. destruct (W2 _ _ H1) as (?&?&?). split_and!; try done. intros m0 [= <-]. split_and!; cbn [set_frame s_dest s_id]; try done.
    - by rewrite with_sub_dest.
    - apply with_sub_sub. }
  assert (W6' : forall hp', hext (y_heap y) hp' -> forall d s, s ∈ ready (y_broker y) d -> is_queue d = true /\ dst hp' d s).
  { intros hp' Hx d s H. destruct (W6 _ _ H). split; [done|by eapply dst_ext]. }
  assert (W7' : forall hp', hext (y_heap y) hp' -> forall d s, s ∈ members (y_broker y) d -> is_queue d = false /\ dst hp' d s).
  { intros hp' Hx d s H. destruct (W7 _ _ H). split; [done|by eapply dst_ext]. }
  destruct Hs.
  - destruct H3 as (B1 & B2 & B3). destruct (Hset s sb (set_inlist sb true)) as (S1 & S2 & S3); [done|done|by apply sub_ok_inlist; eauto|].
    split_and!; try done.
    + intros d m. rewrite B1. auto.
    + intros d t. rewrite B2. unfold fupd. destruct (decide (d = s_dest sb)) as [->|Hne]; [|by apply W6'].
      rewrite elem_of_app, elem_of_list_singleton. intros [?| ->]; [by apply W6'|]. split; [done|]. eapply dst_ext; [done|]. by exists sb.
    + intros d t. rewrite B3. by apply W7'.
  - destruct H3 as (B1 & B2 & B3). destruct (W5 (s_dest sb) m ltac:(rewrite H1; set_solver)) as (M1 & _ & M2).
    destruct (Hset s sb (set_frame sb (Some (with_sub m (s_id sb))))) as (S1 & S2 & S3); [done|done|by eapply Hsub|].
    split_and!; try done.
    + intros d m'. rewrite B1. unfold fupd. destruct (decide (d = s_dest sb)) as [->|Hne]; [|auto]. intros Hm. apply W5. rewrite H1. set_solver.
    + intros d t. rewrite B2. by apply W6'.
    + intros d t. rewrite B3. by apply W7'.
    + constructor; [|constructor]. split; [eapply own_ext; [done|]; by exists sb|eapply onq_ext; [done|]; by exists sb].
  - destruct H1 as (B1 & B2 & B3). split_and!; try done; [apply hext_refl| | |].
    + intros d m. rewrite B1. auto.
    + intros d t. rewrite B2. auto.
    + intros d t. rewrite B3. unfold fupd. destruct (decide (d = s_dest sb)) as [->|Hne]; [|auto].
      rewrite elem_of_app, elem_of_list_singleton. intros [?| ->]; [by auto|]. split; [done|]. by exists sb.
  - destruct H2 as (B1 & B2 & B3). destruct (Hset s sb (set_inlist sb false)) as (S1 & S2 & S3); [done|done|by apply sub_ok_inlist; eauto|].
    split_and!; try done.
    + intros d m. rewrite B1. auto.
    + intros d t. rewrite B2. unfold fupd. destruct (decide (d = s_dest sb)) as [->|Hne]; [|by apply W6'].
      intros Ht. apply W6'; [done|]. rewrite H1. set_solver.
    + intros d t. rewrite B3. by apply W7'.
  - destruct H2 as (B1 & B2 & B3). split_and!; try done; [apply hext_refl| | |].
    + intros d m. rewrite B1. auto.
    + intros d t. rewrite B2. auto.
    + intros d t. rewrite B3. auto.
  - destruct H2 as (B1 & B2 & B3). split_and!; try done; [apply hext_refl| | |].
    + intros d m. rewrite B1. auto.
    + intros d t. rewrite B2. auto.
    + intros d t. rewrite B3. unfold fupd. destruct (decide (d = s_dest sb)) as [->|Hne]; [|auto]. intros Ht. apply W7. rewrite H1. set_solver.
  - destruct H2 as (B1 & B2 & B3). split_and!; try done; [apply hext_refl| | |].
    + intros d m. rewrite B1. auto.
    + intros d t. rewrite B2. auto.
    + intros d t. rewrite B3. auto.
  - destruct H2 as (B1 & B2 & B3). split_and!; try done; [apply hext_refl| | |].
    + intros d' m'. rewrite B1. unfold fupd. destruct (decide (d' = d)) as [->|Hne]; [|auto].
      rewrite elem_of_app, elem_of_list_singleton. intros [?| ->]; [by auto|]. done.
    + intros d' t. rewrite B2. auto.
    + intros d' t. rewrite B3. auto.
  - destruct H2 as (B1 & B2 & B3). split_and!; try done; [apply hext_refl| | |].
    + intros d' m'. rewrite B1. unfold fupd. destruct (decide (d' = d)) as [->|Hne]; [|auto].
      rewrite elem_of_cons. intros [->|?]; [|by auto]. split_and!; try done. by destruct Wr.
    + intros d' t. rewrite B2. auto.
    + intros d' t. rewrite B3. auto.
  - destruct H5 as (B1 & B2 & B3).
    assert (is_msg m) as Hm. { destruct H as [->| ->]; [done|]. by destruct Wr. }
    assert (s_dest sb = d) as Hd. { destruct (W6 d s) as [_ (sb' & E & <-)]; [rewrite H2; set_solver|]. congruence. }
    destruct (Hset s sb (set_frame (set_inlist sb false) (Some (with_sub m (s_id sb))))) as (S1 & S2 & S3); [done|done| |].
    { specialize (Hsub s sb m d H3 Hm H0 H1 Hd). by apply (sub_ok_inlist _ _ false) in Hsub. }
    split_and!; try done.
    + intros d' m'. rewrite B1. auto.
    + intros d' t. rewrite B2. unfold fupd. destruct (decide (d' = d)) as [->|Hne]; [|by apply W6'].
      intros Ht. apply W6'; [done|]. rewrite H2. set_solver.
    + intros d' t. rewrite B3. by apply W7'.
    + constructor; [|constructor]. split; [eapply own_ext; [done|]; by exists sb|eapply onq_ext; [done|]; exists sb; by rewrite Hd].
  - split_and!; try done; [apply hext_refl|]. cbn in Wr. clear -H1 Wr W2. induction H1; constructor; [|done].
    destruct H as (sb & E & _ & ->). split; [by destruct (W2 _ _ E)|done].
  - split_and!; try done; apply hext_refl.
  - split_and!; try done; apply hext_refl.
Qed.

Lemma wf_init : wf sys_init.
Proof.
  split.
  - intros s sb H. change ((∅ : sheap) !! s = Some sb) in H. by rewrite lookup_empty in H.
  - intros s sb H. change ((∅ : sheap) !! s = Some sb) in H. by rewrite lookup_empty in H.
  - intros c n H. cbn in H. by rewrite lookup_nil in H.
  - constructor.
  - intros d m H. by apply elem_of_nil in H.
  - intros d m H. by apply elem_of_nil in H.
  - intros d m H. by apply elem_of_nil in H.
  - constructor.
Qed.

Lemma wf_heap y cs hp nx uid req fin lost blog : wf y -> hext (y_heap y) hp -> (forall s sb, hp !! s = Some sb -> s < nx) ->
  length cs = length (y_conns y) -> (forall s sb, hp !! s = Some sb -> sub_ok (length (y_conns y)) sb) ->
  (forall c n, cs !! c = Some n -> conn_ok hp c n) -> Forall (req_ok hp) req ->
  wf (mkSys cs hp nx uid req (y_broker y) (y_pout y) blog fin lost).
Proof.
  intros [W1 W2 W3 W4 W5 W6 W7 W8] Hx Hnx Hlen Hsub Hc Hr. split; cbn; try done.
  - by rewrite Hlen.
  - intros d s Hs. destruct (W6 _ _ Hs). split; [done|by eapply dst_ext].
  - intros d s Hs. destruct (W7 _ _ Hs). split; [done|by eapply dst_ext].
  - rewrite Hlen. eapply Forall_impl; [done|]. intros o Ho. eapply pout_ok_ext; [|done|done]. done.
Qed.

Lemma wf_move cfg y y' : wf y -> move cfg y y' -> wf y'.
Proof.
  intros HW Hm. pose proof HW as [W1 W2 W3 W4 W5 W6 W7 W8].
  assert (Hupd : forall c n n', y_conns y !! c = Some n -> conn_ok (y_heap y) c n' -> forall c0 n0, <[c := n']> (y_conns y) !! c0 = Some n0 -> conn_ok (y_heap y) c0 n0).
  { intros c n n' H1 H2 c0 n0 H3. destruct (conns_upd _ _ _ _ _ _ H1 H3) as [[-> ->]|[? ?]]; auto. }
  assert (Hupd' : forall hp' c n n', hext (y_heap y) hp' -> y_conns y !! c = Some n -> conn_ok hp' c n' -> forall c0 n0, <[c := n']> (y_conns y) !! c0 = Some n0 -> conn_ok hp' c0 n0).
  { intros hp' c n n' Hx H1 H2 c0 n0 H3. destruct (conns_upd _ _ _ _ _ _ H1 H3) as [[-> ->]|[? ?]]; [done|]. eapply conn_ok_ext; [done|]. auto. }
  destruct Hm.
  - split; cbn; try done.
    + intros s sb Hs. eapply sub_ok_le; [|by eapply W2]. rewrite app_length. lia.
    + intros c n. rewrite lookup_app_Some. intros [Hn|[_ Hn]]; [auto|]. apply list_lookup_singleton_Some in Hn as [_ <-].
      split; [| | | |constructor|constructor].
      * intros t l Ht. cbn in Ht. by rewrite lookup_empty in Ht.
      * intros t l Ht. cbn in Ht. by rewrite lookup_empty in Ht.
      * intros s Hs. by apply elem_of_nil in Hs.
      * intros s Hs. by apply elem_of_nil in Hs.
    + eapply Forall_impl; [done|]. intros o Ho. eapply pout_ok_ext; [|apply hext_refl|done]. rewrite app_length. lia.
  - apply wf_heap; try done; [apply hext_refl|by rewrite insert_length|]. eapply Hupd; [done|]. by destruct (W3 _ _ H).
  - apply wf_heap; try done; [apply hext_refl|by rewrite insert_length|]. eapply Hupd; [done|]. by destruct (W3 _ _ H).
  - pose proof (W3 _ _ H) as HC. pose proof HC as [C1 C2 C3 C4 C5 C6].
    destruct (take_input_cases _ _ _ _ H2) as (T1 & T2 & T3 & T4 & T5 & T6).
    destruct (shape_ok (length (y_conns y)) c n i n1 o (y_heap y) (y_next y)) as (S1 & S2 & S3 & S4); try done.
    + by eapply lookup_lt_Some.
    + intros s ->. destruct T6 as [-> _]. set_solver.
    + by eapply iter_tx_ok.
    + intros s. destruct i.
      * by destruct T6 as (?&?& ->).
      * by destruct T6 as (-> &?&?).
      * by destruct T6 as (?&?& ->).
      * destruct T6 as (-> &?&?). set_solver.
      * by rewrite T6.
    + destruct i.
      * by destruct T6 as (?& -> &?).
      * by destruct T6 as (-> &?&?).
      * destruct T6 as (E &?&?). rewrite E in C6. by inversion C6.
      * by destruct T6 as (?&?& ->).
      * by rewrite T6.
    + by eapply conn_iter_shape.
    + apply wf_heap; try done; [by rewrite insert_length| |].
      * by eapply Hupd'.
      * eapply Forall_impl; [done|]. intros r Hr. by eapply req_ok_ext.
  - destruct (W3 _ _ H) as [C1 C2 C3 C4 C5 C6]. rewrite H0 in C5. apply Forall_cons in C5 as [C51 C52].
    apply wf_heap; try done; [apply hext_refl|by rewrite insert_length| |].
    + eapply Hupd; [done|]. done.
    + apply Forall_app. split; [done|]. by constructor.
  - destruct (clean_ok (length (y_conns y)) _ _ _ _ _ W2 (W3 _ _ H) H0 H3) as (S1 & S2 & S3 & S4).
    apply wf_heap; try done; [|by rewrite insert_length| |].
    + intros s sb Hs. destruct (S2 s) as [[sb' Hs'] _]; [eauto|]. eauto.
    + by eapply Hupd'.
    + eapply Forall_impl; [done|]. intros r Hr. by eapply req_ok_ext.
  - destruct (serve_ok _ _ _ _ _ _ HW H0 H1) as (S1 & S2 & S3 & S4 & S5 & S6 & S7). split; cbn; try done.
    + intros s sb Hs. destruct (S2 s) as [[sb' Hs'] _]; [eauto|]. eauto.
    + intros c n Hn. eapply conn_ok_ext; [done|]. auto.
    + rewrite H0 in W4. apply Forall_cons in W4 as [_ W4]. eapply Forall_impl; [done|]. intros r0 Hr. by eapply req_ok_ext.
  - rewrite H in W8. apply Forall_cons in W8 as [W81 W82]. split; cbn; try done.
    + by rewrite insert_length.
    + eapply Hupd; [done|]. destruct (W3 _ _ H0) as [C1 C2 C3 C4 C5 C6]. split; try done. cbn.
      intros t. rewrite elem_of_app, elem_of_list_singleton. intros [?| ->]; auto.
    + by rewrite insert_length.
  - rewrite H in W8. apply Forall_cons in W8 as [W81 W82]. split; cbn; try done.
    + by rewrite insert_length.
    + eapply Hupd; [done|]. destruct (W3 _ _ H0) as [C1 C2 C3 C4 C5 C6]. split; try done. cbn.
      apply Forall_app. split; [done|]. constructor; [|done]. by destruct W81.
    + by rewrite insert_length.
Qed.
Lemma reach_wf cfg y : reach cfg y -> wf y.
Proof. revert y. apply reach_ind'; [apply wf_init|]. intros y y' _ H. by apply wf_move. Qed.

(* ------------------------------------------------------------------ *)
(** Every connection's loop and the processor have the histories of
    ServerConnSpec and BrokerSpec, so the theorems of ServerConnProps and
    BrokerProps hold inside the server. *)
Lemma move_hext cfg y y' : wf y -> move cfg y y' -> hext (y_heap y) (y_heap y').
Proof.
  intros HW Hm. pose proof HW as [W1 W2 W3 W4 W5 W6 W7 W8]. destruct Hm; try apply hext_refl; cbn.
  - pose proof (W3 _ _ H) as HC. destruct (take_input_cases _ _ _ _ H2) as (T1 & T2 & T3 & T4 & T5 & T6).
    assert (shape c (n_c n) (y_heap y) (y_next y) i o) as Hsh by (eapply conn_iter_shape; [apply HC|done]).
    destruct Hsh; try (rewrite H4; apply hext_refl); try (rewrite H6; apply hext_refl); try (rewrite H5; apply hext_refl).
    + by destruct (acks_ok (length (y_conns y)) _ _ _ _ _ H5 W2).
    + rewrite H6. apply hext_new. destruct (y_heap y !! y_next y) eqn:E; [|done]. apply W1 in E. lia.
    + rewrite H6. by eapply hext_insert.
    + rewrite H6. by eapply hext_insert.
    + rewrite H6. by eapply hext_insert.
  - by destruct (clean_ok (length (y_conns y)) _ _ _ _ _ W2 (W3 _ _ H) H0 H3).
  - by destruct (serve_ok _ _ _ _ _ _ HW H0 H1).
Qed.
Lemma keeps_back id_of ack_of hp hp' : hext hp hp' -> keeps id_of ack_of hp' -> keeps id_of ack_of hp.
Proof. intros Hx Hk s sb Hs. destruct (Hx _ _ Hs) as (sb' & Hs' & E). injection E as ? ? ? ? ?. destruct (Hk _ _ Hs') as (?&?&?). split_and!; congruence. Qed.
Lemma agrees_back conn_of dest_of id_of hp hp' : hext hp hp' -> agrees conn_of dest_of id_of hp' -> agrees conn_of dest_of id_of hp.
Proof. intros Hx Hk s sb Hs. destruct (Hx _ _ Hs) as (sb' & Hs' & E). injection E as ? ? ? ? ?. destruct (Hk _ _ Hs') as (?&?&?). split_and!; congruence. Qed.

Lemma broker_history cfg y : reach cfg y -> forall conn_of dest_of id_of, agrees conn_of dest_of id_of (y_heap y) ->
  bexec conn_of dest_of id_of (y_blog y) (y_broker y).
Proof.
  revert y. apply (reach_ind' cfg (fun y => forall conn_of dest_of id_of, agrees conn_of dest_of id_of (y_heap y) -> bexec conn_of dest_of id_of (y_blog y) (y_broker y))).
  { intros. apply be_init. }
  intros y y' Hr IH Hm conn_of dest_of id_of Hk. apply reach_wf in Hr.
  pose proof (agrees_back conn_of dest_of id_of _ _ (move_hext _ _ _ Hr Hm) Hk) as Hk0. specialize (IH _ _ _ Hk0).
  destruct Hm; try done. cbn. by eapply be_serve.
Qed.

Definition history_of cfg c (n : sconn) id_of ack_of : Prop :=
  exists k st, cexec cfg c id_of ack_of (n_log n) k st /\ (n_phase n = Running -> st = false /\ k = n_c n) /\ (n_phase n <> Running -> st = true).
Lemma conn_history cfg y : reach cfg y -> forall id_of ack_of, keeps id_of ack_of (y_heap y) ->
  forall c n, y_conns y !! c = Some n -> history_of cfg c n id_of ack_of.
Proof.
  revert y. apply (reach_ind' cfg (fun y => forall id_of ack_of, keeps id_of ack_of (y_heap y) ->
    forall c n, y_conns y !! c = Some n -> history_of cfg c n id_of ack_of)).
  { intros id_of ack_of _ c n H. cbn in H. by rewrite lookup_nil in H. }
  intros y y' Hr IH Hm id_of ack_of Hk. apply reach_wf in Hr.
  pose proof (keeps_back id_of ack_of _ _ (move_hext _ _ _ Hr Hm) Hk) as Hk0. specialize (IH _ _ Hk0).
  assert (Hupd : forall c n n', y_conns y !! c = Some n -> (history_of cfg c n id_of ack_of -> history_of cfg c n' id_of ack_of) ->
    forall c0 n0, <[c := n']> (y_conns y) !! c0 = Some n0 -> history_of cfg c0 n0 id_of ack_of).
  { intros c n n' H1 H2 c0 n0 H3. destruct (conns_upd _ _ _ _ _ _ H1 H3) as [[-> ->]|[? ?]]; auto. }
  destruct Hm; cbn in *; try done.
  - intros c n. rewrite lookup_app_Some. intros [Hn|[_ Hn]]; [auto|]. apply list_lookup_singleton_Some in Hn as [_ <-].
    exists cst_init, false. split_and!; [apply ce_init|done|done].
  - by eapply Hupd.
  - by eapply Hupd.
  - eapply Hupd; [done|]. intros (k & st & He & Hrun & _). destruct (Hrun H0) as [-> ->].
    destruct (take_input_cases _ _ _ _ H2) as (T1 & T2 & T3 & T4 & T5 & T6).
    exists (i_c o), (i_stop o). cbn [taken n_log n_phase n_c]. rewrite T5. split_and!.
    + eapply ce_step; try done. destruct i; try done.
      * destruct T6 as [T6 _]. pose proof (co_write _ _ _ (wf_conns _ Hr _ _ H)) as Hw. rewrite T6 in Hw. apply Forall_cons in Hw as [Hw _]. done.
      * cbn. intros sb m Hs Hmm. destruct (wf_sub _ Hr _ _ Hs) as (_&_&Hh). by destruct (Hh m Hmm).
    + destruct (i_stop o); done.
    + by destruct (i_stop o).
  - by eapply Hupd.
  - eapply Hupd; [done|]. intros (k & st & He & _ & Hst). exists k, st. rewrite (Hst H1) in *. destruct H3; cbn; split_and!; try done; intros E; try congruence.
    intuition congruence.
  - eapply Hupd; done.
  - eapply Hupd; done.
Qed.
