From Coq Require Import Sorted.
From stdpp Require Import gmap.
From Verif Require Import GoBase GoBaseProofs HeaderModel HeaderProofs FrameModel GrammarSpec CodecProofs NegotiationModel NegotiationLemmas ClientApiModel ClientApiSpec ClientApiProofs ClientModel ClientSpec ClientLemmas
  ClientCalls ClientRequests ClientChannels ClientMessages ClientDelivery ClientReceipts ClientRouting ClientDisconnect.
From Verif Require Import BrokerModel BrokerSpec ServerConnModel ServerConnSpec ServerConnProofs SystemModel SystemSpec SystemLemmas SystemUids SystemHistory SystemProofs FlowSpec FlowProofs PeerSpec PeerProofs RefusalSpec RefusalProofs
  NetModel NetSpec NetLinks NetProofs TransSpec.

(** * Numbers of frames are unique over all connections *)
Definition uids_of (n : sconn) : list nat := g_uid <$> frames_of (n_log n) ++ n_read n.
Definition apart (y : sys) : Prop := forall c1 n1 c2 n2 u, y_conns y !! c1 = Some n1 -> y_conns y !! c2 = Some n2 -> u ∈ uids_of n1 -> u ∈ uids_of n2 -> c1 = c2.
Lemma apart_move cfg y y' : sorted_uids y -> apart y -> move cfg y y' -> apart y'.
Proof.
  intros HS HA Hm.
  assert (Hupd : forall c n n', y_conns y !! c = Some n -> frames_of (n_log n') ++ n_read n' = frames_of (n_log n) ++ n_read n ->
    forall c1 n1 c2 n2 u, <[c := n']> (y_conns y) !! c1 = Some n1 -> <[c := n']> (y_conns y) !! c2 = Some n2 -> u ∈ uids_of n1 -> u ∈ uids_of n2 -> c1 = c2).
  { intros c n n' Hn E. assert (forall c0 n0, <[c := n']> (y_conns y) !! c0 = Some n0 -> exists n1, y_conns y !! c0 = Some n1 /\ uids_of n0 = uids_of n1) as Hx.
    { intros c0 n0 H. destruct (conns_upd _ _ _ _ _ _ Hn H) as [[-> ->]|[_ ?]]; [|by exists n0]. exists n. split; [done|]. unfold uids_of. by rewrite E. }
    intros c1 n1 c2 n2 u H1 H2. apply Hx in H1 as (n1' & H1 & ->). apply Hx in H2 as (n2' & H2 & ->). by apply (HA _ n1' _ n2'). }
  assert (Hlt : forall c n u, y_conns y !! c = Some n -> u ∈ uids_of n -> u < y_uid y).
  { intros c n u Hn Hu. destruct (HS _ _ Hn) as [_ S2]. rewrite Forall_forall in S2. by apply S2. }
  destruct Hm; unfold apart; cbn [y_conns y_uid set_conn]; try (by eapply Hupd).
  - intros c1 n1 c2 n2 u H1 H2 Hu1 Hu2. apply lookup_app_Some in H1 as [H1|[_ H1]].
    2:{ apply list_lookup_singleton_Some in H1 as [_ <-]. by apply elem_of_nil in Hu1. }
    apply lookup_app_Some in H2 as [H2|[_ H2]]; [by apply (HA _ n1 _ n2 u)|]. apply list_lookup_singleton_Some in H2 as [_ <-]. by apply elem_of_nil in Hu2.
  - match goal with H : y_conns y !! _ = Some n |- _ => rename H into Hn end.
    match goal with |- forall c1 n1 c2 n2 u, ?M !! c1 = _ -> _ => assert (Hx : forall c0 n0 u, M !! c0 = Some n0 -> u ∈ uids_of n0 ->
      c0 = c /\ u = y_uid y \/ exists n1, y_conns y !! c0 = Some n1 /\ u ∈ uids_of n1) end.
    { intros c0 n0 u H Hu. destruct (conns_upd _ _ _ _ _ _ Hn H) as [[-> ->]|[_ ?]]; [|eauto]. unfold uids_of in Hu. cbn [n_log n_read] in Hu. rewrite app_assoc, fmap_app in Hu.
      apply elem_of_app in Hu as [Hu|Hu]; [right; by exists n|]. left. split; [done|]. by apply elem_of_list_singleton in Hu. }
    intros c1 n1 c2 n2 u H1 H2 Hu1 Hu2. destruct (Hx _ _ _ H1 Hu1) as [[-> ->]|(m1 & E1 & F1)]; destruct (Hx _ _ _ H2 Hu2) as [[-> Eu]|(m2 & E2 & F2)]; try done.
    + specialize (Hlt _ _ _ E2 F2). lia.
    + subst u. specialize (Hlt _ _ _ E1 F1). lia.
    + by apply (HA _ m1 _ m2 u).
  - eapply Hupd; [done|]. unfold taken. cbn [n_log n_read]. destruct (take_input_cases _ _ _ _ H2) as (_ & _ & _ & _ & I5 & I6). rewrite I5, frames_of_snoc, <-app_assoc. f_equal.
    unfold client_frame. cbn [v_in]. destruct i as [m| |m|s|]; cbn [app].
    + by destruct I6 as (-> & _).
    + by destruct I6 as (-> & _).
    + by destruct I6 as (_ & -> & _).
    + by destruct I6 as (_ & -> & _).
    + by subst n1.
  - eapply Hupd; [done|]. by destruct H3.
  - exact HA.
Qed.
Lemma reach_apart cfg y : reach cfg y -> apart y.
Proof. revert y. apply reach_ind'; [by intros c1 n1 c2 n2 u ?|]. intros y y' Hr HU Hm. eapply apart_move; try done. by eapply reach_sorted. Qed.
Lemma accepted_frame e m : accepted e = Some m -> client_frame e = Some m.
Proof. unfold accepted. by destruct (v_stop e). Qed.
Lemma accepted_uid n m : m ∈ omap accepted (n_log n) -> m ∈ frames_of (n_log n).
Proof. intros H. apply elem_of_list_omap in H as (e & He & Ha). apply elem_of_list_omap. exists e. split; [done|]. by apply accepted_frame. Qed.
Lemma sorted_inj {A} (g : A -> nat) (l : list A) a b : StronglySorted lt (g <$> l) -> a ∈ l -> b ∈ l -> g a = g b -> a = b.
Proof.
  induction l as [|x l IH]; cbn; [by intros _ ?%elem_of_nil|]. inversion 1 as [|? ? Hs Hx]; subst. rewrite Forall_forall in Hx.
  intros [->|Ha]%elem_of_cons [->|Hb]%elem_of_cons E; [done| | |by apply IH].
  - specialize (Hx (g b) ltac:(by apply elem_of_list_fmap_1)). lia.
  - specialize (Hx (g a) ltac:(by apply elem_of_list_fmap_1)). lia.
Qed.
(** The number of an accepted frame determines the connection and the frame. *)
Lemma accepted_unique cfg y c1 n1 m1 c2 n2 m2 : reach cfg y -> y_conns y !! c1 = Some n1 -> y_conns y !! c2 = Some n2 ->
  m1 ∈ omap accepted (n_log n1) -> m2 ∈ omap accepted (n_log n2) -> g_uid m1 = g_uid m2 -> c1 = c2 /\ m1 = m2.
Proof.
  intros Hr H1 H2 A1%accepted_uid A2%accepted_uid E.
  assert (c1 = c2) as ->.
  { apply (reach_apart _ _ Hr _ _ _ _ (g_uid m1) H1 H2); unfold uids_of; rewrite fmap_app; apply elem_of_app; left; [by apply elem_of_list_fmap_1|]. rewrite E. by apply elem_of_list_fmap_1. }
  split; [done|]. assert (n1 = n2) as -> by congruence. destruct (reach_sorted _ _ Hr _ _ H1) as [S _].
  apply (sorted_inj g_uid _ _ _ S); [apply elem_of_app; by left..|done].
Qed.

(** * Collected frames *)
Lemma collected_snoc t log e : collected t (log ++ [e]) = tx_event t (collected t log) e.
Proof. unfold collected. by rewrite fold_left_app. Qed.
Lemma collected_split t log l m : collected t log = Some l -> m ∈ l ->
  exists pre e mid, log = pre ++ e :: mid /\ accepted e = Some m /\ hget_of m (lit "transaction") = Some t /\ forall e', e' ∈ mid -> ~ finishes t e'.
Proof.
  revert l. induction log as [|e log IH] using rev_ind; intros l; [done|]. rewrite collected_snoc. intros Hc Hm.
  assert (Hkeep : collected t log = Some l -> ~ finishes t e -> exists pre e0 mid, log ++ [e] = pre ++ e0 :: mid /\ accepted e0 = Some m /\ hget_of m (lit "transaction") = Some t /\ forall e', e' ∈ mid -> ~ finishes t e').
  { intros Hl Hf. destruct (IH _ Hl Hm) as (pre & e0 & mid & -> & H1 & H2 & H3). exists pre, e0, (mid ++ [e]). rewrite <- app_assoc. split_and!; try done.
    intros e' [?|?%elem_of_list_singleton]%elem_of_app; [auto|by subst]. }
  unfold tx_event in Hc. destruct (accepted e) as [m'|] eqn:Ha.
  2:{ apply Hkeep; [done|]. intros (m' & ? & _). congruence. }
  destruct (decide (hget_of m' (lit "transaction") = Some t)) as [Ht|Ht].
  2:{ apply Hkeep; [done|]. intros (m'' & ? & ? & _). congruence. }
  destruct (decide (cmd_of m' = BEGIN)) as [Hb|Hb]; [injection Hc as <-; by apply elem_of_nil in Hm|].
  destruct (decide (cmd_of m' = COMMIT \/ cmd_of m' = ABORT)) as [Hx|Hx]; [done|].
  assert (~ finishes t e) as Hf. { intros (m'' & Ha' & _ & Hy). rewrite Ha in Ha'. injection Ha' as <-. done. }
  destruct (in_tx m'); [|by apply Hkeep]. destruct (collected t log) as [l0|] eqn:E; [|done]. cbn in Hc. injection Hc as <-.
  apply elem_of_app in Hm as [Hm|Hm%elem_of_list_singleton].
  - destruct (IH _ eq_refl Hm) as (pre & e0 & mid & -> & H1 & H2 & H3). exists pre, e0, (mid ++ [e]). rewrite <- app_assoc. split_and!; try done.
    intros e' [?|?%elem_of_list_singleton]%elem_of_app; [auto|by subst].
  - subst m'. exists log, e, []. split_and!; try done. by intros e' ?%elem_of_nil.
Qed.
Lemma gathered_collected t (log : list cev) : gathered t (g_frame <$> omap accepted log) = (fun l : list msg => g_frame <$> l) <$> collected t log.
Proof.
  induction log as [|e log IH] using rev_ind; [done|]. rewrite collected_snoc, omap_app, fmap_app. unfold gathered in *. rewrite fold_left_app, IH. clear IH. unfold tx_event.
  destruct (accepted e) as [m|] eqn:Ea; cbn [omap list_omap]; rewrite Ea; [|done]. cbn [fmap list_fmap fold_left]. unfold gather_step. change (hd_contains (f_hdr (g_frame m)) (lit "transaction")) with (hget_of m (lit "transaction")). change (f_cmd (g_frame m)) with (cmd_of m).
  destruct (decide (hget_of m (lit "transaction") = Some t)); [|done]. destruct (decide (cmd_of m = BEGIN)); [done|]. destruct (decide (_ \/ _)); [done|].
  unfold in_tx. destruct (decide (cmd_of m ∈ [SEND; ACK; NACK])) as [H|H].
  - rewrite bool_decide_eq_true_2 by done. destruct (collected t log); [|done]. cbn. by rewrite fmap_app.
  - by rewrite bool_decide_eq_false_2.
Qed.

(** * Only committed messages are passed on *)
Lemma sent_committed cfg y m : reach cfg y -> m ∈ sent y ->
  exists c n m1, y_conns y !! c = Some n /\ m1 ∈ omap accepted (n_log n) /\ cmd_of m1 = SEND /\ m = delivered m1 /\
    (hget_of m1 (lit "transaction") = None \/ exists cm, committed n m1 cm).
Proof.
  intros Hr Hm. unfold sent in Hm. apply elem_of_list_In, in_concat in Hm as (x & Hx & Hm). apply elem_of_list_In, elem_of_list_fmap in Hx as (n & -> & Hn).
  apply in_concat in Hm as (x & Hx & Hm). apply elem_of_list_In, elem_of_list_fmap in Hx as (e & -> & He). apply elem_of_list_In in Hm.
  apply elem_of_list_lookup in Hn as [c Hn]. apply elem_of_list_split in He as (pre & post & He).
  destruct (conn_history _ _ Hr _ _ (keeps_in _ (reach_wf _ _ Hr)) _ _ Hn) as (k & st & Hx & _). rewrite He in Hx. rewrite (enqueue_due _ _ _ _ _ _ _ _ _ Hx) in Hm.
  exists c, n. unfold due in Hm. destruct (accepted e) as [m'|] eqn:Ha; [|by apply elem_of_nil in Hm].
  destruct (hget_of m' (lit "transaction")) as [t|] eqn:Ht.
  - case_decide as Hc; [|by apply elem_of_nil in Hm]. destruct (collected t pre) as [l|] eqn:Ec; [|by apply elem_of_nil in Hm].
    apply sends_in in Hm as (m1 & H1 & H2 & ->). destruct (collected_split _ _ _ _ Ec H1) as (pre1 & e1 & mid & -> & H3 & H4 & H5). exists m1.
    rewrite <- app_assoc in He. cbn [app] in He. split_and!; try done.
    + apply elem_of_list_omap. exists e1. split; [|done]. rewrite He. set_solver.
    + right. exists m', t, pre1, e1, mid, e, post. done.
  - apply sends_in in Hm as (m1 & H1 & H2 & ->). apply elem_of_list_singleton in H1 as ->. exists m'. split_and!; try done; [|by left].
    apply elem_of_list_omap. exists e. split; [|done]. rewrite He. set_solver.
Qed.
Lemma written_committed cfg y c n m w : reach cfg y -> y_conns y !! c = Some n -> (Some m, w) ∈ written n -> cmd_of m = MESSAGE ->
  exists c1 n1 m1, y_conns y !! c1 = Some n1 /\ m1 ∈ omap accepted (n_log n1) /\ cmd_of m1 = SEND /\ g_uid m = g_uid m1 /\ carries (g_frame m1) (g_frame m) /\
    (hget_of m1 (lit "transaction") = None \/ exists cm, committed n1 m1 cm).
Proof.
  intros Hr Hn Hin Hc. assert (exists m0, m0 ∈ sent y /\ payload m = payload m0) as (m0 & Hs & Hp).
  { unfold written, wire in Hin. apply elem_of_list_In, in_concat in Hin as (l & Hl & Hin).
    apply elem_of_list_In in Hin. apply elem_of_list_In, elem_of_list_fmap in Hl as (e & -> & He).
    apply elem_of_list_split in He as (pre & post & He). exact (messages_from_sent _ _ Hr _ _ _ _ _ _ _ Hn He Hin Hc). }
  destruct (sent_committed _ _ _ Hr Hs) as (c1 & n1 & m1 & H1 & H2 & H3 & -> & H4). destruct (payload_carries _ _ Hp). exists c1, n1, m1. done.
Qed.
Lemma uncommitted_never cfg y c n m1 : reach cfg y -> y_conns y !! c = Some n -> m1 ∈ omap accepted (n_log n) -> hget_of m1 (lit "transaction") <> None -> (forall cm, ~ committed n m1 cm) ->
  g_uid m1 ∉ g_uid <$> sent y /\ forall c' n' m w, y_conns y !! c' = Some n' -> (Some m, w) ∈ written n' -> cmd_of m = MESSAGE -> g_uid m <> g_uid m1.
Proof.
  intros Hr Hn Hm Ht Hno. split.
  - intros Hu. apply elem_of_list_fmap in Hu as (m0 & Eu & Hs). destruct (sent_committed _ _ _ Hr Hs) as (c1 & n1 & m2 & H1 & H2 & H3 & -> & H4).
    destruct (accepted_unique _ _ _ _ _ _ _ _ Hr Hn H1 Hm H2 Eu) as [-> ->]. assert (n1 = n) as -> by congruence. destruct H4 as [?|[cm ?]]; [done|]. by eapply Hno.
  - intros c' n' m w Hn' Hw Hc Eu. destruct (written_committed _ _ _ _ _ _ Hr Hn' Hw Hc) as (c1 & n1 & m2 & H1 & H2 & H3 & Eu2 & _ & H4).
    destruct (accepted_unique _ _ _ _ _ _ _ _ Hr Hn H1 Hm H2 ltac:(congruence)) as [-> ->]. assert (n1 = n) as -> by congruence. destruct H4 as [?|[cm ?]]; [done|]. by eapply Hno.
Qed.
(** COMMIT passes the whole transaction on. *)
Lemma commit_within cfg y c n pre e post cm t l : reach cfg y -> y_conns y !! c = Some n -> n_log n = pre ++ e :: post -> accepted e = Some cm -> cmd_of cm = COMMIT -> hget_of cm (lit "transaction") = Some t ->
  collected t pre = Some l -> within (sends l) (client_sent n).
Proof.
  intros Hr Hn El Ha Hc Ht Hl. destruct (conn_history _ _ Hr _ _ (keeps_in _ (reach_wf _ _ Hr)) _ _ Hn) as (k & st & Hx & _). rewrite El in Hx.
  pose proof (enqueue_due _ _ _ _ _ _ _ _ _ Hx) as Hd. unfold due in Hd. rewrite Ha, Ht, decide_True, Hl in Hd by done. cbn in Hd.
  unfold client_sent. rewrite El, fmap_app, concat_app. cbn. rewrite Hd. by eexists _, _.
Qed.
Lemma commit_refused cfg log m txt t : established log -> refused cfg log m txt -> cmd_of m = COMMIT -> hget_of m (lit "transaction") = Some t -> collected t log = None.
Proof.
  intros He Hr Hc Ht.
  assert (HL : forall l : list str, bool_decide (COMMIT ∈ l) = false -> cmd_of m ∈ l -> collected t log = None) by (intros l H1 H2; rewrite Hc in H2; apply bool_decide_eq_false in H1; done).
  assert (HN : forall s, bool_decide (COMMIT = s) = false -> cmd_of m = s -> collected t log = None) by (intros s H1 H2; rewrite Hc in H2; apply bool_decide_eq_false in H1; done).
  destruct Hr; try done; try (by (match goal with H : cmd_of m ∈ ?l |- _ => apply (HL l) end)); try (match goal with H : cmd_of m = ?l |- _ => by apply (HN l) end).
  - exfalso. match goal with H : cmd_of m ∉ _ |- _ => apply H end. rewrite Hc. by apply (bool_decide_unpack _).
  - congruence.
  - congruence.
Qed.

(** * Programs *)
Lemma committed_cm n m cm : committed n m cm -> cm ∈ omap accepted (n_log n) /\ cmd_of cm = COMMIT /\ hget_of cm (lit "transaction") = hget_of m (lit "transaction") /\ m ∈ omap accepted (n_log n).
Proof.
  intros (t & pre & e1 & mid & e2 & post & El & H1 & H2 & H3 & H4 & H5 & _). split_and!; try done; [|congruence|]; apply elem_of_list_omap; rewrite El; [exists e2|exists e1]; (split; [set_solver|done]).
Qed.
Lemma called_frame cfg x c l n o h k y m : nreach cfg x -> x_links x !! c = Some l -> y_conns (x_sys x) !! c = Some n -> l_peer l = PeerClient o h k y -> Forall writable (peer_sent (l_peer l)) ->
  m ∈ omap accepted (n_log n) -> cmd_of m ∈ [SEND; COMMIT] -> exists g r, c_gs y !! g = Some r /\ op_frame (g_op r) = Some (g_frame m).
Proof.
  intros Hr Hl Hn Hp Hw Hm Hcmd. pose proof (nreach_inv _ _ Hr) as HI. assert (Ha : accepts (x_sys x) c m). { apply elem_of_list_omap in Hm as (e & He & Ha). by exists n, e. }
  pose proof (accepts_got _ _ _ _ Ha Hn) as Hg. eapply elem_of_prefix in Hg; [|eapply up_prefix; try done; by rewrite Hp]. rewrite Hp in Hg. cbn [peer_sent] in Hg.
  unfold cmd_of in Hcmd. apply elem_of_cons in Hg as [E|Hg].
  - destruct (proj1 (nreach_peer _ _ Hr _ _ Hl) o) as (rm & os & Ho1); [by rewrite Hp|]. apply connect_cmd in Ho1. rewrite <-E in Ho1. exfalso.
    rewrite elem_of_cons, elem_of_list_singleton in Hcmd. destruct Hcmd as [E2|E2], Ho1 as [E1|E1]; rewrite E2 in E1; revert E1; neq_lits.
  - eapply wrote_call; [by eapply ni_client|done|]. rewrite elem_of_cons, elem_of_list_singleton in Hcmd. destruct Hcmd as [-> | ->]; neq_lits.
Qed.
Lemma program_committed cfg x c l o h k y s b f : nreach cfg x -> x_links x !! c = Some l -> l_peer l = PeerClient o h k y -> c_subs y !! s = Some b -> f ∈ msgs (b_read b) ->
  exists c1 n1 m1, y_conns (x_sys x) !! c1 = Some n1 /\ m1 ∈ omap accepted (n_log n1) /\ cmd_of m1 = SEND /\ carries (g_frame m1) f /\
    forall t, hget_of m1 (lit "transaction") = Some t -> exists cm, committed n1 m1 cm /\
      forall l1 o1 h1 k1 y1, x_links x !! c1 = Some l1 -> l_peer l1 = PeerClient o1 h1 k1 y1 -> Forall writable (peer_sent (l_peer l1)) ->
        exists g r, c_gs y1 !! g = Some r /\ op_frame (g_op r) = Some (g_frame cm).
Proof.
  intros Hr Hl Hp Hb Hf. pose proof (nreach_inv _ _ Hr) as HI. destruct (message_read _ _ _ _ _ _ (ni_client _ _ HI _ _ _ _ _ _ Hl Hp) Hb Hf) as [Hc Hin].
  destruct (lookup_lt_is_Some_2 (y_conns (x_sys x)) c) as [n Hn]; [rewrite <-(ni_len _ _ HI); by eapply lookup_lt_Some|].
  assert (f ∈ server_sent n) as Hs. { eapply elem_of_prefix; [|by eapply down_prefix]. rewrite Hp. right. by apply in_client_read. }
  unfold server_sent in Hs. apply elem_of_list_fmap in Hs as (m & -> & Hm). apply elem_of_list_omap in Hm as ([o0 w] & Hm & E). cbn in E. subst o0.
  destruct (written_committed _ _ _ _ _ _ (ni_reach _ _ HI) Hn Hm Hc) as (c1 & n1 & m1 & H1 & H2 & H3 & _ & H4 & H5). exists c1, n1, m1. split_and!; try done.
  intros t Ht. destruct H5 as [H5|[cm H5]]; [congruence|]. exists cm. split; [done|]. intros l1 o1 h1 k1 y1 Hl1 Hp1 Hw1. destruct (committed_cm _ _ _ H5) as (A1 & A2 & _).
  eapply called_frame; try done. rewrite A2. set_solver.
Qed.
Lemma commit_confirmed cfg x c l n o h k y g r f t : nreach cfg x -> x_links x !! c = Some l -> y_conns (x_sys x) !! c = Some n -> l_peer l = PeerClient o h k y -> l_ok l = true ->
  Forall writable (peer_sent (l_peer l)) -> c_gs y !! g = Some r -> receipt_call (g_op r) f -> g_pc r = GDone RNil -> (forall rid, hd_contains (f_hdr f) h_receipt = Some rid -> sole (c_gs y) g rid) ->
  f_cmd f = COMMIT -> hd_contains (f_hdr f) (lit "transaction") = Some t ->
  exists l1 q w l2, c_log y = l1 ++ PvReq q (Some (f, w)) :: l2 /\ q_by q = g /\
    forall fs, gathered t (wrote_in l1) = Some fs -> exists ms, g_frame <$> ms = fs /\ within (sends ms) (client_sent n).
Proof.
  intros Hr Hl Hn Hp Hlok Hw Hg Hop Hd Hs Hc Ht. destruct (receipt_call_served _ _ _ _ _ _ _ _ _ _ _ _ Hr Hl Hn Hp Hw Hg Hop Hd Hs) as (pre & e & post & m & l1 & q & w & l2 & El & Hin & Ef & Ely & Hq & Hpre & He & Hst).
  exists l1, q, w, l2. split_and!; try done. intros fs Hgf.
  assert (exists ms, collected t pre = Some ms /\ g_frame <$> ms = fs) as (ms & Hms & <-).
  { pose proof (gathered_collected t pre) as HG. rewrite Hpre in HG. assert (gathered t (connect_frame o :: wrote_in l1) = Some fs) as Hcons.
    { unfold gathered. cbn [fold_left]. assert (gather_step t None (connect_frame o) = None) as ->; [|done]. unfold gather_step. case_decide; [|done].
      destruct (proj1 (nreach_peer _ _ Hr _ _ Hl) o) as (rm & os & Ho1); [by rewrite Hp|]. apply connect_cmd in Ho1.
      rewrite decide_False. 2:{ destruct Ho1 as [-> | ->]; neq_lits. } case_decide; [done|]. by case_decide. }
    rewrite Hcons in HG. destruct (collected t pre) as [ms|]; [|done]. cbn in HG. injection HG as ->. by exists ms. }
  exists ms. split; [done|]. assert (accepted e = Some m) as Hacc.
  { unfold accepted, client_frame. rewrite Hin. destruct (v_stop e) eqn:Hv; [|done]. exfalso. destruct (Hst Hlok eq_refl) as [txt Hrf].
    apply (commit_refused _ _ _ _ t He) in Hrf; [congruence|unfold cmd_of; by rewrite Ef|unfold hget_of; by rewrite Ef]. }
  eapply commit_within; [by apply ni_reach, nreach_inv|done|done|done|unfold cmd_of; by rewrite Ef|unfold hget_of; by rewrite Ef|done].
Qed.

(** * Frames of the API *)
Lemma gathered_open t pre fb W : f_cmd fb = BEGIN -> of_tx t fb -> Forall (fun f => of_tx t f -> f_cmd f ∈ [SEND; ACK; NACK]) W -> gathered t (pre ++ fb :: W) = Some (filter (of_tx t) W).
Proof.
  intros Hb Ht HW. unfold gathered. rewrite fold_left_app. cbn [fold_left]. unfold gather_step at 2. rewrite decide_True, decide_True by done.
  assert (forall l0, fold_left (gather_step t) W (Some l0) = Some (l0 ++ filter (of_tx t) W)) as H; [|by rewrite H].
  induction HW as [|f W Hf HW IH]; intros l0; [by rewrite app_nil_r|]. cbn [fold_left]. rewrite filter_cons. unfold gather_step at 2. change (hd_contains (f_hdr f) (lit "transaction") = Some t) with (of_tx t f). destruct (decide (of_tx t f)) as [Hx|Hx].
  - specialize (Hf Hx).
    rewrite decide_False by (intros E; rewrite E in Hf; revert Hf; by apply (bool_decide_unpack (_ ∉ _))).
    rewrite decide_False by (intros [E|E]; rewrite E in Hf; revert Hf; by apply (bool_decide_unpack (_ ∉ _))). rewrite (decide_True (P := _ ∈ _)) by done. cbn [fmap option_fmap option_map]. rewrite IH. by rewrite <- app_assoc.
  - apply IH.
Qed.
Lemma tx_open version ops : supported version -> Forall (fun x : txop * sendres => is_finish x.1 = false) ops -> forall t, tx_completed t = false ->
  Forall (fun f => of_tx (tx_id t) f /\ f_cmd f ∈ [SEND; ACK; NACK]) (concat ((fun e => e.1.2) <$> tx_run version t ops)).
Proof.
  intros Hv. induction 1 as [|[op o] ops Hf Hops IH]; intros t Hc; [constructor|]. cbn [tx_run]. destruct (tx_step t op o version) as [[t' fs] r] eqn:Hs. cbn [fmap list_fmap concat].
  pose proof (tx_step_result _ _ _ _ _ _ _ Hv Hc Hs) as (H1 & _). pose proof (tx_step_frames _ _ _ _ _ _ _ Hs) as (Hid & _).
  assert (tx_id t' = tx_id t /\ tx_completed t' = false) as [Eid Hc'].
  { unfold tx_step in Hs. rewrite Hc in Hs. destruct op; cbn in Hf; try done; repeat case_match; simplify_eq; done. }
  apply Forall_app. split; [|rewrite <- Eid; by apply IH]. apply Forall_forall. intros f Hin. cbn in Hin. destruct (H1 _ Hin) as (_ & _ & Hok & Ht). split; [|destruct op; cbn in Hf, Hok; try done; [destruct Hok as (-> & _)|rewrite Hok|rewrite Hok]; set_solver].
  by apply hd_contains_Some.
Qed.
