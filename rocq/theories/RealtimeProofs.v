(** For RealtimeProps: the order of calls and the order of the processor's
    work. *)
From Coq Require Import Sorted.
From stdpp Require Import gmap.
From Verif Require Import GoBase HeaderModel FrameModel GrammarSpec HeaderProofs NegotiationModel NegotiationSpec NegotiationLemmas ClientApiModel ClientModel ClientSpec
  ClientLemmas ClientProofs ClientRequests ClientChannels ClientReceipts ClientDelivery ClientDisconnect ClientFinal OrderSpec OrderProofs OrderProps BodyProofs.
From Verif Require Import BrokerModel BrokerSpec BrokerProofs ServerConnModel ServerConnSpec ServerConnProofs SystemModel SystemLemmas SystemSpec SystemProofs
  SystemMessages SystemUids SystemHistory FlowSpec FlowProofs PeerSpec PeerProofs RefusalSpec NetModel NetSpec NetLinks NetProofs NetProps TransProofs NetRestSpec NetSettled NetRestProps NetTopics NetQueueSpec NetQueue QueueOrderSpec QueueOrderServer QueueOrderNet FlowTopics FlowSubs RealtimeServer RealtimeSpec.

(* ---------------- clients ---------------- *)
Lemma log_cmv cfg y a y' : cmv cfg y a y' -> c_log y `prefix_of` c_log y'.
Proof. intros Hm%cmv_pmove. destruct (pmove_log _ _ Hm) as [->|[e ->]]; [done|by eexists]. Qed.
Lemma log_run cfg y l y' : creach anything cfg y -> crun cfg y l = Some (COk y') -> c_log y `prefix_of` c_log y'.
Proof. intros Hr Hl. eapply (run_keeps (fun z => c_log y `prefix_of` c_log z) anything); [|done|done|apply Forall_any|done]. intros z a z' _ Hp _ Hm%log_cmv. by etrans. Qed.
Lemma written_prefix y y' : c_log y `prefix_of` c_log y' -> OrderSpec.written y `prefix_of` OrderSpec.written y' /\ client_wrote y `prefix_of` client_wrote y'.
Proof. intros [t E]. unfold OrderSpec.written, client_wrote, wrote_in. rewrite E, !omap_app. split; by eexists. Qed.
Lemma wrote_written y : client_wrote y = (OrderSpec.written y).*2.
Proof. unfold OrderSpec.written, client_wrote, wrote_in. generalize (c_log y). intros l. induction l as [|e l IH]; [done|]. destruct e as [q [[f b]|]| |]; cbn; try done. by rewrite IH. Qed.

(* ---------------- links ---------------- *)
Definition evolves (p p' : peer) : Prop :=
  match p with
  | PeerOther => p' = PeerOther
  | PeerFailed o => p' = PeerFailed o
  | PeerDialing o => p' = PeerDialing o \/ p' = PeerFailed o \/ exists h k y tr, p' = PeerClient o h k y /\ crun k cl_init tr = Some (COk y)
  | PeerClient o h k y => exists y' tr, p' = PeerClient o h k y' /\ crun k y tr = Some (COk y')
  end.
Lemma evolves_refl p : evolves p p.
Proof. destruct p; cbn; auto. eexists _, []. done. Qed.
Lemma evolves_trans p q r : evolves p q -> evolves q r -> evolves p r.
Proof.
  destruct p; cbn.
  - intros -> H. exact H.
  - intros [->|[->|(h & k & y & tr & -> & Hy)]]; cbn; [done|auto|]. intros (y' & tr' & -> & Hy'). right. right. exists h, k, y', (tr ++ tr'). split; [done|]. by rewrite crun_app, Hy.
  - intros -> H. exact H.
  - intros (y1 & tr & -> & H1). cbn. intros (y2 & tr' & -> & H2). exists y2, (tr ++ tr'). split; [done|]. by rewrite crun_app, H1.
Qed.
Lemma crun_one k y a y' : cstep k y a = Some (COk y') -> crun k y [a] = Some (COk y').
Proof. intros H. cbn. by rewrite H. Qed.
Lemma link_set x c l' c0 l : x_links x !! c0 = Some l -> (forall l0, x_links x !! c = Some l0 -> evolves (l_peer l0) (l_peer l')) ->
  exists l1, <[c := l']> (x_links x) !! c0 = Some l1 /\ evolves (l_peer l) (l_peer l1).
Proof.
  intros Hl He. destruct (decide (c = c0)) as [->|Hne]; [rewrite list_lookup_insert by (by eapply lookup_lt_Some); eauto|].
  rewrite list_lookup_insert_ne by done. exists l. split; [done|apply evolves_refl].
Qed.
Lemma link_step cfg x a x' : nstep cfg x a = Some x' -> rtc (move cfg) (x_sys x) (x_sys x') /\
  forall c l, x_links x !! c = Some l -> exists l', x_links x' !! c = Some l' /\ evolves (l_peer l) (l_peer l').
Proof.
  intros Hs.
  assert (HA : forall l0, add_link cfg x l0 = Some x' -> rtc (move cfg) (x_sys x) (x_sys x') /\ forall c l, x_links x !! c = Some l -> exists l', x_links x' !! c = Some l' /\ evolves (l_peer l) (l_peer l')).
  { intros l0 Ha. unfold add_link in Ha. destruct (step cfg (x_sys x) AAccept) as [[?|y]|] eqn:E; [done| |done]. injection Ha as <-. split; [apply rtc_once; by eapply step_move|].
    intros c l Hl. exists l. split; [by apply lookup_app_l_Some|apply evolves_refl]. }
  destruct a as [remote opts cut| |c b|c|a k|c k|c|c|c a k]; cbn [nstep] in Hs.
  - destruct (new_conn_options remote opts) as [o|]; [|done]. by apply HA in Hs.
  - by apply HA in Hs.
  - destruct (x_links x !! c) as [l|] eqn:Hl; [|done]. destruct (l_peer l) eqn:Hp; try done. injection Hs as <-. split; [done|]. intros c0 l0 H0. apply link_set; [done|].
    intros l1 H1. simplify_eq. rewrite Hp. done.
  - unfold net_up in Hs. destruct (x_links x !! c) as [l|] eqn:Hl; [|done]. destruct (read_stream (l_up l)) as [rest|f rest|e| |] eqn:Hrd; try done.
    + injection Hs as <-. split; [done|]. intros c0 l0 H0. apply link_set; [done|]. intros l1 H1. simplify_eq. apply evolves_refl.
    + destruct (step cfg (x_sys x) (ARecv c f)) as [[?|y]|] eqn:Hst; [done| |done]. injection Hs as <-. split; [apply rtc_once; by eapply step_move|].
      intros c0 l0 H0. apply link_set; [done|]. intros l1 H1. simplify_eq. apply evolves_refl.
  - unfold net_server in Hs. destruct a as [|c f|c|c s w1 w2|c|c pick| |]; try done.
    2: destruct (x_links x !! c) as [l|] eqn:Hl; [|done]; destruct (y_conns (x_sys x) !! c) as [n|] eqn:Hn; [|done].
    all: match goal with H : context [step ?c ?y ?a] |- _ => destruct (step c y a) as [[?|y']|] eqn:Hst; [done| |done] end.
    1,3-6: injection Hs as <-; split; [apply rtc_once; by eapply step_move|]; intros c0 l0 H0; exists l0; split; [done|apply evolves_refl].
    destruct (y_conns y' !! c) as [n'|] eqn:Hn'; [|done]. destruct (sticky _ _) eqn:Hsk; [|done]. injection Hs as <-. split; [apply rtc_once; by eapply step_move|].
    intros c0 l0 H0. apply link_set; [done|]. intros l1 H1. simplify_eq. apply evolves_refl.
  - unfold net_hello in Hs. destruct (x_links x !! c) as [l|] eqn:Hl; [|done]. destruct (l_peer l) as [|o|o|o h k0 y] eqn:Hp; try done.
    assert (HF : forall rest p, evolves (PeerDialing o) p -> x' = with_link x c (mkLink (l_up l) rest (l_ok l) p) -> rtc (move cfg) (x_sys x) (x_sys x') /\
      forall c l, x_links x !! c = Some l -> exists l', x_links x' !! c = Some l' /\ evolves (l_peer l) (l_peer l')).
    { intros rest p He ->. split; [done|]. intros c0 l0 H0. apply link_set; [done|]. intros l1 H1. simplify_eq. by rewrite Hp. }
    destruct (read_stream (l_down l)) as [rest|f rest|e| |] eqn:Hrd; try done; [injection Hs as <-; eapply HF; [|done]; cbn; auto|].
    destruct (client_connect o (RFrame f rest)) as [cc| | | | | |]; try (by injection Hs as <-; eapply HF; [|done]; cbn; auto). destruct (bool_decide _); [|done]. injection Hs as <-.
    eapply HF; [|done]. cbn. right. right. by eexists _, _, _, [].
  - unfold net_give_up in Hs. destruct (x_links x !! c) as [l|] eqn:Hl; [|done]. destruct (l_peer l) as [|o|o|o h k0 y] eqn:Hp; try done. injection Hs as <-. split; [done|].
    intros c0 l0 H0. apply link_set; [done|]. intros l1 H1. simplify_eq. rewrite Hp. cbn. auto.
  - unfold net_down in Hs. destruct (x_links x !! c) as [l|] eqn:Hl; [|done]. destruct (l_peer l) as [|o|o|o h k0 y] eqn:Hp; try done.
    assert (HF : forall it rest, match cstep k0 y (XRecv it) with Some (COk y') => Some (with_link x c (mkLink (l_up l) rest (l_ok l) (PeerClient o h k0 y'))) | _ => None end = Some x' -> rtc (move cfg) (x_sys x) (x_sys x') /\
      forall c l, x_links x !! c = Some l -> exists l', x_links x' !! c = Some l' /\ evolves (l_peer l) (l_peer l')).
    { intros it rest H. destruct (cstep k0 y (XRecv it)) as [[?|y']|] eqn:Hst; try done. injection H as <-. split; [done|]. intros c0 l0 H0. apply link_set; [done|]. intros l1 H1. simplify_eq. rewrite Hp. cbn.
      exists y', [XRecv it]. split; [done|]. by apply crun_one. }
    destruct (read_stream (l_down l)) as [rest|f rest|e| |] eqn:Hrd; try done; by eapply HF.
  - unfold net_client in Hs. destruct (x_links x !! c) as [l|] eqn:Hl; [|done]. destruct (l_peer l) as [|o|o|o h k0 y] eqn:Hp; try done.
    assert (match cstep k0 y a with Some (COk y') => Some (with_link x c (mkLink (l_up l ++ on_wire (client_writes y a).1 (client_writes y a).2 k) (l_down l) (l_ok l) (PeerClient o h k0 y'))) | _ => None end = Some x') as H by (by destruct a).
    destruct (cstep k0 y a) as [[?|y']|] eqn:Hst; try done. injection H as <-. split; [done|]. intros c0 l0 H0. apply link_set; [done|]. intros l1 H1. simplify_eq. rewrite Hp. cbn.
    exists y', [a]. split; [done|]. by apply crun_one.
Qed.
Lemma link_run cfg x l x' : nrun cfg x l = Some x' -> smoves cfg (x_sys x) (x_sys x') /\
  forall c l, x_links x !! c = Some l -> exists l', x_links x' !! c = Some l' /\ evolves (l_peer l) (l_peer l').
Proof.
  revert x. induction l as [|a l IH]; intros x; cbn [nrun].
  - intros [= <-]. split; [constructor|]. intros c l H. exists l. split; [done|apply evolves_refl].
  - destruct (nstep cfg x a) as [x1|] eqn:E; [|done]. intros H. destruct (link_step _ _ _ _ E) as [S1 L1], (IH _ H) as [S2 L2]. split; [by etrans|].
    intros c l0 H0. destruct (L1 _ _ H0) as (l1 & H1 & E1), (L2 _ _ H1) as (l2 & H2 & E2). exists l2. split; [done|]. by eapply evolves_trans.
Qed.
Lemma sent_grows p p' : (forall o h k y, p = PeerClient o h k y -> creach anything k y) -> evolves p p' -> peer_sent p `prefix_of` peer_sent p'.
Proof.
  intros Hp. destruct p as [|o|o|o h k y]; cbn.
  - intros ->. done.
  - intros [->|[->|(h & k & y & tr & -> & _)]]; cbn; [done|done|by eexists].
  - by intros ->.
  - intros (y' & tr & -> & H). cbn. apply prefix_cons. apply written_prefix. by eapply log_run; [eapply Hp|].
Qed.
Lemma well_formed_back cfg x l x' c : nreach cfg x -> nrun cfg x l = Some x' -> well_formed x' c -> well_formed x c.
Proof.
  intros Hr Hl Hw l0 H0. destruct (link_run _ _ _ _ Hl) as [_ HL]. destruct (HL _ _ H0) as (l1 & H1 & E1). specialize (Hw _ H1).
  apply sent_grows in E1 as [t Et]; [|intros o h k y Hp; by eapply (ni_client _ _ (nreach_inv _ _ Hr))]. rewrite Et in Hw. by apply Forall_app in Hw as [? _].
Qed.
Lemma client_run cfg x l x' c y : nrun cfg x l = Some x' -> client_of x c y -> exists y' k tr, client_of x' c y' /\ crun k y tr = Some (COk y') /\ (nreach cfg x -> creach anything k y).
Proof.
  intros Hl (l0 & o & h & k & H0 & Hp). destruct (link_run _ _ _ _ Hl) as [_ HL]. destruct (HL _ _ H0) as (l1 & H1 & E1). rewrite Hp in E1. destruct E1 as (y' & tr & Hp' & Hrun).
  exists y', k, tr. split_and!; [by exists l1, o, h, k|done|]. intros Hr. by eapply (ni_client _ _ (nreach_inv _ _ Hr)).
Qed.
Lemma client_of_eq x c y y' : client_of x c y -> client_of x c y' -> y = y'.
Proof. intros (l & o & h & k & H1 & H2) (l' & o' & h' & k' & H3 & H4). congruence. Qed.
Lemma client_of_reach cfg x c y : nreach cfg x -> client_of x c y -> exists k, creach anything k y.
Proof. intros Hr (l & o & h & k & H1 & H2). exists k. by eapply (ni_client _ _ (nreach_inv _ _ Hr)). Qed.

Lemma nrun_app cfg l l' x x1 : nrun cfg x l = Some x1 -> nrun cfg x (l ++ l') = nrun cfg x1 l'.
Proof. revert x. induction l as [|a l IH]; intros x; cbn; [by intros [= ->]|]. destruct (nstep cfg x a) as [x'|]; [apply IH|done]. Qed.

(* ---------------- lists ---------------- *)
Lemma before_lookup {A} (l : list A) a b : before l a b <-> exists i k, i < k /\ l !! i = Some a /\ l !! k = Some b.
Proof.
  split.
  - intros (l1 & l2 & l3 & ->). exists (length l1), (length l1 + S (length l2)). split_and!; [lia|by apply list_lookup_middle|]. rewrite lookup_app_r by lia. replace (_ - _) with (S (length l2)) by lia. cbn. by apply list_lookup_middle.
  - intros (i & k & Hik & Ha & Hb). apply elem_of_list_split_length in Ha as (l1 & l2 & -> & ->). rewrite lookup_app_r in Hb by lia. replace (k - length l1) with (S (k - length l1 - 1)) in Hb by lia. cbn in Hb.
    apply elem_of_list_split_length in Hb as (l3 & l4 & -> & _). by exists l1, l3, l4.
Qed.
Lemma before_sublist {A} (l l' : list A) a b : l `sublist_of` l' -> before l a b -> before l' a b.
Proof.
  intros Hs (l1 & l2 & l3 & ->). apply sublist_app_l in Hs as (k1 & k2 & -> & _ & Hs). apply sublist_cons_l in Hs as (k3 & k4 & -> & Hs). apply sublist_app_l in Hs as (k5 & k6 & -> & _ & Hs).
  apply sublist_cons_l in Hs as (k7 & k8 & -> & _). exists (k1 ++ k3), (k5 ++ k7), k8. by rewrite <-!app_assoc.
Qed.
Lemma before_cut {A} (l l' : list A) a b : NoDup (l ++ l') -> b ∈ l -> before (l ++ l') a b -> before l a b.
Proof.
  intros HN Hb (i & k & Hik & Hi & Hk)%before_lookup. apply before_lookup. apply elem_of_list_lookup in Hb as [k' Hk']. assert (k = k') as ->.
  { eapply NoDup_lookup; [exact HN|exact Hk|]. by apply lookup_app_l_Some. }
  exists i, k'. split_and!; try done. rewrite lookup_app_l in Hi; [done|]. apply lookup_lt_Some in Hk'. lia.
Qed.
Lemma before_new {A} (l l' : list A) a b : l `prefix_of` l' -> a ∈ l -> b ∈ l' -> b ∉ l -> before l' a b.
Proof.
  intros [t ->] Ha Hb Hn. apply elem_of_list_lookup in Ha as [i Hi]. apply elem_of_app in Hb as [Hb|Hb]; [done|]. apply elem_of_list_lookup in Hb as [k Hk].
  apply before_lookup. exists i, (length l + k). apply lookup_lt_Some in Hi as Hlt. split_and!; [lia|by apply lookup_app_l_Some|]. rewrite lookup_app_r by lia. by replace (_ + _ - _) with k by lia.
Qed.

(* ---------------- the server ---------------- *)
Lemma sent_source cfg y c n m : reach cfg y -> y_conns y !! c = Some n -> m ∈ client_sent n -> exists m1, m1 ∈ omap accepted (n_log n) /\ m = delivered m1.
Proof.
  intros Hr Hn Hm. assert (m ∈ sent y) as Hs. { unfold sent. apply elem_of_list_In, in_concat. exists (client_sent n). split; [|by apply elem_of_list_In]. apply elem_of_list_In. apply elem_of_list_fmap. exists n. split; [done|]. by apply elem_of_list_lookup_2 in Hn. }
  unfold client_sent in Hm. apply elem_of_list_In, in_concat in Hm as (x & Hx & Hm). apply elem_of_list_In, elem_of_list_fmap in Hx as (e & -> & He). apply elem_of_list_In in Hm.
  apply elem_of_list_split in He as (pre & post & He).
  destruct (conn_history _ _ Hr _ _ (keeps_in _ (reach_wf _ _ Hr)) _ _ Hn) as (k & st & Hx & _). rewrite He in Hx. rewrite (enqueue_due _ _ _ _ _ _ _ _ _ Hx) in Hm.
  unfold due in Hm. destruct (accepted e) as [m'|] eqn:Ha; [|by apply elem_of_nil in Hm].
  destruct (hget_of m' (lit "transaction")) as [t|] eqn:Ht.
  - case_decide as Hc; [|by apply elem_of_nil in Hm]. destruct (collected t pre) as [l|] eqn:Ec; [|by apply elem_of_nil in Hm].
    apply sends_in in Hm as (m1 & H1 & H2 & ->). destruct (collected_split _ _ _ _ Ec H1) as (pre1 & e1 & mid & -> & H3 & H4 & H5). exists m1. split; [|done].
    apply elem_of_list_omap. exists e1. split; [|done]. rewrite He. set_solver.
  - apply sends_in in Hm as (m1 & H1 & H2 & ->). apply elem_of_list_singleton in H1 as ->. exists m'. split; [|done].
    apply elem_of_list_omap. exists e. split; [|done]. rewrite He. set_solver.
Qed.
Lemma asked_source cfg y m : reach cfg y -> m ∈ asked y -> exists c n m1, y_conns y !! c = Some n /\ sent_by n m /\ m1 ∈ omap accepted (n_log n) /\ g_uid m1 = g_uid m.
Proof.
  intros Hr Hm. destruct (or_src _ (reach_ordered _ _ Hr) _ Hm) as (c & n & Hn & Hs). pose proof Hs as Hs0. unfold sent_by in Hs. apply elem_of_list_fmap in Hs as (m' & E & Hs).
  destruct (sent_source _ _ _ _ _ Hr Hn Hs) as (m1 & H1 & ->). by exists c, n, m1.
Qed.
Lemma asked_old cfg y m : reach cfg y -> m ∈ asked y -> g_uid m < y_uid y.
Proof.
  intros Hr Hm. destruct (asked_source _ _ _ Hr Hm) as (c & n & m1 & Hn & _ & H1%accepted_uid & <-). destruct (reach_sorted _ _ Hr _ _ Hn) as [_ HF]. rewrite Forall_forall in HF.
  apply HF. apply elem_of_list_fmap_1, elem_of_app. by left.
Qed.
Lemma frames_split l i m : frames_of l !! i = Some m -> exists p e q, l = p ++ e :: q /\ client_frame e = Some m /\ length (frames_of p) = i.
Proof.
  revert i. induction l as [|e l IH]; intros i; cbn; [done|]. unfold frames_of. cbn. destruct (client_frame e) as [m'|] eqn:E.
  - destruct i as [|i]; cbn; [intros [= ->]; by exists [], e, l|]. intros (p & e' & q & -> & H1 & <-)%IH. exists (e :: p), e', q. split_and!; try done. cbn. by rewrite E.
  - intros (p & e' & q & -> & H1 & <-)%IH. exists (e :: p), e', q. split_and!; try done. cbn. by rewrite E.
Qed.
Lemma accepted_early e m cfg y c n pre q : reach cfg y -> y_conns y !! c = Some n -> n_log n = pre ++ e :: q -> client_frame e = Some m -> q <> [] -> accepted e = Some m.
Proof.
  intros Hr Hn El Hf Hq. destruct (conn_history _ _ Hr _ _ (keeps_in _ (reach_wf _ _ Hr)) _ _ Hn) as (k & st & Hx & _). rewrite El in Hx.
  apply cexec_event in Hx as (? & ? & ? & ? & ? & ? & _ & _ & _ & _ & _ & _ & _ & [H|H]); [done|]. unfold accepted. by rewrite H.
Qed.
Lemma plain_due cfg y c n pre e q m : reach cfg y -> y_conns y !! c = Some n -> n_log n = pre ++ e :: q -> accepted e = Some m -> plain_send m -> enqueues (v_push e) = [delivered m].
Proof.
  intros Hr Hn El Ha [H1 H2]. destruct (conn_history _ _ Hr _ _ (keeps_in _ (reach_wf _ _ Hr)) _ _ Hn) as (k & st & Hx & _). rewrite El in Hx. rewrite (enqueue_due _ _ _ _ _ _ _ _ _ Hx).
  unfold due. rewrite Ha, H2. unfold sends. cbn. by rewrite decide_True.
Qed.
Lemma client_sent_nodup cfg y c n : reach cfg y -> y_conns y !! c = Some n -> NoDup (g_uid <$> client_sent n).
Proof.
  intros Hr Hn. pose proof (sent_once _ _ Hr) as HN. apply elem_of_list_split_length in Hn as (l1 & l2 & E & _). unfold sent in HN. rewrite E, fmap_app, concat_app in HN. cbn in HN.
  rewrite !fmap_app in HN. apply NoDup_app in HN as (_ & _ & HN). by apply NoDup_app in HN as (HN & _).
Qed.
Lemma same_uid cfg y c n i k m m' : reach cfg y -> y_conns y !! c = Some n -> (frames_of (n_log n) ++ n_read n) !! i = Some m -> (frames_of (n_log n) ++ n_read n) !! k = Some m' -> g_uid m = g_uid m' -> i = k.
Proof.
  intros Hr Hn Hi Hk E. destruct (reach_sorted _ _ Hr _ _ Hn) as [HS _]. generalize dependent (frames_of (n_log n) ++ n_read n). clear -E. intros l. revert i k.
  induction l as [|x l IH]; intros i k Hi Hk HS; [done|]. cbn in HS. inversion HS as [|? ? HS' HF]; subst. rewrite Forall_forall in HF. destruct i as [|i], k as [|k]; cbn in Hi, Hk.
  - done.
  - injection Hi as ->. apply elem_of_list_lookup_2 in Hk. specialize (HF (g_uid m') ltac:(by apply elem_of_list_fmap_1)). lia.
  - injection Hk as ->. apply elem_of_list_lookup_2 in Hi. specialize (HF (g_uid m) ltac:(by apply elem_of_list_fmap_1)). lia.
  - f_equal. by apply IH.
Qed.

(* ---------------- calls ---------------- *)
Lemma not_called_long x c g y : client_of x c y -> ~ called x c g -> length (c_gs y) <= g.
Proof. intros Hy Hn. destruct (decide (length (c_gs y) <= g)); [done|]. destruct Hn. destruct (lookup_lt_is_Some_2 (c_gs y) g) as [r Hr]; [lia|]. by exists y, r. Qed.
(** Frames of calls that had returned come before those of later calls. *)
Lemma earlier cfg x0 r x1 c g v g2 y i f k f2 : nreach cfg x0 -> nrun cfg x0 r = Some x1 -> returns x0 c g v -> ~ called x0 c g2 -> client_of x1 c y ->
  OrderSpec.written y !! i = Some (g, f) -> OrderSpec.written y !! k = Some (g2, f2) -> i < k.
Proof.
  intros Hr Hrun (y0 & Hy0 & Hg) Hn Hy Hi Hk. destruct (client_run _ _ _ _ _ _ Hrun Hy0) as (y' & kc & tr & Hy' & Ht & Hc). specialize (Hc Hr). assert (y' = y) as -> by (by eapply client_of_eq).
  pose proof (not_called_long _ _ _ _ Hy0 Hn) as Hlen. destruct (decide (i < k)) as [|Hge]; [done|]. exfalso. assert (g <> g2) as Hne. { intros <-. destruct Hg as (r0 & Hg & _). apply lookup_lt_Some in Hg. lia. }
  assert (i <> k) by (intros ->; congruence). apply elem_of_list_split_length in Hk as (l1 & l2 & E & El).
  eapply (C84_order _ _ _ _ _ _ _ _ _ _ Hc Ht Hg Hlen E). rewrite E, lookup_app_r in Hi by lia. replace (i - length l1) with (S (i - length l1 - 1)) in Hi by lia. cbn in Hi.
  apply elem_of_list_lookup_2 in Hi. apply elem_of_list_fmap. by exists (g, f).
Qed.
Lemma written_unique cfg x c y i k g f f' : nreach cfg x -> client_of x c y -> OrderSpec.written y !! i = Some (g, f) -> OrderSpec.written y !! k = Some (g, f') -> i = k /\ f = f'.
Proof.
  intros Hr Hy Hi Hk. destruct (client_of_reach _ _ _ _ Hr Hy) as [kc Hc]. destruct (C84_once _ _ _ Hc) as [_ HN].
  assert (i = k) as ->. { eapply NoDup_lookup; [exact HN| |]; rewrite list_lookup_fmap; [by rewrite Hi|by rewrite Hk]. } split; [done|congruence].
Qed.
Lemma written_run cfg x r x' c y y' : nreach cfg x -> nrun cfg x r = Some x' -> client_of x c y -> client_of x' c y' -> OrderSpec.written y `prefix_of` OrderSpec.written y'.
Proof.
  intros Hr Hrun Hy Hy'. destruct (client_run _ _ _ _ _ _ Hrun Hy) as (y1 & kc & tr & H1 & Ht & Hc). assert (y1 = y') as -> by (by eapply client_of_eq). apply written_prefix. by eapply log_run; [by apply Hc|].
Qed.
Lemma log_written y l1 q f w l2 : c_log y = l1 ++ PvReq q (Some (f, w)) :: l2 -> exists k, OrderSpec.written y !! k = Some (q_by q, f) /\ k = length (wrote_in l1).
Proof.
  intros E. exists (length (wrote_in l1)). split; [|done]. unfold OrderSpec.written. rewrite E, omap_app. cbn.
  assert (forall l, length (wrote_in l) = length (omap (fun e => match e with PvReq q (Some (f, _)) => Some (q_by q, f) | _ => None end) l)) as ->.
  { intros l. unfold wrote_in. induction l as [|e l IH]; [done|]. destruct e as [q0 [[f0 b]|]| |]; cbn; try done. by rewrite IH. }
  by apply list_lookup_middle.
Qed.
Lemma in_written_allr y g : g ∈ (OrderSpec.written y).*1 -> g ∈ q_by <$> allr y.
Proof.
  intros H. rewrite allr_served. apply elem_of_app. left. eapply elem_of_submseteq; [exact H|]. apply sublist_submseteq, written_served.
Qed.
(** processLoop of the server came to the frame of a confirmed call, so it is
    past every frame written before it. *)
Lemma confirmed_at cfg x c g2 : nreach cfg x -> well_formed x c -> confirmed x c g2 ->
  exists y n k f2 pre e post, client_of x c y /\ y_conns (x_sys x) !! c = Some n /\ OrderSpec.written y !! k = Some (g2, f2) /\ n_log n = pre ++ e :: post /\ length (frames_of pre) = S k.
Proof.
  intros Hr Hw (y & r & f & Hy & Hg & Hd & Hop & Hs). destruct Hy as (l & o & h & kc & Hl & Hp). pose proof (nreach_inv _ _ Hr) as HI.
  assert (exists n, y_conns (x_sys x) !! c = Some n) as [n Hn]. { apply lookup_lt_is_Some_2. rewrite <-(ni_len _ _ HI). by eapply lookup_lt_Some. }
  assert (exists pre e post m l1 q w l2, n_log n = pre ++ e :: post /\ v_in e = InFrame m /\ g_frame m = f /\
    c_log y = l1 ++ PvReq q (Some (f, w)) :: l2 /\ q_by q = g2 /\ g_frame <$> omap accepted pre = connect_frame o :: wrote_in l1 /\
    established pre /\ (l_ok l = true -> v_stop e = true -> exists txt, refused cfg pre m txt)) as (pre & e & post & m & l1 & q & w & l2 & El & _ & _ & Ey & <- & Ea & _).
  { destruct Hop as [Hop|(rid & Hop & -> & Hwr)]; [by eapply receipt_call_served; eauto|].
    pose proof (ni_client _ _ HI _ _ _ _ _ _ Hl Hp) as Hcr. pose proof (disconnect_nil _ _ _ Hcr _ _ _ Hg Hop Hd (in_written_allr _ _ Hwr)) as Hrc.
    eapply (receipt_served _ _ _ _ _ _ _ _ _ _ _ _ rid Hr Hl Hn Hp); [by apply Hw|exact Hg|by rewrite Hop|done|by apply Hs|exact Hrc]. }
  destruct (log_written _ _ _ _ _ _ Ey) as (k & Hk & ->). exists y, n, (length (wrote_in l1)), f, pre, e, post. split_and!; try done; [by exists l, o, h, kc|].
  destruct (conn_history _ _ (ni_reach _ _ HI) _ _ (keeps_in _ (reach_wf _ _ (ni_reach _ _ HI))) _ _ Hn) as (kk & st & Hx & _). rewrite El in Hx.
  rewrite (frames_accepted _ (before_accepted _ _ _ _ _ _ _ _ _ Hx)). apply (f_equal length) in Ea. by rewrite fmap_length in Ea.
Qed.
(** What a program wrote before a call that was confirmed is handed to the
    processor, or the processor need not be asked. *)
Lemma handed_before cfg x c g2 g m : nreach cfg x -> well_formed x c -> confirmed x c g2 -> message_of x c g m ->
  (forall y i f k f2, client_of x c y -> OrderSpec.written y !! i = Some (g, f) -> OrderSpec.written y !! k = Some (g2, f2) -> i < k) ->
  exists n pre e post, y_conns (x_sys x) !! c = Some n /\ n_log n = pre ++ e :: post /\ accepted e = Some m /\ forall r, r ∈ v_push e -> r ∈ handed (x_sys x).
Proof.
  intros Hr Hw Hc (y & n & i & Hy & Hn & Hi & Hm) Hlt. destruct (confirmed_at _ _ _ _ Hr Hw Hc) as (y' & n' & k & f2 & pre & e & post & Hy' & Hn' & Hk & El & Elen).
  assert (y' = y) as -> by (by eapply client_of_eq). simplify_eq. specialize (Hlt _ _ _ _ _ Hy Hi Hk). pose proof (ni_reach _ _ (nreach_inv _ _ Hr)) as Hrs.
  rewrite El in Hm. unfold frames_of in Hm. rewrite omap_app in Hm. fold (frames_of pre) in Hm. rewrite <-app_assoc, lookup_app_l in Hm by lia.
  apply frames_split in Hm as (p & em & q & -> & Hf & _). rewrite <-app_assoc in El. cbn in El. exists n, p, em, (q ++ e :: post). split_and!; [done|done| |].
  - eapply accepted_early; [exact Hrs|exact Hn|exact El|done|]. by destruct q.
  - intros r Hin. destruct (reach_pushed _ _ Hrs _ _ _ _ _ _ Hn El Hin) as [?|[E _]]; [done|]. by destruct q.
Qed.
Lemma message_back cfg x r x' c g g2 m : nreach cfg x -> nrun cfg x r = Some x' -> well_formed x c -> confirmed x c g2 -> message_of x' c g m ->
  (forall y i f k f2, client_of x' c y -> OrderSpec.written y !! i = Some (g, f) -> OrderSpec.written y !! k = Some (g2, f2) -> i < k) -> message_of x c g m.
Proof.
  intros Hr Hrun Hw Hc (y' & n' & i & Hy' & Hn' & Hi & Hm) Hlt. destruct (confirmed_at _ _ _ _ Hr Hw Hc) as (y & n & k & f2 & pre & e & post & Hy & Hn & Hk & El & Elen).
  destruct (written_run _ _ _ _ _ _ _ Hr Hrun Hy Hy') as [t Et]. assert (i < k) as Hik. { eapply Hlt; [exact Hy'|exact Hi|]. rewrite Et. by apply lookup_app_l_Some. }
  apply lookup_lt_Some in Hk as Hkl. rewrite Et, lookup_app_l in Hi by lia. exists y, n, i. split_and!; try done.
  destruct (link_run _ _ _ _ Hrun) as [HS _]. destruct (inbox_moves _ _ _ HS) as [_ HB]. destruct (HB c) as (new & E & _). rewrite (inbox_some _ _ _ Hn), (inbox_some _ _ _ Hn') in E.
  rewrite E, lookup_app_l in Hm; [done|]. rewrite El. unfold frames_of. rewrite omap_app. fold (frames_of pre). rewrite !app_length. lia.
Qed.
(** A frame of a call that had not been made is new to the server. *)
Lemma message_new cfg x r x' c g m : nreach cfg x -> nrun cfg x r = Some x' -> well_formed x c -> ~ called x c g -> message_of x' c g m -> y_uid (x_sys x) <= g_uid m.
Proof.
  intros Hr Hrun Hw Hnc (y' & n' & i & Hy' & Hn' & Hi & Hm). destruct (link_run _ _ _ _ Hrun) as [HS HL]. destruct (inbox_moves _ _ _ HS) as [_ HB]. destruct (HB c) as (new & E & HF).
  rewrite (inbox_some _ _ _ Hn') in E. rewrite E in Hm. apply lookup_app_Some in Hm as [Hm|[_ Hm]]; [|rewrite Forall_forall in HF; apply HF; by eapply elem_of_list_lookup_2]. exfalso.
  destruct (y_conns (x_sys x) !! c) as [n|] eqn:Hn; [|unfold inbox in Hm; by rewrite Hn in Hm]. rewrite (inbox_some _ _ _ Hn) in Hm. pose proof (nreach_inv _ _ Hr) as HI.
  assert (exists l, x_links x !! c = Some l) as [l Hl]. { apply lookup_lt_is_Some_2. rewrite (ni_len _ _ HI). by eapply lookup_lt_Some. }
  destruct (HL _ _ Hl) as (l' & Hl' & He). destruct Hy' as (l0 & o & h & kc & H0 & Hp). simplify_eq. rewrite Hp in He.
  assert (l_peer l <> PeerOther) as Hno by (intros E0; by rewrite E0 in He). destruct (up_prefix _ _ _ _ _ Hr Hl Hn Hno (Hw _ Hl)) as [t Et]. unfold server_got in Et.
  assert (is_Some (peer_sent (l_peer l) !! S i)) as [f Hf]. { rewrite Et. exists (g_frame m). apply lookup_app_l_Some. by rewrite list_lookup_fmap, Hm. }
  destruct (l_peer l) as [|o0|o0|o0 h0 k0 y0] eqn:Hp0; cbn in He; try done. destruct He as (y1 & tr & Ey & Ht). simplify_eq. change (client_wrote y0 !! i = Some f) in Hf.
  pose proof (ni_client _ _ HI _ _ _ _ _ _ Hl Hp0) as Hcr. destruct (written_prefix _ _ (log_run _ _ _ _ Hcr Ht)) as [[t1 E1] _]. rewrite wrote_written, list_lookup_fmap in Hf.
  destruct (OrderSpec.written y0 !! i) as [[g0 f0]|] eqn:Hw0; [|done]. assert (g0 = g) as ->. { rewrite E1 in Hi. rewrite (lookup_app_l_Some _ _ _ _ Hw0) in Hi. congruence. }
  destruct Hnc. apply elem_of_list_lookup_2 in Hw0. unfold OrderSpec.written in Hw0. apply elem_of_list_omap in Hw0 as (ev & Hev & Ex). destruct ev as [q [[f1 b]|]| |]; try done. injection Ex as <- <-.
  destruct (C84_written _ _ _ _ _ Hcr Hev) as (r0 & ? & Hg & _). exists y0, r0. split; [by exists l, o0, h0, k0|done].
Qed.
Lemma ops_run cfg y l y' g r : creach anything cfg y -> crun cfg y l = Some (COk y') -> c_gs y !! g = Some r -> exists r', c_gs y' !! g = Some r' /\ g_op r' = g_op r.
Proof.
  intros Hr Hl Hg. eapply (run_keeps (fun z => exists r', c_gs z !! g = Some r' /\ g_op r' = g_op r) anything); [|done|by exists r|apply Forall_any|done].
  intros z a z' Hz (r' & Hg' & E) _ Hm. destruct (gchange_op _ _ _ _ (cmv_gs _ _ _ _ Hm) Hg') as (r2 & G1 & G2). exists r2. split; [done|congruence].
Qed.
Lemma in_served y g : g ∈ served y -> exists q w, PvReq q w ∈ c_log y /\ q_by q = g.
Proof. unfold served. intros (e & He & Hx)%elem_of_list_omap. destruct e as [q w| |]; try done. injection Hx as <-. by exists q, w. Qed.
Lemma succeeded_returns x c g f : succeeded x c g f -> exists v, returns x c g v.
Proof. intros (y & r & v & Hy & Hg & Hd & _). exists v, y. split; [done|]. by exists r. Qed.
Lemma succeeded_message cfg x0 r x1 c g f g2 : nreach cfg x0 -> nrun cfg x0 r = Some x1 -> succeeded x0 c g f -> ~ stays f -> ~ called x0 c g2 -> well_formed x1 c -> confirmed x1 c g2 ->
  exists m, message_of x1 c g m /\ sent_as f (g_frame m).
Proof.
  intros Hr Hrun Hsu Hst Hn Hw Hc. destruct (succeeded_returns _ _ _ _ Hsu) as [v0 Hret]. destruct Hsu as (y0 & rg & v & Hy0 & Hg & Hd & Ha & Ho).
  assert (nreach cfg x1) as Hr1 by (by eapply nrun_reach). destruct (confirmed_at _ _ _ _ Hr1 Hw Hc) as (y & n & k & f2 & pre & e & post & Hy & Hnn & Hk & El & Elen).
  destruct (client_run _ _ _ _ _ _ Hrun Hy0) as (y' & kc & tr & Hy' & Ht & Hcr0). specialize (Hcr0 Hr). assert (y' = y) as -> by (by eapply client_of_eq).
  destruct (client_of_reach _ _ _ _ Hr1 Hy) as [kc' Hcr1]. pose proof (C84_accepted _ _ _ _ _ _ Hcr0 Hg Hd Ha) as Hin. rewrite <-allr_served in Hin.
  destruct (run_grown _ _ _ _ Hcr0 Ht) as ((l0 & E0 & _) & _). assert (g ∈ q_by <$> allr y) as Hin1 by (rewrite E0; apply elem_of_app; by left). rewrite allr_served in Hin1.
  assert (g2 ∈ served y) as Hs2. { eapply elem_of_submseteq; [|apply sublist_submseteq, written_served]. apply elem_of_list_lookup_2 in Hk. apply elem_of_list_fmap. by exists (g2, f2). }
  assert (g ∈ served y) as Hs1.
  { apply elem_of_list_split in Hs2 as (k1 & k2 & Es). assert (g ∉ k2 ++ queued y) as Hno.
    { eapply (calls_order _ _ _ _ _ _ g2 k1 _ Hcr0 Ht); [by exists rg|by eapply not_called_long|]. by rewrite allr_served, Es, <-app_assoc. }
    apply not_elem_of_app in Hno as [_ Hno]. apply elem_of_app in Hin1 as [?|?]; done. }
  apply in_served in Hs1 as (q & w & Hq & Hqg). destruct (C84_written _ _ _ _ _ Hcr1 Hq) as (r1 & f1 & G1 & G2 & G3). destruct (ops_run _ _ _ _ _ _ Hcr0 Ht Hg) as (r2 & F1 & F2).
  rewrite Hqg in G1. simplify_eq. rewrite F2, Ho in G2. injection G2 as <-. destruct w as [[f' b]|]; [|done]. destruct G3 as [_ G3]. apply elem_of_list_split in Hq as (l1 & l2 & Eq).
  destruct (log_written _ _ _ _ _ _ Eq) as (i & Hi & _). assert (i < k) as Hik by (by eapply (earlier _ _ _ _ _ _ _ _ _ _ _ _ _ Hr Hrun Hret Hn Hy)).
  assert (is_Some ((frames_of (n_log n) ++ n_read n) !! S i)) as [m Hm]. { apply lookup_lt_is_Some_2. rewrite El. unfold frames_of. rewrite omap_app. fold (frames_of pre). rewrite !app_length. lia. }
  assert (g_frame m = f') as Em.
  { destruct Hy as (l & o & h & k0 & Hl & Hp). destruct (up_prefix _ _ _ _ _ Hr1 Hl Hnn ltac:(by rewrite Hp) (Hw _ Hl)) as [t Et]. rewrite Hp in Et. cbn [peer_sent] in Et. unfold server_got in Et.
    assert ((connect_frame o :: client_wrote y) !! S i = Some (g_frame m)) as E1. { rewrite Et. apply lookup_app_l_Some. by rewrite list_lookup_fmap, Hm. }
    change (client_wrote y !! i = Some (g_frame m)) in E1. rewrite wrote_written, list_lookup_fmap, Hi in E1. cbn in E1. congruence. }
  exists m. split; [|by rewrite Em]. exists y, n, i. rewrite Em. done.
Qed.

(* ---------------- the theorems ---------------- *)
Lemma asked_of_push y e m : enqueues (v_push e) = [m] -> (forall r, r ∈ v_push e -> r ∈ handed y) -> m ∈ asked y.
Proof.
  intros E H. assert (m ∈ enqueues (v_push e)) as Hm by (rewrite E; left). unfold enqueues in Hm. apply elem_of_list_omap in Hm as (r & Hr & Ex). unfold asked, enqueues. apply elem_of_list_omap. exists r. split; [by apply H|done].
Qed.
Lemma asked_prefix cfg y y' : smoves cfg y y' -> asked y `prefix_of` asked y'.
Proof. intros H. destruct (handed_moves _ _ _ H) as [t E]. unfold asked. rewrite E, enq_app. by eexists. Qed.
Lemma across cfg x0 r1 x1 r2 x2 a g v g2 b j mA mB : nreach cfg x0 -> nrun cfg x0 r1 = Some x1 -> nrun cfg x1 r2 = Some x2 -> well_formed x2 a -> well_formed x2 b ->
  returns x0 a g v -> ~ called x0 a g2 -> confirmed x1 a g2 -> ~ called x1 b j -> message_of x2 a g mA -> message_of x2 b j mB -> plain_send mA -> delivered mB ∈ asked (x_sys x2) ->
  before (asked (x_sys x2)) (delivered mA) (delivered mB).
Proof.
  intros Hr H1 H2 Hwa Hwb Hret Hn2 Hc Hnj HmA HmB HpA Hin. assert (nreach cfg x1) as Hr1 by (by eapply nrun_reach).
  pose proof (well_formed_back _ _ _ _ _ Hr1 H2 Hwa) as Hwa1. pose proof (well_formed_back _ _ _ _ _ Hr1 H2 Hwb) as Hwb1.
  assert (nrun cfg x0 (r1 ++ r2) = Some x2) as H12 by (by rewrite (nrun_app _ _ _ _ _ H1)).
  assert (message_of x1 a g mA) as HmA1. { eapply message_back; [exact Hr1|exact H2|exact Hwa1|exact Hc|exact HmA|]. intros y i f k f2 Hy Hi Hk. by eapply (earlier _ _ _ _ _ _ _ _ _ _ _ _ _ Hr H12 Hret Hn2 Hy). }
  destruct (handed_before _ _ _ _ _ _ Hr1 Hwa1 Hc HmA1) as (n & pre & e & post & Hn & El & Ha & Hh).
  { intros y i f k f2 Hy Hi Hk. by eapply (earlier _ _ _ _ _ _ _ _ _ _ _ _ _ Hr H1 Hret Hn2 Hy). }
  pose proof (ni_reach _ _ (nreach_inv _ _ Hr1)) as Hrs. pose proof (plain_due _ _ _ _ _ _ _ _ Hrs Hn El Ha HpA) as Ed. destruct (link_run _ _ _ _ H2) as [HS _].
  eapply before_new; [by eapply asked_prefix|by eapply asked_of_push|done|]. intros Ho%(asked_old _ _ _ Hrs). pose proof (message_new _ _ _ _ _ _ _ Hr1 H2 Hwb1 Hnj HmB) as Hu. cbn in Ho. lia.
Qed.
Lemma within cfg x0 r x2 c g v j mg mj : nreach cfg x0 -> nrun cfg x0 r = Some x2 -> returns x0 c g v -> ~ called x0 c j ->
  message_of x2 c g mg -> message_of x2 c j mj -> plain_send mg -> plain_send mj -> delivered mj ∈ asked (x_sys x2) -> before (asked (x_sys x2)) (delivered mg) (delivered mj).
Proof.
  intros Hr Hrun Hret Hnc (y & n & i & Hy & Hn & Hi & Hmi) (y' & n' & k & Hy' & Hn' & Hk & Hmk) Hpg Hpj Hin.
  assert (y' = y) as -> by (by eapply client_of_eq). simplify_eq. assert (nreach cfg x2) as Hr2 by (by eapply nrun_reach). pose proof (ni_reach _ _ (nreach_inv _ _ Hr2)) as Hrs.
  pose proof (earlier _ _ _ _ _ _ _ _ _ _ _ _ _ Hr Hrun Hret Hnc Hy Hi Hk) as Hik.
  destruct (asked_source _ _ _ Hrs Hin) as (c1 & n1 & m1 & Hn1 & Hs1 & Ha1 & Eu). cbn in Eu.
  assert (c1 = c) as ->. { eapply (reach_apart _ _ Hrs _ _ _ _ (g_uid m1) Hn1 Hn); unfold uids_of; [rewrite fmap_app; apply elem_of_app; left; by apply elem_of_list_fmap_1, accepted_uid|].
    rewrite Eu. apply elem_of_list_fmap_1. by eapply elem_of_list_lookup_2. }
  assert (n1 = n) as -> by congruence. pose proof (or_eq _ (reach_ordered _ _ Hrs) _ _ Hn) as HE. fold (asked (x_sys x2)) in HE.
  assert (delivered mj ∈ filter (sent_by n) (asked (x_sys x2))) as Hf by (by apply elem_of_list_filter).
  pose proof Ha1 as Hx1. apply elem_of_list_omap in Hx1 as (e1 & He1 & Hac1). apply elem_of_list_split in He1 as (pre & post & El).
  assert (m1 = mj /\ length (frames_of pre) = S k) as [-> Elen].
  { assert ((frames_of (n_log n) ++ n_read n) !! length (frames_of pre) = Some m1) as Hl1.
    { rewrite El. unfold frames_of. rewrite omap_app. cbn. rewrite (accepted_frame _ _ Hac1). rewrite <-app_assoc. cbn. by apply list_lookup_middle. }
    pose proof (same_uid _ _ _ _ _ _ _ _ Hrs Hn Hl1 Hmk Eu) as E. rewrite E in Hl1. split; [congruence|done]. }
  pose proof El as El0. rewrite El in Hmi. unfold frames_of in Hmi. rewrite omap_app in Hmi. fold (frames_of pre) in Hmi. rewrite <-app_assoc, lookup_app_l in Hmi by lia.
  apply frames_split in Hmi as (p & eg & q & -> & Hfg & _). rewrite <-app_assoc in El. cbn in El.
  assert (accepted eg = Some mg) as Hag. { eapply accepted_early; [exact Hrs|exact Hn|exact El|done|]. by destruct q. }
  pose proof (plain_due _ _ _ _ _ _ _ _ Hrs Hn El Hag Hpg) as Dg. pose proof (plain_due _ _ _ _ _ _ _ _ Hrs Hn El0 Hac1 Hpj) as Dj.
  apply (before_sublist (filter (sent_by n) (asked (x_sys x2)))); [apply filter_sublist_self|]. eapply before_cut; [|exact Hf|].
  - rewrite HE. eapply (NoDup_fmap_1 g_uid). by eapply client_sent_nodup.
  - rewrite HE. unfold client_sent. rewrite El, fmap_app, concat_app. cbn. rewrite Dg, fmap_app, concat_app. cbn. rewrite Dj. cbn. by eexists _, _, _.
Qed.
Lemma nodup_before {A} (l : list A) a b : NoDup l -> before l a b -> ~ before l b a.
Proof.
  intros HN (i & k & Hik & Hi & Hk)%before_lookup (i' & k' & Hik' & Hi' & Hk')%before_lookup. assert (i = k') by (by eapply NoDup_lookup). assert (k = i') by (by eapply NoDup_lookup). lia.
Qed.
Lemma asked_nodup cfg y : reach cfg y -> NoDup (asked y).
Proof.
  intros Hr. apply NoDup_alt. intros i j m Hi Hj. assert (m ∈ asked y) as Hm by (by eapply elem_of_list_lookup_2). destruct (or_src _ (reach_ordered _ _ Hr) _ Hm) as (c & n & Hn & Hs).
  pose proof (or_eq _ (reach_ordered _ _ Hr) _ _ Hn) as HE. fold (asked y) in HE. pose proof (NoDup_fmap_1 g_uid _ (client_sent_nodup _ _ _ _ Hr Hn)) as HN. rewrite <-HE in HN. apply NoDup_app in HN as (HN & _).
  destruct (decide (i = j)) as [|Hne]; [done|]. exfalso.
  assert (forall l : list msg, NoDup (filter (sent_by n) l) -> forall i j, i < j -> l !! i = Some m -> l !! j = Some m -> False) as HL.
  { clear -Hs. induction l as [|a l IH]; intros HN i j Hij Hi Hj; [done|]. destruct j as [|j]; [lia|]. cbn in Hj. destruct i as [|i]; cbn in Hi.
    - injection Hi as ->. rewrite filter_cons_True in HN by done. apply NoDup_cons in HN as [HN _]. apply HN, elem_of_list_filter. split; [done|]. by eapply elem_of_list_lookup_2.
    - eapply (IH ltac:(destruct (decide (sent_by n a)); [rewrite filter_cons_True in HN by done; by apply NoDup_cons in HN as [_ ?]|by rewrite filter_cons_False in HN by done]) i j); [lia|done|done]. }
  destruct (decide (i < j)); [by eapply (HL _ HN i j)|eapply (HL _ HN j i); [lia|done|done]].
Qed.
Lemma before_filter {A} (P : A -> Prop) `{!forall x, Decision (P x)} (l : list A) a b : before l a b -> P a -> P b -> before (filter P l) a b.
Proof. intros (l1 & l2 & l3 & ->) Ha Hb. rewrite filter_app, filter_cons_True by done. rewrite filter_app, filter_cons_True by done. by eexists _, _, _. Qed.
Lemma taken cfg x c s0 f fs d mA mB : nreach cfg x -> takes x c s0 f fs -> hd_contains (f_hdr f) h_destination = Some d -> is_queue d = true -> none_back d (x_sys x) ->
  before (asked (x_sys x)) mA mB ->
  exists ms, ms `sublist_of` asked_for d (x_sys x) /\ Forall2 copy_of ms fs /\ NoDup ms /\ (mA ∈ ms -> mB ∈ ms -> before ms mA mB).
Proof.
  intros Hr Ht Hd Hq Hnb Hb. destruct (takes_order _ _ _ _ _ _ _ Hr Ht Hd Hq Hnb) as (ms & Hsub & Hc). exists ms. pose proof (asked_nodup _ _ (ni_reach _ _ (nreach_inv _ _ Hr))) as HN.
  assert (ms `sublist_of` asked (x_sys x)) as Hsub' by (etrans; [exact Hsub|]; apply filter_sublist_self). assert (NoDup ms) as HNm by (by eapply sublist_NoDup).
  split_and!; try done. intros HA HB. apply elem_of_list_lookup in HA as [i Hi], HB as [k Hk]. apply before_lookup. exists i, k. split_and!; try done.
  destruct (decide (i < k)); [done|]. exfalso. destruct (decide (i = k)) as [->|Hne].
  - apply before_lookup in Hb as (i' & k' & Hik & Hi' & Hk'). assert (mA = mB) as -> by congruence. assert (i' = k') by (eapply (NoDup_lookup _ i' k'); [exact HN|exact Hi'|exact Hk']). lia.
  - eapply nodup_before; [exact HN|exact Hb|]. eapply before_sublist; [exact Hsub'|]. apply before_lookup. exists k, i. split_and!; [lia|done|done].
Qed.

(* ---------------- topics ---------------- *)
Lemma during_on s d on (H1 H2 : list request) m : (on = true \/ RSubscribe s ∈ H1) -> RUnsubscribe s ∉ H1 ++ H2 -> m ∈ enqueues H2 -> sent_to m d = true -> m ∈ during s d on (H1 ++ H2).
Proof.
  intros Hon Hno Hm Hs. revert on Hon Hno. induction H1 as [|r H1 IH]; intros on Hon Hno; cbn [app].
  - destruct Hon as [->|Hin]; [|by apply elem_of_nil in Hin]. cbn in Hno. induction H2 as [|r H2 IH]; [done|]. apply not_elem_of_cons in Hno as [Hne Hno].
    destruct r as [s'|s'|m'|m'|c|c]; cbn [during orb andb]; try (apply IH; [exact Hm|done]).
    + rewrite bool_decide_eq_false_2 by congruence. apply IH; [exact Hm|done].
    + unfold enqueues in Hm. cbn in Hm. apply elem_of_cons in Hm as [->|Hm]; [rewrite Hs; left|]. destruct (sent_to m' d); [right|]; by apply IH.
  - apply not_elem_of_cons in Hno as [Hne Hno]. destruct r as [s'|s'|m'|m'|c|c]; cbn [during].
    + apply IH; [|done]. destruct Hon as [->|Hin]; [by left|]. apply elem_of_cons in Hin as [[= ->]|Hin]; [|by right]. left. rewrite bool_decide_eq_true_2 by done. apply orb_true_r.
    + apply IH; [|done]. rewrite (bool_decide_eq_false_2 (s' = s)) by congruence. rewrite andb_true_r. destruct Hon as [->|Hin]; [by left|]. apply elem_of_cons in Hin as [|Hin]; [done|by right].
    + assert (on = true \/ RSubscribe s ∈ H1) as Hon'. { destruct Hon as [->|Hin]; [by left|]. apply elem_of_cons in Hin as [|Hin]; [done|by right]. }
      destruct (on && _); [right|]; by apply IH.
    + apply IH; [|done]. destruct Hon as [->|Hin]; [by left|]. apply elem_of_cons in Hin as [|Hin]; [done|by right].
    + apply IH; [|done]. destruct Hon as [->|Hin]; [by left|]. apply elem_of_cons in Hin as [|Hin]; [done|by right].
    + apply IH; [|done]. destruct Hon as [->|Hin]; [by left|]. apply elem_of_cons in Hin as [|Hin]; [done|by right].
Qed.
Lemma subscribed cfg x0 r1 x1 r2 x2 a s0 g f fs d g2 b j mB : nreach cfg x0 -> nrun cfg x0 r1 = Some x1 -> nrun cfg x1 r2 = Some x2 -> rested cfg x2 -> well_formed x2 b ->
  consumes x2 a s0 f fs -> made x2 a s0 g -> hd_contains (f_hdr f) h_destination = Some d -> is_queue d = false -> hd_contains (f_hdr f) h_reply_to = None ->
  succeeded x0 a g f -> ~ called x0 a g2 -> confirmed x1 a g2 -> ~ called x1 b j -> message_of x2 b j mB -> hget_of mB (lit "destination") = Some d -> delivered mB ∈ asked (x_sys x2) ->
  exists f', f' ∈ fs /\ copy_of (delivered mB) f'.
Proof.
  intros Hr H1 H2 HR Hwb HC (ym & bm & Hym & Hbm & Hby) Hd Hq Hrt Hsu Hn2 Hc Hnj HmB HdB Hin. assert (nreach cfg x1) as Hr1 by (by eapply nrun_reach). assert (nreach cfg x2) as Hr2 by (by eapply nrun_reach).
  pose proof HC as (l & n & k & y & bs & HH & (Hb & (r & id & rt & Hg & Ho) & Hre & Hso) & Hne & ->). pose proof HH as (Hl & Hn & (o & h & Hp) & Hph & Hok & Hlo & Hrc & Hwc & Hw).
  assert (ym = y) as -> by (eapply client_of_eq; [exact Hym|]; by exists l, o, h, k). assert (bm = bs) as -> by congruence.
  assert (well_formed x2 a) as Hwa by (intros l' Hl'; by simplify_eq). pose proof (well_formed_back _ _ _ _ _ Hr1 H2 Hwa) as Hwa1. pose proof (well_formed_back _ _ _ _ _ Hr1 H2 Hwb) as Hwb1.
  destruct (succeeded_message _ _ _ _ _ _ _ _ Hr H1 Hsu ltac:(intros [_ [? E]]; change (lit "reply-to") with h_reply_to in E; congruence) Hn2 Hwa1 Hc) as (mS & HmS & Hsent).
  pose proof (ni_client _ _ (nreach_inv _ _ Hr2) _ _ _ _ _ _ Hl Hp) as Hcr. pose proof (reach_ops _ _ _ Hcr _ _ Hg) as Hcmd. rewrite Ho in Hcmd. cbn in Hcmd. apply bool_decide_eq_true in Hcmd.
  unfold sent_as in Hsent. rewrite Hcmd in Hsent. rewrite decide_False in Hsent by (neq_lits). 
  destruct (succeeded_returns _ _ _ _ Hsu) as [v0 Hret].
  destruct (handed_before _ _ _ _ _ _ Hr1 Hwa1 Hc HmS) as (n1 & pre & e & post & Hn1 & El & Ha & Hh).
  { intros y' i f' k' f2 Hy Hi Hk. by eapply (earlier _ _ _ _ _ _ _ _ _ _ _ _ _ Hr H1 Hret Hn2 Hy). }
  destruct (link_run _ _ _ _ H2) as [HS _]. destruct (log_moves _ _ _ _ _ HS Hn1) as (n2 & Hn2' & [t Et]). assert (n2 = n) as -> by congruence. rewrite El, <-app_assoc in Et. cbn in Et.
  pose proof (ni_reach _ _ (nreach_inv _ _ Hr2)) as Hrs. pose proof (ni_reach _ _ (nreach_inv _ _ Hr1)) as Hrs1.
  destruct (accepted_asks _ _ Hrs _ _ _ _ _ Hn Et _ Ha ltac:(unfold cmd_of; by rewrite Hsent)) as (id' & d' & s & Hid & Hsb). destruct (subscribed_object _ _ Hrs _ _ _ _ _ Hn Et _ _ _ Hsb) as (sb & G1 & G2 & G3 & G4).
  destruct Hsb as (m & Hm & _ & Hmi & Hmd & Hpush). assert (m = mS) as -> by congruence. unfold hget_of in Hmd, Hmi. rewrite Hsent in Hmd, Hmi. change (lit "destination") with h_destination in Hmd. change (lit "id") with h_id in Hmi.
  assert (d' = d) as -> by congruence. assert (s_id sb = sub_key f) as Hk by (unfold sub_key; rewrite Hrt, Hmi; congruence).
  assert (RSubscribe s ∈ handed (x_sys x1)) as Hhs by (apply Hh; rewrite Hpush; left).
  pose proof (live_stays _ _ _ _ _ _ _ _ _ Hr2 HC Hn G1 G2 Hk) as Hlive. rewrite <-(run_live _ _ _ _ Hrs Hn Hph) in Hlive.
  assert (RUnsubscribe s ∉ handed (x_sys x2)) as Hnu.
  { intros Hx. rewrite <-G2 in Hn. destruct (en_seq _ (reach_ends _ _ Hrs) _ _ _ G1 Hn) as (S1 & _). apply (S1 Hlive). apply elem_of_app. left. apply elem_of_list_filter. split; [by right|done]. }
  destruct (handed_moves _ _ _ HS) as [t2 E2]. assert (delivered mB ∈ enqueues t2) as HB.
  { unfold asked in Hin. rewrite E2, enq_app in Hin. apply elem_of_app in Hin as [Hin|Hin]; [|done]. exfalso. fold (asked (x_sys x1)) in Hin. apply (asked_old _ _ _ Hrs1) in Hin. cbn in Hin.
    pose proof (message_new _ _ _ _ _ _ _ Hr1 H2 Hwb1 Hnj HmB). lia. }
  assert (handed (x_sys x2) = (y_blog (x_sys x2)).*1) as Eh. { destruct HR as (_ & Q1 & Q2 & Q3). destruct (settled_quiet _ _ Hr2 Q1 Q2 Q3) as (Eq & _). unfold handed. by rewrite Eq, app_nil_r. }
  pose proof (C77_topic _ _ _ _ _ _ _ _ _ _ _ _ _ s sb HR HH Hb Hg Ho Hre Hso ltac:(intros g' r' s' f' F1 F2; by apply (Hne _ _ _ _ F1 F2)) G1 G2 Hk ltac:(by rewrite G4)) as HF.
  assert (delivered mB ∈ during s (s_dest sb) false (y_blog (x_sys x2)).*1) as Hdu.
  { rewrite <-Eh, E2. apply during_on; [by right|by rewrite <-E2|done|]. unfold sent_to. apply bool_decide_eq_true. rewrite G4. cbn. unfold hget_of in HdB. rewrite !hd_contains_del_other by neq_lits. exact HdB. }
  apply elem_of_list_lookup in Hdu as [i Hi]. destruct (Forall2_lookup_l _ _ _ _ _ HF Hi) as (f' & Hf' & Hcp). exists f'. split; [by eapply elem_of_list_lookup_2|done].
Qed.
