(** Topic messages from the server's processor to the subscriptions of a
    client. *)
From stdpp Require Import gmap.
From Verif Require Import GoBase GoBaseProofs HeaderModel HeaderProofs FrameModel GrammarSpec CodecProofs NegotiationModel NegotiationLemmas ClientApiModel ClientModel ClientSpec ClientLemmas
  ClientCalls ClientRequests ClientChannels ClientMessages ClientDelivery ClientReceipts ClientRouting ClientDisconnect.
From Verif Require Import BrokerModel BrokerSpec BrokerProofs ServerConnModel ServerConnSpec ServerConnProofs SystemModel SystemSpec SystemLemmas SystemHistory SystemProofs FlowSpec FlowProofs FlowTopics FlowSubs
  PeerSpec PeerProofs RefusalSpec RefusalProofs NetModel NetSpec NetLinks NetProofs.

(* ---------------- an accepted SUBSCRIBE makes an object ---------------- *)
Definition makes (c : nat) (pre : list cev) (e : cev) (y : sys) : Prop := forall id d s, subscribes e id d s ->
  exists sb, y_heap y !! s = Some sb /\ s_conn sb = c /\ s_id sb = id /\ s_dest sb = d.
Lemma subscribed_object cfg y : reach cfg y -> forall c n pre e post, y_conns y !! c = Some n -> n_log n = pre ++ e :: post -> makes c pre e y.
Proof.
  revert y. apply (log_inv_c cfg makes).
  - intros y y' c pre e Hr Hm H id d s Hs. destruct (H _ _ _ Hs) as (sb & H1 & H2 & H3 & H4). destruct (move_hext _ _ _ (reach_wf _ _ Hr) Hm _ _ H1) as (sb' & G1 & G2).
    injection G2 as A1 A2 A3 _ _. exists sb'. split_and!; congruence.
  - intros y c n x w1 w2 i n1 o Hr Hn Hph Hout Hti Hci Hmv id d s (m & Ha & Hc & Hid & Hd & Hpush).
    destruct (conn_history _ _ Hr _ _ (keeps_in _ (reach_wf _ _ Hr)) _ _ Hn) as (cs & st & Hex & Hrun & _). destruct (Hrun Hph) as [E1 E2]. subst cs st.
    unfold accepted, client_frame, new_event in Ha. cbn in Ha, Hpush. destruct (i_stop o) eqn:Hst; [done|]. destruct i; try done. injection Ha as ->.
    destruct (subscribe_object _ _ _ _ _ _ _ _ _ _ _ _ Hex Hci Hc Hst) as (id' & d' & G1 & G2 & G3 & _ & G5). rewrite G3 in Hpush. injection Hpush as <-.
    eexists. split; [cbn [take_result y_heap]; rewrite G5; apply lookup_insert|]. cbn. split_and!; congruence.
Qed.

(* ---------------- steps of the whole, seen from one peer ---------------- *)
Lemma nstep_peer cfg x a x' c l' : nstep cfg x a = Some x' -> x_links x' !! c = Some l' ->
  (exists l, x_links x !! c = Some l /\ l_peer l' = l_peer l) \/
  (exists l o h k y b y', x_links x !! c = Some l /\ l_peer l = PeerClient o h k y /\ cstep k y b = Some (COk y') /\ l_peer l' = PeerClient o h k y') \/
  (exists o h k, l_peer l' = PeerClient o h k cl_init) \/ (forall o h k y, l_peer l' <> PeerClient o h k y).
Proof.
  intros Hs Hl'.
  assert (Hw : forall c0 l0 l1, x_links x !! c0 = Some l0 -> <[c0 := l1]> (x_links x) !! c = Some l' -> l_peer l1 = l_peer l0 -> exists l, x_links x !! c = Some l /\ l_peer l' = l_peer l).
  { intros c0 l0 l1 H0 H E. apply list_lookup_insert_Some in H as [(-> & <- & _)|[_ H]]; eauto. }
  assert (Hp : forall c0 l1, <[c0 := l1]> (x_links x) !! c = Some l' -> (c0 = c /\ l1 = l') \/ exists l, x_links x !! c = Some l /\ l_peer l' = l_peer l).
  { intros c0 l1 H. apply list_lookup_insert_Some in H as [(-> & <- & _)|[_ H]]; eauto. }
  assert (Ha : forall l0, add_link cfg x l0 = Some x' -> l' = l0 \/ exists l, x_links x !! c = Some l /\ l_peer l' = l_peer l).
  { intros l0 H. unfold add_link in H. destruct (step cfg (x_sys x) AAccept) as [[|]|]; try done. injection H as <-. cbn [x_links] in Hl'.
    apply lookup_app_Some in Hl' as [H|[_ H]]; [right; eauto|]. apply list_lookup_singleton_Some in H as [_ <-]. by left. }
  destruct a as [remote opts cut| |c0 b|c0|a k|c0 k|c0|c0|c0 a k]; cbn [nstep] in Hs.
  - destruct (new_conn_options remote opts) as [o|]; [|done]. destruct (Ha _ Hs) as [->|H]; [|by left]. right. right. right. intros ? ? ? ? E. by destruct cut.
  - destruct (Ha _ Hs) as [->|H]; [|by left]. right. right. right. by intros ? ? ? ? E.
  - destruct (x_links x !! c0) as [l|] eqn:Hl; [|done]. destruct (l_peer l) eqn:Hpl; try done. injection Hs as <-. left. eapply Hw; [exact Hl|exact Hl'|by rewrite Hpl].
  - unfold net_up in Hs. destruct (x_links x !! c0) as [l|] eqn:Hl; [|done]. destruct (read_stream (l_up l)); try done.
    + injection Hs as <-. left. eapply Hw; [exact Hl|exact Hl'|done].
    + destruct (step cfg (x_sys x) (ARecv c0 f)) as [[|]|]; try done. injection Hs as <-. left. eapply Hw; [exact Hl|exact Hl'|done].
  - left. unfold net_server in Hs. destruct a as [|c1 f|c1|c1 s w1 w2|c1|c1 pick| |]; try done.
    all: try (match goal with H : context [step ?c ?y ?a] |- _ => destruct (step c y a) as [[|]|] end; try done; injection Hs as <-; by exists l').
    destruct (x_links x !! c1) as [l|] eqn:Hl; [|done]. destruct (y_conns (x_sys x) !! c1); [|done]. destruct (step _ _ _) as [[|y']|]; try done.
    destruct (y_conns y' !! c1); [|done]. destruct (sticky _ _); [|done]. injection Hs as <-. eapply Hw; [exact Hl|exact Hl'|done].
  - unfold net_hello in Hs. destruct (x_links x !! c0) as [l|] eqn:Hl; [|done]. destruct (l_peer l) as [|o|o|o h k0 y] eqn:Hpl; try done.
    destruct (read_stream (l_down l)) as [rest|f rest|e| |]; try done; [injection Hs as <-; apply Hp in Hl' as [[_ <-]|?]; [|by left]; right; right; by right|].
    destruct (client_connect o (RFrame f rest)) as [cc| | | | | |] eqn:Hc; [destruct (bool_decide _) eqn:Hb; [|done]|..]; injection Hs as <-;
      (apply Hp in Hl' as [[_ <-]|?]; [|by left]); right; right; [left; by exists o, f, k|by right..].
  - unfold net_give_up in Hs. destruct (x_links x !! c0) as [l|] eqn:Hl; [|done]. destruct (l_peer l) as [|o|o|o h k0 y] eqn:Hpl; try done.
    injection Hs as <-. apply Hp in Hl' as [[_ <-]|?]; [|by left]. right. right. by right.
  - unfold net_down in Hs. destruct (x_links x !! c0) as [l|] eqn:Hl; [|done]. destruct (l_peer l) as [|o|o|o h k0 y] eqn:Hpl; try done.
    destruct (read_stream (l_down l)) as [rest|f rest|e| |]; try done;
      (match goal with H : context [cstep ?c ?y ?a] |- _ => destruct (cstep c y a) as [[|y1]|] eqn:Hcs end; try done); injection Hs as <-;
      (apply Hp in Hl' as [[-> <-]|?]; [|by left]); right; left; eexists l, o, h, k0, y, _, y1; split_and!; done.
  - unfold net_client in Hs. destruct (x_links x !! c0) as [l|] eqn:Hl; [|done]. destruct (l_peer l) as [|o|o|o h k0 y] eqn:Hpl; try done.
    destruct a; try done; match goal with H : context [cstep ?c ?y ?a] |- _ => destruct (cstep c y a) as [[|y1]|] eqn:Hcs end; try done; injection Hs as <-;
      (apply Hp in Hl' as [[-> <-]|?]; [|by left]); right; left; eexists l, o, h, k0, y, _, y1; split_and!; done.
Qed.

(* ---------------- frames for a subscription come after its SUBSCRIBE was written ---------------- *)
Lemma client_in cfg y a y' : cmv cfg y a y' ->
  (c_log y' = c_log y /\ (c_rch y' = c_rch y \/ exists o, c_rch y' = c_rch y ++ [o])) \/
  (exists o l, c_rch y = o :: l /\ c_rch y' = l /\ c_log y' = c_log y ++ [PvIn o]) \/
  (exists e, (forall o, e <> PvIn o) /\ c_rch y' = c_rch y /\ c_log y' = c_log y ++ [e]).
Proof.
  intros H. destruct H; try (left; split; [done|by left]).
  - left. split; [by destruct own|left; by destruct own].
  - left. split; [by destruct (put_next k (q_chan q)) as [? []]|left; by destruct (put_next k (q_chan q)) as [? []]].
  - left. split; [done|right; by eexists].
  - right. left. by eexists _, _.
  - right. left. by eexists _, _.
  - right. left. by eexists _, _.
  - right. left. by eexists _, _.
  - right. right. exists (PvReq q (Some (outgoing (q_frame q), w))). split_and!; [done|by destruct w|by destruct w].
  - right. right. eexists. split_and!; [|done|done]. done.
  - right. right. eexists. split_and!; [|done|done]. done.
  - destruct (answers_io _ _ _ _ _ H4) as (A1 & A2 & _). cbn [with_log c_log c_rch] in A1, A2. destruct (after_send_io y ch k) as (B1 & B2 & _). rewrite B1 in A1. rewrite B2 in A2.
    right. right. eexists. split_and!; [|done|done]. done.
  - destruct (after_send_io y ch k) as (B1 & B2 & _). right. right. exists (PvTold ch f). cbn [with_subs with_log c_log c_rch]. rewrite B1, B2. by split_and!.
Qed.
(** f asks for subscription id. *)
Definition subk (id : str) (f : frame) : Prop := f_cmd f = SUBSCRIBE /\ hd_contains (f_hdr f) h_id = Some id.
Global Instance subk_dec id f : Decision (subk id f).
Proof. unfold subk. apply _. Defined.
Lemma read_asked cfg x c l n o h k y f id : nreach cfg x -> x_links x !! c = Some l -> y_conns (x_sys x) !! c = Some n -> l_peer l = PeerClient o h k y ->
  Forall writable (peer_sent (l_peer l)) -> f ∈ client_read y -> message_for id f ->
  exists e s d fs, e ∈ n_log n /\ subscribes e id d s /\ hd_contains (f_hdr f) h_destination = Some d /\ fs ∈ client_wrote y /\ subk id fs /\ hd_contains (f_hdr fs) h_destination = Some d.
Proof.
  intros Hr Hl Hn Hp Hw Hf [Hc Hk]. pose proof (nreach_inv _ _ Hr) as HI.
  assert (f ∈ server_sent n) as Hs. { eapply elem_of_prefix; [|by eapply down_prefix]. rewrite Hp. by right. }
  unfold server_sent in Hs. apply elem_of_list_fmap in Hs as (m & -> & Hm). apply elem_of_list_omap in Hm as ([o0 w] & Hm & E). cbn in E. subst o0.
  destruct (in_wire _ _ _ _ _ (ni_reach _ _ HI) Hn Hm) as (id_of & ack_of & pre & e & post & cs & st & Elog & Hex & Hwr).
  destruct (message_origin _ _ (ni_reach _ _ HI) _ _ _ _ _ Hn Elog _ _ Hwr Hc) as (e0 & s & id' & d & He0 & Hsub & Hid & Hd). assert (Some id' = Some id) as [= ->] by (rewrite <-Hid; exact Hk).
  assert (e0 ∈ n_log n) as Hin by (rewrite Elog; apply elem_of_app; by left).
  pose proof Hsub as (ms & Ha & Hcs & Hids & Hds & _). exists e0, s, d, (g_frame ms). split_and!; try done.
  pose proof (accepts_got (x_sys x) c ms n ltac:(by exists n, e0) Hn) as Hg. eapply elem_of_prefix in Hg; [|eapply up_prefix; try done; by rewrite Hp]. rewrite Hp in Hg. cbn [peer_sent] in Hg.
  apply elem_of_cons in Hg as [E|Hg]; [|done]. exfalso. destruct (proj1 (nreach_peer _ _ Hr _ _ Hl) o) as (rm & os & Ho1); [by rewrite Hp|]. apply connect_cmd in Ho1. unfold cmd_of in Hcs. rewrite <-E, Hcs in Ho1.
  destruct Ho1 as [E1|E1]; revert E1; neq_lits.
Qed.
(** A client's log in which a frame that answers another (R) comes after it
    (W): frames for a subscription after its SUBSCRIBE, for example. *)
Definition first_of_two (R W : str -> frame -> Prop) (y : cl) : Prop :=
  (forall l1 f l2 id, c_log y = l1 ++ PvIn (Some f) :: l2 -> R id f -> exists fs, fs ∈ wrote_in l1 /\ W id fs) /\
  (forall f id, Some f ∈ c_rch y -> R id f -> exists fs, fs ∈ wrote_in (c_log y) /\ W id fs).
Definition asked_first : cl -> Prop := first_of_two message_for subk.
Lemma snoc_split {A} (l : list A) e l1 x l2 : l ++ [e] = l1 ++ x :: l2 -> (l2 = [] /\ l1 = l /\ x = e) \/ exists l2', l2 = l2' ++ [e] /\ l = l1 ++ x :: l2'.
Proof.
  destruct l2 as [|z l2'] using rev_ind; intros E.
  - apply app_inj_tail in E as [-> ->]. by left.
  - right. clear IHl2'. exists l2'. change (x :: l2' ++ [z]) with ((x :: l2') ++ [z]) in E. rewrite app_assoc in E. apply app_inj_tail in E as [-> ->]. done.
Qed.
Lemma asked_step (R W : str -> frame -> Prop) cfg y a y' : cmv cfg y a y' -> first_of_two R W y -> (forall f id, f ∈ client_read y' -> R id f -> exists fs, fs ∈ client_wrote y' /\ W id fs) -> first_of_two R W y'.
Proof.
  intros Hm [H1 H2] H3. destruct (client_in _ _ _ _ Hm) as [[El Er]|[(o & l & Er & Er' & El)|(e & Hne & Er & El)]].
  - split; [by rewrite El|]. intros f id Hf Hk. apply (H3 f id); [|done]. unfold client_read. apply elem_of_app. right. apply elem_of_list_omap. by exists (Some f).
  - split; [|intros f id Hf Hk; apply (H3 f id); [|done]; unfold client_read; apply elem_of_app; right; apply elem_of_list_omap; by exists (Some f)].
    intros l1 f l2 id E Hk. rewrite El in E. apply snoc_split in E as [(-> & -> & [= <-])|(l2' & -> & E)]; [|by eapply H1].
    apply (H2 f id); [|done]. rewrite Er. left.
  - split; [|rewrite Er; intros f id Hf Hk; destruct (H2 f id Hf Hk) as (fs & Hfs & Hsk); exists fs; split; [rewrite El, wrote_in_app; apply elem_of_app; by left|done]].
    intros l1 f l2 id E Hk. rewrite El in E. apply snoc_split in E as [(-> & -> & E)|(l2' & -> & E)]; [by destruct (Hne (Some f))|by eapply H1].
Qed.
Lemma sent_grows cfg y a y' : cmv cfg y a y' -> client_wrote y `prefix_of` client_wrote y'.
Proof. intros H. unfold client_wrote. destruct (pmove_log _ _ (cmv_pmove _ _ _ _ H)) as [->|[e ->]]; [done|]. rewrite wrote_in_app. by apply prefix_app_r. Qed.
Lemma nreach_first (R W : str -> frame -> Prop) cfg x : nreach cfg x ->
  (forall x c l n o h k y f id, nreach cfg x -> x_links x !! c = Some l -> y_conns (x_sys x) !! c = Some n -> l_peer l = PeerClient o h k y ->
     Forall writable (peer_sent (l_peer l)) -> f ∈ client_read y -> R id f -> exists fs, fs ∈ client_wrote y /\ W id fs) ->
  forall c l o h k y, x_links x !! c = Some l -> l_peer l = PeerClient o h k y -> Forall writable (peer_sent (l_peer l)) -> first_of_two R W y.
Proof.
  intros Hr HRW. induction Hr as [|x a x' Hr IH Hs]; [by intros c l o h k y H; cbn in H; rewrite lookup_nil in H|]. intros c l' o h k y' Hl' Hp' Hw.
  assert (nreach cfg x') as Hr' by by eapply nr_step.
  destruct (nstep_peer _ _ _ _ _ _ Hs Hl') as [(l & Hl & E)|[(l & o0 & h0 & k0 & y & b & y0 & Hl & Hp & Hcs & E)|[(o0 & h0 & k0 & E)|E]]].
  - eapply IH; [exact Hl|by rewrite <-E|by rewrite <-E].
  - assert (y0 = y' /\ o0 = o) as [-> ->] by (split; congruence). apply cstep_cmv in Hcs as Hm. destruct (lookup_lt_is_Some_2 (y_conns (x_sys x')) c) as [n Hn]; [rewrite <-(ni_len _ _ (nreach_inv _ _ Hr')); by eapply lookup_lt_Some|].
    eapply asked_step; [exact Hm| |].
    + eapply IH; [exact Hl|exact Hp|]. rewrite Hp. rewrite Hp' in Hw. cbn [peer_sent] in *. apply Forall_cons in Hw as [W1 W2]. apply Forall_cons. split; [done|].
      destruct (sent_grows _ _ _ _ Hm) as [r Hx]. rewrite Hx in W2. by apply Forall_app in W2 as [? _].
    + intros f id Hf Hk. by eapply HRW.
  - assert (y' = cl_init) as -> by congruence. split; [intros l1 f l2 id E1; cbn in E1; by destruct l1|intros f id Hf; by apply elem_of_nil in Hf].
  - by apply E in Hp'.
Qed.
Lemma nreach_asked cfg x : nreach cfg x -> forall c l o h k y, x_links x !! c = Some l -> l_peer l = PeerClient o h k y -> Forall writable (peer_sent (l_peer l)) -> asked_first y.
Proof.
  intros Hr. apply (nreach_first _ _ _ _ Hr). clear. intros x c l n o h k y f id Hr Hl Hn Hp Hw Hf Hk.
  destruct (read_asked _ _ _ _ _ _ _ _ _ _ _ Hr Hl Hn Hp Hw Hf Hk) as (e & s & d & fs & _ & _ & _ & H1 & H2 & _). eauto.
Qed.

(* ---------------- one SUBSCRIBE, one object ---------------- *)
Lemma sub_request A k y q f w id g : creach A k y -> PvReq q (Some (f, w)) ∈ c_log y -> subk id f -> sole (c_gs y) g id -> q_by q = g /\ q_frame q = f.
Proof.
  intros Hr Hin [Hc Hid] Hs. destruct (mi_wr _ (reach_map _ _ _ Hr) _ _ Hin) as [E1 E2]. destruct (rq_ok _ (reach_req _ _ _ Hr) q) as (r & Hg & Ho & _); [right; left; by eapply log_req_in|].
  assert (q_frame q = f) as Ef. { unfold outgoing in E1. destruct (decide _) as [Hu|]; [|done]. subst f. cbn in Hc. rewrite Hu in Hc. exfalso. revert Hc. neq_lits. }
  split; [|done]. rewrite Ef in *. eapply (Hs _ _ _ Hg Ho). right. split; [done|]. unfold sub_key. unfold local_only in E2. rewrite (bool_decide_eq_true_2 _ Hc), orb_true_l, andb_true_l in E2.
  destruct (hd_contains (f_hdr f) h_reply_to); [done|]. by rewrite Hid.
Qed.
Lemma nodup_same {A} (l : list A) g : NoDup l -> (forall x, x ∈ l -> x = g) -> length l <= 1.
Proof.
  intros Hn Hg. destruct l as [|a [|b l]]; cbn; try lia. exfalso. apply NoDup_cons in Hn as [Hn _]. apply Hn. rewrite (Hg a) by left. rewrite (Hg b) by (right; left). left.
Qed.
Lemma filter_wrote_by id (log : list pev) : exists bys, length bys = length (filter (subk id) (wrote_in log)) /\ bys `sublist_of` (q_by <$> log_reqs log) /\
  forall g, g ∈ bys -> exists q f w, PvReq q (Some (f, w)) ∈ log /\ subk id f /\ q_by q = g.
Proof.
  induction log as [|e log (bys & H1 & H2 & H3)]; [exists []; split_and!; [done|done|by intros g ?%elem_of_nil]|].
  assert (H3' : forall g, g ∈ bys -> exists q f w, PvReq q (Some (f, w)) ∈ e :: log /\ subk id f /\ q_by q = g).
  { intros g Hg. destruct (H3 g Hg) as (q & f & w & Hin & ?). exists q, f, w. split; [by right|done]. }
  destruct e as [q [[f w]|]|o|ch f]; [|exists bys..].
  - destruct (decide (subk id f)) as [Hk|Hk].
    + exists (q_by q :: bys). unfold wrote_in. cbn [omap list_omap]. rewrite filter_cons_True by done. fold (wrote_in log). split_and!; [cbn; by rewrite H1|by apply sublist_skip|].
      intros g [->|Hg]%elem_of_cons; [|by apply H3']. exists q, f, w. split; [left|done].
    + exists bys. unfold wrote_in. cbn [omap list_omap]. rewrite filter_cons_False by done. fold (wrote_in log). split_and!; [done|by apply sublist_cons|done].
  - split_and!; [done|by apply sublist_cons|done].
  - split_and!; done.
  - split_and!; done.
Qed.
Lemma wrote_sub_once A k y id g : creach A k y -> sole (c_gs y) g id -> length (filter (subk id) (client_wrote y)) <= 1.
Proof.
  intros Hr Hs. destruct (filter_wrote_by id (c_log y)) as (bys & H1 & H2 & H3). unfold client_wrote. rewrite <-H1. apply (nodup_same _ g).
  - eapply BrokerProofs.sublist_nodup; [exact H2|]. pose proof (proj1 (reach_uniq _ _ _ Hr)) as HN. unfold allr in HN. rewrite fmap_app in HN. by apply NoDup_app in HN as [? _].
  - intros z Hz. destruct (H3 z Hz) as (q & f & w & Hin & Hk & <-). by eapply sub_request.
Qed.
Lemma two_in {A} (P : A -> Prop) `{forall x, Decision (P x)} (l : list A) a b : a ∈ l -> b ∈ l -> a <> b -> P a -> P b -> 2 <= length (filter P l).
Proof.
  intros (l1 & l2 & ->)%elem_of_list_split Hb Hne Ha HPb. rewrite filter_app, filter_cons_True by done. rewrite app_length. cbn.
  assert (1 <= length (filter P l1) + length (filter P l2)); [|lia]. rewrite <-app_length, <-filter_app. destruct (filter P (l1 ++ l2)) as [|z l] eqn:E; [|cbn; lia]. exfalso.
  assert (b ∈ filter P (l1 ++ l2)) as Hx; [|rewrite E in Hx; by apply elem_of_nil in Hx]. apply elem_of_list_filter. split; [done|].
  apply elem_of_app in Hb as [Hb|Hb]; [apply elem_of_app; by left|]. apply elem_of_cons in Hb as [->|Hb]; [done|]. apply elem_of_app. by right.
Qed.
Lemma omap_filter_length {A B} (F : A -> option B) (P : B -> Prop) (Q : A -> Prop) `{forall x, Decision (P x)} `{forall x, Decision (Q x)} (l : list A) :
  (forall a, Q a <-> exists b, F a = Some b /\ P b) -> length (filter P (omap F l)) = length (filter Q l).
Proof.
  intros HQ. induction l as [|a l IH]; [done|]. cbn [omap list_omap]. destruct (F a) as [b|] eqn:E.
  - destruct (decide (P b)) as [Hb|Hb].
    + rewrite (filter_cons_True P), (filter_cons_True Q); [|apply HQ; by exists b|done]. cbn. by rewrite IH.
    + rewrite (filter_cons_False P), (filter_cons_False Q); [done| |done]. intros (b' & E' & Hb')%HQ. by assert (b' = b) as -> by congruence.
  - rewrite (filter_cons_False Q); [done|]. intros (b' & E' & Hb')%HQ. congruence.
Qed.
Lemma prefix_filter {A} (P : A -> Prop) `{forall x, Decision (P x)} (l l' : list A) : l `prefix_of` l' -> filter P l `prefix_of` filter P l'.
Proof. intros [r ->]. rewrite filter_app. by apply prefix_app_r. Qed.
Definition asks (id : str) (e : cev) : Prop := match client_frame e with Some m => subk id (g_frame m) | None => False end.
Global Instance asks_dec id e : Decision (asks id e).
Proof. unfold asks. destruct (client_frame e); apply _. Defined.
Lemma client_object cfg x c l n o h k y s sb : nreach cfg x -> x_links x !! c = Some l -> y_conns (x_sys x) !! c = Some n -> l_peer l = PeerClient o h k y ->
  Forall writable (peer_sent (l_peer l)) -> y_heap (x_sys x) !! s = Some sb -> s_conn sb = c ->
  exists e m, e ∈ n_log n /\ accepted e = Some m /\ v_push e = [RSubscribe s] /\ subk (s_id sb) (g_frame m) /\ hd_contains (f_hdr (g_frame m)) h_destination = Some (s_dest sb) /\ g_frame m ∈ client_wrote y.
Proof.
  intros Hr Hl Hn Hp Hw Hs Hc. pose proof (nreach_inv _ _ Hr) as HI. destruct (reach_origin _ _ (ni_reach _ _ HI) _ _ n Hs ltac:(by rewrite Hc)) as (e & He & m & Ha & Hcm & Hid & Hd & Hpu).
  exists e, m. split_and!; try done. pose proof (accepts_got (x_sys x) c m n ltac:(by exists n, e) Hn) as Hg. eapply elem_of_prefix in Hg; [|eapply up_prefix; try done; by rewrite Hp]. rewrite Hp in Hg. cbn [peer_sent] in Hg.
  apply elem_of_cons in Hg as [E|Hg]; [|done]. exfalso. destruct (proj1 (nreach_peer _ _ Hr _ _ Hl) o) as (rm & os & Ho1); [by rewrite Hp|]. apply connect_cmd in Ho1. unfold cmd_of in Hcm. rewrite <-E, Hcm in Ho1.
  destruct Ho1 as [E1|E1]; revert E1; neq_lits.
Qed.
Lemma connect_not_sub cfg x c l o id : nreach cfg x -> x_links x !! c = Some l -> opts_of (l_peer l) = Some o -> ~ subk id (connect_frame o).
Proof.
  intros Hr Hl Ho [Hc _]. destruct (proj1 (nreach_peer _ _ Hr _ _ Hl) o Ho) as (rm & os & Ho1). apply connect_cmd in Ho1. rewrite Hc in Ho1. destruct Ho1 as [E1|E1]; revert E1; neq_lits.
Qed.
Lemma only_object cfg x c l n o h k y s sb g : nreach cfg x -> x_links x !! c = Some l -> y_conns (x_sys x) !! c = Some n -> l_peer l = PeerClient o h k y ->
  Forall writable (peer_sent (l_peer l)) -> y_heap (x_sys x) !! s = Some sb -> s_conn sb = c -> sole (c_gs y) g (s_id sb) -> only_of_id (x_sys x) s sb.
Proof.
  intros Hr Hl Hn Hp Hw Hs Hc Hso s' sb' Hs' Hc' Hid'. destruct (decide (s' = s)) as [|Hne]; [done|]. exfalso. pose proof (nreach_inv _ _ Hr) as HI.
  destruct (client_object _ _ _ _ _ _ _ _ _ _ _ Hr Hl Hn Hp Hw Hs Hc) as (e & m & He & Ha & Hpu & Hk & _).
  destruct (client_object _ _ _ _ _ _ _ _ _ _ _ Hr Hl Hn Hp Hw Hs' ltac:(congruence)) as (e' & m' & He' & Ha' & Hpu' & Hk' & _). rewrite Hid' in Hk'.
  assert (e <> e') as Hee by (intros ->; rewrite Hpu in Hpu'; injection Hpu' as ->; done).
  assert (Hac : forall e0 m0, accepted e0 = Some m0 -> client_frame e0 = Some m0) by (intros e0 m0 H0; unfold accepted in H0; by destruct (v_stop e0)).
  assert (2 <= length (filter (asks (s_id sb)) (n_log n))) as H2. { eapply (two_in _ _ e e'); try done; unfold asks; by rewrite (Hac _ _ Ha) || rewrite (Hac _ _ Ha'). }
  assert (length (filter (asks (s_id sb)) (n_log n)) <= length (filter (subk (s_id sb)) (server_got n))) as H3.
  { unfold server_got. rewrite fmap_app, filter_app, app_length. assert (g_frame <$> frames_of (n_log n) = omap (fun e => g_frame <$> client_frame e) (n_log n)) as ->.
    { clear. unfold frames_of. induction (n_log n) as [|e0 l0 IH]; [done|]. cbn. destruct (client_frame e0); cbn; by rewrite IH. }
    rewrite (omap_filter_length _ _ (asks (s_id sb))); [lia|]. intros e0. unfold asks. destruct (client_frame e0) as [m0|]; cbn; split; [by eauto|by intros (b & [= <-] & ?)|done|by intros (b & ? & _)]. }
  pose proof (prefix_filter (subk (s_id sb)) _ _ (up_prefix _ _ _ _ _ Hr Hl Hn ltac:(by rewrite Hp) Hw)) as H4. apply prefix_length in H4. rewrite Hp in H4. cbn [peer_sent] in H4.
  rewrite filter_cons_False in H4 by (eapply connect_not_sub; [exact Hr|exact Hl|by rewrite Hp]).
  pose proof (wrote_sub_once _ _ _ _ _ (ni_client _ _ HI _ _ _ _ _ _ Hl Hp) Hso). lia.
Qed.

(* ---------------- from the server's writes to the program ---------------- *)
Definition ins (l : list pev) : list frame := omap (fun e => match e with PvIn o => o | _ => None end) l.
Lemma due_prefix k l : ClientSpec.due k l `prefix_of` filter (message_for k) (ins l).
Proof.
  induction l as [|e l IH]; [done|]. cbn [ClientSpec.due]. destruct (decide (stops k e)); [apply prefix_nil|].
  destruct e as [q w|[f|]|ch f]; try exact IH. unfold ins. cbn [omap list_omap]. destruct (decide (message_for k f)).
  - rewrite filter_cons_True by done. by apply prefix_cons.
  - by rewrite filter_cons_False.
Qed.
Lemma due_all k l : (forall e, e ∈ l -> ~ stops k e) -> ClientSpec.due k l = filter (message_for k) (ins l).
Proof.
  induction l as [|e l IH]; intros H; [done|]. assert (ClientSpec.due k l = filter (message_for k) (ins l)) as IH' by (apply IH; intros e0 H0; apply H; by right).
  cbn [ClientSpec.due]. rewrite decide_False by (apply H; left). destruct e as [q w|[f|]|ch f]; try exact IH'. unfold ins. cbn [omap list_omap]. fold (ins l). destruct (decide (message_for k f)).
  - rewrite filter_cons_True by done. by rewrite IH'.
  - by rewrite filter_cons_False.
Qed.
Lemma received_frames id (n : sconn) : g_frame <$> received id n = filter (message_for id) (server_sent n).
Proof.
  unfold received, server_sent, frames_with. induction (written n) as [|[[m|] w] ws IH]; [done| |exact IH]. cbn [omap list_omap fst]. unfold message_for, cmd_of in *.
  destruct (decide (f_cmd (g_frame m) = MESSAGE)) as [Hc|Hc].
  - rewrite (bool_decide_eq_true_2 _ Hc). destruct (decide (hget_of m (lit "subscription") = Some id)) as [Hk|Hk].
    + rewrite filter_cons_True by done. cbn [fmap list_fmap]. rewrite filter_cons_True by done. by rewrite <-IH.
    + rewrite filter_cons_False by done. cbn [fmap list_fmap]. rewrite filter_cons_False by (by intros [_ ?]). exact IH.
  - rewrite (bool_decide_eq_false_2 _ Hc). cbn [fmap list_fmap]. rewrite filter_cons_False by (by intros [? _]). exact IH.
Qed.
(** What the subscription's requests look like in the client's log. *)
Lemma before_none A k y l1 q w l2 id : creach A k y -> asked_first y -> c_log y = l1 ++ PvReq q w :: l2 -> sole (c_gs y) (q_by q) id -> filter (message_for id) (ins l1) = [].
Proof.
  intros Hr [Ha _] El Hs. destruct (filter (message_for id) (ins l1)) as [|f l] eqn:E; [done|]. exfalso.
  assert (f ∈ filter (message_for id) (ins l1)) as [Hk Hf]%elem_of_list_filter by (rewrite E; left). unfold ins in Hf. apply elem_of_list_omap in Hf as (e & He & Hx).
  destruct e as [|[f0|]|]; try done. injection Hx as ->. apply elem_of_list_split in He as (l1a & l1b & ->). rewrite <-app_assoc in El. cbn in El. destruct (Ha _ _ _ _ El Hk) as (fs & Hfs & Hsk).
  apply in_wrote_in in Hfs as (q' & w' & Hq'). destruct (sub_request _ _ _ q' fs w' id (q_by q) Hr) as [Hby _]; [rewrite El; apply elem_of_app; by left|done|done|].
  pose proof (proj1 (reach_uniq _ _ _ Hr)) as HN. unfold allr in HN. rewrite El in HN. unfold log_reqs in HN. rewrite omap_app, fmap_app, fmap_app, <-app_assoc in HN. apply NoDup_app in HN as (_ & HN & _).
  fold (log_reqs l1a) in HN. apply (HN (q_by q)).
  - rewrite <-Hby. apply elem_of_list_fmap_1. by eapply log_req_in.
  - apply elem_of_app. left. apply elem_of_list_fmap_1. apply elem_of_list_omap. exists (PvReq q w). split; [|done]. right. apply elem_of_app. right. left.
Qed.
Lemma payload_copy m m' : payload m' = payload m -> carries (g_frame m) (g_frame m').
Proof.
  intros E. unfold payload in E. injection E as E1 E2 E3 E4. split; [done|]. refine (strip_incl _ _ _ _ _ E3). unfold per_delivery, server_headers. set_solver.
Qed.
Lemma payload_copies ms ms' : payload <$> ms' = payload <$> ms -> (forall m', m' ∈ ms' -> cmd_of m' = MESSAGE) -> Forall2 copy_of ms (g_frame <$> ms').
Proof.
  revert ms'. induction ms as [|m ms IH]; intros [|m' ms'] E H; [constructor|discriminate E|discriminate E|]. rewrite !fmap_cons in E. apply (inj2 cons) in E as [E1 E2]. constructor.
  - split; [apply H; left|]. by apply payload_copy.
  - fold (g_frame <$> ms'). apply IH; [done|]. intros m0 H0. apply H. by right.
Qed.

(* ---------------- what is confirmed ---------------- *)
(** A RECEIPT the client reads answers a frame of a call that asked for it;
    never an UNSUBSCRIBE. *)
Lemma receipt_of_call cfg x c l n o h k y fr rid : nreach cfg x -> x_links x !! c = Some l -> y_conns (x_sys x) !! c = Some n -> l_peer l = PeerClient o h k y ->
  Forall writable (peer_sent (l_peer l)) -> fr ∈ client_read y -> f_cmd fr = RECEIPT -> hd_contains (f_hdr fr) h_receipt_id = Some rid ->
  exists g r f, c_gs y !! g = Some r /\ op_frame (g_op r) = Some f /\ f ∈ client_wrote y /\ hd_contains (f_hdr f) h_receipt = Some rid /\ ServerConnSpec.answers (f_cmd f) = true.
Proof.
  intros Hr Hl Hn Hp Hw Hf Hc Hid. pose proof (nreach_inv _ _ Hr) as HI.
  assert (fr ∈ server_sent n) as Hs. { eapply elem_of_prefix; [|by eapply down_prefix]. rewrite Hp. by right. }
  unfold server_sent in Hs. apply elem_of_list_fmap in Hs as (rc & -> & Hm). apply elem_of_list_omap in Hm as ([o0 w] & Hm & E). cbn in E. subst o0.
  destruct (in_wire _ _ _ _ _ (ni_reach _ _ HI) Hn Hm) as (id_of & ack_of & pre & e & post & cs & st & Elog & Hex & Hwr).
  destruct (receipt_asked _ _ _ _ _ _ _ _ _ _ _ Hex Hwr Hc) as (m & rid' & Hin & Hans & Hm1 & Hrc & _).
  assert (Some rid' = Some rid) as [= ->] by (rewrite <-Hrc; exact Hid).
  assert (g_frame m ∈ server_got n) as Hg.
  { unfold server_got. apply elem_of_list_fmap_1, elem_of_app. left. unfold frames_of. apply elem_of_list_omap. exists e. split; [rewrite Elog; apply elem_of_app; right; left|]. unfold client_frame. by rewrite Hin. }
  eapply elem_of_prefix in Hg; [|eapply up_prefix; try done; by rewrite Hp]. rewrite Hp in Hg. cbn [peer_sent] in Hg. apply elem_of_cons in Hg as [E|Hg].
  { exfalso. destruct (proj1 (nreach_peer _ _ Hr _ _ Hl) o) as (rm & os & Hopt); [by rewrite Hp|]. apply connect_cmd in Hopt. rewrite <-E in Hopt. unfold cmd_of in Hans. by destruct Hopt as [E1|E1]; rewrite E1 in Hans. }
  destruct (wrote_call _ _ _ _ (ni_client _ _ HI _ _ _ _ _ _ Hl Hp) Hg) as (g & r & H1 & H2); [intros E; unfold cmd_of in Hans; by rewrite E in Hans|].
  by exists g, r, (g_frame m).
Qed.

(* ---------------- topics, from end to end ---------------- *)
Lemma prefix_fmap_inv {A B} (F : A -> B) l l' : l `prefix_of` F <$> l' -> exists l'', l'' `prefix_of` l' /\ l = F <$> l''.
Proof.
  revert l'. induction l as [|b l IH]; intros l' Hp; [exists []; split; [apply prefix_nil|done]|]. destruct l' as [|a l']; [by apply prefix_nil_not in Hp|]. rewrite fmap_cons in Hp.
  pose proof (prefix_cons_inv_1 _ _ _ _ Hp) as ->. apply prefix_cons_inv_2 in Hp. destruct (IH _ Hp) as (l'' & H1 & ->). exists (a :: l''). split; [by apply prefix_cons|done].
Qed.
Lemma hello_cmd cfg x c l o h k y : nreach cfg x -> x_links x !! c = Some l -> l_peer l = PeerClient o h k y -> f_cmd h = CONNECTED.
Proof.
  intros Hr Hl Hp. destruct (nreach_peer _ _ Hr _ _ Hl) as [_ Hb]. rewrite Hp in Hb. destruct Hb as (cc & rest & H & _). unfold client_connect in H. by destruct (decide (f_cmd h = CONNECTED)).
Qed.
Lemma topic_client cfg x c l n o h k y s0 b r f id rt : nreach cfg x -> x_links x !! c = Some l -> y_conns (x_sys x) !! c = Some n -> l_peer l = PeerClient o h k y ->
  Forall writable (peer_sent (l_peer l)) -> c_subs y !! s0 = Some b -> c_gs y !! b_by b = Some r -> g_op r = OSubscribe (Some (f, id, rt)) ->
  hd_contains (f_hdr f) h_receipt = None -> sole (c_gs y) (b_by b) (sub_key f) ->
  forall s sb, y_heap (x_sys x) !! s = Some sb -> s_conn sb = c -> s_id sb = sub_key f -> is_queue (s_dest sb) = false ->
  hd_contains (f_hdr f) h_destination = Some (s_dest sb) /\
  (exists ms, ms `prefix_of` during s (s_dest sb) false (y_blog (x_sys x)).*1 /\ Forall2 copy_of ms (msgs (b_read b))) /\
  (arrived x l n y b -> (forall g' r' s' f', c_gs y !! g' = Some r' -> g_op r' = OUnsub s' (Some f') -> hd_contains (f_hdr f') h_reply_to <> Some (sub_key f)) ->
     Forall2 copy_of (during s (s_dest sb) false (y_blog (x_sys x)).*1) (msgs (b_read b))).
Proof.
  intros Hr Hl Hn Hp Hw Hb Hg Ho Hrc Hso s sb Hs Hc Hid Hq. pose proof (nreach_inv _ _ Hr) as HI. pose proof (ni_client _ _ HI _ _ _ _ _ _ Hl Hp) as Hcr.
  destruct (client_object _ _ _ _ _ _ _ _ _ _ _ Hr Hl Hn Hp Hw Hs Hc) as (e & m & He & Ha & Hpu & Hk & Hd & Hwr). rewrite Hid in Hk.
  apply in_wrote_in in Hwr as (q & w & Hin). destruct (sub_request _ _ _ _ _ _ _ _ Hcr Hin Hk Hso) as [Hby Hqf].
  assert (g_frame m = f) as Ef.
  { destruct (rq_ok _ (reach_req _ _ _ Hcr) q) as (r0 & Hg0 & Ho0 & _); [right; left; by eapply log_req_in|]. rewrite Hby, Hg in Hg0. injection Hg0 as <-. rewrite Ho, Hqf in Ho0. by injection Ho0. }
  rewrite Ef in Hd. split; [done|].
  pose proof (only_object _ _ _ _ _ _ _ _ _ _ _ (b_by b) Hr Hl Hn Hp Hw Hs Hc ltac:(by rewrite Hid)) as Honly.
  destruct (topic_received _ _ _ _ _ _ (ni_reach _ _ HI) Hn Hs Hc Hq Honly) as [Hpre Heq].
  assert (HM : forall m', m' ∈ received (s_id sb) n -> cmd_of m' = MESSAGE).
  { intros m' [_ Hm']%elem_of_list_filter. unfold frames_with in Hm'. apply elem_of_list_omap in Hm' as ([[m0|] w0] & _ & Hx); [|done]. cbn in Hx. destruct (bool_decide _) eqn:Hbd; [|done]. injection Hx as <-. by apply bool_decide_eq_true in Hbd. }
  destruct (reach_messages _ _ _ _ _ _ _ _ _ Hcr Hb Hg Ho Hrc Hso) as [(l1 & q0 & w0 & l2 & El & Hq0 & Hdue)|[Hno _]]; [|by destruct (Hno _ _ Hin)].
  pose proof (before_none _ _ _ _ _ _ _ (sub_key f) Hcr (nreach_asked _ _ Hr _ _ _ _ _ _ Hl Hp Hw) El ltac:(by rewrite Hq0)) as Hnone.
  assert (Hread : filter (message_for (sub_key f)) (client_read y) = filter (message_for (sub_key f)) (ins l2) ++ filter (message_for (sub_key f)) (omap Datatypes.id (c_rch y))).
  { unfold client_read. fold (ins (c_log y)). rewrite El. unfold ins at 1. rewrite omap_app, !filter_app. fold (ins l1). rewrite Hnone. done. }
  assert (Hh : ~ message_for (sub_key f) h). { intros [E _]. rewrite (hello_cmd _ _ _ _ _ _ _ _ Hr Hl Hp) in E. revert E. neq_lits. }
  pose proof (prefix_filter (message_for (sub_key f)) _ _ (down_prefix _ _ _ _ _ Hr Hl Hn)) as Hdown. rewrite Hp in Hdown. cbn [peer_got] in Hdown. rewrite filter_cons_False in Hdown by done.
  rewrite <-Hid, <-received_frames, Hid in Hdown.
  split.
  - assert (msgs (b_read b) `prefix_of` g_frame <$> received (s_id sb) n) as Hx.
    { etrans; [|rewrite Hid; exact Hdown]. rewrite Hread. etrans; [|by apply prefix_app_r]. etrans; [|apply due_prefix]. rewrite <-Hdue, msgs_app, <-app_assoc. by apply prefix_app_r. }
    apply prefix_fmap_inv in Hx as (rs & Hrs & ->).
    assert (payload <$> rs `prefix_of` payload <$> during s (s_dest sb) false (y_blog (x_sys x)).*1) as Hy by (etrans; [|exact Hpre]; destruct Hrs as [z ->]; rewrite fmap_app; by apply prefix_app_r).
    apply prefix_fmap_inv in Hy as (ms & Hms & Emr). exists ms. split; [done|]. apply payload_copies; [done|]. intros m' Hm'. apply HM. by eapply elem_of_prefix.
  - intros (A1 & A2 & A3 & A4 & A5 & A6 & A7 & A8) Hun. specialize (Heq A1 A2 A3). rewrite A7, A8, !app_nil_r in Hdue.
    rewrite due_all in Hdue.
    + rewrite A6 in Hread. cbn [omap list_omap] in Hread. rewrite filter_nil, app_nil_r in Hread. rewrite <-Hread in Hdue. rewrite Hdue.
      pose proof (down_all _ _ _ _ _ _ _ _ _ Hr Hl Hn Hp A4 A5) as Hall. assert (filter (message_for (sub_key f)) (client_read y) = g_frame <$> received (s_id sb) n) as ->.
      { rewrite Hid, received_frames, <-Hall. by rewrite filter_cons_False. }
      by apply payload_copies.
    + intros e0 He0 Hst. destruct e0 as [q1 [|]|[fr|]|]; try done; unfold stops in Hst.
      * destruct Hst as [S1 S2]. destruct (rq_ok _ (reach_req _ _ _ Hcr) q1) as (r1 & Hg1 & Ho1 & _); [right; left; assert (PvReq q1 None ∈ c_log y) as Hq1 by (rewrite El; apply elem_of_app; right; by right); by eapply log_req_in|].
        assert (exists s1, g_op r1 = OUnsub s1 (Some (q_frame q1))) as [s1 Eo].
        { pose proof (reach_ops _ _ _ Hcr _ _ Hg1) as Hok. destruct (g_op r1) as [[f1|]|f1|[[[f1 ?] ?]|]|s1 [f1|]|rid|] eqn:Eo; try done; cbn in Ho1; injection Ho1 as E1; try subst f1.
          - cbn in Hok. apply bool_decide_eq_true in Hok. rewrite Hok in S1. exfalso. revert S1. neq_lits.
          - cbn in Hok. unfold is_sub_cmd in Hok. rewrite (bool_decide_eq_true_2 _ S1), orb_true_r in Hok. done.
          - cbn in Hok. apply bool_decide_eq_true in Hok. rewrite Hok in S1. exfalso. revert S1. neq_lits.
          - by exists s1.
          - rewrite <-E1 in S1. cbn in S1. exfalso. revert S1. neq_lits. }
        by eapply Hun.
      * destruct Hst as [S1 S2]. destruct (receipt_of_call _ _ _ _ _ _ _ _ _ _ _ Hr Hl Hn Hp Hw ltac:(apply in_client_read; rewrite El; apply elem_of_app; right; by right) S1 S2) as (g1 & r1 & f1 & Hg1 & Ho1 & _ & Hrc1 & _).
        assert (g1 = b_by b) as -> by (eapply (Hso _ _ _ Hg1 Ho1); by left). rewrite Hg in Hg1. injection Hg1 as <-. rewrite Ho in Ho1. injection Ho1 as <-. congruence.
Qed.
(** Without such an object nothing was received. *)
Lemma no_object cfg x c l n o h k y s0 b r f id rt : nreach cfg x -> x_links x !! c = Some l -> y_conns (x_sys x) !! c = Some n -> l_peer l = PeerClient o h k y ->
  Forall writable (peer_sent (l_peer l)) -> c_subs y !! s0 = Some b -> c_gs y !! b_by b = Some r -> g_op r = OSubscribe (Some (f, id, rt)) ->
  hd_contains (f_hdr f) h_receipt = None -> sole (c_gs y) (b_by b) (sub_key f) -> msgs (b_read b) <> [] ->
  exists s sb, y_heap (x_sys x) !! s = Some sb /\ s_conn sb = c /\ s_id sb = sub_key f /\ hd_contains (f_hdr f) h_destination = Some (s_dest sb).
Proof.
  intros Hr Hl Hn Hp Hw Hb Hg Ho Hrc Hso Hne. pose proof (nreach_inv _ _ Hr) as HI. pose proof (ni_client _ _ HI _ _ _ _ _ _ Hl Hp) as Hcr.
  destruct (reach_messages _ _ _ _ _ _ _ _ _ Hcr Hb Hg Ho Hrc Hso) as [(l1 & q0 & w0 & l2 & El & Hq0 & Hdue)|[_ H0]].
  2: { rewrite msgs_app, <-app_assoc in H0. by apply app_eq_nil in H0 as [H0 _]. }
  destruct (msgs (b_read b)) as [|f0 fs0] eqn:Em; [done|]. assert (f0 ∈ ClientSpec.due (sub_key f) l2) as Hin by (rewrite <-Hdue, msgs_app, Em; left).
  eapply elem_of_prefix in Hin; [|apply due_prefix]. apply elem_of_list_filter in Hin as [Hk Hin]. unfold ins in Hin. apply elem_of_list_omap in Hin as (e & He & Hx). destruct e as [|[f1|]|]; try done. injection Hx as ->.
  destruct (read_asked _ _ _ _ _ _ _ _ _ f0 (sub_key f) Hr Hl Hn Hp Hw ltac:(apply in_client_read; rewrite El; apply elem_of_app; right; by right) Hk) as (e & s & d & fs & He1 & Hsub & Hd & Hfs & Hsk & Hd').
  apply elem_of_list_split in He1 as (pre & post & Epp). destruct (subscribed_object _ _ (ni_reach _ _ HI) _ _ _ _ _ Hn Epp _ _ _ Hsub) as (sb & G1 & G2 & G3 & G4).
  exists s, sb. split_and!; try done. apply in_wrote_in in Hfs as (q & w & Hq). destruct (sub_request _ _ _ _ _ _ _ _ Hcr Hq Hsk Hso) as [Hby Hqf].
  destruct (rq_ok _ (reach_req _ _ _ Hcr) q) as (r0 & Hg0 & Ho0 & _); [right; left; by eapply log_req_in|]. rewrite Hby, Hg in Hg0. injection Hg0 as <-. rewrite Ho, Hqf in Ho0. injection Ho0 as <-. by rewrite G4.
Qed.
