(** Queue messages from the server's processor to the programs. *)
From stdpp Require Import gmap.
From Verif Require Import GoBase GoBaseProofs HeaderModel HeaderProofs FrameModel GrammarSpec CodecProofs NegotiationModel NegotiationLemmas ClientApiModel ClientModel ClientSpec ClientLemmas ClientProofs ClientCalls ClientRequests ClientChannels
  ClientReceipts ClientDelivery ClientLive ClientMessages ClientRouting ClientReady ClientRestSpec ClientRest.
From Verif Require Import BrokerModel BrokerSpec ServerConnModel ServerConnSpec ServerConnProofs SystemModel SystemSpec SystemLemmas SystemHistory SystemProofs SystemTokens SystemMessages FlowSpec FlowTopics FlowSubs RestSpec RestProofs PeerSpec PeerProofs RefusalSpec RefusalProofs
  FlowProofs NetModel NetSpec NetLinks NetProofs NetTopics NetRestSpec NetRest NetSettled NetRestProps OnceSpec OnceProofs QueueServer NetQueueSpec.

(* ---------------- what a program receives is what was written for it ---------------- *)
Lemma conn_of_link cfg x c l : nreach cfg x -> x_links x !! c = Some l -> exists n, y_conns (x_sys x) !! c = Some n.
Proof. intros Hr Hl. apply lookup_lt_is_Some_2. rewrite <-(ni_len _ _ (nreach_inv _ _ Hr)). by eapply lookup_lt_Some. Qed.
Lemma takes_prefix cfg x c s0 f fs n : nreach cfg x -> takes x c s0 f fs -> y_conns (x_sys x) !! c = Some n -> exists rs, rs `prefix_of` received (sub_key f) n /\ fs = g_frame <$> rs.
Proof.
  intros Hr (l & o & h & k & y & b & Hl & Hp & Hw & (Hb & (r & id & rt & Hg & Ho) & Hrc & Hso) & ->) Hn. pose proof (nreach_inv _ _ Hr) as HI. pose proof (ni_client _ _ HI _ _ _ _ _ _ Hl Hp) as Hcr.
  destruct (reach_messages _ _ _ _ _ _ _ _ _ Hcr Hb Hg Ho Hrc Hso) as [(l1 & q0 & w0 & l2 & El & Hq0 & Hdue)|[_ H0]].
  2: { rewrite msgs_app, <-app_assoc in H0. apply app_eq_nil in H0 as [-> _]. exists []. split; [apply prefix_nil|done]. }
  enough (msgs (b_read b) `prefix_of` g_frame <$> received (sub_key f) n) as Hx by (apply prefix_fmap_inv in Hx as (rs & H1 & H2); eauto).
  assert (Hh : ~ message_for (sub_key f) h). { intros [E _]. rewrite (hello_cmd _ _ _ _ _ _ _ _ Hr Hl Hp) in E. revert E. neq_lits. }
  pose proof (prefix_filter (message_for (sub_key f)) _ _ (down_prefix _ _ _ _ _ Hr Hl Hn)) as Hdown. rewrite Hp in Hdown. cbn [peer_got] in Hdown. rewrite filter_cons_False in Hdown by done.
  rewrite <-received_frames in Hdown. etrans; [|exact Hdown].
  pose proof (before_none _ _ _ _ _ _ _ (sub_key f) Hcr (nreach_asked _ _ Hr _ _ _ _ _ _ Hl Hp Hw) El ltac:(by rewrite Hq0)) as Hnone.
  unfold client_read. fold (ins (c_log y)). rewrite El. unfold ins at 1. rewrite omap_app, !filter_app. fold (ins l1). rewrite Hnone. cbn [app omap list_omap].
  etrans; [|by apply prefix_app_r]. etrans; [|apply due_prefix]. rewrite <-Hdue, msgs_app, <-app_assoc. by apply prefix_app_r.
Qed.
Lemma unsub_call A k y fu id : creach A k y -> fu ∈ client_wrote y -> f_cmd fu = UNSUBSCRIBE -> hd_contains (f_hdr fu) h_id = Some id ->
  exists g r s f, c_gs y !! g = Some r /\ g_op r = OUnsub s (Some f) /\ hd_contains (f_hdr f) h_id = Some id.
Proof.
  intros Hcr Hf Hc Hid. destruct (in_client_wrote _ _ _ _ Hcr Hf) as (q & w & r & _ & E & _ & Hg & Ho).
  assert (f_cmd (q_frame q) = UNSUBSCRIBE) as Eu. { unfold outgoing in E. destruct (decide _) as [|Hd]; [done|]. by subst fu. }
  assert (hd_contains (f_hdr (q_frame q)) h_id = Some id) as Ei.
  { rewrite <-Hid, E. unfold outgoing. rewrite decide_True by done. cbn. symmetry. apply hd_contains_set_other. neq_lits. }
  pose proof (reach_ops _ _ _ Hcr _ _ Hg) as Hok. destruct (g_op r) as [[f1|]|f1|[[[f1 ?] ?]|]|s1 [f1|]|rid|] eqn:Eo; try done; cbn in Ho; injection Ho as E1; try subst f1.
  - cbn in Hok. apply bool_decide_eq_true in Hok. rewrite Hok in Eu. exfalso. revert Eu. neq_lits.
  - cbn in Hok. unfold is_sub_cmd in Hok. rewrite (bool_decide_eq_true_2 _ Eu), orb_true_r in Hok. done.
  - cbn in Hok. apply bool_decide_eq_true in Hok. rewrite Hok in Eu. exfalso. revert Eu. neq_lits.
  - exists (q_by q), r, s1, (q_frame q). by split_and!.
  - rewrite <-E1 in Eu. cbn in Eu. exfalso. revert Eu. neq_lits.
Qed.
Definition asks (c : nat) (pre : list cev) (e : cev) (y : sys) : Prop := forall m, accepted e = Some m -> cmd_of m = SUBSCRIBE ->
  exists id d s, hget_of m (lit "id") = Some id /\ subscribes e id d s.
Lemma accepted_asks cfg y : reach cfg y -> forall c n pre e post, y_conns y !! c = Some n -> n_log n = pre ++ e :: post -> asks c pre e y.
Proof.
  revert y. apply (log_inv_c cfg asks); [done|].
  intros y c n x w1 w2 i n1 o Hr Hn Hph Hout Hti Hci Hmv m Ha Hc.
  destruct (conn_history _ _ Hr _ _ (keeps_in _ (reach_wf _ _ Hr)) _ _ Hn) as (cs & st & Hex & Hrun & _). destruct (Hrun Hph) as [E1 E2]. subst cs st. pose proof Ha as Ha'.
  unfold accepted, client_frame, new_event in Ha. cbn in Ha. destruct (i_stop o) eqn:Hst; [done|]. destruct i; try done. injection Ha as ->.
  destruct (subscribe_object _ _ _ _ _ _ _ _ _ _ _ _ Hex Hci Hc Hst) as (id' & d' & G1 & G2 & G3 & _ & G5). exists id', d', (y_next y). split; [done|]. exists m. by split_and!.
Qed.
Lemma live_stays cfg x c s0 f fs n s sb : nreach cfg x -> consumes x c s0 f fs -> y_conns (x_sys x) !! c = Some n -> y_heap (x_sys x) !! s = Some sb -> s_conn sb = c -> s_id sb = sub_key f ->
  ServerConnSpec.live (s_id sb) (n_log n) = Some s.
Proof.
  intros Hr (l & n' & k & y & b & (Hl & Hn & (o & h & Hp) & Hph & Hok & Hlo & Hrc & Hwc & Hw) & (Hb & (r & id & rt & Hg & Ho) & Hre & Hso) & Hne & _) Hn' Hs Hc Hid.
  assert (n' = n) as -> by congruence. pose proof (nreach_inv _ _ Hr) as HI. pose proof (ni_client _ _ HI _ _ _ _ _ _ Hl Hp) as Hcr.
  destruct (client_object _ _ _ _ _ _ _ _ _ _ _ Hr Hl Hn Hp Hw Hs Hc) as (e & m & He & Ha & Hpu & [Hk1 Hk2] & Hd & Hwr).
  apply elem_of_list_split in He as (pre & post & El). unfold ServerConnSpec.live. rewrite El, fold_left_app. cbn [fold_left].
  assert (sub_event (s_id sb) (fold_left (sub_event (s_id sb)) pre None) e = Some s) as ->.
  { unfold sub_event. rewrite Ha. change (lit "id") with h_id. rewrite decide_True by (exact Hk2). rewrite decide_True by (exact Hk1). by rewrite Hpu. }
  assert (forall pre' post', n_log n = pre' ++ post' -> fold_left (sub_event (s_id sb)) post' (Some s) = Some s) as HH; [|apply (HH (pre ++ [e])); by rewrite <-app_assoc].
  intros pre' post'. revert pre'. induction post' as [|e' post' IH]; intros pre' El'; [done|]. cbn [fold_left].
  assert (sub_event (s_id sb) (Some s) e' = Some s) as ->; [|apply (IH (pre' ++ [e'])); by rewrite <-app_assoc].
  unfold sub_event. destruct (accepted e') as [m'|] eqn:Ha'; [|done]. destruct (decide (hget_of m' (lit "id") = Some (s_id sb))) as [Hid'|]; [|done].
  destruct (decide (cmd_of m' = SUBSCRIBE)) as [Hc'|Hc'].
  - destruct (accepted_asks _ _ (ni_reach _ _ HI) _ _ _ _ _ Hn El' _ Ha' Hc') as (i' & d' & s' & E & Hsub). assert (i' = s_id sb) as -> by congruence.
    destruct (subscribed_object _ _ (ni_reach _ _ HI) _ _ _ _ _ Hn El' _ _ _ Hsub) as (sb' & G1 & G2 & G3 & G4). destruct Hsub as (? & _ & _ & _ & _ & ->).
    f_equal. eapply (only_object _ _ _ _ _ _ _ _ _ _ _ (b_by b) Hr Hl Hn Hp Hw Hs Hc ltac:(by rewrite Hid)); [done|congruence|done].
  - destruct (decide (cmd_of m' = UNSUBSCRIBE)) as [Hu|]; [|done]. exfalso.
    assert (g_frame m' ∈ client_wrote y) as Hin.
    { assert (g_frame m' ∈ server_got n) as Hgot by (eapply (accepts_got (x_sys x) c); [|done]; exists n, e'; split_and!; [done|rewrite El'; apply elem_of_app; right; left|done]).
      eapply elem_of_prefix in Hgot; [|eapply up_prefix; try done; by rewrite Hp]. rewrite Hp in Hgot. cbn [peer_sent] in Hgot. apply elem_of_cons in Hgot as [E|Hgot]; [|done]. exfalso.
      destruct (proj1 (nreach_peer _ _ Hr _ _ Hl) o) as (rm & os & Ho1); [by rewrite Hp|]. apply connect_cmd in Ho1. unfold cmd_of in Hu. rewrite <-E, Hu in Ho1. destruct Ho1 as [E1|E1]; revert E1; neq_lits. }
    destruct (unsub_call _ _ _ _ (s_id sb) Hcr Hin Hu Hid') as (g1 & r1 & s1 & f1 & F1 & F2 & F3). apply (proj1 (Hne _ _ _ _ F1 F2)). by rewrite F3, Hid.
Qed.
Lemma consumes_takes x c s0 f fs : consumes x c s0 f fs -> takes x c s0 f fs.
Proof. intros (l & n & k & y & b & (Hl & Hn & (o & h & Hp) & _ & _ & _ & _ & _ & Hw) & Ha & _ & E). by exists l, o, h, k, y, b. Qed.
Lemma consumes_all cfg x c s0 f fs n : rested cfg x -> consumes x c s0 f fs -> y_conns (x_sys x) !! c = Some n -> fs = g_frame <$> received (sub_key f) n.
Proof.
  intros HR HC Hn'. pose proof HC as (l & n' & k & y & b & HH & (Hb & (r & id & rt & Hg & Ho) & Hre & Hso) & Hne & ->).
  destruct (C77_streams _ _ _ _ _ _ _ HR HH) as (_ & _ & _ & E1 & E2 & E3 & _ & HSB). destruct HR as (Hr & HS & HP & HD). destruct HH as (Hl & Hn & (o & h & Hp) & Hph & Hok & Hlo & Hrc & Hwc & Hw).
  assert (n' = n) as -> by congruence. pose proof (nreach_inv _ _ Hr) as HI. pose proof (ni_client _ _ HI _ _ _ _ _ _ Hl Hp) as Hcr.
  assert (Hh : ~ message_for (sub_key f) h). { intros [E _]. rewrite (hello_cmd _ _ _ _ _ _ _ _ Hr Hl Hp) in E. revert E. neq_lits. }
  rewrite received_frames, <-E2, Hp. cbn [peer_got]. rewrite filter_cons_False by done. unfold client_read. rewrite E3. cbn [omap list_omap]. rewrite app_nil_r. fold (ins (c_log y)).
  destruct (HSB _ _ Hb) as [B1 B2]. assert (transit y b = []) as B3. { unfold transit. rewrite Hlo, app_nil_r. by destruct B2 as [[-> _]| ->]. }
  destruct (reach_messages _ _ _ _ _ _ _ _ _ Hcr Hb Hg Ho Hre Hso) as [(l1 & q0 & w0 & l2 & El & Hq0 & Hdue)|[Hno H0]].
  - rewrite B1, B3, !app_nil_r in Hdue. rewrite Hdue.
    pose proof (before_none _ _ _ _ _ _ _ (sub_key f) Hcr (nreach_asked _ _ Hr _ _ _ _ _ _ Hl Hp Hw) El ltac:(by rewrite Hq0)) as Hnone.
    rewrite El. unfold ins. rewrite omap_app, filter_app. fold (ins l1). rewrite Hnone. cbn [app omap list_omap]. fold (ins l2). apply due_all.
    intros e0 He0 Hst. destruct e0 as [q1 [|]|[fr|]|]; try done; unfold stops in Hst.
    + destruct Hst as [S1 S2]. destruct (rq_ok _ (reach_req _ _ _ Hcr) q1) as (r1 & Hg1 & Ho1 & _); [right; left; assert (PvReq q1 None ∈ c_log y) as Hq1 by (rewrite El; apply elem_of_app; right; by right); by eapply log_req_in|].
      assert (exists s1, g_op r1 = OUnsub s1 (Some (q_frame q1))) as [s1 Eo].
      { pose proof (reach_ops _ _ _ Hcr _ _ Hg1) as Hk. destruct (g_op r1) as [[f1|]|f1|[[[f1 ?] ?]|]|s1 [f1|]|rid|] eqn:Eo; try done; cbn in Ho1; injection Ho1 as E; try subst f1.
        - cbn in Hk. apply bool_decide_eq_true in Hk. rewrite Hk in S1. exfalso. revert S1. neq_lits.
        - cbn in Hk. unfold is_sub_cmd in Hk. rewrite (bool_decide_eq_true_2 _ S1), orb_true_r in Hk. done.
        - cbn in Hk. apply bool_decide_eq_true in Hk. rewrite Hk in S1. exfalso. revert S1. neq_lits.
        - by exists s1.
        - rewrite <-E in S1. cbn in S1. exfalso. revert S1. neq_lits. }
      by apply (proj2 (Hne _ _ _ _ Hg1 Eo)).
    + destruct Hst as [S1 S2]. destruct (receipt_of_call _ _ _ _ _ _ _ _ _ _ _ Hr Hl Hn Hp Hw ltac:(apply in_client_read; rewrite El; apply elem_of_app; right; by right) S1 S2) as (g1 & r1 & f1 & Hg1 & Ho1 & _ & Hrc1 & _).
      assert (g1 = b_by b) as -> by (eapply (Hso _ _ _ Hg1 Ho1); by left). rewrite Hg in Hg1. injection Hg1 as <-. rewrite Ho in Ho1. injection Ho1 as <-. congruence.
  - rewrite msgs_app, <-app_assoc in H0. apply app_eq_nil in H0 as [-> _]. destruct (filter (message_for (sub_key f)) (ins (c_log y))) as [|f0 l0] eqn:E; [done|]. exfalso.
    assert (f0 ∈ filter (message_for (sub_key f)) (ins (c_log y))) as [Hk Hf]%elem_of_list_filter by (rewrite E; left). unfold ins in Hf. apply elem_of_list_omap in Hf as (e & He & Hx). destruct e as [|[f1|]|]; try done. injection Hx as ->.
    destruct (read_asked _ _ _ _ _ _ _ _ _ f0 (sub_key f) Hr Hl Hn Hp Hw (in_client_read _ _ He) Hk) as (_ & _ & _ & fs & _ & _ & _ & Hfs & Hsk & _).
    apply in_wrote_in in Hfs as (q & w & Hq). destruct (sub_request _ _ _ _ _ _ _ _ Hcr Hq Hsk Hso) as [Hby _]. by apply (Hno _ _ Hq).
Qed.

(* ---------------- several programs together ---------------- *)
Lemma takes_key cfg x c s0 s1 f0 f1 fs0 fs1 : nreach cfg x -> takes x c s0 f0 fs0 -> takes x c s1 f1 fs1 -> sub_key f0 = sub_key f1 -> s0 = s1.
Proof.
  intros Hr (l & o & h & k & y & b & Hl & Hp & _ & (Hb & (r & id & rt & Hg & Ho) & _ & Hso) & _) (l' & o' & h' & k' & y' & b' & Hl' & Hp' & _ & (Hb' & (r' & id' & rt' & Hg' & Ho') & _ & Hso') & _) E.
  rewrite Hl in Hl'. injection Hl' as <-. rewrite Hp in Hp'. injection Hp' as <- <- <- <-. pose proof (ni_client _ _ (nreach_inv _ _ Hr) _ _ _ _ _ _ Hl Hp) as Hcr.
  eapply (proj1 (reach_sub_uniq _ _ _ Hcr)); [done|done|]. symmetry. eapply (Hso _ r' f1); [done|by rewrite Ho'|]. right. split; [|done]. pose proof (reach_ops _ _ _ Hcr _ _ Hg') as Hk. rewrite Ho' in Hk. by apply bool_decide_eq_true in Hk.
Qed.
Lemma received_msg id n m : m ∈ received id n -> cmd_of m = MESSAGE.
Proof. intros [_ Hm]%elem_of_list_filter. unfold frames_with in Hm. apply elem_of_list_omap in Hm as ([[m0|] w0] & _ & Hx); [|done]. cbn in Hx. destruct (bool_decide _) eqn:Hbd; [|done]. injection Hx as <-. by apply bool_decide_eq_true in Hbd. Qed.
Lemma prefix_pc x l l' : l `prefix_of` l' -> pc x l <= pc x l'.
Proof. intros [k ->]. rewrite pc_app. lia. Qed.
Lemma concat_pc x (L : list (list msg)) : pc x (concat L) = sum_list_with (pc x) L.
Proof. induction L as [|l L IH]; [done|]. cbn. by rewrite pc_app, IH. Qed.
Definition taken_by (x : net) (p : nat * nat) (fs : list frame) : Prop := exists f, takes x p.1 p.2 f fs.
(** The names, connection by connection, are different, and the frames are
    copies of what was written under them. *)
Lemma takes_keys cfg x subs fss : nreach cfg x -> NoDup subs -> Forall2 (taken_by x) subs fss ->
  exists (ks : list (nat * str)) (rss : list (list msg)), NoDup ks /\ length ks = length subs /\ Forall2 (fun rs fs => fs = g_frame <$> rs) rss fss /\
  Forall2 (fun k rs => exists n, y_conns (x_sys x) !! k.1 = Some n /\ rs `prefix_of` received k.2 n) ks rss /\
  Forall2 (fun p k => p.1 = k.1 /\ exists f fs, takes x p.1 p.2 f fs /\ k.2 = sub_key f) subs ks.
Proof.
  intros Hr Hnd HF. induction HF as [|[c s0] fs subs fss (f & Ht) HF IH]; [exists [], []; split_and!; try constructor; done|]. cbn in Ht.
  apply NoDup_cons in Hnd as [Hni Hnd]. destruct (IH Hnd) as (ks & rss & K1 & K2 & K3 & K4 & K5). pose proof Ht as (l & _ & _ & _ & _ & _ & Hl & _). destruct (conn_of_link _ _ _ _ Hr Hl) as [n Hn].
  destruct (takes_prefix _ _ _ _ _ _ _ Hr Ht Hn) as (rs & R1 & R2). exists ((c, sub_key f) :: ks), (rs :: rss). split_and!; try (constructor; eauto; fail).
  - apply NoDup_cons. split; [|done]. intros Hin. apply elem_of_list_lookup in Hin as [i Hi]. destruct (Forall2_lookup_r _ _ _ _ _ K5 Hi) as ([c' s'] & Hs' & E & f' & fs' & Ht' & Ek). cbn in E, Ek, Ht'. subst c'.
    apply Hni. rewrite (takes_key _ _ _ _ _ _ _ _ _ Hr Ht Ht' Ek). by eapply elem_of_list_lookup_2.
  - cbn. by rewrite K2.
Qed.
Lemma copies_self (rss : list (list msg)) fss : Forall2 (fun rs fs => fs = g_frame <$> rs) rss fss -> (forall m, m ∈ concat rss -> cmd_of m = MESSAGE) -> Forall2 (Forall2 copy_of) rss fss.
Proof.
  induction 1 as [|rs fs rss fss -> HF IH]; intros Hm; constructor.
  - apply payload_copies; [done|]. intros m H. apply Hm. cbn. apply elem_of_app. by left.
  - apply IH. intros m H. apply Hm. cbn. apply elem_of_app. by right.
Qed.
Lemma keyed_msgs x ks (rss : list (list msg)) : Forall2 (fun k rs => exists n, y_conns (x_sys x) !! k.1 = Some n /\ rs `prefix_of` received k.2 n) ks rss -> forall m, m ∈ concat rss -> cmd_of m = MESSAGE.
Proof.
  induction 1 as [|k rs ks rss (n & Hn & Hp) HF IH]; intros m Hm; cbn in Hm; [by apply elem_of_nil in Hm|]. apply elem_of_app in Hm as [Hm|Hm]; [|by apply IH]. eapply received_msg. by eapply elem_of_prefix.
Qed.
Lemma keyed_sum x p ks (rss : list (list msg)) : Forall2 (fun k rs => exists n, y_conns (x_sys x) !! k.1 = Some n /\ rs `prefix_of` received k.2 n) ks rss ->
  pc p (concat rss) <= sum_list_with (fun k : nat * str => match y_conns (x_sys x) !! k.1 with Some n => pc p (received k.2 n) | None => 0 end) ks.
Proof.
  induction 1 as [|k rs ks rss (n & Hn & Hp) HF IH]; [done|]. cbn [concat sum_list_with]. rewrite pc_app, Hn. pose proof (prefix_pc p _ _ Hp). lia.
Qed.
(** At most once, unless given back. *)
Lemma takes_once cfg x subs fss : nreach cfg x -> NoDup subs -> Forall2 (taken_by x) subs fss ->
  exists parts : list (list msg), Forall2 (Forall2 copy_of) parts fss /\
  forall d m, is_queue d = true -> hget_of m h_destination = Some d -> times m (concat parts) <= 1 + times m (given_back (x_sys x)) /\ times m (concat parts) <= times m (attempts (x_sys x)).
Proof.
  intros Hr Hnd HF. destruct (takes_keys _ _ _ _ Hr Hnd HF) as (ks & rss & K1 & K2 & K3 & K4 & K5). exists rss. split; [apply copies_self; [done|by eapply keyed_msgs]|].
  intros d m Hq Hd. pose proof (ni_reach _ _ (nreach_inv _ _ Hr)) as Hs. pose proof (attempts_once _ _ _ _ Hs Hq Hd) as H1.
  destruct (received_sum _ _ (payload m) d ks Hs ltac:(by rewrite payload_dest) Hq K1) as [H2 _]. pose proof (keyed_sum _ (payload m) _ _ K4) as H3.
  rewrite !times_pc in *. cbn zeta in H2. lia.
Qed.

(* ---------------- exactly once ---------------- *)
Definition consumed_by (x : net) (d : str) (p : nat * nat) (fs : list frame) : Prop := exists f, consumes x p.1 p.2 f fs /\ hd_contains (f_hdr f) h_destination = Some d.
Lemma takes_fun x c s0 f f' fs fs' : takes x c s0 f fs -> takes x c s0 f' fs' -> f = f'.
Proof.
  intros (l & o & h & k & y & b & Hl & Hp & _ & (Hb & (r & id & rt & Hg & Ho) & _) & _) (l' & o' & h' & k' & y' & b' & Hl' & Hp' & _ & (Hb' & (r' & id' & rt' & Hg' & Ho') & _) & _). congruence.
Qed.
Lemma consumed_dest cfg x c s0 f fs m n d : rested cfg x -> consumes x c s0 f fs -> hd_contains (f_hdr f) h_destination = Some d -> y_conns (x_sys x) !! c = Some n -> m ∈ received (sub_key f) n -> hget_of m h_destination = Some d.
Proof.
  intros HR HC Hd Hn' Hm. pose proof HC as (l & n' & k & y & b & HH & (Hb & (r & id & rt & Hg & Ho) & Hre & Hso) & Hne & _).
  destruct (C77_streams _ _ _ _ _ _ _ HR HH) as (_ & _ & _ & E1 & E2 & E3 & _ & _). destruct HR as (Hr & HS & HP & HD). destruct HH as (Hl & Hn & (o & h & Hp) & Hph & Hok & Hlo & Hrc & Hwc & Hw).
  assert (n' = n) as -> by congruence. pose proof (nreach_inv _ _ Hr) as HI. pose proof (ni_client _ _ HI _ _ _ _ _ _ Hl Hp) as Hcr.
  assert (message_for (sub_key f) (g_frame m)) as Hk. { split; [by eapply received_msg|]. by apply elem_of_list_filter in Hm as [? _]. }
  assert (g_frame m ∈ client_read y) as Hin.
  { assert (g_frame m ∈ filter (message_for (sub_key f)) (server_sent n)) as [_ Hx]%elem_of_list_filter by (rewrite <-received_frames; by apply elem_of_list_fmap_1). rewrite <-E2, Hp in Hx. cbn in Hx. apply elem_of_cons in Hx as [E|?]; [|done]. exfalso.
    destruct Hk as [Hk _]. rewrite E, (hello_cmd _ _ _ _ _ _ _ _ Hr Hl Hp) in Hk. revert Hk. neq_lits. }
  destruct (read_asked _ _ _ _ _ _ _ _ _ _ (sub_key f) Hr Hl Hn Hp Hw Hin Hk) as (_ & _ & d' & f' & _ & _ & Hd1 & Hfs & Hsk & Hd2).
  apply in_wrote_in in Hfs as (q & w & Hq). destruct (sub_request _ _ _ _ _ _ _ _ Hcr Hq Hsk Hso) as [Hby Hqf].
  destruct (rq_ok _ (reach_req _ _ _ Hcr) q) as (r0 & Hg0 & Ho0 & _); [right; left; by eapply log_req_in|]. rewrite Hby, Hg in Hg0. injection Hg0 as <-. rewrite Ho, Hqf in Ho0. injection Ho0 as <-.
  unfold hget_of. congruence.
Qed.
Lemma split_payload (rss : list (list msg)) ms : payload <$> concat rss = payload <$> ms -> exists parts, concat parts = ms /\ Forall2 (fun rs part => payload <$> rs = payload <$> part) rss parts.
Proof.
  revert ms. induction rss as [|rs rss IH]; intros ms E; cbn in E.
  - symmetry in E. apply fmap_nil_inv in E as ->. exists []. by split; [|constructor].
  - rewrite fmap_app in E. symmetry in E. apply fmap_app_inv in E as (m1 & m2 & E1 & E2 & ->). destruct (IH m2) as (parts & <- & HF); [done|]. exists (m1 :: parts). split; [done|]. by constructor.
Qed.
Lemma pc_filter_dest p d (l : list msg) : pc p (filter (to_dest d) l) = if decide (hget_of p h_destination = Some d) then pc p l else 0.
Proof.
  destruct (decide _) as [E|E]; induction l as [|m l IH]; try done; rewrite filter_cons; destruct (decide (to_dest d m)) as [T|T]; unfold to_dest in T; rewrite ?(pc_cons p m (filter _ l)), ?(pc_cons p m l), ?IH; try done.
  - rewrite (pc_other p m d); [done|done|]. exact T.
  - unfold pc. cbn [fmap list_fmap]. rewrite cnt_0; [done|]. rewrite elem_of_list_singleton. intros ->. apply E. by rewrite payload_dest.
Qed.
Lemma consumes_exactly cfg x d subs fss : rested cfg x -> is_queue d = true -> NoDup subs -> Forall2 (consumed_by x d) subs fss ->
  (forall s sb, y_heap (x_sys x) !! s = Some sb -> s_dest sb = d -> s_ack sb = lit "auto" /\ exists p f fs, p ∈ subs /\ consumes x p.1 p.2 f fs /\ s_conn sb = p.1 /\ s_id sb = sub_key f) ->
  (exists s sb, y_heap (x_sys x) !! s = Some sb /\ s_dest sb = d) ->
  exists parts : list (list msg), Forall2 (Forall2 copy_of) parts fss /\ concat parts ≡ₚ filter (to_dest d) (sent (x_sys x)).
Proof.
  intros HR Hq Hnd HF Hall (s & sb & Hs & Hsd). pose proof HR as (Hr & HS & HP & HD). pose proof (nreach_inv _ _ Hr) as HI. pose proof (ni_reach _ _ HI) as Hsr. pose proof (reach_wf _ _ Hsr) as HW.
  assert (Forall2 (taken_by x) subs fss) as HF'. { eapply Forall2_impl; [done|]. intros p fs (f & Hc & _). exists f. by apply consumes_takes. }
  destruct (takes_keys _ _ _ _ Hr Hnd HF') as (ks & rss & K1 & K2 & K3 & K4 & K5).
  assert (Hfull : forall i k rs, ks !! i = Some k -> rss !! i = Some rs -> exists n, y_conns (x_sys x) !! k.1 = Some n /\ rs = received k.2 n /\ forall m, m ∈ rs -> hget_of m h_destination = Some d).
  { intros i k rs Hk Hrs. destruct (Forall2_lookup_lr _ _ _ _ _ _ K4 Hk Hrs) as (n & Hn & Hpre). destruct (Forall2_lookup_r _ _ _ _ _ K5 Hk) as (p & Hp & E1 & f & fs & Ht & E2).
    destruct (Forall2_lookup_l _ _ _ _ _ K3 Hrs) as (fs' & Hfs & Efs). destruct (Forall2_lookup_lr _ _ _ _ _ _ HF Hp Hfs) as (f' & Hc & Hd).
    assert (f' = f) as -> by (eapply takes_fun; [by apply consumes_takes|done]). rewrite E1 in Hc. pose proof (consumes_all _ _ _ _ _ _ _ HR Hc Hn) as Ea. rewrite <-E2 in Ea.
    assert (rs = received k.2 n) as Er. { rewrite Ea in Efs. apply (f_equal length) in Efs. rewrite !fmap_length in Efs. destruct Hpre as [z Ez]. rewrite Ez, app_length in Efs. destruct z; [by rewrite Ez, app_nil_r|cbn in Efs; lia]. }
    exists n. split_and!; [done|done|]. intros m Hm. rewrite Er, E2 in Hm. by eapply consumed_dest. }
  assert (Hdest : forall m, m ∈ concat rss -> hget_of m h_destination = Some d).
  { intros m Hm. apply elem_of_list_In, in_concat in Hm as (rs & H1 & H2). apply elem_of_list_In in H1, H2. apply elem_of_list_lookup in H1 as [i Hi]. destruct (Forall2_lookup_r _ _ _ _ _ K4 Hi) as (k & Hk & _).
    destruct (Hfull _ _ _ Hk Hi) as (_ & _ & _ & Hx). by apply Hx. }
  assert (Hauto : all_auto (x_sys x) d) by (intros t tb Ht Htd; by apply (Hall t tb)).
  assert (Hcount : forall p, pc p (concat rss) = pc p (filter (to_dest d) (sent (x_sys x)))).
  { intros p. destruct (decide (hget_of p h_destination = Some d)) as [Hpd|Hpd].
    2: { rewrite pc_filter_dest, decide_False by done. unfold pc. apply cnt_0. intros (m & -> & Hm)%elem_of_list_fmap. apply Hpd. rewrite payload_dest. by apply Hdest. }
    destruct (received_sum _ _ p d ks Hsr Hpd Hq K1) as [_ Hsum]. cbn zeta in Hsum.
    transitivity (sum_list_with (fun k : nat * str => match y_conns (x_sys x) !! k.1 with Some n => pc p (received k.2 n) | None => 0 end) ks).
    { assert (length rss = length ks) as El by (symmetry; by eapply Forall2_length). clear -Hfull El. revert ks El Hfull. induction rss as [|rs rss IH]; intros [|k ks] El Hfull; try done. cbn [concat sum_list_with]. rewrite pc_app.
      destruct (Hfull 0 k rs eq_refl eq_refl) as (n & Hn & -> & _). rewrite Hn. f_equal. apply IH; [by injection El|]. intros i. apply (Hfull (S i)). }
    rewrite Hsum.
    2: { intros t tb Ht Htd. destruct (Hall _ _ Ht Htd) as (_ & q & f & fs & Hin & Hc & E1 & E2). apply elem_of_list_lookup in Hin as [i Hi]. destruct (Forall2_lookup_l _ _ _ _ _ K5 Hi) as ([kc kid] & Hk & F1 & f' & fs' & Ht' & F2). cbn in F1, F2.
         assert (f' = f) as -> by (eapply takes_fun; [done|by apply consumes_takes]). eapply elem_of_list_lookup_2. rewrite Hk. f_equal. f_equal; congruence. }
    rewrite (auto_exact _ _ _ _ Hsr Hpd Hauto).
    destruct (settled_quiet _ _ Hr HS HP HD) as (Q1 & Q2 & HQ). assert (RestSpec.at_rest (x_sys x)) as Hrest by (split_and!; [done|done|apply Forall_lookup; intros c n; apply HQ]).
    pose proof (rest_whereabouts _ d _ _ _ Hsr (keeps_in _ HW) Hrest) as Hwh. pose proof (conservation _ _ _ Hsr Hq) as Hcons. rewrite Hwh in Hcons.
    assert (waiting (y_broker (x_sys x)) d = []) as Hwait.
    { destruct (Hall _ _ Hs Hsd) as (Ha & q & f & fs & Hin & Hc & E1 & E2). pose proof Hc as (l & n & k & y & b & (Hl & Hn & _ & Hph & _) & _). rewrite <-E1 in Hn.
      rewrite <-Hsd. destruct (HQ _ _ Hn) as (W1 & [W2|(_ & _ & _ & _ & W3)]); [congruence|]. rewrite <-E1 in Hc. eapply work_auto; try done; [|by rewrite Hsd]. by eapply live_stays. }
    rewrite Hwait in Hcons. cbn [app] in Hcons. transitivity (pc p (filter (to_dest d) (unacked (ack_in (x_sys x)) (x_sys x) ++ stranded (x_sys x) ++ y_fin (x_sys x) ++ y_lost (x_sys x)))).
    2: { unfold pc. symmetry. by apply perm_cnt. }
    rewrite pc_filter_dest, decide_True by done. rewrite !pc_app.
    assert (pc p (unacked (ack_in (x_sys x)) (x_sys x)) = 0) as ->.
    { unfold unacked. rewrite concat_pc. assert (forall c n, y_conns (x_sys x) !! c = Some n -> pc p (match n_phase n with Running => omap (holds (y_heap (x_sys x))) (outstanding (ack_in (x_sys x)) (n_log n)) | _ => [] end) = 0) as Hz.
      { intros c n Hn. destruct (n_phase n) eqn:Hph; try done. rewrite <-(run_outstanding _ _ _ _ _ _ Hsr Hn Hph (keeps_in _ HW)). by eapply kept_other. }
      clear -Hz. induction (y_conns (x_sys x)) as [|n ns IH]; [done|]. cbn [fmap list_fmap sum_list_with]. rewrite (Hz 0 n) by done. apply IH. intros c n' Hn'. by apply (Hz (S c)). }
    assert (pc p (stranded (x_sys x)) = 0) as ->.
    { unfold stranded. rewrite concat_pc. assert (forall c n, y_conns (x_sys x) !! c = Some n -> pc p (match n_phase n with Dead => omap (holds (y_heap (x_sys x))) (n_sub n) | _ => [] end) = 0) as Hz.
      { intros c n Hn. destruct (n_phase n) eqn:Hph; try done. eapply hm_other; [done|done|]. intros t tb Ht Hh Htd. destruct (co_sub _ _ _ (wf_conns _ HW _ _ Hn) _ Ht) as [(tb' & G1 & G2) _]. assert (tb' = tb) as -> by congruence.
        destruct (Hall _ _ Hh Htd) as (_ & q & f & fs & _ & (l & n' & k & y & b & (_ & Hn' & _ & Hph' & _) & _) & E1 & _). congruence. }
      clear -Hz. induction (y_conns (x_sys x)) as [|n ns IH]; [done|]. cbn [fmap list_fmap sum_list_with]. rewrite (Hz 0 n) by done. apply IH. intros c n' Hn'. by apply (Hz (S c)). }
    unfold finished. rewrite pc_app. lia. }
  assert (payload <$> concat rss ≡ₚ payload <$> filter (to_dest d) (sent (x_sys x))) as Hperm by (apply cnt_perm; exact Hcount).
  apply Permutation_map_inv in Hperm as (ms & E & Hms). destruct (split_payload _ _ E) as (parts & <- & HP2). exists parts. split; [|by symmetry].
  assert (Hmsg : forall m, m ∈ concat rss -> cmd_of m = MESSAGE) by (by eapply keyed_msgs). clear -K3 HP2 Hmsg. revert fss K3. induction HP2 as [|rs part rss parts Ep HP2 IH]; intros fss K3; inversion K3 as [|? fs ? fss' Ef K3']; subst; constructor.
  - apply payload_copies; [done|]. intros m Hm. apply Hmsg. cbn. apply elem_of_app. by left.
  - apply IH; [|done]. intros m Hm. apply Hmsg. cbn. apply elem_of_app. by right.
Qed.
