(** Every call that asked for a receipt has it when nothing happens any more. *)
From stdpp Require Import gmap.
From Verif Require Import GoBase GoBaseProofs HeaderModel HeaderProofs FrameModel GrammarSpec CodecProofs NegotiationModel NegotiationLemmas ClientApiModel ClientModel ClientSpec ClientLemmas ClientProofs ClientCalls ClientRequests ClientChannels
  ClientReceipts ClientDelivery ClientLive ClientMessages ClientRouting ClientReady ClientEnd ClientFinal ClientClosing ClientAnswered ClientRestSpec ClientRest.
From Verif Require Import BrokerModel BrokerSpec ServerConnModel ServerConnSpec ServerConnProofs SystemModel SystemSpec SystemLemmas SystemHistory SystemProofs FlowSpec RestSpec RestProofs PeerSpec PeerProofs RefusalSpec RefusalProofs
  FlowProofs NetModel NetSpec NetLinks NetProofs NetTopics NetRestSpec NetRest NetSettled.

Definition receipt_of (id : str) (f : frame) : Prop := f_cmd f = RECEIPT /\ hd_contains (f_hdr f) h_receipt_id = Some id.
Definition receipt_for (id : str) (f : frame) : Prop := hd_contains (f_hdr f) h_receipt = Some id /\ ServerConnSpec.answers (f_cmd f) = true.
Lemma receipts_first cfg x : nreach cfg x -> forall c l o h k y, x_links x !! c = Some l -> l_peer l = PeerClient o h k y -> Forall writable (peer_sent (l_peer l)) -> first_of_two receipt_of receipt_for y.
Proof.
  intros Hr. apply (nreach_first _ _ _ _ Hr). clear. intros x c l n o h k y f id Hr Hl Hn Hp Hw Hf [Hc Hid].
  destruct (receipt_of_call _ _ _ _ _ _ _ _ _ _ _ Hr Hl Hn Hp Hw Hf Hc Hid) as (g & r & f' & _ & _ & H1 & H2 & H3). exists f'. split; [done|]. by split.
Qed.
Lemma answers_plain f : ServerConnSpec.answers (f_cmd f) = true -> f_cmd f <> UNSUBSCRIBE /\ f_cmd f <> SUBSCRIBE /\ f_cmd f <> CONNECT /\ f_cmd f <> STOMP.
Proof. intros H. split_and!; intros E; rewrite E in H; vm_compute in H; done. Qed.
Lemma answered_outgoing f : ServerConnSpec.answers (f_cmd f) = true -> outgoing f = f /\ local_only f = false.
Proof.
  intros (H1 & H2 & _)%answers_plain. unfold outgoing, local_only. rewrite decide_False by done. split; [done|]. by rewrite !bool_decide_eq_false_2 by done.
Qed.

(** While the connection lasts. *)
Lemma ended_stays cfg y a y' : cmv cfg y a y' -> ended (c_p y) = true -> ended (c_p y') = true.
Proof.
  intros Hm He. destruct (cmv_pmove _ _ _ _ Hm) as [E1 E2 E3|txt H0 E1 E2 E3|o H0 E1 E2 E3 Hi|f0 txt H0 Hf Hr0 E1 E2 E3|f0 H0 Hf E1 E2 E3|f0 id0 kk c H0 Hro Hk Hh E1 E2 E3|q0 l w0 txt H0 Hw Hl0 E1 E2 E3|q0 l H0 Hw Hl0 Hu E1 E2 E3|q0 l c H0 Hw Hl0 Hc Hu Hh E1 E2 E3|i f0 rest err kk c H0 Hi Hh E1 E2 E3|c f0 kk H0 E1 E2 E3|f0 err H0 E1 E2 E3|err H0 E1 E2 E3];
    try (by rewrite H0 in He); try (by rewrite E1).
  - rewrite H0 in He. rewrite E1. by destruct kk.
  - by destruct E1 as [->| ->].
Qed.
Lemma send_result A cfg y : creach A cfg y -> c_closed y = false -> ended (c_p y) = false -> forall g r f v, c_gs y !! g = Some r -> g_op r = OSend (Some f) -> g_pc r = GDone v ->
  v = RNil \/ v = RErr ESendTimeout /\ k_msg_to cfg = true \/ v = RErr EReceiptTimeout /\ k_rcv_to cfg = true \/
  exists fr id, v = RErr (EResponse fr) /\ routes fr id KMessage /\ PvIn (Some fr) ∈ c_log y /\ ClientSpec.names f id.
Proof.
  induction 1 as [|y a y' Hr IH Ha Hs]; [done|]. intros Hc He g r' f v Hg Hop Hd. apply cstep_cmv in Hs as Hm.
  assert (c_closed y = false) as Hc0. { destruct (c_closed y) eqn:E; [|done]. by rewrite (cmv_closed _ _ _ _ Hm E) in Hc. }
  assert (ended (c_p y) = false) as He0. { destruct (ended (c_p y)) eqn:E; [|done]. by rewrite (ended_stays _ _ _ _ Hm E) in He. }
  assert (Hmono : forall e, e ∈ c_log y -> e ∈ c_log y') by (intros e Hx; destruct (pmove_log _ _ (cmv_pmove _ _ _ _ Hm)) as [->|[e' ->]]; [done|by apply in_snoc]).
  destruct (cmv_sent _ _ _ _ _ _ _ _ Hm (reach_calls _ _ _ Hr) Hg Hop Hd) as [Hg0|[[-> _]|[[? _]|[[-> ?]|[[-> ?]|(r & ch & fr & k & w & h & -> & Hnr & Hp & Hg0 & Eo & Hpc & Hh & Hown)]]]]]; [|by left|congruence|by right; left|by right; right; left|].
  - destruct (IH Hc0 He0 _ _ _ _ Hg0 Hop Hd) as [?|[?|[?|(fr & id & E & Hro & Hin & Hnm)]]]; [by left|by right; left|by right; right; left|]. do 3 right. exists fr, id. auto.
  - do 3 right. pose proof (reach_map _ _ _ Hr) as HM. pose proof (reach_req _ _ _ Hr) as HR.
    destruct (mi_send _ HM _ _ _ Hp) as [(f' & rest & err & ->)|(id & l & El & Hro & Hmap & q & wr & Hq & Hqc & Hn)]; [by rewrite Hp in He0|].
    assert (PvReq q wr ∈ c_log y) as Hql by (rewrite El; by apply in_snoc).
    destruct (rq_ok _ HR q) as (rq & Hrq & Hf & Hs1 & Hch); [right; left; by eapply log_req_in|]. destruct (Hch _ Hqc) as (h' & Hh' & Hown'). assert (h' = h) as -> by congruence.
    assert (is_subscribe (g_op rq) = false) as Hns by (destruct (is_subscribe (g_op rq)); [destruct Hown' as (s & b & E & _); congruence|done]).
    rewrite Hns in *. assert (q_by q = g) as Eby by congruence. rewrite Eby in Hrq. assert (rq = r) as -> by congruence. rewrite Eo, Hop in Hf. cbn in Hf. injection Hf as ->.
    exists fr, id. split_and!; [done| | |done].
    + destruct Hro as [i Hx ?|i Hx ?]; [by rewrite Hx in Hnr|by constructor].
    + apply Hmono. rewrite El. apply elem_of_app. right. left.
Qed.

Section answered.
  Context (cfg : scfg) (x : net) (Hr : nreach cfg x) (HS : nsettled cfg x) (HP : ~ npanics cfg x) (HD : ~ deadlocked (x_sys x)).
  Context (c : nat) (l : link) (n : sconn) (o : copts) (h : frame) (k : ccfg) (y : cl).
  Context (Hl : x_links x !! c = Some l) (Hn : y_conns (x_sys x) !! c = Some n) (Hp : l_peer l = PeerClient o h k y).
  Context (Hph : n_phase n = Running) (Hok : l_ok l = true) (Hlo : c_p y = PLoop) (Hrc : 0 < k_rcap k) (Hw : Forall writable (peer_sent (l_peer l))) (HA : apart (c_gs y)).
  Local Definition HI := nreach_inv _ _ Hr.
  Local Definition HC : creach anything k y := ni_client _ _ HI _ _ _ _ _ _ Hl Hp.

  Lemma frame_taken f : f ∈ client_wrote y -> exists m, g_frame m = f /\ m ∈ omap accepted (n_log n).
  Proof.
    intros Hf. destruct (settled_up _ _ Hr HS HP HD _ _ _ Hl Hn Hph) as [_ Hg]; [by rewrite Hp|rewrite Hp; cbn; by rewrite Hlo|done|].
    assert (f ∈ server_got n) as Hf' by (rewrite Hg, Hp; by right). destruct (settled_quiet _ _ Hr HS HP HD) as (_ & _ & HQ). destruct (HQ _ _ Hn) as (_ & [Hq|(_ & Q1 & _)]); [congruence|].
    unfold server_got in Hf'. rewrite Q1, app_nil_r in Hf'. apply elem_of_list_fmap in Hf' as (m & -> & Hm). exists m. split; [done|].
    destruct (conn_history _ _ (ni_reach _ _ HI) _ _ (keeps_in _ (reach_wf _ _ (ni_reach _ _ HI))) _ _ Hn) as (kk & st & Hx & Hst & _). destruct (Hst Hph) as [-> _].
    by rewrite frames_accepted in Hm by (by eapply all_accepted).
  Qed.
  Lemma receipt_back f id : f ∈ client_wrote y -> receipt_for id f -> exists rc, receipt_of id rc /\ PvIn (Some rc) ∈ c_log y.
  Proof.
    intros Hf [Hid Hans]. destruct (frame_taken _ Hf) as (m & <- & Hm).
    destruct (conn_history _ _ (ni_reach _ _ HI) _ _ (keeps_in _ (reach_wf _ _ (ni_reach _ _ HI))) _ _ Hn) as (kk & st & Hx & Hst & _). destruct (Hst Hph) as [-> _].
    apply receipts_exact in Hx. apply elem_of_list_omap in Hm as (e & He & Ha).
    assert ((g_uid m, Some id) ∈ (fun rc => (g_uid rc, receipt_id_of rc)) <$> frames_with RECEIPT (wire (n_log n))) as Hin.
    { rewrite Hx. apply elem_of_list_omap. exists e. split; [done|]. unfold asked. rewrite Ha. unfold cmd_of. rewrite Hans. unfold hget_of. change (lit "receipt") with h_receipt. by rewrite Hid. }
    apply elem_of_list_fmap in Hin as (rc & E & Hin). injection E as _ E. unfold frames_with in Hin. apply elem_of_list_omap in Hin as ([o0 w] & Hwr & E').
    destruct o0 as [m0|]; [|done]. cbn in E'. destruct (bool_decide _) eqn:Hb; [|done]. injection E' as ->. apply bool_decide_eq_true in Hb. exists (g_frame rc). split; [by split|].
    assert (g_frame rc ∈ server_sent n) as Hs by (unfold server_sent; apply elem_of_list_fmap_1, elem_of_list_omap; by exists (Some rc, w)).
    destruct (settled_down _ _ Hr HS HP _ _ _ _ _ _ _ Hl Hn Hp Hlo Hrc Hok) as [_ Hd]. destruct (settled_loop _ _ HS HP _ _ _ _ _ _ Hl Hp Hlo) as (E1 & _).
    rewrite Hd, Hp in Hs. cbn [peer_got] in Hs. apply elem_of_cons in Hs as [Hs|Hs].
    - exfalso. destruct (nreach_peer _ _ Hr _ _ Hl) as [_ Hh]. rewrite Hp in Hh. destruct Hh as (cc & rest & Hh & _). cbn [client_connect] in Hh. destruct (decide (f_cmd h = CONNECTED)) as [Ec|]; [|done].
      rewrite <-Hs in Ec. unfold cmd_of in Hb. rewrite Hb in Ec. revert Ec. neq_lits.
    - unfold client_read in Hs. rewrite E1, app_nil_r in Hs. apply elem_of_list_omap in Hs as (ev & Hev & Eev). destruct ev as [q0 w0|o0|]; try done. by subst o0.
  Qed.
  Lemma settled_answered g r w ch f id : c_gs y !! g = Some r -> g_pc r = GWait w ch -> op_frame (g_op r) = Some f -> receipt_for id f -> sole (c_gs y) g id -> False.
  Proof.
    intros Hg Hpc Hf Hid Hsole. destruct (answered_outgoing _ (proj2 Hid)) as [Eo El].
    destruct (wait_req _ _ _ HC _ _ _ _ Hg Hpc) as (q & Hq & Hby & Hch). destruct (settled_loop _ _ HS HP _ _ _ _ _ _ Hl Hp Hlo) as (E1 & _ & E3 & _).
    unfold allr in Hq. rewrite E3, app_nil_r in Hq. pose proof Hq as Hq0. unfold log_reqs in Hq. apply elem_of_list_omap in Hq as ([q2 x0|?|? ?] & Hq & E2); try done. injection E2 as ->.
    destruct (rq_ok _ (reach_req _ _ _ HC) q) as (r' & Hr' & Hfr & _); [right; by left|]. rewrite Hby in Hr'. assert (r' = r) as -> by congruence. assert (q_frame q = f) as Eq by congruence.
    pose proof (mi_wr _ (reach_map _ _ _ HC) _ _ Hq) as Hx0. destruct x0 as [[fr w0]|]; [|rewrite Eq in Hx0; congruence]. destruct Hx0 as [-> _]. rewrite Eq, Eo in Hq.
    assert (f ∈ client_wrote y) as Hwr. { unfold client_wrote, wrote_in. apply elem_of_list_omap. eauto. }
    destruct (receipt_back _ _ Hwr Hid) as (rc & [Hrc1 Hrc2] & Hin).
    apply elem_of_list_split in Hin as (l1 & l2 & Elog).
    destruct (proj1 (receipts_first _ _ Hr _ _ _ _ _ _ Hl Hp Hw) _ _ _ _ Elog ltac:(by split)) as (f1 & Hf1 & Hid1 & Hans1).
    apply in_wrote_in in Hf1 as (q1 & w1 & Hq1). pose proof Hq1 as Hq1'. apply (elem_of_prefix _ _ (c_log y)) in Hq1'; [|rewrite Elog; by apply prefix_app_r].
    destruct (mi_wr _ (reach_map _ _ _ HC) _ _ Hq1') as [Ef1 _]. assert (q_frame q1 = f1) as Eq1.
    { unfold outgoing in Ef1. destruct (decide _) as [Hu|]; [|done]. exfalso. apply answers_plain in Hans1 as (Hx & _). apply Hx. by rewrite Ef1. }
    destruct (rq_ok _ (reach_req _ _ _ HC) q1) as (r1 & Hr1 & Hfr1 & _); [right; left; by eapply log_req_in|].
    assert (q_by q1 = g) as Hby1 by (eapply Hsole; [exact Hr1|exact Hfr1|left; by rewrite Eq1]).
    assert (q1 = q) as ->. { eapply one_req; [exact HC| | |congruence]; apply elem_of_app; left; [by eapply log_req_in|done]. }
    apply elem_of_list_split in Hq1 as (la & lb & ->). rewrite <-app_assoc in Elog. cbn [app] in Elog.
    assert (c_p y = PSend ch rc (KReceipt id)) as Hx; [|congruence].
    eapply (receipt_taken _ _ _ HC HA g r); try done; [|by rewrite Eq; apply Hid].
    pose proof (reach_ops _ _ _ HC _ _ Hg) as Hop. destruct (g_op r) as [fo|f0|[[[f0 i0] rt]|]|s0 f0|rid|]; try done. exfalso. cbn in Hf, Hop. injection Hf as ->. apply bool_decide_eq_true in Hop.
    by destruct (answers_plain _ (proj2 Hid)) as (_ & ? & _).
  Qed.

  (** Calls at rest. *)
  Context (Hwc : 0 < k_wcap k) (HU : real_subs y).
  Context (HN : forall g r f id, c_gs y !! g = Some r -> op_frame (g_op r) = Some f -> hd_contains (f_hdr f) h_receipt = Some id -> sole (c_gs y) g id).
  Context (HF : forall g r f, c_gs y !! g = Some r -> g_op r = OFrame f -> ServerConnSpec.answers (f_cmd f) = true).
  Lemma waits_unsub g r w ch : c_gs y !! g = Some r -> g_pc r = GWait w ch -> exists s, w = FFrame (Some s) /\ exists f, g_op r = OUnsub s (Some f).
  Proof.
    intros Hg Hpc. pose proof (reach_calls _ _ _ HC _ _ Hg) as Hk. rewrite Hpc in Hk. destruct Hk as [(f & Hk & Hwa) Hs].
    assert (Hgo : op_frame (g_op r) = Some f -> ServerConnSpec.answers (f_cmd f) = true -> False).
    { intros Hf Ha. unfold wants_receipt in Hwa. destruct (hd_contains (f_hdr f) h_receipt) as [id|] eqn:Hid; [|done]. eapply (settled_answered g r w ch f id); try done. by eapply HN. }
    pose proof (reach_ops _ _ _ HC _ _ Hg) as Hop. destruct w as [|[s|]|s|]; cbn [kind_ok] in Hk; [exfalso|by eauto|exfalso|done|exfalso].
    - apply Hgo; [by rewrite Hk|]. rewrite Hk in Hop. cbn in Hop. apply bool_decide_eq_true in Hop. by rewrite Hop.
    - apply Hgo; [by rewrite Hk|by eapply HF].
    - destruct Hk as (rid & Hk & ->). apply Hgo; [by rewrite Hk|done].
  Qed.
  Lemma unlocked : c_mut y = None.
  Proof.
    destruct (c_mut y) as [g|] eqn:Em; [|done]. exfalso. pose proof (reach_lock _ _ _ HC) as HL. destruct (lk_dom _ HL _ Em) as [r Hg]. pose proof (proj2 (lk_mut _ HL _ _ Hg) Em) as Hk.
    destruct (settled_loop _ _ HS HP _ _ _ _ _ _ Hl Hp Hlo) as (_ & _ & E3 & E4).
    destruct (g_pc r) as [| |w q|w ch| | | | | | |] eqn:Hpc; try done.
    - assert (cstep k y (XRun g) = None) as Hru by by eapply settled_client. cbn in Hru. unfold do_run in Hru. rewrite Hg, Hpc in Hru. unfold do_put in Hru. by rewrite E4, E3, decide_True in Hru by done.
    - destruct (waits_unsub _ _ _ _ Hg Hpc) as (s & -> & _). done.
  Qed.
  Lemma settled_calls g r : c_gs y !! g = Some r -> (exists v, g_pc r = GDone v) \/ exists s f, g_op r = OUnsub s (Some f) /\ ((exists ch, g_pc r = GWait (FFrame (Some s)) ch) \/ g_pc r = GBlocked s).
  Proof.
    intros Hg. pose proof (settled_rest _ _ HS HP _ _ _ _ _ _ Hl Hp) as HR. destruct (reach_closing _ _ _ HC) as [HPc HCl]. pose proof unlocked as Em.
    assert (NR : do_run (calmer k) y g = None) by (apply (HR (XRun g)); done). unfold do_run in NR. rewrite Hg in NR. pose proof (reach_calls _ _ _ HC _ _ Hg) as Hk.
    assert (HSb : forall s, unsubbing s (g_pc r) -> exists b, c_subs y !! s = Some b) by (intros s Hx; exact (HPc _ _ _ Hg Hx)).
    destruct (g_pc r) as [|u f|w q|w ch|s cc v|s v|s|s|s|s|v] eqn:Ep; [| | | | | | | | | |by left; eexists].
    - exfalso. unfold do_start in NR. rewrite Em in NR.
      destruct (g_op r) as [f|f|f|s f|rid|] eqn:Eo; try done; try (repeat (case_match; try done); done).
      destruct (HU _ _ _ _ Hg Eo) as [b Hb]. rewrite Hb in NR. repeat (case_match; try done).
    - exfalso. unfold do_frame in NR. rewrite Em in NR. by destruct (c_closed y).
    - exfalso. assert (c_mut y = Some g) as Em' by (apply (lk_mut _ (reach_lock _ _ _ HC) _ _ Hg); rewrite Ep; done). congruence.
    - right. destruct (waits_unsub _ _ _ _ Hg Ep) as (s & -> & f & Hf). exists s, f. split; [done|]. left. by exists ch.
    - exfalso. destruct (HSb s) as [b Hb]; [done|]. eapply (rest_close _ _ _ _ HC HR); [exact Hb|]. by eapply (call_close _ _ HR).
    - exfalso. destruct (HSb s) as [b Hb]; [done|]. rewrite Hb in NR. by destruct (b_state b).
    - exfalso. destruct (HSb s) as [b Hb]; [done|]. by rewrite Hb in NR.
    - right. cbn in Hk. destruct Hk as [f Hk]. exists s, f. split; [done|]. by right.
    - exfalso. destruct (HSb s) as [b Hb]; [done|]. rewrite Hb in NR. by destruct (b_state b).
    - exfalso. destruct (HSb s) as [b Hb]; [done|]. rewrite Hb in NR. destruct (rest_put _ _ HR b s (CmErr None) Hb) as [v Hx]. rewrite Hx in NR. by destruct v.
  Qed.
  (** Send has returned nil, but for timeouts. *)
  Lemma settled_send g r f : c_gs y !! g = Some r -> g_op r = OSend (Some f) -> c_closed y = false ->
    exists v, g_pc r = GDone v /\ (v = RNil \/ v = RErr ESendTimeout /\ k_msg_to k = true \/ v = RErr EReceiptTimeout /\ k_rcv_to k = true).
  Proof.
    intros Hg Hop Hcl. destruct (settled_calls _ _ Hg) as [[v Hv]|(s & f0 & E & _)]; [|congruence]. exists v. split; [done|].
    destruct (send_result _ _ _ HC Hcl) with (g := g) (r := r) (f := f) (v := v) as [?|[?|[?|(fr & id & -> & Hro & Hin & Hnm)]]]; try done; [by rewrite Hlo|by left|by right; left|by right; right|]. exfalso.
    inversion Hro as [|? Hfc Hfi]. subst. pose proof (reach_ops _ _ _ HC _ _ Hg) as Hop'. rewrite Hop in Hop'. cbn in Hop'. apply bool_decide_eq_true in Hop'.
    assert (hd_contains (f_hdr f) h_receipt = Some id) as Hid. { destruct Hnm as [?|[Hx _]]; [done|]. rewrite Hop' in Hx. exfalso. revert Hx. neq_lits. }
    assert (sole (c_gs y) g id) as Hsole by (eapply HN; [exact Hg|by rewrite Hop|done]).
    destruct (read_asked _ _ _ _ _ _ _ _ _ fr id Hr Hl Hn Hp Hw) as (_ & _ & _ & fs & _ & _ & _ & Hfs & Hsk & _); [by apply in_client_read|by split|].
    apply in_wrote_in in Hfs as (q & w & Hq). destruct (sub_request _ _ _ _ _ _ _ _ HC Hq Hsk Hsole) as [Hby Hqf].
    destruct (rq_ok _ (reach_req _ _ _ HC) q) as (r1 & Hr1 & Hfr1 & _); [right; left; by eapply log_req_in|]. rewrite Hby in Hr1. assert (r1 = r) as -> by congruence. rewrite Hop in Hfr1. cbn in Hfr1.
    injection Hfr1 as E. destruct Hsk as [Hsk _]. rewrite <-Hqf, <-E, Hop' in Hsk. revert Hsk. neq_lits.
  Qed.
  (** What it sent has been given to the processor. *)
  Lemma settled_wrote g r f : c_gs y !! g = Some r -> g_op r = OSend (Some f) -> g_pc r = GDone RNil -> f ∈ client_wrote y.
  Proof.
    intros Hg Hop Hd. destruct (send_asked _ _ _ HC _ _ _ Hg Hop Hd) as (q & Hq & Hby & Hf). destruct (settled_loop _ _ HS HP _ _ _ _ _ _ Hl Hp Hlo) as (_ & _ & E3 & _).
    pose proof (reach_ops _ _ _ HC _ _ Hg) as Hop'. rewrite Hop in Hop'. cbn in Hop'. apply bool_decide_eq_true in Hop'. destruct (answered_outgoing f) as [Eo El]; [by rewrite Hop'|].
    unfold allr in Hq. rewrite E3, app_nil_r in Hq. unfold log_reqs in Hq. apply elem_of_list_omap in Hq as ([q2 x0|?|? ?] & Hq & E2); try done. injection E2 as ->.
    pose proof (mi_wr _ (reach_map _ _ _ HC) _ _ Hq) as Hx0. destruct x0 as [[fr w0]|]; [|rewrite Hf in Hx0; congruence]. destruct Hx0 as [-> _]. rewrite Hf, Eo in Hq.
    unfold client_wrote, wrote_in. apply elem_of_list_omap. eauto.
  Qed.
  Lemma settled_published f : f ∈ client_wrote y -> f_cmd f = SEND -> hd_contains (f_hdr f) (lit "transaction") = None ->
    exists m, g_frame m = f /\ delivered m ∈ client_sent n /\ delivered m ∈ enqueues (y_blog (x_sys x)).*1.
  Proof.
    intros Hf Hc Ht. destruct (frame_taken _ Hf) as (m & Ef & Hm). exists m. split; [done|].
    assert (Hs : delivered m ∈ client_sent n).
    { apply elem_of_list_omap in Hm as (e & He & Hacc). apply elem_of_list_split in He as (pre & post & El).
      destruct (conn_history _ _ (ni_reach _ _ HI) _ _ (keeps_in _ (reach_wf _ _ (ni_reach _ _ HI))) _ _ Hn) as (cs & st & Hx & _). rewrite El in Hx.
      pose proof (enqueue_due _ _ _ _ _ _ _ _ _ Hx) as Hdue. unfold due in Hdue. rewrite Hacc in Hdue. unfold hget_of at 1 in Hdue. rewrite Ef, Ht in Hdue.
      unfold sends in Hdue. cbn in Hdue. rewrite decide_True in Hdue by (unfold cmd_of; by rewrite Ef). unfold client_sent. rewrite El, fmap_app, concat_app. cbn. rewrite Hdue. apply elem_of_app. right. left. }
    split; [done|]. destruct (settled_quiet _ _ Hr HS HP HD) as (Q1 & _ & HQ). destruct (HQ _ _ Hn) as [Q2 _].
    pose proof (or_eq _ (reach_ordered _ _ (ni_reach _ _ HI)) _ _ Hn) as E. rewrite Q2 in E. cbn in E. rewrite app_nil_r in E. rewrite <-E in Hs. apply elem_of_list_filter in Hs as [_ Hs].
    unfold handed in Hs. by rewrite Q1, app_nil_r in Hs.
  Qed.
End answered.
