(** The whole when nothing happens any more. *)
From stdpp Require Import gmap.
From Verif Require Import GoBase GoBaseProofs HeaderModel HeaderProofs FrameModel GrammarSpec CodecProofs NegotiationModel ClientApiModel ClientModel ClientSpec ClientLemmas ClientProofs ClientRequests ClientChannels ClientReceipts ClientDelivery
  ClientRestSpec ClientRest.
From Verif Require Import BrokerModel BrokerSpec ServerConnModel ServerConnSpec ServerConnProofs SystemModel SystemSpec SystemLemmas SystemHistory SystemProofs FlowSpec RestSpec RestProofs PeerSpec PeerProofs RefusalSpec RefusalProofs
  NetModel NetSpec NetLinks NetProofs NetTopics NetRestSpec NetRest.

(** The same client without timeouts. *)
Definition calmer (k : ccfg) : ccfg := mkCcfg (k_rcap k) (k_wcap k) false false false false (k_read_to k) false.
Lemma calm_step k y a : eager a -> cstep (calmer k) y a = cstep k y a.
Proof. intros ((Hw & H1 & H2) & H3). destruct a as [o|g|g|f| | |w| |w|i| | |s|s]; try done; [by destruct (H3 g)|by destruct w]. Qed.
Lemma calm_timeout k y g : cstep (calmer k) y (XTimeout g) = None.
Proof. cbn. unfold do_timeout. destruct (c_gs y !! g) as [r|]; [|done]. destruct (g_pc r) as [| |[]|[]| | | | | | |]; done. Qed.

Lemma all_accepted cfg cid id_of ack_of log c : cexec cfg cid id_of ack_of log c false -> forall e, e ∈ log -> v_stop e = false.
Proof.
  intros H e He. apply elem_of_list_split in He as (pre & post & ->). destruct post as [|e' post].
  - apply cexec_last in H as (c0 & hp & nx & w1 & w2 & o & _ & _ & _ & _ & _ & E & _ & E'). rewrite E. cbn. by symmetry.
  - rewrite cons_middle, app_assoc in H. eapply (before_accepted _ _ _ _ _ _ _ _ _ H). apply elem_of_app. right. left.
Qed.
Lemma first_answered cfg cid id_of ack_of log c m : cexec cfg cid id_of ack_of log c false -> frames_of log = [m] -> exists f, f ∈ (g_frame <$> omap fst (wire log)).
Proof.
  intros Hx Hfr. assert (m ∈ frames_of log) as Hm by (rewrite Hfr; left). unfold frames_of in Hm. apply elem_of_list_omap in Hm as (e & He & Hem).
  pose proof (all_accepted _ _ _ _ _ _ Hx e He) as Hs. apply elem_of_list_split in He as (pre & post & ->).
  destruct (cexec_event _ _ _ _ _ _ _ _ _ Hx) as (c0 & hp & nx & w1 & w2 & o & H1 & _ & _ & H4 & _ & H6 & _).
  unfold client_frame in Hem. destruct (v_in e) as [m'| | | |] eqn:Hin; try done. injection Hem as ->.
  pose proof (frame_writes _ _ _ _ _ _ _ _ _ (cexec_tx_ok _ _ _ _ _ _ _ H1) H4) as Hw. rewrite H6 in Hs. cbn in Hs. rewrite Hs in Hw.
  destruct Hw as [[Hk _]|(_ & r & _ & _ & Hw)].
  - exfalso. apply (established_iff _ _ _ _ _ _ _ H1) in Hk as (e1 & m1 & He1 & Ha). unfold frames_of in Hfr. rewrite omap_app in Hfr. cbn in Hfr. unfold client_frame in Hfr at 2. rewrite Hin in Hfr.
    assert (m1 ∈ omap client_frame pre) as Hm1. { apply elem_of_list_omap. exists e1. split; [done|]. unfold accepted in Ha. by destruct (v_stop e1). }
    destruct (omap client_frame pre) as [|? []]; [by apply elem_of_nil in Hm1|done|done].
  - exists (sc_response r). change (sc_response r) with (g_frame (mkMsg (g_uid m) (sc_response r))). apply elem_of_list_fmap_1. apply elem_of_list_omap. eexists (_, w1). split; [|done].
    unfold wire. rewrite fmap_app, concat_app. apply elem_of_app. right. cbn. apply elem_of_app. left. rewrite H6. cbn. rewrite Hw. left.
Qed.

Section settled.
  Context (cfg : scfg) (x : net) (Hr : nreach cfg x) (HS : nsettled cfg x) (HP : ~ npanics cfg x).
  Local Definition HI := nreach_inv _ _ Hr.

  Lemma settled_client c l o h k y : x_links x !! c = Some l -> l_peer l = PeerClient o h k y -> forall a, eager a -> cstep k y a = None.
  Proof.
    intros Hl Hp a Ha. assert (Hn : nstep cfg x (NClient c a 0) = None). { apply HS. destruct Ha as [Ha Ht]. split; [done|]. destruct a; try done. by apply (Ht g). }
    cbn [nstep] in Hn. unfold net_client in Hn. rewrite Hl, Hp in Hn. destruct (cstep k y a) as [[p|y']|] eqn:E; [| |done].
    - exfalso. apply HP. right. destruct Ha. eauto 12.
    - destruct Ha as [[Ha _] _]. by destruct a; rewrite ?E in Hn.
  Qed.
  Lemma settled_rest c l o h k y : x_links x !! c = Some l -> l_peer l = PeerClient o h k y -> ClientRestSpec.at_rest (calmer k) y.
  Proof.
    intros Hl Hp a Ha. assert (eager a \/ exists g, a = XTimeout g) as [He|[g ->]].
    { destruct a; try (by left; split). right. eauto. }
    - rewrite calm_step by done. by eapply settled_client.
    - apply calm_timeout.
  Qed.
  Lemma settled_stalled : stalled cfg (x_sys x).
  Proof.
    destruct (stalled_or_not cfg (x_sys x)) as [H|(a & r & Ha & Hs)]; [done|]. exfalso. destruct (server_moves _ _ _ _ HI Ha Hs) as [H|(a' & x' & H1 & _ & H2 & _)]; [done|].
    by rewrite (HS _ H1) in H2.
  Qed.
  Lemma settled_server : RestSpec.at_rest (x_sys x) \/ deadlocked (x_sys x).
  Proof. eapply rests; [apply (ni_reach _ _ HI)|apply settled_stalled]. Qed.
  Context (HD : ~ deadlocked (x_sys x)).
  Lemma settled_quiet : y_req (x_sys x) = [] /\ y_pout (x_sys x) = [] /\ forall c n, y_conns (x_sys x) !! c = Some n -> quiet n.
  Proof. destruct settled_server as [(H1 & H2 & H3)|H]; [|done]. split_and!; try done. intros c n Hn. by eapply Forall_lookup_1. Qed.

  Lemma conveys_stuck sent got s : conveys sent got s true -> (forall o rest, read_stream s <> match o with Some f => RFrame f rest | None => RHeartbeat rest end) -> s = [] /\ got = sent.
  Proof.
    intros (items & H1 & H2 & _ & H3) Hn. specialize (H3 eq_refl). destruct items as [|it items]; [subst; by rewrite app_nil_r|].
    inversion_clear H1 as [|? ? Ho _]. exfalso. rewrite fmap_cons in H3. cbn [concat] in H3. destruct it as [f|].
    - eapply (Hn (Some f)). rewrite H3. by apply read_write_frame.
    - eapply (Hn None). rewrite H3. apply read_write_heartbeat.
  Qed.
  Lemma settled_up c l n : x_links x !! c = Some l -> y_conns (x_sys x) !! c = Some n -> n_phase n = Running -> l_peer l <> PeerOther -> writes (l_peer l) = true -> Forall writable (peer_sent (l_peer l)) ->
    l_up l = [] /\ server_got n = peer_sent (l_peer l).
  Proof.
    intros Hl Hn Hph Hpe Hw Hwr. pose proof (ni_up _ _ HI _ _ _ Hl Hn Hpe Hwr) as Hc. rewrite Hw in Hc. apply (conveys_stuck _ _ _ Hc). intros it rest Hrd.
    destruct settled_quiet as (_ & _ & HQ). destruct (HQ _ _ Hn) as (_ & [Hq|(_ & Q1 & Q2 & _)]); [congruence|].
    assert (Hu : nstep cfg x (NUp c) = None) by (by apply HS). cbn [nstep] in Hu. unfold net_up in Hu. rewrite Hl, Hrd in Hu. destruct it as [f|]; [|done].
    cbn [step] in Hu. unfold do_recv in Hu. rewrite Hn, Q2, Q1 in Hu. by rewrite decide_True in Hu by (cbn; unfold cap_read; lia).
  Qed.
  Lemma running_accepted c n : y_conns (x_sys x) !! c = Some n -> n_phase n = Running -> frames_of (n_log n) = omap accepted (n_log n).
  Proof.
    intros Hn Hph. destruct (conn_history _ _ (ni_reach _ _ HI) _ _ (keeps_in _ (reach_wf _ _ (ni_reach _ _ HI))) _ _ Hn) as (kk & st & Hx & Hst & _). destruct (Hst Hph) as [-> _].
    apply frames_accepted. by eapply all_accepted.
  Qed.
  Lemma settled_loop c l o h k y : x_links x !! c = Some l -> l_peer l = PeerClient o h k y -> c_p y = PLoop -> c_rch y = [] /\ c_rclosed y = false /\ c_wch y = [] /\ c_wclosed y = false.
  Proof.
    intros Hl Hp Hlo. assert (H1 : cstep k y XTakeRead = None) by (by eapply settled_client). assert (H2 : cstep k y (XTakeWrite true) = None) by (by eapply settled_client).
    cbn in H1, H2. unfold do_take_read in H1. unfold do_take_write in H2. rewrite Hlo in H1, H2.
    assert (c_rch y = [] /\ c_rclosed y = false) as [-> ->].
    { destruct (c_rch y) as [|it q]; [by destruct (c_rclosed y)|]. exfalso. destruct it as [f|]; repeat case_match; done. }
    assert (c_wch y = [] /\ c_wclosed y = false) as [-> ->]; [|done].
    destruct (c_wch y) as [|it q]; [by destruct (c_wclosed y)|]. exfalso. repeat case_match; done.
  Qed.
  Lemma settled_down c l n o h k y : x_links x !! c = Some l -> y_conns (x_sys x) !! c = Some n -> l_peer l = PeerClient o h k y -> c_p y = PLoop -> 0 < k_rcap k -> l_ok l = true ->
    l_down l = [] /\ server_sent n = peer_got (l_peer l).
  Proof.
    intros Hl Hn Hp Hlo Hk Hok. assert (listens (l_peer l)) as Hli by by rewrite Hp. pose proof (ni_down _ _ HI _ _ _ Hl Hn Hli) as Hc. rewrite Hok in Hc.
    destruct (conveys_stuck _ _ _ Hc); [|done]. intros it rest Hrd. destruct (settled_loop _ _ _ _ _ _ Hl Hp Hlo) as (E1 & E2 & _).
    assert (Hu : nstep cfg x (NDown c) = None) by (by apply HS). cbn [nstep] in Hu. unfold net_down in Hu. rewrite Hl, Hp, Hrd in Hu.
    destruct it as [f|]; cbn [cstep] in Hu; rewrite E1, E2, decide_True in Hu by done; done.
  Qed.
  (** Nobody waits for the reply to CONNECT. *)
  Lemma settled_hello c l n o : x_links x !! c = Some l -> y_conns (x_sys x) !! c = Some n -> l_peer l = PeerDialing o -> n_phase n = Running -> l_ok l = true -> writable (connect_frame o) -> False.
  Proof.
    intros Hl Hn Hp Hph Hok Hwr. assert (Forall writable (peer_sent (l_peer l))) as HF by (rewrite Hp; constructor; [done|constructor]).
    destruct (settled_up _ _ _ Hl Hn Hph) as [_ Hg]; [by rewrite Hp|by rewrite Hp|done|]. rewrite Hp in Hg. cbn [peer_sent] in Hg.
    assert (listens (l_peer l)) as Hli by by rewrite Hp. pose proof (ni_down _ _ HI _ _ _ Hl Hn Hli) as Hc. rewrite Hok, Hp in Hc. cbn [peer_got] in Hc.
    assert (exists f, f ∈ server_sent n) as [f Hf].
    { destruct settled_quiet as (_ & _ & HQ). destruct (HQ _ _ Hn) as (_ & [Hq|(_ & Q1 & Q2 & _)]); [congruence|]. unfold server_got in Hg. rewrite Q1, app_nil_r in Hg.
      destruct (frames_of (n_log n)) as [|m [|]] eqn:Hfr; try done. cbn in Hg.
      destruct (conn_history _ _ (ni_reach _ _ HI) _ _ (keeps_in _ (reach_wf _ _ (ni_reach _ _ HI))) _ _ Hn) as (k & st & Hx & Hst & _). destruct (Hst Hph) as [-> _].
      eapply first_answered; [exact Hx|exact Hfr]. }
    apply conveys_stuck in Hc as [_ Hc]; [|].
    { rewrite <-Hc in Hf. by apply elem_of_nil in Hf. }
    assert (Hu : forall k, nstep cfg x (NHello c k) = None) by (intros k; by apply HS). cbn [nstep] in Hu. unfold net_hello in Hu. rewrite Hl, Hp in Hu.
    intros [f1|] rest Hrd; rewrite Hrd in Hu; [|by specialize (Hu (mkCcfg 20 20 false false false false false false))].
    destruct (client_connect o (RFrame f1 rest)) as [cc| | | | | |]; try (by specialize (Hu (mkCcfg 20 20 false false false false false false))).
    specialize (Hu (mkCcfg 20 20 false false false false (0 <? cc_read cc)%Z (0 <? cc_write cc)%Z)). by rewrite bool_decide_eq_true_2 in Hu.
  Qed.
End settled.

(* ---------------- a test for states at rest ---------------- *)
Definition link_check (cfg : scfg) (x : net) (c : nat) : bool :=
  match nstep cfg x (NUp c), nstep cfg x (NDown c), x_links x !! c with
  | None, None, Some l =>
      match l_peer l with
      | PeerDialing _ => match read_stream (l_down l) with RFrame _ _ | RHeartbeat _ => false | _ => true end
      | PeerClient _ _ k y => forallb (fun a => match cstep k y a with None => true | _ => false end) (ecands y)
      | _ => true
      end
  | _, _, _ => false
  end.
Definition rest_check (cfg : scfg) (x : net) : bool :=
  match y_pout (x_sys x) with [] => true | _ => false end && forallb (fun a => match step cfg (x_sys x) a with None => true | _ => false end) (candidates (x_sys x)) &&
  forallb (link_check cfg x) (seq 0 (length (x_links x))).
Lemma rest_check_ok cfg x : rest_check cfg x = true -> nsettled cfg x /\ ~ npanics cfg x /\ ~ deadlocked (x_sys x).
Proof.
  unfold rest_check. rewrite !andb_true_iff, !forallb_forall. intros [[H0 H1] H2].
  assert (stalled cfg (x_sys x)) as HS. { apply candidates_ok. apply Forall_forall. intros a Ha. apply elem_of_list_In, H1 in Ha. by destruct (step cfg (x_sys x) a). }
  assert (HL : forall c, c < length (x_links x) -> link_check cfg x c = true) by (intros c Hc; apply H2, in_seq; lia).
  assert (HC : forall c l o h k y, x_links x !! c = Some l -> l_peer l = PeerClient o h k y -> forall a, eager a -> cstep k y a = None).
  { intros c l o h k y Hl Hp. apply ecands_rest. apply Forall_forall. intros a Ha. pose proof (HL c ltac:(by eapply lookup_lt_Some)) as Hx. unfold link_check in Hx.
    destruct (nstep cfg x (NUp c)); [done|]. destruct (nstep cfg x (NDown c)); [done|]. rewrite Hl, Hp, forallb_forall in Hx. apply elem_of_list_In, Hx in Ha. by destruct (cstep k y a). }
  assert (Hno : forall c, ~ c < length (x_links x) -> x_links x !! c = None) by (intros c Hc; apply lookup_ge_None_2; lia).
  split_and!.
  - intros a [Ha Ht]. destruct a as [remote opts cut| |c b|c|a k|c k|c|c|c a k]; try done.
    + destruct (decide (c < length (x_links x))) as [Hc|Hc]; [|cbn; unfold net_up; by rewrite Hno]. specialize (HL _ Hc). unfold link_check in HL. by destruct (nstep cfg x (NUp c)).
    + cbn. specialize (HS a Ha). unfold net_server. destruct a as [|c1 f|c1|c1 s w1 w2|c1|c1 pick| |]; try done; rewrite HS; try done. destruct (x_links x !! c1); [|done]. by destruct (y_conns (x_sys x) !! c1).
    + destruct (decide (c < length (x_links x))) as [Hc|Hc]; [|cbn; unfold net_hello; by rewrite Hno]. specialize (HL _ Hc). unfold link_check in HL.
      destruct (nstep cfg x (NUp c)); [done|]. destruct (nstep cfg x (NDown c)); [done|]. cbn [nstep]. unfold net_hello. destruct (x_links x !! c) as [l|]; [|done]. destruct (l_peer l); try done. by destruct (read_stream (l_down l)).
    + destruct (decide (c < length (x_links x))) as [Hc|Hc]; [|cbn; unfold net_down; by rewrite Hno]. specialize (HL _ Hc). unfold link_check in HL.
      destruct (nstep cfg x (NUp c)); [done|]. by destruct (nstep cfg x (NDown c)).
    + cbn [nstep]. unfold net_client. destruct (x_links x !! c) as [l|] eqn:Hl; [|done]. destruct (l_peer l) as [| | |o h k0 y] eqn:Hp; try done.
      assert (cstep k0 y a = None) as E by (eapply HC; try done; split; [done|]; by intros g ->). destruct a; rewrite ?E; done.
  - intros [(a & p & Ha & Hs)|(c & l & o & h & k & y & a & p & Hl & Hp & Ha & Hs)]; [by rewrite (HS a Ha) in Hs|].
    assert ((exists g, a = XTimeout g) \/ ~ exists g, a = XTimeout g) as [[g ->]|Hn] by (destruct a; (left; by eexists) || (right; by intros [? ?])).
    + cbn in Hs. unfold do_timeout in Hs. repeat (case_match; try done).
    + rewrite (HC _ _ _ _ _ _ Hl Hp a) in Hs; [done|]. split; [done|]. intros g ->. apply Hn. eauto.
  - intros (n & (o & os & c & E & _) & _). by rewrite E in H0.
Qed.
