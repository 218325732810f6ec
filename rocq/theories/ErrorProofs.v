(** Errors of a client of this server are the reasons the server has. *)
From stdpp Require Import gmap.
From Verif Require Import GoBase HeaderModel HeaderProofs FrameModel GrammarSpec NegotiationModel NegotiationSpec NegotiationLemmas ClientApiModel ClientModel ClientSpec ClientLemmas ClientProofs ClientRequests ClientCalls ClientChannels ClientReceipts ClientDelivery
  ClientMessages ClientRouting ClientReady ClientEnd ClientFinal ClientUnsub ErrorClient.
From Verif Require Import BrokerModel BrokerSpec ServerConnModel ServerConnSpec ServerConnProofs SystemModel SystemSpec SystemLemmas SystemHistory SystemProofs FlowSpec PeerSpec PeerProofs RefusalSpec RefusalProofs FlowSubs NetModel NetSpec NetLinks NetProofs NetTopics NetUnsub
  ErrorModel ErrorSpec.

(** Every ERROR frame of the server reports a refusal. *)
Lemma error_reported cfg y c n f : reach cfg y -> y_conns y !! c = Some n -> f ∈ server_sent n -> f_cmd f = ERROR -> receipt_lost n \/ exists m txt, reported cfg n m txt f.
Proof.
  intros Hr Hn Hs Hc. unfold server_sent in Hs. apply elem_of_list_fmap in Hs as (err & -> & Hm). apply elem_of_list_omap in Hm as ([o0 w] & Hm & E). cbn in E. subst o0.
  destruct (in_wire _ _ _ _ _ Hr Hn Hm) as (id_of & ack_of & pre & e & post & cs & st & Elog & Hex & Hwr).
  assert (exists m, v_in e = InFrame m) as [m Hin].
  { pose proof Hex as H. apply cexec_event in H as (c0 & hp & nx & w1 & w2 & o & He & _ & Hf & Hi & _ & Hev & _ & _).
    destruct (v_in e) as [m| | | |] eqn:Hv; [by exists m|exfalso..]; (apply (other_writes _ _ _ _ _ _ _ _ _ ERROR) in Hi; [|done|done|neq_lits]; rewrite Hev in Hwr; cbn [v_wr] in Hwr; eapply (in_frames_with ERROR) in Hwr; [|done]; rewrite Hi in Hwr; by apply elem_of_nil in Hwr). }
  pose proof (rejection _ _ _ _ _ _ _ _ _ _ Hex Hin) as Hrej. destruct (v_stop e) eqn:Hst.
  2: { exfalso. eapply (in_frames_with ERROR) in Hwr; [|done]. rewrite Hrej in Hwr. by apply elem_of_nil in Hwr. }
  destruct Hrej as (-> & _ & before & err' & w' & Ew & Hc' & _ & Hbef).
  assert (err = err' /\ w = w') as [-> ->].
  { rewrite Ew in Hwr. apply elem_of_app in Hwr as [Hwr|Hwr]; [|apply elem_of_list_singleton in Hwr; by injection Hwr]. exfalso. destruct Hbef as [[-> _]|(rc & r & w0 & -> & Hrc & _)]; [by apply elem_of_nil in Hwr|].
    apply elem_of_list_singleton in Hwr. injection Hwr as -> _. unfold cmd_of in Hrc. rewrite Hc in Hrc. revert Hrc. neq_lits. }
  assert (receipt_lost n \/ receipts_fine (v_wr e)) as [?|Hf]; [|by left|].
  { destruct Hbef as [[-> _]|(rc & r & w0 & -> & Hrc & _)].
    - right. intros x b Hx Hcx. rewrite Ew in Hx. apply elem_of_list_singleton in Hx. injection Hx as -> ->. rewrite Hc' in Hcx. exfalso. revert Hcx. neq_lits.
    - destruct w0.
      + right. intros x b Hx Hcx. rewrite Ew in Hx. apply elem_of_cons in Hx as [Hx|Hx]; [by injection Hx|]. apply elem_of_list_singleton in Hx. injection Hx as -> ->. rewrite Hc' in Hcx. exfalso. revert Hcx. neq_lits.
      + left. exists rc. split; [|done]. unfold wire. rewrite Elog, fmap_app, concat_app. cbn. rewrite Ew. apply elem_of_app. right. left. }
  right. destruct (refused_exact _ _ _ _ _ _ _ _ _ _ Hex Hin Hf) as [Hiff Htxt]. apply Hiff in Hst as [txt Ht]. destruct (Htxt _ Ht) as (before' & err1 & w1 & Ew1 & _ & Hm1).
  assert (err1 = err') as ->. { rewrite Ew in Ew1. apply app_inj_tail in Ew1 as [_ E]. by injection E. }
  exists m, txt, pre, e, before, err', w'. split_and!; try done. by apply hd_contains_Some.
Qed.
Lemma refused_text cfg pre m txt : refused cfg pre m txt -> txt <> [].
Proof. intros H E. destruct H as [t _ _ H| | | | | | | | | | | | |]; try (revert E; neq_lits). destruct H; revert E; neq_lits. Qed.
Lemma reported_text cfg n m txt f : reported cfg n m txt f -> f_cmd f = ERROR -> new_error f = mkErr txt (Some f) /\ sub_error f = mkErr txt (Some f).
Proof.
  intros (pre & e & before & err & w & _ & _ & _ & _ & Hr & Hf) Hc. pose proof (refused_text _ _ _ _ Hr) as Hne.
  assert (hd_get (f_hdr f) h_message = txt) as E by (apply hd_contains_Some in Hf; unfold hd_get; change h_message with (lit "message"); by rewrite Hf).
  unfold new_error, sub_error. by rewrite decide_True, E, decide_False.
Qed.
Lemma made_text f : made_here f -> exists t, t ∈ local_reasons /\ new_error f = mkErr t (Some f) /\ sub_error f = mkErr t (Some f).
Proof.
  intros (Hc & _ & t & Ht & Hh). exists t. split; [done|]. unfold new_error, sub_error. rewrite decide_True by done. assert (hd_get (f_hdr f) h_message = t) as E by by rewrite Hh. rewrite E.
  rewrite decide_False; [done|]. intros ->. unfold local_reasons in Ht. rewrite !elem_of_cons in Ht. destruct Ht as [H|[H|[H|[H|[H|H]]]]]; [revert H; neq_lits..|by apply elem_of_nil in H].
Qed.

(* ---------------- a client of this server ---------------- *)
Section client.
  Context (cfg : scfg) (x : net) (Hr : nreach cfg x) (c : nat) (l : link) (n : sconn).
  Context (Hl : x_links x !! c = Some l) (Hn : y_conns (x_sys x) !! c = Some n).
  Local Definition HI := nreach_inv _ _ Hr.
  Lemma reported_mine m txt f : reported cfg n m txt f -> l_peer l <> PeerOther -> Forall writable (peer_sent (l_peer l)) -> g_frame m ∈ peer_sent (l_peer l).
  Proof.
    intros (pre & e & before & err & w & El & Hin & _) Hp Hw. eapply elem_of_prefix; [|by eapply up_prefix]. unfold server_got. apply elem_of_list_fmap_1, elem_of_app. left.
    unfold frames_of. apply elem_of_list_omap. exists e. rewrite El. split; [apply elem_of_app; right; left|]. unfold client_frame. by rewrite Hin.
  Qed.
  Context (o : copts) (h : frame) (k : ccfg) (y : cl) (Hp : l_peer l = PeerClient o h k y).
  Local Definition HC : creach anything k y := ni_client _ _ HI _ _ _ _ _ _ Hl Hp.
  Lemma told_says ch f : PvTold ch f ∈ c_log y -> f_cmd f = ERROR -> explained cfg (l_peer l) n f.
  Proof.
    intros Ht Hc. destruct (told_src _ _ _ HC _ _ Ht) as [H|H]; [left; by apply made_text|right].
    assert (f ∈ server_sent n) as Hs. { eapply elem_of_prefix; [|by eapply down_prefix]. rewrite Hp. right. by apply in_client_read. }
    destruct (error_reported _ _ _ _ _ (ni_reach _ _ HI) Hn Hs Hc) as [?|(m & txt & Hrep)]; [by left|right]. exists m, txt. destruct (reported_text _ _ _ _ _ Hrep Hc) as [E1 E2]. split_and!; [done..|].
    intros Hw. eapply reported_mine; [done| |done]. by rewrite Hp.
  Qed.
  Lemma call_says g r f : c_gs y !! g = Some r -> g_pc r = GDone (RErr (EResponse f)) -> Forall writable (peer_sent (l_peer l)) ->
    (forall fr id, op_frame (g_op r) = Some fr -> hd_contains (f_hdr fr) h_receipt = Some id -> sole (c_gs y) g id) -> explained cfg (l_peer l) n f.
  Proof.
    intros Hg Hd Hw Hso. destruct (call_told _ _ _ HC _ _ f Hg) as (Hnr & ch & hc & Ht & Hch & Hown); [by rewrite Hd|]. destruct (decide (f_cmd f = ERROR)) as [Hc|Hc]; [by eapply told_says|]. exfalso.
    pose proof (reach_req _ _ _ HC) as HR. destruct (mi_told _ (reach_map _ _ _ HC) _ _ Ht) as [?|(id & k0 & q & w & l1 & l2 & l3 & Hro & Hqc & Hnm & El)]; [done|].
    assert (PvReq q w ∈ c_log y) as Hq by (rewrite El; apply elem_of_app; right; left).
    destruct (rq_ok _ HR q) as (r1 & Hg1 & Hof & _ & Hx); [right; left; by eapply log_req_in|]. destruct (Hx _ Hqc) as (h1 & Hh1 & Ho1). assert (h1 = hc) as -> by congruence.
    destruct (is_subscribe (g_op r1)) eqn:Hsb; [destruct Ho1 as (s & b & E & _); congruence|]. assert (q_by q = g) as Eby by congruence. rewrite Eby in Hg1. assert (r1 = r) as -> by congruence.
    pose proof (reach_ops _ _ _ HC _ _ Hg) as Hok. assert (f_cmd (q_frame q) <> SUBSCRIBE) as Hns.
    { intros Es. destruct (g_op r) as [[f1|]|f1|[[[f1 i1] t1]|]|s1 [f1|]|rid|] eqn:E1; cbn in Hof; try done; injection Hof as E; rewrite <-E in Es; cbn [op_ok] in Hok; unfold is_sub_cmd in Hok; rewrite ?Es in Hok; done. }
    destruct Hnm as [Hid|[? _]]; [|done]. specialize (Hso _ _ Hof Hid).
    assert (f ∈ client_read y) as Hrd. { apply in_client_read. rewrite El. apply elem_of_app. right. right. apply elem_of_app. right. left. }
    inversion Hro as [id' Hcx Hidx|id' Hcx Hidx].
    - done.
    - destruct (read_asked _ _ _ _ _ _ _ _ _ f id Hr Hl Hn Hp Hw Hrd) as (_ & _ & _ & fs & _ & _ & _ & Hfs & Hsk & _); [by split|].
      apply in_wrote_in in Hfs as (q1 & w1 & Hq1). destruct (sub_request _ _ _ _ _ _ _ _ HC Hq1 Hsk Hso) as [Hby1 Hqf].
      destruct (rq_ok _ HR q1) as (r2 & Hr2 & Hf2 & _); [right; left; by eapply log_req_in|]. rewrite Hby1 in Hr2. assert (r2 = r) as -> by congruence. destruct Hsk as [Hsk _]. rewrite Hof in Hf2. injection Hf2 as E. rewrite E, Hqf in Hns. done.
  Qed.
  Lemma sub_says s b f : c_subs y !! s = Some b -> CmErr (Some f) ∈ b_read b -> explained cfg (l_peer l) n f.
  Proof. intros Hb Hin. destruct (sub_told _ _ _ HC _ _ f Hb) as [Hc Ht]; [unfold sub_has; apply elem_of_app; by left|]. by eapply told_says. Qed.
End client.

(** The reply to the CONNECT frame. *)
Lemma dial_says cfg x c l n o f rest : nreach cfg x -> x_links x !! c = Some l -> y_conns (x_sys x) !! c = Some n -> l_peer l = PeerDialing o -> writable (connect_frame o) ->
  read_stream (l_down l) = RFrame f rest -> f_cmd f = CONNECTED \/
  f_cmd f = ERROR /\ exists txt, connect_refused cfg (connect_frame o) txt /\ new_error f = mkErr txt (Some f).
Proof.
  intros Hr Hl Hn Hp Hw Hrd. pose proof (nreach_inv _ _ Hr) as HI.
  assert (conveys (server_sent n) [f] rest (l_ok l)) as Hcv.
  { pose proof (ni_down _ _ HI _ _ _ Hl Hn) as H. rewrite Hp in H. specialize (H I). cbn [peer_got] in H. exact (conveys_frame _ _ _ _ _ _ H Hrd). }
  apply conveys_prefix in Hcv. assert (f ∈ server_sent n) as Hs by (eapply elem_of_prefix; [|done]; left).
  assert (server_got n `prefix_of` [connect_frame o]) as Hgot. { pose proof (up_prefix _ _ _ _ _ Hr Hl Hn) as H. rewrite Hp in H. apply H; [done|]. cbn. by apply Forall_singleton. }
  assert (Hframes : frames_of (n_log n) = [] \/ exists m, frames_of (n_log n) = [m] /\ g_frame m = connect_frame o).
  { unfold server_got in Hgot. rewrite fmap_app in Hgot. apply prefix_app_l in Hgot. destruct (frames_of (n_log n)) as [|m [|m' l']]; [by left| |].
    - right. exists m. split; [done|]. cbn in Hgot. destruct Hgot as [k E]. by injection E.
    - destruct Hgot as [k E]. done. }
  assert (Hcmd : f_cmd (connect_frame o) = CONNECT \/ f_cmd (connect_frame o) = STOMP).
  { destruct (proj1 (nreach_peer _ _ Hr _ _ Hl) o) as (rm & os & Ho1); [by rewrite Hp|]. by apply connect_cmd in Ho1. }
  unfold server_sent in Hs. apply elem_of_list_fmap in Hs as (err & -> & Hm). apply elem_of_list_omap in Hm as ([o0 w] & Hm & E). cbn in E. subst o0.
  destruct (in_wire _ _ _ _ _ (ni_reach _ _ HI) Hn Hm) as (id_of & ack_of & pre & e & post & cs & st & Elog & Hex & Hwr).
  pose proof Hex as H. apply cexec_event in H as (c0 & hp & nx & w1 & w2 & oo & He & _ & Hf & Hi & _ & Hev & _ & _).
  assert (exists m, v_in e = InFrame m) as [m Hin].
  { destruct (decide (f_cmd (g_frame err) = MESSAGE)) as [Hc|Hc].
    - exfalso. destruct (message_origin _ _ (ni_reach _ _ HI) _ _ _ _ _ Hn Elog _ _ Hwr Hc) as (e0 & s & id' & d & He0 & (ms & Ha & Hcs & _) & _).
      assert (ms ∈ frames_of (n_log n)) as Hms. { unfold frames_of. apply elem_of_list_omap. exists e0. split; [rewrite Elog; apply elem_of_app; by left|]. unfold accepted in Ha. by destruct (v_stop e0). }
      destruct Hframes as [E|(m & E & Em)]; rewrite E in Hms; [by apply elem_of_nil in Hms|]. apply elem_of_list_singleton in Hms as ->. unfold cmd_of in Hcs. rewrite Em in Hcs.
      destruct Hcmd as [E'|E']; rewrite Hcs in E'; revert E'; neq_lits.
    - destruct (v_in e) as [m| | | |] eqn:Hv; [by exists m|exfalso..]; (apply (other_writes _ _ _ _ _ _ _ _ _ (cmd_of err)) in Hi; [|done|done|done]; rewrite Hev in Hwr; cbn [v_wr] in Hwr; eapply (in_frames_with (cmd_of err)) in Hwr; [|done]; rewrite Hi in Hwr; by apply elem_of_nil in Hwr). }
  assert (Hmf : m ∈ frames_of (n_log n)). { unfold frames_of. apply elem_of_list_omap. exists e. split; [rewrite Elog; apply elem_of_app; right; left|]. unfold client_frame. by rewrite Hin. }
  assert (Hpre : frames_of pre = []).
  { destruct Hframes as [E|(m' & E & _)]; [rewrite E in Hmf; by apply elem_of_nil in Hmf|]. rewrite Elog in E. unfold frames_of in E. rewrite omap_app in E. destruct (omap client_frame pre) as [|m1 l1] eqn:Ep; [done|]. exfalso.
    injection E as _ E. apply app_eq_nil in E as [_ E]. unfold client_frame in E. cbn in E. rewrite Hin in E. done. }
  assert (g_frame m = connect_frame o) as Em. { destruct Hframes as [E|(m' & E & Em)]; rewrite E in Hmf; [by apply elem_of_nil in Hmf|]. by apply elem_of_list_singleton in Hmf as ->. }
  assert (~ established pre) as Hne.
  { intros (e0 & m0 & He0 & Ha). assert (m0 ∈ frames_of pre) as Hx; [|rewrite Hpre in Hx; by apply elem_of_nil in Hx]. unfold frames_of. apply elem_of_list_omap. exists e0. split; [done|]. unfold accepted in Ha. by destruct (v_stop e0). }
  assert (k_connected c0 = false) as Hk. { destruct (k_connected c0) eqn:Ek; [|done]. exfalso. apply Hne. by eapply established_iff. }
  rewrite Hin in Hi. pose proof (frame_writes _ _ _ _ _ _ _ _ _ (cexec_tx_ok _ _ _ _ _ _ _ He) Hi) as Hw1. rewrite Hev in Hwr. cbn [v_wr] in Hwr. destruct (i_stop oo) eqn:Hst.
  - right. destruct Hw1 as (_ & _ & _ & _ & er & [Hw1|(Hx & _)]); [|congruence]. rewrite Hw1 in Hwr. apply elem_of_list_singleton in Hwr. injection Hwr as -> ->. split; [done|].
    assert (receipts_fine (v_wr e)) as Hfine. { rewrite Hev. cbn [v_wr]. rewrite Hw1. intros z b Hz Hcz. apply elem_of_list_singleton in Hz. injection Hz as -> ->. exfalso. revert Hcz. unfold cmd_of. cbn. neq_lits. }
    destruct (refused_exact _ _ _ _ _ _ _ _ _ _ Hex Hin Hfine) as [Hiff Htxt]. assert (exists txt, refused cfg pre m txt) as [txt Ht] by (apply Hiff; by rewrite Hev). destruct (Htxt _ Ht) as (before & err1 & w3 & Ew1 & _ & Hm1).
    assert (err1 = ServerConnModel.error_frame er m) as ->. { rewrite Hev in Ew1. cbn [v_wr] in Ew1. rewrite Hw1 in Ew1. change [(Some (ServerConnModel.error_frame er m), w2)] with ([] ++ [(Some (ServerConnModel.error_frame er m), w2)]) in Ew1. apply app_inj_tail in Ew1 as [_ E]. by injection E. }
    exists txt. split.
    + inversion Ht as [t _ _ Hc|_ Hc| | | | | | | | | | | |]; subst; try done; [by rewrite <-Em|]. exfalso. unfold cmd_of in Hc. rewrite Em in Hc. rewrite !not_elem_of_cons in Hc. destruct Hc as (H1 & H2 & _). by destruct Hcmd.
    + pose proof (refused_text _ _ _ _ Ht) as Hnt. unfold new_error. rewrite decide_True by done. assert (hd_get (f_hdr (g_frame (ServerConnModel.error_frame er m))) h_message = txt) as E. { unfold hd_get. unfold hget_of in Hm1. change h_message with (lit "message"). by rewrite Hm1. }
      by rewrite E, decide_False.
  - left. destruct Hw1 as [[Hx _]|(_ & r & Hh & _ & Hw1)]; [congruence|]. rewrite Hw1 in Hwr. apply elem_of_list_singleton in Hwr. injection Hwr as -> ->. cbn [g_frame]. by eapply connected_cmd.
Qed.
