(** From the calls of one program through the server to the messages of
    another. *)
From stdpp Require Import gmap.
From Verif Require Import GoBase GoBaseProofs HeaderModel HeaderProofs FrameModel GrammarSpec CodecProofs NegotiationModel NegotiationLemmas ClientApiModel ClientModel ClientSpec ClientLemmas
  ClientCalls ClientRequests ClientChannels ClientMessages ClientDelivery ClientReceipts ClientRouting ClientDisconnect.
From Verif Require Import BrokerModel BrokerSpec ServerConnModel ServerConnSpec ServerConnProofs SystemModel SystemSpec SystemLemmas SystemHistory SystemProofs FlowSpec FlowProofs PeerSpec PeerProofs RefusalSpec RefusalProofs
  NetModel NetSpec NetLinks.

(* ---------------- streams ---------------- *)
Lemma conveys_prefix sent got s all : conveys sent got s all -> got `prefix_of` sent.
Proof. intros (items & _ & -> & _). by apply prefix_app_r. Qed.
Lemma conveys_all sent got : conveys sent got [] true -> got = sent.
Proof.
  intros (items & Hi & -> & _ & Ha). specialize (Ha eq_refl). assert (omap id items = []) as ->; [|by rewrite app_nil_r].
  destruct items as [|[f|] l]; [done|..]; cbn in Ha; [|done]. symmetry in Ha. apply app_eq_nil in Ha as [Ha _]. unfold write_frame in Ha. by apply app_eq_nil in Ha as [_ Ha].
Qed.
Lemma down_prefix cfg x c l n : nreach cfg x -> x_links x !! c = Some l -> y_conns (x_sys x) !! c = Some n -> peer_got (l_peer l) `prefix_of` server_sent n.
Proof.
  intros Hr Hl Hn. pose proof (ni_down _ _ (nreach_inv _ _ Hr) _ _ _ Hl Hn) as H. destruct (l_peer l) eqn:Hp; try apply prefix_nil. eapply conveys_prefix. by apply H.
Qed.
Lemma down_all cfg x c l n o h k y : nreach cfg x -> x_links x !! c = Some l -> y_conns (x_sys x) !! c = Some n -> l_peer l = PeerClient o h k y -> l_ok l = true -> l_down l = [] ->
  h :: client_read y = server_sent n.
Proof.
  intros Hr Hl Hn Hp Ho Hd. pose proof (ni_down _ _ (nreach_inv _ _ Hr) _ _ _ Hl Hn) as H. rewrite Hp, Ho, Hd in H. apply conveys_all. by apply H.
Qed.
Lemma up_prefix cfg x c l n : nreach cfg x -> x_links x !! c = Some l -> y_conns (x_sys x) !! c = Some n -> l_peer l <> PeerOther -> Forall writable (peer_sent (l_peer l)) ->
  server_got n `prefix_of` peer_sent (l_peer l).
Proof. intros Hr Hl Hn Hp Hw. eapply conveys_prefix. by eapply ni_up; [apply nreach_inv|..]. Qed.
Lemma up_all cfg x c l n : nreach cfg x -> x_links x !! c = Some l -> y_conns (x_sys x) !! c = Some n -> Forall writable (peer_sent (l_peer l)) -> writes (l_peer l) = true -> l_up l = [] ->
  server_got n = peer_sent (l_peer l).
Proof.
  intros Hr Hl Hn Hw Hwr Hu. pose proof (ni_up _ _ (nreach_inv _ _ Hr) _ _ _ Hl Hn) as H. rewrite Hwr, Hu in H. apply conveys_all, H; [|done]. by destruct (l_peer l).
Qed.

(* ---------------- what a client has is what it read, what it wrote is what it was asked to ---------------- *)
Lemma elem_of_prefix {A} (x : A) l l' : x ∈ l -> l `prefix_of` l' -> x ∈ l'.
Proof. intros H [k ->]. apply elem_of_app. by left. Qed.
Lemma message_read A k y s b f : creach A k y -> c_subs y !! s = Some b -> f ∈ msgs (b_read b) -> f_cmd f = MESSAGE /\ PvIn (Some f) ∈ c_log y.
Proof.
  intros Hr Hb Hf. assert (f ∈ told_to (b_ch b) (c_log y)) as Ht.
  { rewrite (reach_held _ _ _ Hr _ _ Hb). unfold held. rewrite msgs_app. apply elem_of_app. left. apply elem_of_app. by left. }
  unfold told_to in Ht. apply elem_of_list_omap in Ht as (e & He & Hx). destruct e as [| |ch f0]; try done. destruct (decide _) as [[-> Hc]|]; [|done]. injection Hx as ->.
  split; [done|]. destruct (mi_told _ (reach_map _ _ _ Hr) _ _ He) as [E|(id & k0 & q & w & l1 & l2 & l3 & _ & _ & _ & E)]; [by rewrite Hc in E|].
  rewrite E. apply elem_of_app. right. right. apply elem_of_app. right. left.
Qed.
Lemma in_client_read f y : PvIn (Some f) ∈ c_log y -> f ∈ client_read y.
Proof. intros H. unfold client_read. apply elem_of_app. left. apply elem_of_list_omap. by exists (PvIn (Some f)). Qed.
Lemma in_client_wrote A k y f : creach A k y -> f ∈ client_wrote y -> exists q w r, PvReq q (Some (f, w)) ∈ c_log y /\ f = outgoing (q_frame q) /\ local_only (q_frame q) = false /\
  c_gs y !! q_by q = Some r /\ op_frame (g_op r) = Some (q_frame q).
Proof.
  intros Hr Hf. unfold client_wrote, wrote_in in Hf. apply elem_of_list_omap in Hf as (e & He & Hx). destruct e as [q [[f0 w]|]| |]; try done. injection Hx as ->.
  destruct (mi_wr _ (reach_map _ _ _ Hr) _ _ He) as [E1 E2]. destruct (rq_ok _ (reach_req _ _ _ Hr) q) as (r & Hg & Ho & _); [right; left; by eapply log_req_in|].
  by exists q, w, r.
Qed.
(** The frame a call asks for is written as it is, unless it is an
    UNSUBSCRIBE. *)
Lemma wrote_call A k y f : creach A k y -> f ∈ client_wrote y -> f_cmd f <> UNSUBSCRIBE -> exists g r, c_gs y !! g = Some r /\ op_frame (g_op r) = Some f.
Proof.
  intros Hr Hf Hc. destruct (in_client_wrote _ _ _ _ Hr Hf) as (q & w & r & _ & E & _ & Hg & Ho). exists (q_by q), r. split; [done|].
  unfold outgoing in E. destruct (decide _); [|by subst f]. subst f. cbn in Hc. done.
Qed.
Definition opts_of (p : peer) : option copts := match p with PeerOther => None | PeerDialing o | PeerFailed o | PeerClient o _ _ _ => Some o end.
Definition begun (p : peer) : Prop := match p with
  | PeerClient o h k _ => exists cc rest, client_connect o (RFrame h rest) = CConnected cc /\ k_read_to k = (0 <? cc_read cc)%Z /\ k_write_to k = (0 <? cc_write cc)%Z
  | _ => True end.
Definition peer_ok (p : peer) : Prop := (forall o, opts_of p = Some o -> exists remote opts, new_conn_options remote opts = Some o) /\ begun p.
Lemma nreach_peer cfg x : nreach cfg x -> forall c l, x_links x !! c = Some l -> peer_ok (l_peer l).
Proof.
  induction 1 as [|x a x' _ IH Hs]; [by intros c l H; cbn in H; rewrite lookup_nil in H|].
  assert (Hw : forall c0 l0, peer_ok (l_peer l0) -> forall c l, <[c0 := l0]> (x_links x) !! c = Some l -> peer_ok (l_peer l)).
  { intros c0 l0 H0 c l H. apply list_lookup_insert_Some in H as [(-> & <- & _)|[_ H]]; [done|by eapply IH]. }
  assert (Ha : forall l0, add_link cfg x l0 = Some x' -> peer_ok (l_peer l0) -> forall c l, x_links x' !! c = Some l -> peer_ok (l_peer l)).
  { intros l0 H H0 c l. unfold add_link in H. destruct (step cfg (x_sys x) AAccept) as [[|]|]; try done. injection H as <-. cbn [x_links].
    intros H. apply lookup_app_Some in H as [H|[_ H]]; [by eapply IH|]. by apply list_lookup_singleton_Some in H as [_ <-]. }
  destruct a as [remote opts cut| |c b|c|a k|c k|c|c|c a k]; cbn [nstep] in Hs.
  - destruct (new_conn_options remote opts) as [o|] eqn:Ho; [|done]. eapply Ha; [exact Hs|]. split; [|by destruct cut]. intros o' E. exists remote, opts. destruct cut; by injection E as <-.
  - eapply Ha; [exact Hs|]. by split.
  - destruct (x_links x !! c) as [l|] eqn:Hl; [|done]. destruct (l_peer l); try done. injection Hs as <-. by apply Hw.
  - unfold net_up in Hs. destruct (x_links x !! c) as [l|] eqn:Hl; [|done]. destruct (read_stream (l_up l)); try done.
    + injection Hs as <-. apply Hw. exact (IH _ _ Hl).
    + destruct (step cfg (x_sys x) (ARecv c f)) as [[|]|]; try done. injection Hs as <-. apply Hw. exact (IH _ _ Hl).
  - unfold net_server in Hs. destruct a as [|c f|c|c s w1 w2|c|c pick| |]; try done.
    all: try (match goal with H : context [step ?c ?y ?a] |- _ => destruct (step c y a) as [[|]|] end; try done; injection Hs as <-; exact IH).
    destruct (x_links x !! c) as [l|] eqn:Hl; [|done]. destruct (y_conns (x_sys x) !! c); [|done]. destruct (step _ _ _) as [[|y']|]; try done.
    destruct (y_conns y' !! c); [|done]. destruct (sticky _ _); [|done]. injection Hs as <-. apply Hw. exact (IH _ _ Hl).
  - unfold net_hello in Hs. destruct (x_links x !! c) as [l|] eqn:Hl; [|done]. destruct (IH _ _ Hl) as [Ho _]. destruct (l_peer l) as [|o|o|o h k0 y] eqn:Hp; try done.
    destruct (read_stream (l_down l)) as [rest|f rest|e| |]; try done; [injection Hs as <-; apply Hw; split; [exact Ho|done]|].
    destruct (client_connect o (RFrame f rest)) as [cc| | | | | |] eqn:Hc; [destruct (bool_decide _) eqn:Hb; [|done]|..]; injection Hs as <-; apply Hw; (split; [exact Ho|]); [|done..].
    apply bool_decide_eq_true in Hb as [? ?]. by exists cc, rest.
  - unfold net_give_up in Hs. destruct (x_links x !! c) as [l|] eqn:Hl; [|done]. destruct (IH _ _ Hl) as [Ho _]. destruct (l_peer l) as [|o|o|o h k0 y] eqn:Hp; try done.
    injection Hs as <-. apply Hw. split; [exact Ho|done].
  - unfold net_down in Hs. destruct (x_links x !! c) as [l|] eqn:Hl; [|done]. pose proof (IH _ _ Hl) as Ho. destruct (l_peer l) as [|o|o|o h k0 y] eqn:Hp; try done.
    destruct (read_stream (l_down l)) as [rest|f rest|e| |]; try done; (destruct (cstep k0 y _) as [[|]|]; try done); injection Hs as <-; apply Hw; exact Ho.
  - unfold net_client in Hs. destruct (x_links x !! c) as [l|] eqn:Hl; [|done]. pose proof (IH _ _ Hl) as Ho. destruct (l_peer l) as [|o|o|o h k0 y] eqn:Hp; try done.
    destruct a; try done; match goal with H : context [cstep ?c ?y ?a] |- _ => destruct (cstep c y a) as [[|]|] end; try done; injection Hs as <-; apply Hw; exact Ho.
Qed.
Lemma connect_cmd remote opts o : new_conn_options remote opts = Some o -> f_cmd (connect_frame o) = CONNECT \/ f_cmd (connect_frame o) = STOMP.
Proof. intros H. by apply new_conn_options_inv in H as (_ & _ & H & _). Qed.
Lemma accepts_got y c m n : accepts y c m -> y_conns y !! c = Some n -> g_frame m ∈ server_got n.
Proof.
  intros (n0 & e & H1 & H2 & H3) Hn. assert (n0 = n) as -> by congruence. unfold server_got. rewrite fmap_app. apply elem_of_app. left. apply elem_of_list_fmap_1.
  unfold frames_of. apply elem_of_list_omap. exists e. split; [done|]. unfold accepted in H3. by destruct (v_stop e).
Qed.
(** A message was sent by some connection, and if a client of the library is
    at its other end, one of its calls did. *)
Lemma origin cfg x c l o h k y s b f : nreach cfg x -> x_links x !! c = Some l -> l_peer l = PeerClient o h k y -> c_subs y !! s = Some b -> f ∈ msgs (b_read b) ->
  exists c1 m1, accepts (x_sys x) c1 m1 /\ cmd_of m1 = SEND /\ carries (g_frame m1) f /\
    forall l1 o1 h1 k1 y1, x_links x !! c1 = Some l1 -> l_peer l1 = PeerClient o1 h1 k1 y1 -> Forall writable (peer_sent (l_peer l1)) ->
      exists g r, c_gs y1 !! g = Some r /\ op_frame (g_op r) = Some (g_frame m1).
Proof.
  intros Hr Hl Hp Hb Hf. pose proof (nreach_inv _ _ Hr) as HI. destruct (message_read _ _ _ _ _ _ (ni_client _ _ HI _ _ _ _ _ _ Hl Hp) Hb Hf) as [Hc Hin].
  destruct (lookup_lt_is_Some_2 (y_conns (x_sys x)) c) as [n Hn]; [rewrite <-(ni_len _ _ HI); by eapply lookup_lt_Some|].
  assert (f ∈ server_sent n) as Hs. { eapply elem_of_prefix; [|by eapply down_prefix]. rewrite Hp. right. by apply in_client_read. }
  unfold server_sent in Hs. apply elem_of_list_fmap in Hs as (m & -> & Hm). apply elem_of_list_omap in Hm as ([o0 w] & Hm & E). cbn in E. subst o0.
  destruct (message_carries _ _ _ _ _ _ (ni_reach _ _ HI) Hn Hm Hc) as (c1 & m1 & Ha & Hcmd & _ & Hcar). exists c1, m1. split_and!; try done.
  intros l1 o1 h1 k1 y1 Hl1 Hp1 Hw1. destruct (lookup_lt_is_Some_2 (y_conns (x_sys x)) c1) as [n1 Hn1]; [rewrite <-(ni_len _ _ HI); by eapply lookup_lt_Some|].
  pose proof (accepts_got _ _ _ _ Ha Hn1) as Hg. eapply elem_of_prefix in Hg; [|eapply up_prefix; try done; by rewrite Hp1]. rewrite Hp1 in Hg. cbn [peer_sent] in Hg.
  unfold cmd_of in Hcmd. apply elem_of_cons in Hg as [E|Hg].
  - destruct (proj1 (nreach_peer _ _ Hr _ _ Hl1) o1) as (rm & os & Ho1); [by rewrite Hp1|]. apply connect_cmd in Ho1. rewrite <-E, Hcmd in Ho1. exfalso. destruct Ho1 as [E1|E1]; revert E1; neq_lits.
  - eapply wrote_call; [by eapply ni_client|done|]. rewrite Hcmd. neq_lits.
Qed.

(* ---------------- receipts ---------------- *)
Lemma in_wire cfg y c n x : reach cfg y -> y_conns y !! c = Some n -> x ∈ written n ->
  exists id_of ack_of pre e post cs st, n_log n = pre ++ e :: post /\ cexec cfg c id_of ack_of (pre ++ e :: post) cs st /\ x ∈ v_wr e.
Proof.
  intros Hr Hn Hx. unfold written, wire in Hx. apply elem_of_list_In, in_concat in Hx as (l & Hl & Hx). apply elem_of_list_In in Hx.
  apply elem_of_list_In, elem_of_list_fmap in Hl as (e & -> & He). apply elem_of_list_split in He as (pre & post & He).
  destruct (conn_history _ _ Hr _ _ (keeps_in _ (reach_wf _ _ Hr)) _ _ Hn) as (cs & st & Hex & _). rewrite He in Hex. by exists (id_in y), (ack_in y), pre, e, post, cs, st.
Qed.
Lemma in_frames_with cmd m w l : (Some m, w) ∈ l -> cmd_of m = cmd -> m ∈ frames_with cmd l.
Proof. intros H Hc. unfold frames_with. apply elem_of_list_omap. exists (Some m, w). split; [done|]. cbn. by rewrite bool_decide_eq_true_2. Qed.
Lemma receipt_wr_in w0 m rc w : (Some rc, w) ∈ receipt_wr w0 m -> w = w0 /\ cmd_of rc = RECEIPT /\ exists rid, hget_of m h_receipt = Some rid /\ hget_of rc h_receipt_id = Some rid.
Proof.
  unfold receipt_wr. change (hd_contains (hdr m) h_receipt) with (hget_of m h_receipt). destruct (hget_of m h_receipt) as [rid|]; [|by intros ?%elem_of_nil].
  intros E%elem_of_list_singleton. injection E as -> ->. split_and!; try done. by exists rid.
Qed.
(** A RECEIPT answers a frame of that connection that asked for it. *)
Lemma receipt_asked cfg cid id_of ack_of pre e post c st rc w : cexec cfg cid id_of ack_of (pre ++ e :: post) c st -> (Some rc, w) ∈ v_wr e -> cmd_of rc = RECEIPT ->
  exists m rid, v_in e = InFrame m /\ ServerConnSpec.answers (cmd_of m) = true /\ hget_of m h_receipt = Some rid /\ hget_of rc h_receipt_id = Some rid /\
    established pre /\ (w = true -> v_stop e = true -> exists txt, refused cfg pre m txt).
Proof.
  intros H Hin Hc. pose proof H as H0. apply cexec_event in H as (c0 & hp & nx & w1 & w2 & o & He & _ & Hf & Hi & _ & Hev & _).
  destruct (classic_in (v_in e)) as [[m Hm]|Hni].
  2: { exfalso. apply (other_writes _ _ _ _ _ _ _ _ _ RECEIPT Hni Hf) in Hi; [|neq_lits]. rewrite Hev in Hin. cbn [v_wr] in Hin. eapply (in_frames_with RECEIPT) in Hin; [|done]. rewrite Hi in Hin. by apply elem_of_nil in Hin. }
  rewrite Hm in Hi. pose proof (frame_writes _ _ _ _ _ _ _ _ _ (cexec_tx_ok _ _ _ _ _ _ _ He) Hi) as Hw.
  assert (k_connected c0 = true /\ ServerConnSpec.answers (cmd_of m) = true /\ (Some rc, w) ∈ receipt_wr w1 m /\
    forall rc' w', (Some rc', w') ∈ v_wr e -> cmd_of rc' = RECEIPT -> (Some rc', w') ∈ receipt_wr w1 m) as (H1 & H2 & H3 & H4).
  { assert (i_wr o = v_wr e) as Ew by by rewrite Hev. rewrite Ew in Hw.
    assert (forall err m0, cmd_of (ServerConnModel.error_frame err m0) = RECEIPT -> False) as Herr. { intros err m0 E. unfold cmd_of in E. cbn in E. revert E. neq_lits. }
    destruct (i_stop o).
    - destruct Hw as (_ & _ & _ & _ & er & [Hw|(Hk & Ha & Hw)]); rewrite Hw in *.
      + apply elem_of_list_singleton in Hin. injection Hin as -> _. by apply Herr in Hc.
      + assert (forall rc' w', (Some rc', w') ∈ receipt_wr w1 m ++ [(Some (ServerConnModel.error_frame er (no_receipt m)), w2)] -> cmd_of rc' = RECEIPT -> (Some rc', w') ∈ receipt_wr w1 m) as Hx.
        { intros rc' w' Hr' Hc'. apply elem_of_app in Hr' as [Hr'|Hr']; [done|]. apply elem_of_list_singleton in Hr'. injection Hr' as -> _. by apply Herr in Hc'. }
        split_and!; auto.
    - destruct Hw as [[Hk Hw]|(Hk & r & Hh & _ & Hw)]; rewrite Hw in *.
      + destruct (ServerConnSpec.answers (cmd_of m)); [auto|by apply elem_of_nil in Hin].
      + apply elem_of_list_singleton in Hin. injection Hin as -> _. unfold cmd_of in Hc. cbn [g_frame] in Hc. rewrite (connected_cmd _ _ _ Hh) in Hc. exfalso. revert Hc. neq_lits. }
  destruct (receipt_wr_in _ _ _ _ H3) as (-> & _ & rid & R1 & R2). exists m, rid. split_and!; try done.
  - by apply (established_iff _ _ _ _ _ _ _ He).
  - intros -> Hs. eapply (proj1 (refused_exact _ _ _ _ _ _ _ _ _ _ H0 Hm _)). exact Hs. Unshelve.
    intros rc' w' Hr' Hc'. by destruct (receipt_wr_in _ _ _ _ (H4 _ _ Hr' Hc')) as (-> & _).
Qed.

(** A frame of the client that nothing else could be mistaken for. *)
Lemma pivot {A} (f : A) a b c d : a ++ f :: b = c ++ f :: d -> f ∉ c -> f ∉ d -> a = c /\ b = d.
Proof.
  revert c. induction a as [|x a IH]; intros [|z c] E Hc Hd; cbn in E.
  - by injection E as ->.
  - injection E as -> E. by destruct Hc; left.
  - injection E as -> E. destruct Hd. rewrite <-E. apply elem_of_app. right. left.
  - injection E as -> E. destruct (IH c E) as [-> ->]; [|done..]. intros H. apply Hc. by right.
Qed.
Lemma wrote_in_app l l' : wrote_in (l ++ l') = wrote_in l ++ wrote_in l'.
Proof. apply omap_app. Qed.
Lemma in_wrote_in l f : f ∈ wrote_in l -> exists q w, PvReq q (Some (f, w)) ∈ l.
Proof. intros (e & He & Hx)%elem_of_list_omap. destruct e as [q [[f0 w]|]| |]; try done. injection Hx as ->. by exists q, w. Qed.
Lemma wrote_once A k y g r f rid l1 q w l2 : creach A k y -> c_gs y !! g = Some r -> op_frame (g_op r) = Some f -> hd_contains (f_hdr f) h_receipt = Some rid -> f_cmd f <> UNSUBSCRIBE ->
  sole (c_gs y) g rid -> c_log y = l1 ++ PvReq q (Some (f, w)) :: l2 -> q_by q = g -> f ∉ wrote_in l1 /\ f ∉ wrote_in l2.
Proof.
  intros Hr Hg Ho Hrid Hu Hs El Hq.
  assert (HN : forall q0, q0 ∈ log_reqs l1 \/ q0 ∈ log_reqs l2 -> q_by q0 <> g).
  { intros q0 H0 E. pose proof (proj1 (reach_uniq _ _ _ Hr)) as HN. unfold allr in HN. rewrite El in HN. unfold log_reqs in HN. rewrite omap_app in HN. cbn in HN. fold (log_reqs l1) (log_reqs l2) in HN.
    rewrite <-app_assoc, fmap_app, fmap_app in HN. apply NoDup_app in HN as (_ & HN1 & HN2). cbn in HN1, HN2. apply NoDup_cons in HN2 as [HN2 _]. destruct H0 as [H0|H0].
    - apply (HN1 (q_by q0)); [by apply elem_of_list_fmap_1|]. rewrite E, Hq. left.
    - apply HN2. rewrite Hq, <-E. apply elem_of_app. left. by apply elem_of_list_fmap_1. }
  assert (HF : forall q0 w0, PvReq q0 (Some (f, w0)) ∈ c_log y -> q_by q0 = g).
  { intros q0 w0 H0. destruct (mi_wr _ (reach_map _ _ _ Hr) _ _ H0) as [E1 E2]. destruct (rq_ok _ (reach_req _ _ _ Hr) q0) as (r0 & Hg0 & Ho0 & _); [right; left; by eapply log_req_in|].
    assert (q_frame q0 = f) as Ef by (unfold outgoing in E1; destruct (decide _); [|done]; subst f; done). rewrite Ef in Ho0. eapply (Hs _ _ _ Hg0 Ho0). by left. }
  split; intros (q0 & w0 & H0)%in_wrote_in; (apply (HN q0); [by eauto using log_req_in|]); eapply HF; rewrite El; apply elem_of_app; [by left|by right; right].
Qed.
Lemma frames_accepted pre : (forall e, e ∈ pre -> v_stop e = false) -> frames_of pre = omap accepted pre.
Proof.
  induction pre as [|e l IH]; intros H; [done|]. unfold frames_of. cbn. unfold accepted at 1. rewrite (H e) by left. fold (frames_of l). rewrite IH; [done|]. intros e0 H0. apply H. by right.
Qed.
Lemma before_accepted cfg cid id_of ack_of pre e post c st : cexec cfg cid id_of ack_of (pre ++ e :: post) c st -> forall e0, e0 ∈ pre -> v_stop e0 = false.
Proof.
  intros H e0 (p1 & p2 & ->)%elem_of_list_split. rewrite <-app_assoc in H. cbn in H. apply cexec_event in H as (? & ? & ? & ? & ? & ? & _ & _ & _ & _ & _ & _ & _ & [H|H]); [|done]. by destruct p2.
Qed.
(** If the RECEIPT for a call's frame was read, the server has handled the
    frame, after accepting everything the client wrote before it. *)
Lemma receipt_served cfg x c l n o h k y g r f rid : nreach cfg x -> x_links x !! c = Some l -> y_conns (x_sys x) !! c = Some n -> l_peer l = PeerClient o h k y ->
  Forall writable (peer_sent (l_peer l)) -> c_gs y !! g = Some r -> op_frame (g_op r) = Some f -> hd_contains (f_hdr f) h_receipt = Some rid -> sole (c_gs y) g rid ->
  receipted (c_log y) g f ->
  exists pre e post m l1 q w l2, n_log n = pre ++ e :: post /\ v_in e = InFrame m /\ g_frame m = f /\
    c_log y = l1 ++ PvReq q (Some (f, w)) :: l2 /\ q_by q = g /\ g_frame <$> omap accepted pre = connect_frame o :: wrote_in l1 /\
    established pre /\ (l_ok l = true -> v_stop e = true -> exists txt, refused cfg pre m txt).
Proof.
  intros Hr Hl Hn Hp Hw Hg Ho Hrid Hs (l1 & q & l2 & fr & l3 & El & Hq & Hc & Hid). pose proof (nreach_inv _ _ Hr) as HI. pose proof (ni_client _ _ HI _ _ _ _ _ _ Hl Hp) as Hcr.
  assert (fr ∈ server_sent n) as Hsent. { eapply elem_of_prefix; [|by eapply down_prefix]. rewrite Hp. right. apply in_client_read. rewrite El. apply elem_of_app. right. right. apply elem_of_app. right. left. }
  unfold server_sent in Hsent. apply elem_of_list_fmap in Hsent as (rc & -> & Hm). apply elem_of_list_omap in Hm as ([o0 w] & Hm & E). cbn in E. subst o0.
  destruct (in_wire _ _ _ _ _ (ni_reach _ _ HI) Hn Hm) as (id_of & ack_of & pre & e & post & cs & st & Elog & Hex & Hwr).
  destruct (receipt_asked _ _ _ _ _ _ _ _ _ _ _ Hex Hwr Hc) as (m & rid' & Hin & Hans & Hm1 & Hrc & Hest & Hok).
  assert (rid' = rid) as ->. { unfold hget_of in Hrc. rewrite Hid, Hrid in Hrc. by injection Hrc. }
  pose proof (up_prefix _ _ _ _ _ Hr Hl Hn ltac:(by rewrite Hp) Hw) as [rest Hup]. rewrite Hp in Hup. cbn [peer_sent] in Hup.
  unfold server_got in Hup. rewrite Elog in Hup. unfold frames_of in Hup. rewrite omap_app in Hup. cbn in Hup. unfold client_frame at 2 in Hup. rewrite Hin in Hup. fold (frames_of pre) (frames_of post) in Hup.
  rewrite (frames_accepted _ (before_accepted _ _ _ _ _ _ _ _ _ Hex)) in Hup. rewrite <-!app_assoc, fmap_app, <-app_assoc in Hup. cbn in Hup.
  assert (g_frame m <> connect_frame o) as Hnc.
  { intros E. destruct (proj1 (nreach_peer _ _ Hr _ _ Hl) o) as (rm & os & Hopt); [by rewrite Hp|]. apply connect_cmd in Hopt. rewrite <-E in Hopt. unfold cmd_of in Hans. by destruct Hopt as [E1|E1]; rewrite E1 in Hans. }
  assert (g_frame m ∈ client_wrote y) as Hwy.
  { assert (g_frame m ∈ connect_frame o :: client_wrote y) as Hx by (rewrite Hup; apply elem_of_app; right; left). apply elem_of_cons in Hx as [Hx|Hx]; [by destruct Hnc|done]. }
  assert (f_cmd (g_frame m) <> UNSUBSCRIBE) as Hu by (intros E; unfold cmd_of in Hans; by rewrite E in Hans).
  assert (g_frame m = f) as Ef.
  { destruct (wrote_call _ _ _ _ Hcr Hwy Hu) as (g' & r' & Hg' & Ho'). assert (g' = g) as -> by (eapply (Hs _ _ _ Hg' Ho'); by left). congruence. }
  rewrite Ef in *. destruct (wrote_once _ _ _ _ _ _ _ _ _ _ _ Hcr Hg Ho Hrid Hu Hs El Hq) as [N1 N2].
  unfold client_wrote in Hup. rewrite El, wrote_in_app in Hup. cbn in Hup. change (connect_frame o :: wrote_in l1 ++ f :: _) with ((connect_frame o :: wrote_in l1) ++ f :: wrote_in (l2 ++ PvIn (Some (g_frame rc)) :: l3)) in Hup.
  symmetry in Hup. apply pivot in Hup as [Hpre _]; [|by intros [?|?]%elem_of_cons|done].
  exists pre, e, post, m, l1, q, true. eexists. split_and!; try done.
  intros Hlok Hst. apply Hok; [|done]. pose proof (ni_ok _ _ HI _ _ _ Hl Hn Hlok) as Hall. rewrite forallb_forall in Hall. by apply (Hall _ (proj1 (elem_of_list_In _ _) Hm)).
Qed.
Lemma cmd_not_in m (l : list str) s : cmd_of m ∈ l -> bool_decide (s ∈ l) = false -> cmd_of m <> s.
Proof. intros H Hb E. rewrite E in H. by apply bool_decide_eq_false in Hb. Qed.
Lemma cmd_in m (l : list str) s : cmd_of m ∉ l -> bool_decide (s ∈ l) = true -> cmd_of m <> s.
Proof. intros H Hb E. rewrite E in H. by apply bool_decide_eq_true in Hb. Qed.
Lemma not_refused cfg log m txt : established log -> refused cfg log m txt ->
  (cmd_of m = SEND -> exists t, hget_of m (lit "transaction") = Some t /\ collected t log = None) /\ cmd_of m <> DISCONNECT.
Proof.
  intros He Hr.
  assert (HN : forall s, s <> SEND -> s <> DISCONNECT -> cmd_of m = s -> (cmd_of m = SEND -> exists t, hget_of m (lit "transaction") = Some t /\ collected t log = None) /\ cmd_of m <> DISCONNECT)
    by (intros s H1 H2 <-; done).
  assert (HL : forall l : list str, bool_decide (SEND ∈ l) = false -> bool_decide (DISCONNECT ∈ l) = false -> cmd_of m ∈ l ->
    (cmd_of m = SEND -> exists t, hget_of m (lit "transaction") = Some t /\ collected t log = None) /\ cmd_of m <> DISCONNECT)
    by (intros l H1 H2 H3; split; [intros E; by destruct (cmd_not_in _ _ _ H3 H1)|by apply (cmd_not_in _ _ _ H3)]).
  destruct Hr; try done;
    try (by (match goal with H : cmd_of m ∈ ?l |- _ => apply (HL l) end));
    try (match goal with H : cmd_of m = ?s |- _ => apply (HN s); [neq_lits|neq_lits|done] end).
  - split; [intros E; by destruct (cmd_in _ _ SEND H0)|by apply (cmd_in _ _ DISCONNECT H0)].
  - split; [intros _; by exists t|]. by eapply cmd_not_in.
Qed.
(** A call that asked for a receipt and returned nil. *)
Lemma receipt_call_served cfg x c l n o h k y g r f : nreach cfg x -> x_links x !! c = Some l -> y_conns (x_sys x) !! c = Some n -> l_peer l = PeerClient o h k y ->
  Forall writable (peer_sent (l_peer l)) -> c_gs y !! g = Some r -> receipt_call (g_op r) f -> g_pc r = GDone RNil -> (forall rid, hd_contains (f_hdr f) h_receipt = Some rid -> sole (c_gs y) g rid) ->
  exists pre e post m l1 q w l2, n_log n = pre ++ e :: post /\ v_in e = InFrame m /\ g_frame m = f /\
    c_log y = l1 ++ PvReq q (Some (f, w)) :: l2 /\ q_by q = g /\ g_frame <$> omap accepted pre = connect_frame o :: wrote_in l1 /\
    established pre /\ (l_ok l = true -> v_stop e = true -> exists txt, refused cfg pre m txt).
Proof.
  intros Hr Hl Hn Hp Hw Hg Hop Hd Hs. pose proof (ni_client _ _ (nreach_inv _ _ Hr) _ _ _ _ _ _ Hl Hp) as Hcr. pose proof (receipt_nil _ _ _ Hcr _ _ _ Hg Hop Hd) as Hrc.
  destruct Hop as [Hop Hwr]. unfold wants_receipt in Hwr. destruct (hd_contains (f_hdr f) h_receipt) as [rid|] eqn:Hrid; [|done].
  eapply receipt_served; try done; [by destruct Hop as [-> | ->]|by apply Hs].
Qed.
Lemma send_delivered cfg x c l n o h k y g r f : nreach cfg x -> x_links x !! c = Some l -> y_conns (x_sys x) !! c = Some n -> l_peer l = PeerClient o h k y -> l_ok l = true ->
  Forall writable (peer_sent (l_peer l)) -> c_gs y !! g = Some r -> receipt_call (g_op r) f -> g_pc r = GDone RNil -> (forall rid, hd_contains (f_hdr f) h_receipt = Some rid -> sole (c_gs y) g rid) ->
  f_cmd f = SEND -> hd_contains (f_hdr f) (lit "transaction") = None -> exists m, g_frame m = f /\ accepts (x_sys x) c m /\ delivered m ∈ client_sent n.
Proof.
  intros Hr Hl Hn Hp Hlok Hw Hg Hop Hd Hs Hc Ht. destruct (receipt_call_served _ _ _ _ _ _ _ _ _ _ _ _ Hr Hl Hn Hp Hw Hg Hop Hd Hs) as (pre & e & post & m & l1 & q & w & l2 & El & Hin & Ef & _ & _ & _ & He & Hst).
  exists m. split; [done|]. assert (accepted e = Some m) as Hacc.
  { unfold accepted, client_frame. rewrite Hin. destruct (v_stop e) eqn:Hv; [|done]. exfalso. destruct (Hst Hlok eq_refl) as [txt Hrf]. apply (not_refused _ _ _ _ He) in Hrf as [Hrf _].
    destruct Hrf as (t & Hx & _); [unfold cmd_of; by rewrite Ef|]. unfold hget_of in Hx. rewrite Ef in Hx. congruence. }
  split; [exists n, e; split_and!; try done; rewrite El; apply elem_of_app; right; left|].
  destruct (conn_history _ _ (ni_reach _ _ (nreach_inv _ _ Hr)) _ _ (keeps_in _ (reach_wf _ _ (ni_reach _ _ (nreach_inv _ _ Hr)))) _ _ Hn) as (cs & st & Hx & _). rewrite El in Hx.
  pose proof (enqueue_due _ _ _ _ _ _ _ _ _ Hx) as Hdue. unfold due in Hdue. rewrite Hacc in Hdue. unfold hget_of at 1 in Hdue. rewrite Ef, Ht in Hdue.
  unfold sends in Hdue. cbn in Hdue. rewrite decide_True in Hdue by (unfold cmd_of; by rewrite Ef). unfold client_sent. rewrite El, fmap_app, concat_app. cbn. rewrite Hdue. apply elem_of_app. right. left.
Qed.
(** Disconnect returned nil after sending its frame. *)
Lemma disconnect_served cfg x c l n o h k y g r rid : nreach cfg x -> x_links x !! c = Some l -> y_conns (x_sys x) !! c = Some n -> l_peer l = PeerClient o h k y -> l_ok l = true ->
  Forall writable (peer_sent (l_peer l)) -> c_gs y !! g = Some r -> g_op r = ODisconnect rid -> g_pc r = GDone RNil -> sole (c_gs y) g rid -> g ∈ q_by <$> allr y ->
  exists l1 q w l2, c_log y = l1 ++ PvReq q (Some (mkFrame DISCONNECT [(h_receipt, rid)] [], w)) :: l2 /\ q_by q = g /\
    forall f, f ∈ wrote_in l1 -> exists m, g_frame m = f /\ accepts (x_sys x) c m.
Proof.
  intros Hr Hl Hn Hp Hlok Hw Hg Hop Hd Hs Hq. pose proof (ni_client _ _ (nreach_inv _ _ Hr) _ _ _ _ _ _ Hl Hp) as Hcr. pose proof (disconnect_nil _ _ _ Hcr _ _ _ Hg Hop Hd Hq) as Hrc.
  destruct (receipt_served _ _ _ _ _ _ _ _ _ _ _ _ rid Hr Hl Hn Hp Hw Hg ltac:(by rewrite Hop) eq_refl Hs Hrc) as (pre & e & post & m & l1 & q & w & l2 & El & Hin & Ef & Ely & Hqg & Hpre & _).
  exists l1, q, w, l2. split_and!; try done. intros f Hf. assert (f ∈ g_frame <$> omap accepted pre) as Hx by (rewrite Hpre; by right).
  apply elem_of_list_fmap in Hx as (m' & -> & Hm'). apply elem_of_list_omap in Hm' as (e' & He' & Ha). exists m'. split; [done|]. exists n, e'. split_and!; try done. rewrite El. apply elem_of_app. by left.
Qed.
Lemma disconnect_wrote cfg x c l n o h k y g r rid : nreach cfg x -> x_links x !! c = Some l -> y_conns (x_sys x) !! c = Some n -> l_peer l = PeerClient o h k y -> l_ok l = true ->
  Forall writable (peer_sent (l_peer l)) -> c_gs y !! g = Some r -> g_op r = ODisconnect rid -> g_pc r = GDone RNil -> sole (c_gs y) g rid -> mkFrame DISCONNECT [(h_receipt, rid)] [] ∈ client_wrote y ->
  exists l1 q w l2, c_log y = l1 ++ PvReq q (Some (mkFrame DISCONNECT [(h_receipt, rid)] [], w)) :: l2 /\ q_by q = g /\
    forall f, f ∈ wrote_in l1 -> exists m, g_frame m = f /\ accepts (x_sys x) c m.
Proof.
  intros Hr Hl Hn Hp Hlok Hw Hg Hop Hd Hs Hin. eapply disconnect_served; try done. pose proof (ni_client _ _ (nreach_inv _ _ Hr) _ _ _ _ _ _ Hl Hp) as Hcr.
  destruct (in_client_wrote _ _ _ _ Hcr Hin) as (q & w & r' & Hq & E & _ & Hg' & Ho). assert (q_by q = g) as <-.
  { eapply Hs; [done..|]. left. unfold outgoing in E. destruct (decide _) as [Hc|]; [by apply (f_equal f_cmd) in E; cbn in E; rewrite Hc in E|]. by rewrite <-E. }
  apply elem_of_list_fmap_1. apply elem_of_app. left. by eapply log_req_in.
Qed.
