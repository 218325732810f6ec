(** The whole comes to rest. *)
From stdpp Require Import gmap.
From Verif Require Import GoBase GoBaseProofs HeaderModel HeaderProofs FrameModel GrammarSpec CodecProofs NegotiationModel ClientApiModel ClientModel ClientSpec ClientLemmas ClientProofs ClientRequests ClientChannels ClientReceipts ClientDelivery
  ClientRestSpec ClientRest.
From Verif Require Import BrokerModel BrokerSpec ServerConnModel ServerConnSpec ServerConnProofs SystemModel SystemSpec SystemLemmas SystemHistory SystemProofs FlowSpec RestSpec RestProofs PeerSpec PeerProofs
  NetModel NetSpec NetLinks NetRestSpec.

(* ---------------- bytes ---------------- *)
Lemma read_shorter s o rest : read_stream s = match o with Some f => RFrame f rest | None => RHeartbeat rest end -> length rest < length s.
Proof.
  intros H. pose proof (read_stream_sound s) as Hs. rewrite H in Hs.
  assert (Hne : forall raw l, eol_line raw l -> 0 < length raw) by (intros raw l []; rewrite app_length; cbn; lia).
  destruct o as [f|]; destruct Hs as (raw & -> & He); rewrite app_length.
  - destruct He as [craw cmd hraw h braw b Hl _ _ _]. specialize (Hne _ _ Hl). rewrite !app_length. lia.
  - specialize (Hne _ _ He). lia.
Qed.
Definition fbytes (o : option frame) : nat := match o with Some f => length (write_frame (outgoing f)) | None => 0 end.
Definition callb (y : cl) : nat := sum_list_with (fun r => fbytes (op_frame (g_op r))) (c_gs y).
Definition logb (y : cl) : nat := sum_list_with (fun q => fbytes (Some (q_frame q))) (log_reqs (c_log y)).
Definition wroteb (y : cl) : nat := sum_list_with (fun f => length (write_frame f)) (client_wrote y).
(** What the calls made so far can still write. *)
Definition unsent (y : cl) : nat := callb y - wroteb y.
Lemma sum_seq {A} (f : A -> nat) (l : list A) k : sum_list_with f l = sum_list_with (fun i => from_option f 0 (l !! (i - k))) (seq k (length l)).
Proof.
  revert k. induction l as [|x l IH]; intros k; [done|]. cbn [length seq sum_list_with]. rewrite Nat.sub_diag. cbn. f_equal. rewrite (IH (S k)).
  assert (forall n k', S k <= k' -> sum_list_with (fun i => from_option f 0 (l !! (i - S k))) (seq k' n) = sum_list_with (fun i => from_option f 0 ((x :: l) !! (i - k))) (seq k' n)) as E.
  { induction n as [|n IHn]; intros k' Hk; [done|]. cbn [seq sum_list_with]. rewrite (IHn (S k')) by lia. f_equal. by replace (k' - k) with (S (k' - S k)) by lia. }
  by apply E.
Qed.
Lemma sum_sub {A} (f : A -> nat) l k : l ⊆+ k -> sum_list_with f l <= sum_list_with f k.
Proof. intros [k' Hk]%submseteq_Permutation. rewrite (sum_perm f _ _ Hk), sum_list_with_app. lia. Qed.
Lemma logb_ok A cfg y : creach A cfg y -> logb y <= callb y.
Proof.
  intros Hr. pose proof (reach_req _ _ _ Hr) as HR. destruct (reach_uniq _ _ _ Hr) as [Hu _]. unfold allr in Hu. rewrite fmap_app in Hu. apply NoDup_app in Hu as [Hu _].
  unfold logb, callb. set (F := fun r => fbytes (op_frame (g_op r))). rewrite (sum_seq F _ 0).
  assert (forall qs, (forall q, q ∈ qs -> q ∈ log_reqs (c_log y)) ->
    sum_list_with (fun q => fbytes (Some (q_frame q))) qs = sum_list_with (fun i => from_option F 0 (c_gs y !! (i - 0))) (q_by <$> qs)) as E.
  { induction qs as [|q qs IH]; intros Hq; [done|]. rewrite fmap_cons. cbn [sum_list_with]. rewrite IH by (intros; apply Hq; by right). f_equal.
    destruct (rq_ok _ HR q) as (r & Hg & Ho & _); [right; left; apply Hq; by left|]. rewrite Nat.sub_0_r, Hg. cbn. unfold F. by rewrite Ho. }
  rewrite E by done. apply sum_sub, NoDup_submseteq; [done|]. intros i (q & -> & Hq)%elem_of_list_fmap. apply elem_of_seq.
  destruct (rq_ok _ HR q) as (r & Hg%lookup_lt_Some & _); [right; by left|]. lia.
Qed.
Lemma unsent_ok A cfg y : creach A cfg y -> wroteb y <= callb y.
Proof.
  intros Hr. etrans; [|by eapply logb_ok]. pose proof (mi_wr _ (reach_map _ _ _ Hr)) as HM. unfold wroteb, logb, client_wrote. revert HM. generalize (c_log y).
  induction l as [|e l IH]; intros HM; [done|]. assert (sum_list_with (fun f => length (write_frame f)) (wrote_in l) <= sum_list_with (fun q => fbytes (Some (q_frame q))) (log_reqs l)) as H
    by (apply IH; intros q w Hq; apply HM; by right).
  destruct e as [q w| |]; try done. specialize (HM q w ltac:(by left)). cbn. destruct w as [[fr w]|]; cbn; [destruct HM as [-> _]; unfold wrote_in, log_reqs, fbytes in H; cbn in H; lia|].
  unfold wrote_in, log_reqs, fbytes in H; cbn in H. lia.
Qed.
Lemma ops_alter (gs : list gor) g x : g_op <$> alter (fun r => mkGor (g_op r) x) g gs = g_op <$> gs.
Proof. revert g. induction gs as [|r gs IH]; intros [|g]; [done..| |]; rewrite ?fmap_cons; [done|]. cbn. f_equal. apply IH. Qed.
Lemma cmv_ops cfg y a y' : cmv cfg y a y' -> (forall o, a <> XCall o) -> g_op <$> c_gs y' = g_op <$> c_gs y.
Proof.
  intros Hm Hn. assert (Hg : forall Y g x, c_gs Y = c_gs y -> g_op <$> c_gs (with_g Y g x) = g_op <$> c_gs y) by (intros Y g x <-; apply ops_alter).
  destruct Hm; try done; try (by apply Hg); try (by destruct (Hn o)).
  - match goal with |- context [submit ?z ?g ?k ?f ?o] => destruct (submit_gs z g k f o) as [x ->] end. apply ops_alter.
  - apply Hg. by destruct (put_next k (q_chan q)).2.
  - by destruct w.
  - match goal with H : ClientLemmas.answers _ _ _ _ _ |- _ => destruct (answers_gs _ _ _ _ _ H) as [x0 ->] end. cbn [with_log c_gs]. rewrite after_send_gs. apply ops_alter.
  - cbn [with_subs with_log c_gs]. by rewrite after_send_gs.
Qed.
Lemma callb_ops y y' : g_op <$> c_gs y' = g_op <$> c_gs y -> callb y' = callb y.
Proof.
  intros H. unfold callb. assert (forall gs : list gor, sum_list_with (fun r => fbytes (op_frame (g_op r))) gs = sum_list_with (fun o => fbytes (op_frame o)) (g_op <$> gs)) as E.
  { induction gs as [|r gs IH]; [done|]. rewrite fmap_cons. cbn [sum_list_with]. by rewrite IH. }
  by rewrite !E, H.
Qed.
Lemma on_wire_le b w k : length (on_wire b w k) <= length b.
Proof. destruct w; cbn; [done|]. rewrite take_length. lia. Qed.
Lemma cmv_bytes cfg y a y' k : creach anything cfg y -> creach anything cfg y' -> cmv cfg y a y' -> (forall o, a <> XCall o) -> (forall o, a <> XRecv o) -> (forall w, a <> XBeat w) ->
  length (on_wire (client_writes y a).1 (client_writes y a).2 k) + unsent y' <= unsent y.
Proof.
  intros Hr Hr' Hm Hn Hv Hb. pose proof (unsent_ok _ _ _ Hr) as L1. pose proof (unsent_ok _ _ _ Hr') as L2. pose proof (callb_ops _ _ (cmv_ops _ _ _ _ Hm Hn)) as E. unfold unsent. rewrite E in *.
  assert (length (client_writes y a).1 + wroteb y <= wroteb y'); [|pose proof (on_wire_le (client_writes y a).1 (client_writes y a).2 k); lia].
  destruct (client_io _ _ _ _ Hm Hv) as (_ & _ & [[E1 E2]|(o & w & E1 & E2 & _)]); rewrite E1; cbn [fst]; unfold wroteb; rewrite E2; [done|].
  rewrite sum_list_with_app. destruct o as [f|]; cbn; [lia|]. destruct a; try done; cbn in E1; [|by destruct (Hb w0)].
  destruct (c_wch y) as [|q l]; [done|]. destruct (local_only (q_frame q)); [done|]. injection E1 as E1 _.
  apply (f_equal length) in E1. unfold write_frame in E1. rewrite !app_length in E1. cbn in E1. lia.
Qed.

(* ---------------- the measure ---------------- *)
Definition lup (l : link) : nat := length (l_up l) + match l_peer l with PeerClient _ _ _ y => unsent y | _ => 0 end.
Definition ldown (l : link) : nat := length (l_down l).
Definition lclient (l : link) : nat := match l_peer l with PeerClient _ _ _ y => weight y | _ => 0 end.
Definition nup (x : net) : nat := sum_list_with lup (x_links x).
Definition ndown (x : net) : nat := sum_list_with ldown (x_links x).
Definition nclients (x : net) : nat := sum_list_with lclient (x_links x).
Definition lower (u w d c u' w' d' c' : nat) : Prop :=
  u' < u \/ u' <= u /\ (w' < w \/ w' <= w /\ (d' < d \/ d' <= d /\ c' < c)).
Lemma sum_set {A} (f : A -> nat) (l : list A) i x x' : l !! i = Some x -> sum_list_with f (<[i := x']> l) + f x = sum_list_with f l + f x'.
Proof. intros H. exact (ClientRest.sum_alter f l i x x' H). Qed.
Lemma nwork_step cfg x a x' N D : nreach cfg x -> nwork a -> nstep cfg x a = Some x' -> inbox (x_sys x) + nup x <= N -> cov D (y_broker (x_sys x)) ->
  exists D', cov D' (y_broker (x_sys x')) /\ inbox (x_sys x') + nup x' <= N /\
    lower (nup x) (wsys N D (x_sys x)) (ndown x) (nclients x) (nup x') (wsys N D' (x_sys x')) (ndown x') (nclients x').
Proof.
  intros Hr Ha Hs HN HD. pose proof (nreach_inv _ _ Hr) as HI. pose proof (ni_reach _ _ HI) as Hsr.
  assert (HN' : y_next (x_sys x) <= N) by (unfold inbox in HN; lia).
  unfold nup, ndown, nclients in *. destruct a as [remote opts cut| |c b|c|a k|c k|c|c|c a k]; try done; cbn [nstep] in Hs.
  - unfold net_up in Hs. destruct (x_links x !! c) as [l|] eqn:Hl; [|done]. destruct (read_stream (l_up l)) as [rest|f rest|e| |] eqn:Hrd; try done.
    + injection Hs as <-. cbn [with_link x_sys x_links]. exists D. split; [done|].
      pose proof (sum_set lup _ _ _ (mkLink rest (l_down l) (l_ok l) (l_peer l)) Hl) as E. pose proof (read_shorter _ None _ Hrd). unfold lup in E at 2 4. cbn [l_up l_peer] in E.
      split; [lia|]. left. lia.
    + destruct (step cfg (x_sys x) (ARecv c f)) as [[|y]|] eqn:Hst; try done. injection Hs as <-. cbn [x_sys x_links].
      destruct (RestProofs.step_weight N _ _ _ _ D Hsr HN' HD Hst) as (D' & HD' & _). exists D'. split; [done|].
      pose proof (sum_set lup _ _ _ (mkLink rest (l_down l) (l_ok l) (l_peer l)) Hl) as E. pose proof (read_shorter _ (Some f) _ Hrd). unfold lup in E at 2 4. cbn [l_up l_peer] in E.
      pose proof (step_inbox _ _ _ _ Hsr Hst) as Hi. cbn in Hi. split; [lia|]. left. lia.
  - cbn [nwork] in Ha.
    assert (Hgen : forall y, step cfg (x_sys x) a = Some (Fine y) -> exists D', cov D' (y_broker y) /\ inbox y <= inbox (x_sys x) /\ wsys N D' y < wsys N D (x_sys x)).
    { intros y Hst. destruct (RestProofs.step_weight N _ _ _ _ D Hsr HN' HD Hst) as (D' & HD' & Hw). exists D'. split; [done|].
      pose proof (step_inbox _ _ _ _ Hsr Hst) as Hi. rewrite decide_True in Hw by done. destruct a; try done; cbn in Hi, Hw; split; lia. }
    unfold net_server in Hs. destruct a as [|c1 f|c1|c1 s w1 w2|c1|c1 pick| |]; try done.
    2-5: match goal with H : context [step ?c ?y ?a] |- _ => destruct (step c y a) as [[|y']|] eqn:Hst end; try done; injection Hs as <-; cbn [x_sys x_links];
      destruct (Hgen _ eq_refl) as (D' & H1 & H2 & H3); exists D'; split_and!; [done|lia|]; right; split; [done|]; by left.
    destruct (x_links x !! c1) as [l|] eqn:Hl; [|done]. destruct (y_conns (x_sys x) !! c1); [|done]. destruct (step _ _ _) as [[|y']|] eqn:Hst; try done.
    destruct (y_conns y' !! c1); [|done]. destruct (sticky _ _); [|done]. injection Hs as <-. cbn [x_sys x_links].
    match goal with |- context [<[c1 := ?l1]> _] => pose proof (sum_set lup _ _ _ l1 Hl) as E end. unfold lup in E at 2 4. cbn [l_up l_peer] in E.
    destruct (Hgen _ eq_refl) as (D' & H1 & H2 & H3). exists D'. split_and!; [done|lia|]. right. split; [lia|]. by left.
  - unfold net_hello in Hs. destruct (x_links x !! c) as [l|] eqn:Hl; [|done]. destruct (l_peer l) as [|o|o|o h k0 y] eqn:Hpl; try done.
    destruct (read_stream (l_down l)) as [rest|f rest|e| |] eqn:Hrd; try done; [pose proof (read_shorter _ None _ Hrd)|pose proof (read_shorter _ (Some f) _ Hrd)];
      [|destruct (client_connect o (RFrame f rest)) as [cc| | | | | |] eqn:Hc; [destruct (bool_decide _) eqn:Hb; [|done]|..]]; injection Hs as <-; cbn [with_link x_sys x_links];
      match goal with |- context [<[c := ?l1]> _] => pose proof (sum_set lup _ _ _ l1 Hl) as E; pose proof (sum_set ldown _ _ _ l1 Hl) as E' end; unfold lup in E at 2 4; unfold ldown in E' at 2 4;
      cbn [l_up l_down l_peer] in E, E'; rewrite Hpl in E; try change (unsent cl_init) with 0 in E; exists D; (split_and!; [done|lia|]); right; (split; [lia|]); right; (split; [lia|]); left; lia.
  - unfold net_down in Hs. destruct (x_links x !! c) as [l|] eqn:Hl; [|done]. destruct (l_peer l) as [|o|o|o h k0 y] eqn:Hpl; try done.
    assert (exists it rest y', read_stream (l_down l) = match it with Some f => RFrame f rest | None => RHeartbeat rest end /\ cstep k0 y (XRecv it) = Some (COk y') /\
      x' = with_link x c (mkLink (l_up l) rest (l_ok l) (PeerClient o h k0 y'))) as (it & rest & y' & Hrd & Hcs & ->).
    { destruct (read_stream (l_down l)) as [rest|f rest|e| |] eqn:Hrd; try done; match goal with H : context [cstep ?c ?y ?a] |- _ => destruct (cstep c y a) as [[|y1]|] eqn:Hcs end; try done; injection Hs as <-.
      - by exists None, rest, y1.
      - by exists (Some f), rest, y1. }
    cbn [with_link x_sys x_links]. pose proof (read_shorter _ it _ Hrd).
    assert (unsent y' = unsent y) as Hu. { cbn in Hcs. destruct (c_rclosed y); [done|]. case_decide; [|done]. by injection Hcs as <-. }
    match goal with |- context [<[c := ?l1]> _] => pose proof (sum_set lup _ _ _ l1 Hl) as E; pose proof (sum_set ldown _ _ _ l1 Hl) as E' end; unfold lup in E at 2 4; unfold ldown in E' at 2 4;
      cbn [l_up l_down l_peer] in E, E'; rewrite Hpl in E. exists D. split_and!; [done|lia|]. right. split; [lia|]. right. split; [lia|]. left. lia.
  - cbn [nwork] in Ha. unfold net_client in Hs. destruct (x_links x !! c) as [l|] eqn:Hl; [|done]. destruct (l_peer l) as [|o|o|o h k0 y] eqn:Hpl; try done.
    assert (Hv : forall f, a <> XRecv f) by (intros f ->; by destruct Ha).
    assert (exists y', cstep k0 y a = Some (COk y') /\
      x' = with_link x c (mkLink (l_up l ++ on_wire (client_writes y a).1 (client_writes y a).2 k) (l_down l) (l_ok l) (PeerClient o h k0 y'))) as (y' & Hcs & ->).
    { destruct a; try done; match goal with H : context [cstep ?c ?y ?a] |- _ => destruct (cstep c y a) as [[|y1]|] eqn:Hcs end; try done; injection Hs as <-; by exists y1. }
    clear Hs. cbn [with_link x_sys x_links]. pose proof (ni_client _ _ HI _ _ _ _ _ _ Hl Hpl) as Hy. pose proof (cr_step _ _ _ _ _ Hy I Hcs) as Hy'.
    pose proof (ClientRest.step_weight _ _ _ _ _ Hy Hcs) as Hw. rewrite decide_True in Hw by by destruct Ha.
    assert (cinput a = 0) as Hc by (destruct a; try done; by destruct Ha).
    assert (length (on_wire (client_writes y a).1 (client_writes y a).2 k) + unsent y' <= unsent y) as Hb.
    { eapply cmv_bytes; [done|done|by apply cstep_cmv|..]; [by intros ? ->; destruct Ha|done|]. intros w ->. destruct Ha as (Ha & _ & Ha'). by destruct w. }
    match goal with |- context [<[c := ?l1]> _] => pose proof (sum_set lup _ _ _ l1 Hl) as E; pose proof (sum_set ldown _ _ _ l1 Hl) as E'; pose proof (sum_set lclient _ _ _ l1 Hl) as E'' end;
      unfold lup in E at 2 4; unfold ldown in E' at 2 4; unfold lclient in E'' at 2 4; cbn [l_up l_down l_peer] in E, E', E''; rewrite Hpl in E, E''. rewrite app_length in E.
    exists D. split_and!; [done|lia|]. right. split; [lia|]. right. split; [lia|]. right. split; lia.
Qed.

(** No infinite sequence of such moves. *)
Inductive ends (cfg : scfg) (x : net) : Prop := ends_i : (forall a x', nwork a -> nstep cfg x a = Some x' -> ends cfg x') -> ends cfg x.
Lemma nreach_ends cfg x : nreach cfg x -> ends cfg x.
Proof.
  intros Hr. destruct (cov_exists (y_broker (x_sys x))) as [D HD]. remember (inbox (x_sys x) + nup x) as N eqn:HN. assert (inbox (x_sys x) + nup x <= N) as HN' by lia. clear HN.
  assert (H : forall u w d c x D, nup x <= u -> wsys N D (x_sys x) <= w -> ndown x <= d -> nclients x <= c -> nreach cfg x -> cov D (y_broker (x_sys x)) ->
    inbox (x_sys x) + nup x <= N -> ends cfg x).
  { clear. intros u. induction (lt_wf u) as [u _ IHu]. intros w. induction (lt_wf w) as [w _ IHw]. intros d. induction (lt_wf d) as [d _ IHd]. intros c. induction (lt_wf c) as [c _ IHc].
    intros x D Hu Hw Hd Hc Hr HD HN. constructor. intros a x' Ha Hs. destruct (nwork_step _ _ _ _ N D Hr Ha Hs HN HD) as (D' & HD' & HN' & HL). assert (nreach cfg x') as Hr' by by eapply nr_step.
    destruct HL as [H|[H1 [H|[H2 [H|[H3 H]]]]]].
    - eapply (IHu (nup x') ltac:(lia) _ _ _ x' D'); eauto.
    - eapply (IHw (wsys N D' (x_sys x')) ltac:(lia) _ _ x' D'); eauto; lia.
    - eapply (IHd (ndown x') ltac:(lia) _ x' D'); eauto; lia.
    - eapply (IHc (nclients x') ltac:(lia) x' D'); eauto; lia. }
  eapply H; eauto.
Qed.
Lemma ends_no_infinite cfg x : ends cfg x -> forall (s : nat -> net) (t : nat -> nact), s 0 = x -> ~ forall i, nwork (t i) /\ nstep cfg (s i) (t i) = Some (s (S i)).
Proof.
  induction 1 as [x _ IH]. intros s t H0 H. destruct (H 0) as [H1 H2]. rewrite H0 in H2. apply (IH _ _ H1 H2 (fun i => s (S i)) (fun i => t (S i))); [done|]. intros i. apply H.
Qed.

(* ---------------- coming to rest ---------------- *)
Definition eager (a : cact) : Prop := cplain a /\ (forall g, a <> XTimeout g).
Definition ecands (y : cl) : list cact :=
  (XRun <$> seq 0 (length (c_gs y))) ++ [XTakeRead; XTakeWrite true; XDeliver; XFinish] ++
  (match c_p y with PBcast _ rest _ => XPick <$> seq 0 (length rest) | _ => [] end) ++ (XLoop <$> seq 0 (length (c_subs y))) ++ (XConsume <$> seq 0 (length (c_subs y))).
Lemma ecands_eager y a : a ∈ ecands y -> eager a /\ a <> XTakeWrite false.
Proof.
  unfold ecands. rewrite !elem_of_app. intros [H|[H|[H|[H|H]]]].
  1,4,5: apply elem_of_list_fmap in H as (i & -> & _); done.
  - rewrite !elem_of_cons, elem_of_nil in H. destruct H as [->|[->|[->|[->|[]]]]]; done.
  - destruct (c_p y); try (by apply elem_of_nil in H). apply elem_of_list_fmap in H as (i & -> & _). done.
Qed.
Lemma take_write_any cfg y w : cstep cfg y (XTakeWrite true) = None -> cstep cfg y (XTakeWrite w) = None.
Proof.
  cbn. unfold do_take_write. destruct (c_p y); try done. destruct (c_wch y) as [|q l]; [done|]. destruct (local_only (q_frame q)); [|done].
  destruct (decide _); [|done]. destruct (remember (c_map y) q !! _); [|done]. by destruct (h_is_closed _ _).
Qed.
Lemma ecands_rest cfg y : Forall (fun a => cstep cfg y a = None) (ecands y) -> forall a, eager a -> cstep cfg y a = None.
Proof.
  rewrite Forall_forall. intros H a ((Hw & H1 & H2) & H3). unfold ecands in H. setoid_rewrite elem_of_app in H. setoid_rewrite elem_of_app in H. setoid_rewrite elem_of_app in H. setoid_rewrite elem_of_app in H.
  destruct a as [o|g|g|f| | |w| |w|i| | |s|s]; try done.
  - destruct (decide (g < length (c_gs y))) as [Hl|Hl]; [apply H; left; by apply seq_in|]. cbn. unfold do_run. by rewrite lookup_ge_None_2 by lia.
  - by destruct (H3 g).
  - apply H. right; left. rewrite !elem_of_cons. tauto.
  - apply take_write_any, H. right; left. rewrite !elem_of_cons. tauto.
  - by destruct w.
  - destruct (c_p y) as [| |f rest err| |] eqn:Ep; try (cbn; unfold do_pick; by rewrite Ep).
    destruct (decide (i < length rest)) as [Hl|Hl]; [apply H; right; right; left; by apply seq_in|]. cbn. unfold do_pick. by rewrite Ep, lookup_ge_None_2 by lia.
  - apply H. right; left. rewrite !elem_of_cons. tauto.
  - apply H. right; left. rewrite !elem_of_cons. tauto.
  - destruct (decide (s < length (c_subs y))) as [Hl|Hl]; [apply H; right; right; right; left; by apply seq_in|]. cbn. unfold do_loop. by rewrite lookup_ge_None_2 by lia.
  - destruct (decide (s < length (c_subs y))) as [Hl|Hl]; [apply H; right; right; right; right; by apply seq_in|]. cbn. unfold do_consume. by rewrite lookup_ge_None_2 by lia.
Qed.
Lemma eager_or_not cfg y : (forall a, eager a -> cstep cfg y a = None) \/ exists a r, eager a /\ a <> XTakeWrite false /\ cstep cfg y a = Some r.
Proof.
  destruct (decide (Exists (fun a => is_Some (cstep cfg y a)) (ecands y))) as [H|H].
  - right. apply Exists_exists in H as (a & Ha & [r Hs]). exists a, r. destruct (ecands_eager _ _ Ha). done.
  - left. apply ecands_rest. apply Forall_Exists_neg in H. eapply Forall_impl; [exact H|]. intros a Ha. cbn in Ha. by apply eq_None_not_Some.
Qed.

(** A take of the server succeeds whatever the writes do, and they may do the
    same as before. *)
Lemma iter_flags cfg c w cs hp nx i o : tx_ok cs -> i <> InTimer -> conn_iter cfg c w w cs hp nx i = Fine o -> Forall (fun x => snd x = w) (i_wr o).
Proof.
  intros Htx Hi Hc. destruct i as [m| |m|s|]; try done.
  - pose proof (frame_writes _ _ _ _ _ _ _ _ _ Htx Hc) as H. assert (Hrc : Forall (fun x : wr => snd x = w) (receipt_wr w m)).
    { unfold receipt_wr. destruct (hd_contains _ _); repeat constructor. }
    destruct (i_stop o).
    + destruct H as (_ & _ & _ & _ & e & [->|(_ & _ & ->)]); [by repeat constructor|]. apply Forall_app. split; [done|]. by repeat constructor.
    + destruct H as [[_ ->]|(_ & r & _ & _ & ->)]; [|by repeat constructor]. by destruct (ServerConnSpec.answers _).
  - cbn in Hc. injection Hc as <-. constructor.
  - cbn in Hc. destruct (alloc_id _ _ _). injection Hc as <-. by repeat constructor.
  - cbn in Hc. destruct (hp !! s) as [sb|]; [|done]. destruct (s_frame sb) as [m|]; [|done]. destruct (k_subs cs !! s_id sb); [|injection Hc as <-; constructor].
    destruct (alloc_id _ _ m) as [z m']. destruct w; cbn [negb] in Hc; [|injection Hc as <-; by repeat constructor].
    destruct (decide _); [injection Hc as <-; by repeat constructor|]. destruct (sl_add _ _ _) as [|[hp' l]]; [done|]. injection Hc as <-. by repeat constructor.
Qed.
Lemma same_flags ok (ws : list wr) : Forall (fun x => snd x = ok) ws -> sticky ok ws = true /\ server_ok ok ws = ok.
Proof.
  intros H. unfold server_ok. induction H as [|[o w] ws Hw _ [I1 I2]]; cbn [sticky forallb snd]; [by destruct ok|]. cbn in Hw. subst w. rewrite I1. destruct ok; cbn in *; auto.
Qed.
Definition steady (x x' : net) : Prop := forall c l, x_links x !! c = Some l -> exists l', x_links x' !! c = Some l' /\ l_ok l' = l_ok l.
Lemma steady_refl x : steady x x.
Proof. intros c l Hl. eauto. Qed.
Lemma steady_trans x y z : steady x y -> steady y z -> steady x z.
Proof. intros H1 H2 c l Hl. destruct (H1 _ _ Hl) as (l1 & E1 & <-). destruct (H2 _ _ E1) as (l2 & E2 & <-). eauto. Qed.
Lemma steady_set x c l l' y : x_links x !! c = Some l -> l_ok l' = l_ok l -> steady x (mkNet y (<[c := l']> (x_links x))).
Proof.
  intros Hl Ho c0 l0 H0. cbn [x_links]. destruct (decide (c0 = c)) as [->|Hn].
  - assert (l0 = l) as -> by congruence. exists l'. split; [|done]. apply list_lookup_insert. by eapply lookup_lt_Some.
  - exists l0. rewrite list_lookup_insert_ne by done. done.
Qed.
Definition nmoves (cfg : scfg) (x : net) : Prop := exists a x', prompt a /\ lucky a /\ nstep cfg x a = Some x' /\ steady x x'.
Lemma server_moves cfg x a r : ninv cfg x -> work_act a -> step cfg (x_sys x) a = Some r -> npanics cfg x \/ nmoves cfg x.
Proof.
  intros HI Ha Hs.
  assert (Hgo : forall a', work_act a' -> (forall c s w1 w2, a' <> ATake c s w1 w2) -> forall r, step cfg (x_sys x) a' = Some r -> npanics cfg x \/ nmoves cfg x).
  { intros a' Ha' Hn [p|y'] Hs'; [left; left; by exists a', p|]. right. exists (NServer a' 0), (mkNet y' (x_links x)). split_and!; [done|done| |exact (steady_refl x)].
    cbn [nstep]. destruct a' as [|c f|c|c s w1 w2|c|c pick| |]; try done; cbn [net_server]; try (by rewrite Hs'). by destruct (Hn c s w1 w2). }
  destruct a as [|c f|c|c s w1 w2|c|c pick| |]; try done; try (by eapply Hgo).
  assert (s <> SelTimer) as Hti by (by intros ->). cbn [step] in Hs. unfold do_take in Hs. destruct (y_conns (x_sys x) !! c) as [n|] eqn:Hn; [|done].
  destruct (n_phase n) eqn:Hp; try done. destruct (idle n) eqn:Hi; [|done]. destruct (take_input n s) as [[i n1]|] eqn:Ht; [|done]. clear Hs.
  assert (is_Some (x_links x !! c)) as [l Hl] by (apply lookup_lt_is_Some; rewrite (ni_len _ _ HI); by eapply lookup_lt_Some).
  set (w := l_ok l). assert (Hst : step cfg (x_sys x) (ATake c s w w) = do_take cfg (x_sys x) c s w w) by done. unfold do_take in Hst. rewrite Hn, Hp, Hi, Ht in Hst.
  destruct (conn_iter cfg c w w (n_c n) (y_heap (x_sys x)) (y_next (x_sys x)) i) as [p|o] eqn:Hc.
  { left. left. exists (ATake c s w w), p. split; [by destruct s|done]. }
  assert (Hii : i <> InTimer). { intros ->. destruct s; cbn in Ht; [destruct (n_read n); [destruct (n_eof n); done|done]|by destruct (n_write n)|by destruct (n_sub n)|done]. }
  pose proof (iter_flags _ _ _ _ _ _ _ _ (co_tx _ _ _ (wf_conns _ (reach_wf _ _ (ni_reach _ _ HI)) _ _ Hn)) Hii Hc) as Hfl.
  assert (n_log n1 = n_log n) as Hlog by by destruct (take_input_cases _ _ _ _ Ht) as (_ & _ & _ & _ & -> & _).
  right. eexists (NServer (ATake c s w w) 0), _. split_and!; [by split; [destruct s|]|done| |].
  - cbn [nstep net_server]. rewrite Hl, Hn, Hst. cbn [y_conns]. rewrite list_lookup_insert by (by eapply lookup_lt_Some).
    assert (wrote n (mkSconn (if i_stop o then set_tx (i_c o) ∅ else i_c o) (if i_stop o then CDiscard1 else Running) (n_read n1) (n_eof n1) (n_write n1) (n_sub n1) (i_push o)
                                (n_log n1 ++ [mkCev i (i_wr o) (i_push o) (i_stop o)])) = i_wr o) as ->.
    { unfold wrote, written. cbn [n_log]. rewrite Hlog. unfold wire. rewrite fmap_app, concat_app, drop_app. cbn. by rewrite app_nil_r. }
    destruct (same_flags _ _ Hfl) as [E1 E2]. fold w. rewrite E1, E2. reflexivity.
  - apply (steady_set _ _ _ _ _ Hl). done.
Qed.
Lemma link_moves cfg x c l : ninv cfg x -> x_links x !! c = Some l ->
  npanics cfg x \/ nmoves cfg x \/ (nstep cfg x (NUp c) = None /\ nstep cfg x (NDown c) = None /\ (forall k, nstep cfg x (NHello c k) = None) /\
    forall a k, eager a -> nstep cfg x (NClient c a k) = None).
Proof.
  intros HI Hl.
  destruct (nstep cfg x (NUp c)) as [x'|] eqn:Hup.
  { right. left. exists (NUp c), x'. split_and!; [done|done|done|]. cbn in Hup. unfold net_up in Hup. rewrite Hl in Hup. destruct (read_stream (l_up l)) as [rest|f rest|e| |]; try done.
    - injection Hup as <-. by apply (steady_set _ _ _ _ _ Hl).
    - destruct (step cfg (x_sys x) (ARecv c f)) as [[|y]|]; try done. injection Hup as <-. by apply (steady_set _ _ _ _ _ Hl). }
  destruct (nstep cfg x (NDown c)) as [x'|] eqn:Hdo.
  { right. left. exists (NDown c), x'. split_and!; [done|done|done|]. cbn in Hdo. unfold net_down in Hdo. rewrite Hl in Hdo. destruct (l_peer l) as [|o|o|o h k0 y]; try done.
    destruct (read_stream (l_down l)) as [rest|f rest|e| |]; try done; match goal with H : context [cstep ?c ?y ?a] |- _ => destruct (cstep c y a) as [[|y1]|] end; try done;
      injection Hdo as <-; by apply (steady_set _ _ _ _ _ Hl). }
  assert ((forall k, nstep cfg x (NHello c k) = None) \/ nmoves cfg x) as [Hhe|H]; [|clear Hup|by right; left].
  { cbn [nstep]. destruct (l_peer l) as [|o|o|o h k0 y] eqn:Hpl; try (left; intros k; unfold net_hello; by rewrite Hl, Hpl).
    destruct (read_stream (l_down l)) as [rest|f rest|e| |] eqn:Hrd; try (left; intros k; unfold net_hello; by rewrite Hl, Hpl, Hrd).
    { right. eexists (NHello c (mkCcfg 20 20 false false false false false false)), _. split_and!; [done|done|cbn [nstep]; unfold net_hello; rewrite Hl, Hpl, Hrd; reflexivity|by apply (steady_set _ _ _ _ _ Hl)]. }
    right. destruct (client_connect o (RFrame f rest)) as [cc| | | | | |] eqn:Hc.
    1: eexists (NHello c (mkCcfg 20 20 false false false false (0 <? cc_read cc)%Z (0 <? cc_write cc)%Z)), _.
    2-7: eexists (NHello c (mkCcfg 20 20 false false false false false false)), _.
    all: split_and!; [done|done| |]; [cbn [nstep]; unfold net_hello; rewrite Hl, Hpl, Hrd, Hc; try (rewrite bool_decide_eq_true_2 by done); reflexivity|by apply (steady_set _ _ _ _ _ Hl)]. }
  destruct (l_peer l) as [|o|o|o h k0 y] eqn:Hpl; try (right; right; split_and!; try done; intros a k _; cbn; unfold net_client; by rewrite Hl, Hpl).
  destruct (eager_or_not k0 y) as [Hq|(a & r & Ha & Hw & Hs)].
  - right. right. split_and!; try done. intros a k Ha. cbn. unfold net_client. rewrite Hl, Hpl. specialize (Hq a Ha). by destruct a; rewrite ?Hq.
  - destruct r as [p|y']; [left; right; destruct Ha; eauto 12|]. right. left.
    eexists (NClient c a 0), _. split_and!.
    + split; [apply Ha|]. destruct Ha as [_ Ha]. destruct a; try done. by apply (Ha g).
    + destruct a as [| | | | | |[]| | | | | | |]; done.
    + cbn [nstep]. unfold net_client. rewrite Hl, Hpl, Hs. destruct Ha as [[Ha _] _]. destruct a; try done; reflexivity.
    + by apply (steady_set _ _ _ _ _ Hl).
Qed.
Lemma settled_or_not cfg x : ninv cfg x -> nsettled cfg x \/ npanics cfg x \/ nmoves cfg x.
Proof.
  intros HI. destruct (stalled_or_not cfg (x_sys x)) as [Hs|(a & r & Ha & Hs)]; [|right; by eapply server_moves].
  assert (forall n, n <= length (x_links x) -> npanics cfg x \/ nmoves cfg x \/ forall c, c < n -> (nstep cfg x (NUp c) = None /\ nstep cfg x (NDown c) = None /\ (forall k, nstep cfg x (NHello c k) = None) /\
    forall a k, eager a -> nstep cfg x (NClient c a k) = None)) as H.
  { induction n as [|n IH]; intros Hn; [right; right; intros c Hc; lia|]. destruct (IH ltac:(lia)) as [H|[H|H]]; [by left|by right; left|].
    destruct (lookup_lt_is_Some_2 (x_links x) n) as [l Hl]; [lia|]. destruct (link_moves _ _ _ _ HI Hl) as [H'|[H'|H']]; [by left|by right; left|]. right. right.
    intros c Hc. destruct (decide (c = n)) as [->|]; [done|]. apply H. lia. }
  destruct (H _ ltac:(done)) as [Hp|[Hm|HA]]; [by right; left|by right; right|]. left.
  assert (Hno : forall c, ~ c < length (x_links x) -> x_links x !! c = None) by (intros c Hc; apply lookup_ge_None_2; lia).
  intros a [Ha Ht]. destruct a as [remote opts cut| |c b|c|a k|c k|c|c|c a k]; try done.
  - destruct (decide (c < length (x_links x))) as [Hc|Hc]; [by apply HA|]. cbn. unfold net_up. by rewrite Hno.
  - cbn. specialize (Hs a Ha). unfold net_server. destruct a as [|c1 f|c1|c1 s w1 w2|c1|c1 pick| |]; try done; rewrite Hs; try done. destruct (x_links x !! c1); [|done]. by destruct (y_conns (x_sys x) !! c1).
  - destruct (decide (c < length (x_links x))) as [Hc|Hc]; [by apply HA|]. cbn. unfold net_hello. by rewrite Hno.
  - destruct (decide (c < length (x_links x))) as [Hc|Hc]; [by apply HA|]. cbn. unfold net_down. by rewrite Hno.
  - destruct (decide (c < length (x_links x))) as [Hc|Hc]; [apply HA; [done|]|cbn; unfold net_client; by rewrite Hno]. split; [done|]. by intros g ->.
Qed.
Lemma nsettles cfg x : nreach cfg x -> exists l x', Forall (fun a => prompt a /\ lucky a) l /\ nrun cfg x l = Some x' /\ (nsettled cfg x' \/ npanics cfg x') /\ steady x x'.
Proof.
  intros Hr. pose proof (nreach_ends _ _ Hr) as He. induction He as [x _ IH]. destruct (settled_or_not _ _ (nreach_inv _ _ Hr)) as [H|[H|(a & x1 & H1 & H2 & H3 & H4)]].
  - exists [], x. split_and!; [constructor|done|by left|apply steady_refl].
  - exists [], x. split_and!; [constructor|done|by right|apply steady_refl].
  - destruct (IH _ _ (proj1 H1) H3) as (l & x' & I1 & I2 & I3 & I4); [by eapply nr_step|]. exists (a :: l), x'. split_and!; [by constructor|cbn; by rewrite H3|done|by eapply steady_trans].
Qed.
