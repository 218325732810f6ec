(** Conservation of queue messages. *)
From Verif Require Import GoBase HeaderModel FrameModel GrammarSpec HeaderProofs NegotiationModel NegotiationSpec NegotiationLemmas
  BrokerModel BrokerSpec BrokerProofs ServerConnModel ServerConnSpec ServerConnProofs SystemModel SystemLemmas SystemSpec SystemProofs SystemTokens.

(* ------------------------------------------------------------------ *)
(** Payloads. *)
Lemma strip_set (ks : list str) h k v : k ∈ ks -> filter (fun kv : str * str => kv.1 ∉ ks) (hd_set h k v) = filter (fun kv : str * str => kv.1 ∉ ks) h.
Proof.
  intros Hk. induction h as [|[k0 v0] h IH]; cbn [hd_set].
  - rewrite filter_cons_False; [done|]. cbn. intros H. by apply H.
  - destruct (decide (k0 = k)) as [->|Hne].
    + rewrite !filter_cons_False; [done|..]; cbn; intros H; by apply H.
    + rewrite !filter_cons. by rewrite IH.
Qed.
Lemma strip_del (ks : list str) h k : k ∈ ks -> filter (fun kv : str * str => kv.1 ∉ ks) (hd_del h k) = filter (fun kv : str * str => kv.1 ∉ ks) h.
Proof.
  intros Hk. induction h as [|[k0 v0] h IH]; cbn [hd_del]; [done|].
  destruct (decide (k0 = k)) as [->|Hne].
  - rewrite (filter_cons_False _ (k, v0)); [done|]. cbn. intros H. by apply H.
  - rewrite !filter_cons. by rewrite IH.
Qed.
Lemma strip_get (ks : list str) h k : k ∉ ks -> hd_contains (filter (fun kv : str * str => kv.1 ∉ ks) h) k = hd_contains h k.
Proof.
  intros Hk. induction h as [|[k0 v0] h IH]; [done|]. destruct (decide (k0 ∈ ks)) as [Hi|Hi].
  - rewrite filter_cons_False by (cbn; tauto). cbn [hd_contains]. rewrite decide_False by congruence. done.
  - rewrite filter_cons_True by done. cbn [hd_contains]. by rewrite IH.
Qed.
Ltac in_list := rewrite ?elem_of_cons; tauto.
Lemma payload_with_sub m id : payload (with_sub m id) = payload m.
Proof. unfold payload, with_sub. cbn [g_uid g_frame f_hdr f_body cmd_of f_cmd]. rewrite strip_set; [done|]. unfold per_delivery. in_list. Qed.
Lemma payload_alloc n a m n' m' : alloc_id n a m = (n', m') -> payload m' = payload m.
Proof.
  intros H. unfold alloc_id in H. destruct (decide _); [|congruence]. injection H as <- <-. unfold payload.
  cbn [g_uid g_frame f_hdr f_body cmd_of f_cmd with_hdr]. destruct (decide _);
    rewrite ?strip_del, ?strip_set; try done; unfold per_delivery; in_list.
Qed.
Lemma payload_dest m : hget_of (payload m) h_destination = hget_of m h_destination.
Proof.
  unfold hget_of, payload. cbn [g_frame f_hdr]. apply strip_get. unfold per_delivery. rewrite !elem_of_cons, elem_of_nil.
  intros H. repeat (destruct H as [H|H]; [by vm_compute in H|]). done.
Qed.

(** Counting payloads. *)
Definition pc (x : msg) (l : list msg) : nat := cnt x (payload <$> l).
Lemma pc_app x a b : pc x (a ++ b) = pc x a + pc x b.
Proof. unfold pc. by rewrite fmap_app, cnt_app. Qed.
Lemma pc_cons x m l : pc x (m :: l) = pc x [m] + pc x l.
Proof. apply (pc_app x [m] l). Qed.
Lemma pc_nil x : pc x [] = 0. Proof. done. Qed.
Lemma pc_one x m m' : payload m' = payload m -> pc x [m'] = pc x [m].
Proof. unfold pc. cbn [fmap list_fmap]. by intros ->. Qed.
Lemma pc_other x m d : hget_of x h_destination = Some d -> hget_of m h_destination <> Some d -> pc x [m] = 0.
Proof.
  intros H1 H2. unfold pc. cbn [fmap list_fmap]. apply cnt_0. rewrite elem_of_list_singleton. intros ->. by rewrite payload_dest in H1.
Qed.
Definition hm (hp : sheap) (l : list nat) : list msg := omap (fr hp) l.
Lemma hm_app hp a b : hm hp (a ++ b) = hm hp a ++ hm hp b.
Proof. apply omap_app. Qed.
Lemma hm_cons hp s l : hm hp (s :: l) = option_list (fr hp s) ++ hm hp l.
Proof. unfold hm. cbn. by destruct (fr hp s). Qed.
Lemma hm_ext hp hp' l : (forall s, s ∈ l -> fr hp' s = fr hp s) -> hm hp' l = hm hp l.
Proof. induction l as [|s l IH]; [done|]. intros H. rewrite !hm_cons, IH, H; [done|set_solver|]. intros t Ht. apply H. set_solver. Qed.

Lemma ol_some {A} (a : A) : option_list (Some a) = [a]. Proof. done. Qed.
Lemma ol_none {A} : option_list (@None A) = []. Proof. done. Qed.
Lemma rmsgs_app a b : rmsgs (a ++ b) = rmsgs a ++ rmsgs b.
Proof. apply omap_app. Qed.

(** Final deliveries, one request at a time. *)
Lemma finals_fr hp s rs : finals hp (RSubscribe s :: rs) = option_list (fr hp s) ++ finals hp rs.
Proof. cbn. unfold fr. destruct (hp !! s) as [sb|]; [|done]. cbn. by destruct (s_frame sb). Qed.
Lemma finals_ext hp hp' rs : (forall s, s ∈ rsub rs -> fr hp' s = fr hp s) -> finals hp' rs = finals hp rs.
Proof.
  enough (Hs : forall k rs, length rs <= k -> (forall s, s ∈ rsub rs -> fr hp' s = fr hp s) -> finals hp' rs = finals hp rs) by (by eapply Hs).
  clear rs. induction k as [|k IH]; intros [|r rs] Hk Hf; try done; cbn in Hk; try lia. destruct r.
  - rewrite !finals_fr. cbn [rsub] in Hf. rewrite Hf by set_solver. rewrite IH; [done|lia|]. intros t Ht. apply Hf. set_solver.
  - cbn. apply IH; [lia|done].
  - cbn. apply IH; [lia|done].
  - destruct rs as [|r rs]; [done|]. destruct r as [s'|s'|m'|m'|c'|c'].
    1: { cbn [finals]. apply IH; [cbn in *; lia|]. intros t Ht. apply Hf. cbn. set_solver. }
    all: match goal with |- finals _ (_ :: ?l) = _ => change (finals hp' l = finals hp l) end; apply IH; [lia|done].
  - cbn. apply IH; [lia|done].
  - cbn. apply IH; [lia|done].
Qed.

Lemma fr_not_in hp s sb t (l : list nat) : s ∉ l -> t ∈ l -> fr (<[s := sb]> hp) t = fr hp t.
Proof. intros H1 H2. rewrite fr_insert, decide_False; [done|]. by intros ->. Qed.

Lemma acks_msgs x hp l hp' l' rs : acks hp l hp' l' rs -> NoDup l ->
  pc x (hm hp l) + pc x (enqueues rs) = pc x (hm hp' l') + pc x (rmsgs rs) + pc x (finals hp rs).
Proof.
  induction 1 as [hp l|hp l hp' l' rs m Hm Ha IH|hp l1 s l2 sb hp' l' rs Hs Ha IH|hp l1 s l2 sb m hp' l' rs Hs Hm Ha IH]; intros Hnd.
  - cbn. lia.
  - specialize (IH Hnd). change (enqueues (REnqueue m :: rs)) with (m :: enqueues rs). change (rmsgs (REnqueue m :: rs)) with (m :: rmsgs rs).
    change (finals hp (REnqueue m :: rs)) with (finals hp rs). rewrite (pc_cons x m (enqueues rs)), (pc_cons x m (rmsgs rs)). lia.
  - rewrite <-Permutation_middle in Hnd. apply NoDup_cons in Hnd as [Hni Hnd]. specialize (IH Hnd).
    change (enqueues (RSubscribe s :: rs)) with (enqueues rs). change (rmsgs (RSubscribe s :: rs)) with (rmsgs rs). rewrite finals_fr.
    rewrite (hm_ext hp) in IH by (intros; by eapply fr_not_in).
    rewrite (finals_ext hp) in IH.
    2: { intros t Ht. eapply fr_not_in; [exact Hni|]. apply cnt_elem. destruct (acks_tok _ _ _ _ _ Ha t) as [E _]. apply cnt_elem in Ht. lia. }
    rewrite hm_app, hm_cons, !pc_app. rewrite hm_app, pc_app in IH. lia.
  - rewrite <-Permutation_middle in Hnd. apply NoDup_cons in Hnd as [Hni Hnd]. specialize (IH Hnd).
    change (enqueues (RRequeue m :: RSubscribe s :: rs)) with (enqueues rs). change (rmsgs (RRequeue m :: RSubscribe s :: rs)) with (m :: rmsgs rs).
    change (finals hp (RRequeue m :: RSubscribe s :: rs)) with (finals hp rs).
    rewrite (hm_ext hp) in IH by (intros; by eapply fr_not_in).
    rewrite (finals_ext hp) in IH.
    2: { intros t Ht. eapply fr_not_in; [exact Hni|]. apply cnt_elem. destruct (acks_tok _ _ _ _ _ Ha t) as [E _]. apply cnt_elem in Ht. lia. }
    rewrite hm_app, hm_cons, !pc_app. rewrite hm_app, pc_app in IH. rewrite (pc_cons x m).
    assert (fr hp s = Some m) as -> by (unfold fr; by rewrite Hs). rewrite ?ol_some, ?ol_none. lia.
Qed.

(* ------------------------------------------------------------------ *)
(** The balance. *)
Definition clog (n : sconn) : list msg := concat ((fun e => enqueues (v_push e)) <$> n_log n).
Definition csent (x : msg) (n : sconn) : nat := pc x (clog n).
Definition cheld (x : msg) (hp : sheap) (n : sconn) : nat := pc x (rmsgs (n_out n)) + pc x (hm hp (n_sub n)) + pc x (hm hp (k_sublist (n_c n))).
Definition balance (x : msg) (d : str) (y : sys) : Prop :=
  sum_list_with (csent x) (y_conns y) =
  sum_list_with (cheld x (y_heap y)) (y_conns y) + pc x (rmsgs (y_req y)) + pc x (waiting (y_broker y) d) + pc x (hm (y_heap y) (psub (y_pout y))) +
  pc x (y_fin y) + pc x (y_lost y).

Lemma clog_snoc n i o : clog (taken n i o) = clog n ++ enqueues (i_push o).
Proof. unfold clog, taken. cbn [n_log]. rewrite fmap_app, concat_app. cbn. by rewrite app_nil_r. Qed.

Global Arguments pc : simpl never.
Global Arguments hm : simpl never.
(** One iteration. *)
Lemma iter_msgs x cfg cid w1 w2 c hp nx i o l : tx_ok c -> hp !! nx = None -> conn_iter cfg cid w1 w2 c hp nx i = Fine o ->
  NoDup (match i with InSub s => [s] | _ => [] end ++ l ++ k_sublist c) -> (forall s, s ∈ l -> s <> nx) ->
  (forall s, s ∈ l -> s ∉ k_sublist c) ->
  pc x (hm hp (match i with InSub s => [s] | _ => [] end ++ l ++ k_sublist c)) + pc x (enqueues (i_push o)) =
  pc x (hm (i_hp o) (l ++ k_sublist (i_c o))) + pc x (rmsgs (i_push o)) + pc x (finals hp (i_push o)) + pc x (losses hp i (i_stop o)).
Proof.
  intros Htx Hnx Ho Hnd Hl Hl2. apply conn_iter_shape in Ho; [|done]. destruct Ho.
  - assert (match i with InSub s => [s] | _ => [] end = [] /\ losses hp i (i_stop o) = []) as [E1 E2].
    { destruct i; try done. by specialize (H s). }
    rewrite E1, E2 in *. cbn [app] in *. assert (NoDup (k_sublist c)) as Hnd' by (by apply NoDup_app in Hnd as (_&_&?)).
    pose proof (acks_msgs x _ _ _ _ _ H0 Hnd') as HH. rewrite !hm_app, !pc_app.
    rewrite (hm_ext hp (i_hp o) l).
    2: { intros s Hs. destruct (acks_tok _ _ _ _ _ H0 s) as (A1 & A2 & A3 & A4). unfold fr. rewrite A3; [done|]. rewrite <-cnt_elem.
         assert (cnt s (k_sublist c) = 0) by (apply cnt_0; by apply Hl2). lia. }
    cbn [app enqueues rmsgs omap list_omap finals losses]; rewrite ?pc_nil; lia.
  - rewrite H, H0, H3. cbn [app enqueues rmsgs omap list_omap finals losses]; rewrite ?pc_nil; lia.
  - rewrite H5, finals_fr. assert (fr hp nx = None) as -> by (unfold fr; by rewrite Hnx). rewrite H1, H2. rewrite ?ol_some, ?ol_none; cbn [app losses].
    rewrite (hm_ext hp (<[nx := new_sub cid dest id ack]> hp)). { cbn [app enqueues rmsgs omap list_omap finals losses]; rewrite ?pc_nil; lia. }
    intros s Hs. rewrite fr_insert. destruct (decide (s = nx)) as [->|]; [|done]. unfold fr. by rewrite Hnx.
  - rewrite H1, H2, H5. cbn [app enqueues rmsgs omap list_omap finals losses]; rewrite ?pc_nil; lia.
  - rewrite H1, H2, H4, H5. cbn [app losses]. rewrite hm_cons. assert (fr hp s = Some m) as -> by (unfold fr; by rewrite H).
    rewrite pc_app, ol_some. cbn [app enqueues rmsgs omap list_omap finals losses]; rewrite ?pc_nil; lia.
  - apply NoDup_cons in Hnd as [Hni _]. rewrite H1, H2, H5, H6. cbn [app losses set_last k_sublist]. rewrite H, H0.
    rewrite hm_cons. assert (fr hp s = Some m) as -> by (unfold fr; by rewrite H). rewrite pc_app.
    rewrite (hm_ext hp (<[s := _]> hp)) by (intros; by eapply fr_not_in). rewrite ?ol_some, ?ol_none. change (pc x (enqueues [])) with 0. change (pc x (rmsgs [])) with 0. change (pc x (finals hp [])) with 0. lia.
  - apply NoDup_cons in Hnd as [Hni _]. rewrite H1, H2, H6, H7. cbn [app losses set_last k_sublist]. rewrite finals_fr.
    rewrite hm_cons. assert (fr hp s = Some m) as -> by (unfold fr; by rewrite H). rewrite !pc_app.
    rewrite (hm_ext hp (<[s := _]> hp)) by (intros; by eapply fr_not_in). rewrite ?ol_some, ?ol_none. change (pc x (enqueues [RSubscribe s])) with 0. change (pc x (rmsgs [RSubscribe s])) with 0. change (pc x (finals hp [])) with 0. change (pc x []) with 0. lia.
  - apply NoDup_cons in Hnd as [Hni _]. rewrite H1, H2, H7, H8. cbn [app losses set_last set_sublist k_sublist].
    rewrite app_assoc, hm_cons. assert (fr hp s = Some m) as -> by (unfold fr; by rewrite H). rewrite (hm_app _ (l ++ k_sublist c)), !pc_app.
    rewrite (hm_ext hp (<[s := set_inlist (set_frame sb (Some m')) true]> hp) (l ++ k_sublist c)) by (intros; by eapply fr_not_in). rewrite ?ol_some, ?ol_none.
    rewrite hm_cons, fr_insert, decide_True by done. cbn [set_inlist set_frame s_frame app]; rewrite ?ol_some, ?ol_none.
    change (hm (<[s := set_inlist (set_frame sb (Some m')) true]> hp) []) with (@nil msg). cbn [app].
    rewrite (pc_one x m m') by (by eapply payload_alloc). change (pc x (enqueues [])) with 0. change (pc x (rmsgs [])) with 0. change (pc x (finals hp [])) with 0. change (pc x []) with 0. lia.
Qed.

(** Frames of objects an iteration does not deal with do not change. *)
Lemma iter_frames cid c hp nx i o s : shape cid c hp nx i o -> hp !! nx = None -> s ∉ k_sublist c -> i <> InSub s -> fr (i_hp o) s = fr hp s.
Proof.
  intros Hsh Hnx Hl Hi. destruct Hsh.
  - destruct (acks_tok _ _ _ _ _ H0 s) as (A1 & A2 & A3 & A4). unfold fr. rewrite A3; [done|]. rewrite <-cnt_elem. rewrite (cnt_0 s (k_sublist c)) in A1 by done. lia.
  - by rewrite H.
  - rewrite H1, fr_insert. destruct (decide (s = nx)) as [->|]; [|done]. unfold fr. by rewrite Hnx.
  - by rewrite H1.
  - by rewrite H1.
  - rewrite H1, fr_insert, decide_False by congruence. done.
  - rewrite H1, fr_insert, decide_False by congruence. done.
  - rewrite H1, fr_insert, decide_False by congruence. done.
Qed.
Lemma serve_frames b hp r b' hp' outs t : serve_case b hp r b' hp' outs -> fr hp t <> None -> fr hp' t = fr hp t.
Proof.
  intros Hs Ht. destruct Hs; try done; rewrite fr_insert; (destruct (decide (t = s)) as [->|]; [|done]).
  - unfold fr. by rewrite H.
  - exfalso. apply Ht. unfold fr. by rewrite H.
  - unfold fr. by rewrite H.
  - exfalso. apply Ht. unfold fr. by rewrite H3.
Qed.
Lemma two_places {A} (f : A -> nat) (l : list A) c c' n n' : l !! c = Some n -> l !! c' = Some n' -> c <> c' -> f n + f n' <= sum_list_with f l.
Proof.
  revert c c'. induction l as [|a l IH]; intros [|c] [|c']; cbn; try done.
  - intros [= ->] H _. pose proof (sum_pos f _ _ _ H). lia.
  - intros H [= ->] _. pose proof (sum_pos f _ _ _ H). lia.
  - intros H1 H2 Hne. specialize (IH c c' H1 H2 ltac:(congruence)). lia.
Qed.
Lemma sum_upd2 {A} (f g : A -> nat) (l : list A) c n n' : l !! c = Some n -> (forall c' n0, c' <> c -> l !! c' = Some n0 -> g n0 = f n0) ->
  sum_list_with g (<[c := n']> l) + f n = sum_list_with f l + g n'.
Proof.
  revert c. induction l as [|a l IH]; intros [|c]; [done|done| |].
  - intros [= ->] H. change (<[0 := n']> (n :: l)) with (n' :: l). cbn [sum_list_with].
    assert (sum_list_with g l = sum_list_with f l) as ->.
    { assert (forall c' n0, l !! c' = Some n0 -> g n0 = f n0) as Hl by (intros c' n0; apply (H (S c')); done).
      clear -Hl. induction l as [|b l IH]; [done|]. cbn. rewrite (Hl 0 b) by done. rewrite IH; [done|]. intros c' n0. apply (Hl (S c')). }
    lia.
  - intros H Hg. change (l !! c = Some n) in H. change (<[S c := n']> (a :: l)) with (a :: <[c := n']> l). cbn [sum_list_with].
    specialize (IH c H). rewrite (Hg 0 a) by done. rewrite <-Nat.add_assoc, IH; [lia|]. intros c' n0 Hne. apply (Hg (S c')). congruence.
Qed.

Lemma hold_in y c n s : y_conns y !! c = Some n -> s ∈ n_sub n ++ k_sublist (n_c n) -> 0 < chold s n.
Proof. intros Hn Hs. apply cnt_elem in Hs. rewrite cnt_app in Hs. done. Qed.

Lemma cheld_other x y c n n0 c0 hp' : tok y -> y_conns y !! c = Some n -> y_conns y !! c0 = Some n0 -> c0 <> c ->
  (forall s, chold s n = 0 -> 0 < hold y s -> fr hp' s = fr (y_heap y) s) -> cheld x hp' n0 = cheld x (y_heap y) n0.
Proof.
  intros HT Hn Hn0 Hne Hf. unfold cheld. rewrite !(hm_ext (y_heap y) hp'); [done| |].
  all: intros s Hs; pose proof (tk_one _ HT s) as T1; pose proof (two_places (chold s) _ _ _ _ _ Hn Hn0 ltac:(congruence)) as T2;
    assert (0 < chold s n0) as T3 by (eapply hold_in; [done|]; set_solver); unfold hold in *; apply Hf; lia.
Qed.

Lemma balance_conn x d y c n n' hp nx uid req pout blog fin lost : tok y -> y_conns y !! c = Some n ->
  (forall s, chold s n = 0 -> 0 < hold y s -> fr hp s = fr (y_heap y) s) ->
  csent x n' + cheld x (y_heap y) n + pc x (rmsgs (y_req y)) + pc x (hm (y_heap y) (psub (y_pout y))) + pc x (y_fin y) + pc x (y_lost y) =
  csent x n + cheld x hp n' + pc x (rmsgs req) + pc x (hm hp (psub pout)) + pc x fin + pc x lost ->
  balance x d y -> balance x d (mkSys (<[c := n']> (y_conns y)) hp nx uid req (y_broker y) pout blog fin lost).
Proof.
  intros HT Hn Hf He HB. unfold balance in *. cbn [y_conns y_heap y_req y_broker y_pout y_fin y_lost].
  pose proof (sum_upd (csent x) _ _ _ n' Hn) as E1.
  pose proof (sum_upd2 (cheld x (y_heap y)) (cheld x hp) _ _ _ n' Hn) as E2.
  assert (forall c' n0, c' <> c -> y_conns y !! c' = Some n0 -> cheld x hp n0 = cheld x (y_heap y) n0) as E3.
  { intros c' n0 Hne Hn0. exact (cheld_other x y c n n0 c' hp HT Hn Hn0 Hne Hf). }
  specialize (E2 E3). lia.
Qed.

Lemma pout_held y hp c n : tok y -> y_conns y !! c = Some n -> (forall s, chold s n = 0 -> 0 < hold y s -> fr hp s = fr (y_heap y) s) ->
  hm hp (psub (y_pout y)) = hm (y_heap y) (psub (y_pout y)).
Proof.
  intros HT Hn Hf. apply hm_ext. intros s Hs. apply cnt_elem in Hs. pose proof (tk_one _ HT s) as T1. pose proof (sum_pos (chold s) _ _ _ Hn) as T2.
  unfold hold in *. apply Hf; lia.
Qed.

Lemma serve_balance x d y r rs b hp outs : wf y -> tok y -> y_req y = r :: rs -> hget_of x h_destination = Some d -> is_queue d = true ->
  serve_case (y_broker y) (y_heap y) r b hp outs ->
  pc x (rmsgs (r :: rs)) + pc x (waiting (y_broker y) d) = pc x (rmsgs rs) + pc x (waiting b d) + pc x (hm hp (psub outs)).
Proof.
  intros HW HT Hreq Hx Hq Hs. pose proof HW as [W1 W2 W3 W4 W5 W6 W7 W8]. rewrite Hreq in W4. apply Forall_cons in W4 as [Wr _].
  assert (Hone : forall hp0 (s : nat) m0, fr hp0 s = Some m0 -> pc x (hm hp0 [s]) = pc x [m0]).
  { intros hp0 s m0 Hf. rewrite hm_cons, Hf, ol_some. done. }
  assert (Hrm : forall m rs0, rmsgs (REnqueue m :: rs0) = m :: rmsgs rs0 /\ rmsgs (RRequeue m :: rs0) = m :: rmsgs rs0) by done.
  destruct Hs; try match goal with Hb : bis _ _ _ _ |- _ => destruct Hb as (B1 & B2 & B3) end; try rewrite B1; cbn [psub].
  - change (rmsgs (RSubscribe s :: rs)) with (rmsgs rs). change (hm _ []) with (@nil msg); rewrite ?pc_nil. lia.
  - change (rmsgs (RSubscribe s :: rs)) with (rmsgs rs). cbn [psub].
    rewrite (Hone _ s (with_sub m (s_id sb))) by (by rewrite fr_insert, decide_True). rewrite (pc_one x m) by apply payload_with_sub. unfold fupd.
    destruct (decide (d = s_dest sb)) as [->|Hne].
    + rewrite H1. rewrite (pc_cons x m w). lia.
    + rewrite (pc_other x m d); [lia|done|]. destruct (W5 (s_dest sb) m) as (_ & _ & E); [rewrite H1; set_solver|]. congruence.
  - change (rmsgs (RSubscribe s :: rs)) with (rmsgs rs). change (hm _ []) with (@nil msg); rewrite ?pc_nil. lia.
  - change (rmsgs (RUnsubscribe s :: rs)) with (rmsgs rs). change (hm _ []) with (@nil msg); rewrite ?pc_nil. lia.
  - change (rmsgs (RUnsubscribe s :: rs)) with (rmsgs rs). change (hm _ []) with (@nil msg); rewrite ?pc_nil. lia.
  - change (rmsgs (RUnsubscribe s :: rs)) with (rmsgs rs). change (hm _ []) with (@nil msg); rewrite ?pc_nil. lia.
  - change (rmsgs (RUnsubscribe s :: rs)) with (rmsgs rs). change (hm _ []) with (@nil msg); rewrite ?pc_nil. lia.
  - destruct (Hrm m rs) as [-> _]. rewrite (pc_cons x m (rmsgs rs)). change (hm _ []) with (@nil msg); rewrite ?pc_nil. unfold fupd. destruct (decide (d = d0)) as [->|Hne].
    + rewrite pc_app. lia.
    + rewrite (pc_other x m d); [lia|done|congruence].
  - destruct (Hrm m rs) as [_ ->]. rewrite (pc_cons x m (rmsgs rs)). change (hm _ []) with (@nil msg); rewrite ?pc_nil. unfold fupd. destruct (decide (d = d0)) as [->|Hne].
    + rewrite (pc_cons x m (waiting _ _)). lia.
    + rewrite (pc_other x m d); [lia|done|congruence].
  - assert (rmsgs (r :: rs) = m :: rmsgs rs) as -> by (by destruct H as [-> | ->]). cbn [psub].
    rewrite (Hone _ s (with_sub m (s_id sb))) by (by rewrite fr_insert, decide_True). rewrite (pc_one x m) by apply payload_with_sub.
    rewrite (pc_cons x m (rmsgs rs)). lia.
  - destruct (Hrm m rs) as [-> _]. rewrite (pc_cons x m (rmsgs rs)), (pc_other x m d); [|done|congruence].
    assert (psub outs = []) as -> by (clear -H1; induction H1; [done|]; destruct H as (sb & _ & _ & ->); done). change (hm _ []) with (@nil msg); rewrite ?pc_nil. lia.
  - destruct (Hrm m rs) as [_ ->]. rewrite (pc_cons x m (rmsgs rs)), (pc_other x m d); [|done|congruence]. change (hm _ []) with (@nil msg); rewrite ?pc_nil. lia.
  - assert (rmsgs (r :: rs) = rmsgs rs) as -> by (by destruct H as (? & [-> | ->])). change (hm _ []) with (@nil msg); rewrite ?pc_nil. lia.
Qed.

Lemma balance_move cfg x d y y' : wf y -> tok y -> hget_of x h_destination = Some d -> is_queue d = true -> move cfg y y' -> balance x d y -> balance x d y'.
Proof.
  intros HW HT Hx Hq Hm HB. pose proof HW as [W1 W2 W3 W4 W5 W6 W7 W8]. destruct Hm.
  - unfold balance in *. cbn [y_conns y_heap y_req y_broker y_pout y_fin y_lost]. rewrite !sum_list_with_app. cbn [sum_list_with].
    change (csent x sconn_init) with 0. change (cheld x (y_heap y) sconn_init) with 0. lia.
  - eapply balance_conn; try done.
  - eapply balance_conn; try done.
  - destruct (take_input_cases _ _ _ _ H2) as (I1 & I2 & I3 & I4 & I5 & I6). pose proof (co_tx _ _ _ (W3 _ _ H)) as Htx.
    assert (y_heap y !! y_next y = None) as Hnx. { destruct (y_heap y !! y_next y) eqn:E; [|done]. apply W1 in E. lia. }
    assert (shape c (n_c n) (y_heap y) (y_next y) i o) as Hsh by (by eapply conn_iter_shape).
    assert (Hfr : forall s, chold s n = 0 -> 0 < hold y s -> fr (i_hp o) s = fr (y_heap y) s).
    { intros s Hz _. unfold chold in Hz. eapply iter_frames; [done|done| |].
      - rewrite <-cnt_elem. lia.
      - intros ->. destruct I6 as [I6 _]. rewrite I6 in Hz. cbn [cnt] in Hz. rewrite decide_True in Hz by done. lia. }
    assert (Hsub : n_sub n = match i with InSub s => [s] | _ => [] end ++ n_sub n1).
    { destruct i; try (by destruct I6 as (_ & _ & ->)); try (by destruct I6 as (-> & _)). by rewrite I6. }
    assert (NoDup (n_sub n ++ k_sublist (n_c n))) as Hnd.
    { apply cnt_nodup. intros s. rewrite cnt_app. pose proof (tk_one _ HT s). pose proof (sum_pos (chold s) _ _ _ H) as E. unfold hold, chold in *. lia. }
    pose proof (iter_msgs x cfg c w1 w2 _ _ _ i o (n_sub n1) Htx Hnx H3) as Hit. rewrite Hsub in Hnd. rewrite <-app_assoc in Hnd.
    specialize (Hit Hnd).
    assert (forall s, s ∈ n_sub n1 -> s <> y_next y) as Hf1.
    { intros s Hs ->. destruct (co_sub _ _ _ (W3 _ _ H) (y_next y)) as [(sb & E & _) _]; [rewrite Hsub; set_solver|congruence]. }
    assert (forall s, s ∈ n_sub n1 -> s ∉ k_sublist (n_c n)) as Hf2.
    { apply NoDup_app in Hnd as (_ & _ & Hnd). by apply NoDup_app in Hnd as (_ & ? & _). }
    specialize (Hit Hf1 Hf2).
    eapply balance_conn; try done. rewrite (pout_held y (i_hp o) c n) by done.
    unfold csent. rewrite clog_snoc. unfold cheld. cbn [taken n_out n_sub]. rewrite H1. change (rmsgs []) with (@nil msg). rewrite pc_nil.
    assert (clog n1 = clog n) as -> by (unfold clog; by rewrite I5).
    assert (k_sublist (n_c (taken n1 i o)) = k_sublist (i_c o)) as -> by (cbn; by destruct (i_stop o)).
    rewrite Hsub. rewrite !pc_app. rewrite app_assoc in Hit. rewrite (hm_app (y_heap y)), (hm_app (i_hp o)), !pc_app in Hit. lia.
  - eapply balance_conn; try done. unfold csent, cheld, clog. cbn [with_out n_c n_sub n_out n_log]. rewrite H0, rmsgs_app, pc_app.
    change (r :: rs) with ([r] ++ rs). rewrite rmsgs_app, pc_app. lia.
  - assert (Hfr : forall s, fr hp' s = fr (y_heap y) s).
    { intros s. destruct H3; try done. rewrite fr_insert. destruct (decide (s = s0)) as [->|]; [|done]. unfold fr. by rewrite H5. }
    eapply balance_conn; try done.
    rewrite !(hm_ext (y_heap y) hp') by auto. unfold csent, clog.
    assert (n_log n' = n_log n) as -> by (by destruct H3). unfold cheld. rewrite !(hm_ext (y_heap y) hp') by auto. rewrite H0.
    change (rmsgs []) with (@nil msg). rewrite pc_nil.
    enough (pc x (hm (y_heap y) (n_sub n)) + pc x (hm (y_heap y) (k_sublist (n_c n))) =
      pc x (rmsgs (n_out n')) + pc x (hm (y_heap y) (n_sub n')) + pc x (hm (y_heap y) (k_sublist (n_c n')))) by lia.
    destruct H3; cbn [with_out with_phase with_write with_sub_ch with_c n_out n_sub n_c k_sublist set_sublist set_subs].
    + rewrite H0. change (rmsgs []) with (@nil msg). rewrite pc_nil. lia.
    + rewrite H0. change (rmsgs []) with (@nil msg). rewrite pc_nil. lia.
    + change (rmsgs [RUnsubscribe s]) with (@nil msg). rewrite pc_nil. lia.
    + rewrite H4, hm_cons. assert (fr (y_heap y) s = Some m) as -> by (unfold fr; by rewrite H5). change (rmsgs [RRequeue m]) with [m]. rewrite ol_some, pc_app. lia.
    + rewrite H4, hm_cons. assert (fr (y_heap y) s = Some m) as -> by (unfold fr; by rewrite H5). change (rmsgs [RRequeue m]) with [m]. rewrite ol_some, pc_app. lia.
    + change (rmsgs [RDisconnected c]) with (@nil msg). rewrite pc_nil. lia.
  - pose proof (serve_cases _ _ _ _ _ _ H1) as Hs. pose proof (serve_balance x d y r rs b hp outs HW HT H0 Hx Hq Hs) as HSB.
    unfold balance in *. cbn [y_conns y_heap y_req y_broker y_pout y_fin y_lost].
    assert (sum_list_with (cheld x hp) (y_conns y) = sum_list_with (cheld x (y_heap y)) (y_conns y)) as ->.
    { assert (forall c n, y_conns y !! c = Some n -> cheld x hp n = cheld x (y_heap y) n) as Hl.
      { intros c n Hn. unfold cheld. rewrite !(hm_ext (y_heap y) hp); [done| |].
        all: intros s Hin; eapply serve_frames; [done|]; apply (tk_hold _ HT); unfold hold; pose proof (sum_pos (chold s) _ _ _ Hn);
          assert (0 < chold s n) by (eapply hold_in; [done|]; set_solver); lia. }
      clear -Hl. induction (y_conns y) as [|a l IH]; [done|]. cbn. rewrite (Hl 0 a) by done. rewrite IH; [done|]. intros c n. apply (Hl (S c)). }
    rewrite H, H0 in HB. change (pc x (hm (y_heap y) (psub []))) with 0 in HB. lia.
  - eapply balance_conn; try done. rewrite H. unfold csent, cheld, clog. cbn [with_sub_ch n_c n_sub n_out n_log psub]. rewrite hm_app, pc_app, !(hm_cons _ s), !pc_app. change (hm (y_heap y) []) with (@nil msg). rewrite pc_nil. lia.
  - eapply balance_conn; try done. rewrite H. unfold csent, cheld, clog. cbn [with_write n_c n_sub n_out n_log psub]. lia.
Qed.
Lemma balance_reach cfg x d y : hget_of x h_destination = Some d -> is_queue d = true -> reach cfg y -> balance x d y.
Proof.
  intros Hx Hq. revert y. apply reach_ind'; [done|]. intros y y' Hr HB Hm. eapply balance_move; try done; [by eapply reach_wf|by eapply reach_tok].
Qed.

Lemma pc_filter x d l : pc x (filter (to_dest d) l) = if decide (to_dest d x) then pc x l else 0.
Proof.
  induction l as [|m l IH]; [by destruct (decide _)|]. rewrite (pc_cons x m l). destruct (decide (to_dest d m)) as [Hm|Hm].
  - rewrite filter_cons_True by done. rewrite (pc_cons x m), IH. destruct (decide (to_dest d x)) as [Hx|Hx]; [done|].
    rewrite Nat.add_0_r. unfold pc. apply cnt_0. cbn [fmap list_fmap]. rewrite elem_of_list_singleton. intros ->. apply Hx. unfold to_dest.
    change (lit "destination") with h_destination. rewrite payload_dest. exact Hm.
  - rewrite filter_cons_False by done. rewrite IH. destruct (decide (to_dest d x)) as [Hx|Hx]; [|done]. by rewrite (pc_other x m d).
Qed.
Lemma pc_concat x {A} (f : A -> list msg) l : pc x (concat (f <$> l)) = sum_list_with (fun a => pc x (f a)) l.
Proof. induction l as [|a l IH]; [done|]. cbn [fmap list_fmap concat sum_list_with]. rewrite pc_app, <-IH. done. Qed.
Lemma sum_plus {A} (f g : A -> nat) l : sum_list_with (fun a => f a + g a) l = sum_list_with f l + sum_list_with g l.
Proof. induction l as [|a l IH]; [done|]. cbn [sum_list_with]. lia. Qed.
Lemma pmsgs_held y : tok y -> pmsgs (y_pout y) = hm (y_heap y) (psub (y_pout y)).
Proof.
  intros HT. pose proof (tk_pout _ HT) as H. clear HT. induction (y_pout y) as [|o os IH]; [done|]. destruct o as [c s m|c m].
  - change (pmsgs (OutSub c s m :: os)) with (m :: pmsgs os). cbn [psub]. rewrite hm_cons, (H c s m), ol_some by set_solver. cbn [app]. rewrite IH; [done|].
    intros c' s' m' Hin. apply (H c'). set_solver.
  - apply IH. intros c' s' m' Hin. apply (H c'). set_solver.
Qed.

Lemma conservation cfg y d : reach cfg y -> is_queue d = true -> payload <$> filter (to_dest d) (sent y) ≡ₚ payload <$> whereabouts d y.
Proof.
  intros Hr Hq. apply cnt_perm. intros x. change (pc x (filter (to_dest d) (sent y)) = pc x (whereabouts d y)).
  pose proof (reach_wf _ _ Hr) as HW. pose proof (reach_tok _ _ Hr) as HT. unfold whereabouts. rewrite pc_app, !pc_filter.
  destruct (decide (to_dest d x)) as [Hx|Hx].
  - pose proof (balance_reach _ x d y Hx Hq Hr) as HB. unfold balance in HB. unfold sent, assigned, in_transit, finished.
    rewrite !pc_app, !pc_concat, (pmsgs_held _ HT).
    change (sum_list_with (fun a => pc x (clog a)) (y_conns y) =
      pc x (waiting (y_broker y) d) + (pc x (hm (y_heap y) (psub (y_pout y))) +
        sum_list_with (fun a => pc x (hm (y_heap y) (n_sub a ++ k_sublist (n_c a)))) (y_conns y) +
        (sum_list_with (fun a => pc x (rmsgs (n_out a))) (y_conns y) + pc x (rmsgs (y_req y)) + (pc x (y_fin y) + pc x (y_lost y))))).
    unfold csent in HB. rewrite HB. unfold cheld. rewrite !sum_plus.
    assert (sum_list_with (fun a => pc x (hm (y_heap y) (n_sub a ++ k_sublist (n_c a)))) (y_conns y) =
      sum_list_with (fun a => pc x (hm (y_heap y) (n_sub a))) (y_conns y) + sum_list_with (fun a => pc x (hm (y_heap y) (k_sublist (n_c a)))) (y_conns y)) as ->.
    { rewrite <-sum_plus. clear. induction (y_conns y) as [|a l IH]; [done|]. cbn [sum_list_with]. by rewrite IH, hm_app, pc_app. }
    lia.
  - rewrite Nat.add_0_r. symmetry. unfold pc. apply cnt_0. intros (m & -> & Hm)%elem_of_list_fmap. apply Hx. unfold to_dest.
    change (lit "destination") with h_destination. rewrite payload_dest. by apply (wf_waiting _ HW) in Hm as (_ & _ & ->).
Qed.
