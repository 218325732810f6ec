(** processLoop's table of response channels, and what its log says about it. *)
From stdpp Require Import gmap.
From Verif Require Import GoBase HeaderModel FrameModel HeaderProofs NegotiationModel ClientApiModel ClientModel ClientSpec ClientLemmas ClientProofs ClientRequests.

(* ---------------- registering ---------------- *)
Lemma remember_in m q k ch : q_chan q = Some ch -> names (q_frame q) k -> remember m q !! k = Some ch.
Proof.
  intros Hc Hn. unfold remember. rewrite Hc. destruct Hn as [Hr|[Hs Hk]].
  - rewrite Hr. assert (<[k:=ch]> m !! k = Some ch) as H0 by apply lookup_insert. destruct (decide _); [|done].
    destruct (hd_contains (f_hdr (q_frame q)) h_reply_to) as [rt|];
      match goal with |- <[?a:=_]> _ !! _ = _ => destruct (decide (a = k)) as [->|Hne]; [apply lookup_insert|by rewrite lookup_insert_ne by done] end.
  - rewrite decide_True by done. unfold sub_key in Hk. destruct (hd_contains (f_hdr (q_frame q)) h_reply_to) as [rt|]; subst k; apply lookup_insert.
Qed.
Lemma remember_out m q k : ~ (is_Some (q_chan q) /\ names (q_frame q) k) -> remember m q !! k = m !! k.
Proof.
  intros Hn. unfold remember. destruct (q_chan q) as [ch|] eqn:Hc; [|done].
  assert (~ names (q_frame q) k) as Hk by (intros ?; apply Hn; split; [by eexists|done]). clear Hn.
  assert (forall m' : gmap str nat, (match hd_contains (f_hdr (q_frame q)) h_receipt with Some r => <[r := ch]> m' | None => m' end) !! k = m' !! k) as H1.
  { intros m'. destruct (hd_contains _ h_receipt) as [r|] eqn:Hr; [|done]. apply lookup_insert_ne. intros ->. apply Hk. by left. }
  destruct (decide (f_cmd (q_frame q) = SUBSCRIBE)) as [Es|]; [|apply H1].
  assert (sub_key (q_frame q) <> k) as H2 by (intros E; apply Hk; by right). unfold sub_key in H2.
  destruct (hd_contains (f_hdr (q_frame q)) h_reply_to) as [rt|]; rewrite lookup_insert_ne by done; apply H1.
Qed.
Lemma remember_inv m q k ch : remember m q !! k = Some ch -> (q_chan q = Some ch /\ names (q_frame q) k) \/ (m !! k = Some ch /\ ~ (is_Some (q_chan q) /\ names (q_frame q) k)).
Proof.
  intros H. destruct (q_chan q) as [c|] eqn:Hc.
  - destruct (decide (names (q_frame q) k)) as [Hn|Hn].
    + left. rewrite (remember_in _ _ _ _ Hc Hn) in H. by simplify_eq.
    + right. rewrite remember_out in H by tauto. tauto.
  - right. rewrite remember_out in H; [|rewrite Hc; by intros [[? ?] _]]. split; [done|]. by intros [[? ?] _].
Qed.

(* ---------------- processLoop's steps ---------------- *)
Definition busy (y : cl) : Prop := exists ch f k, c_p y = PSend ch f k.
Inductive pmove (y y' : cl) : Prop :=
| pm_same : c_p y' = c_p y -> c_map y' = c_map y -> c_log y' = c_log y -> pmove y y'
| pm_fail txt : c_p y = PLoop -> c_p y' = PBcast (error_frame txt) (map_to_list (c_map y)) false -> c_map y' = c_map y -> c_log y' = c_log y -> pmove y y'
| pm_skip o : c_p y = PLoop -> c_p y' = PLoop -> c_map y' = c_map y -> c_log y' = c_log y ++ [PvIn o] -> ignored (c_map y) o -> pmove y y'
| pm_bad f txt : c_p y = PLoop -> f_cmd f = RECEIPT -> hd_contains (f_hdr f) h_receipt_id = None -> c_p y' = PBcast (error_frame txt) (map_to_list (c_map y)) false ->
    c_map y' = c_map y -> c_log y' = c_log y ++ [PvIn (Some f)] -> pmove y y'
| pm_error f : c_p y = PLoop -> f_cmd f = ERROR -> c_p y' = PBcast f (map_to_list (c_map y)) true ->
    c_map y' = c_map y -> c_log y' = c_log y ++ [PvIn (Some f)] -> pmove y y'
| pm_send f id k ch : c_p y = PLoop -> routes f id k -> c_map y !! id = Some ch -> h_is_closed y ch = false -> c_p y' = PSend ch f k ->
    c_map y' = c_map y -> c_log y' = c_log y ++ [PvIn (Some f)] -> pmove y y'
| pm_write q l (w : bool) txt : c_p y = PLoop -> c_wch y = q :: l -> local_only (q_frame q) = false ->
    c_p y' = (if w then PLoop else PBcast (error_frame txt) (map_to_list (remember (c_map y) q)) false) ->
    c_map y' = remember (c_map y) q -> c_log y' = c_log y ++ [PvReq q (Some (outgoing (q_frame q), w))] -> pmove y y'
| pm_local q l : c_p y = PLoop -> c_wch y = q :: l -> local_only (q_frame q) = true ->
    f_cmd (q_frame q) <> UNSUBSCRIBE \/ remember (c_map y) q !! first_of (f_hdr (q_frame q)) h_reply_to = None ->
    c_p y' = PLoop -> c_map y' = remember (c_map y) q -> c_log y' = c_log y ++ [PvReq q None] -> pmove y y'
| pm_unsub q l ch : c_p y = PLoop -> c_wch y = q :: l -> local_only (q_frame q) = true -> f_cmd (q_frame q) = UNSUBSCRIBE ->
    remember (c_map y) q !! first_of (f_hdr (q_frame q)) h_reply_to = Some ch -> h_is_closed y ch = false ->
    c_p y' = PLoop -> c_map y' = delete (first_of (f_hdr (q_frame q)) h_reply_to) (remember (c_map y) q) -> c_log y' = c_log y ++ [PvReq q None] -> pmove y y'
| pm_pick i f rest err k ch : c_p y = PBcast f rest err -> rest !! i = Some (k, ch) -> h_is_closed y ch = false ->
    c_p y' = PSend ch f (KBcast f (take i rest ++ drop (S i) rest) err) -> c_map y' = c_map y -> c_log y' = c_log y -> pmove y y'
| pm_told ch f k : c_p y = PSend ch f k -> c_p y' = (match k with KBcast f rest err => PBcast f rest err | _ => PLoop end) ->
    c_map y' = (match k with KReceipt id => delete id (c_map y) | _ => c_map y end) -> c_log y' = c_log y ++ [PvTold ch f] -> pmove y y'
| pm_done f err : c_p y = PBcast f [] err -> c_p y' = PMust err -> c_map y' = c_map y -> c_log y' = c_log y -> pmove y y'
| pm_end err : c_p y = PMust err -> (c_p y' = PMust false \/ c_p y' = PEnd) -> c_map y' = c_map y -> c_log y' = c_log y -> pmove y y'.
Lemma after_send_p y ch k : c_p (after_send y ch k) = (match k with KBcast f rest err => PBcast f rest err | _ => PLoop end) /\
  c_map (after_send y ch k) = (match k with KReceipt id => delete id (c_map y) | _ => c_map y end).
Proof. by destruct k as [id| |f rest []]. Qed.
Lemma cmv_pmove cfg y a y' : cmv cfg y a y' -> pmove y y'.
Proof.
  destruct 1; try (by apply pm_same).
  - destruct (submit_same y g k f own) as (_ & _ & E1 & E2 & E3). by apply pm_same.
  - apply pm_same; by destruct (put_next k (q_chan q)).2.
  - by eapply pm_fail.
  - by eapply pm_fail.
  - by eapply pm_fail.
  - by eapply pm_fail.
  - by eapply pm_skip.
  - by eapply pm_bad.
  - by eapply pm_error.
  - by eapply pm_send.
  - eapply (pm_write _ _ q l w (lit "write error")); try done; by destruct w.
  - by eapply pm_local.
  - by eapply pm_unsub.
  - by eapply pm_pick.
  - match goal with H : answers _ _ _ _ _ |- _ => apply answers_same in H as (_ & _ & E1 & E2 & _ & E3) end. destruct (after_send_p y ch k) as [E4 E5], (after_send_same y ch k) as (_ & _ & E6 & _).
    eapply (pm_told _ _ ch f k); try done; [by rewrite E3|by rewrite E1|]. rewrite E2. cbn [with_log c_log]. by rewrite E6.
  - destruct (after_send_p y ch k) as [E4 E5], (after_send_same y ch k) as (_ & _ & E6 & _). eapply (pm_told _ _ ch f k); try done. cbn [with_subs with_log c_log]. by rewrite E6.
  - by eapply pm_done.
  - eapply pm_end; [done|by left|done..].
  - eapply pm_end; [done|by right|done..].
  - eapply pm_end; [done|by right|done..].
Qed.
Lemma pmove_log y y' : pmove y y' -> c_log y' = c_log y \/ exists e, c_log y' = c_log y ++ [e].
Proof. destruct 1; eauto. Qed.

(* ---------------- what the log says about the table ---------------- *)
Record mapinv (y : cl) : Prop := {
  mi_map : forall k ch, c_map y !! k = Some ch -> exists q w, PvReq q w ∈ c_log y /\ q_chan q = Some ch /\ names (q_frame q) k;
  mi_ok : (c_p y = PLoop \/ exists ch f k, c_p y = PSend ch f k /\ (forall f' l e, k <> KBcast f' l e)) -> forall q fr, PvReq q (Some (fr, false)) ∉ c_log y;
  mi_wr : forall q w, PvReq q w ∈ c_log y -> match w with Some (fr, _) => fr = outgoing (q_frame q) /\ local_only (q_frame q) = false | None => local_only (q_frame q) = true end;
  mi_send : forall ch f k, c_p y = PSend ch f k ->
    (exists f' rest err, k = KBcast f' rest err) \/
    exists id l, c_log y = l ++ [PvIn (Some f)] /\ routes f id k /\ c_map y !! id = Some ch /\ exists q w, PvReq q w ∈ l /\ q_chan q = Some ch /\ names (q_frame q) id;
  mi_bcast : forall f rest err, (c_p y = PBcast f rest err \/ exists ch f', c_p y = PSend ch f' (KBcast f rest err)) ->
    f_cmd f = ERROR /\ (forall k ch, (k, ch) ∈ rest -> c_map y !! k = Some ch) /\
    forall k ch, c_map y !! k = Some ch -> (k, ch) ∈ rest \/ (exists f', c_p y = PSend ch f' (KBcast f rest err)) \/ PvTold ch f ∈ c_log y;
  mi_cur : forall ch f f' rest err, c_p y = PSend ch f (KBcast f' rest err) -> f' = f /\ exists k, c_map y !! k = Some ch;
  mi_end : (exists err, c_p y = PMust err) \/ c_p y = PEnd -> forall k ch, c_map y !! k = Some ch -> exists f, f_cmd f = ERROR /\ PvTold ch f ∈ c_log y;
  mi_told : forall ch f, PvTold ch f ∈ c_log y -> f_cmd f = ERROR \/
    exists id k q w l1 l2 l3, routes f id k /\ q_chan q = Some ch /\ names (q_frame q) id /\ c_log y = l1 ++ PvReq q w :: l2 ++ PvIn (Some f) :: PvTold ch f :: l3 }.

Lemma snoc_in {X} (l : list X) e x : x ∈ l ++ [e] -> x ∈ l \/ x = e.
Proof. intros [H|H%elem_of_list_singleton]%elem_of_app; auto. Qed.
Lemma in_snoc {X} (l : list X) e x : x ∈ l -> x ∈ l ++ [e].
Proof. intros. apply elem_of_app. by left. Qed.
Lemma in_last {X} (l : list X) e : e ∈ l ++ [e].
Proof. apply elem_of_app. right. by left. Qed.
Lemma take_drop_pick {X} (l : list X) i x z : l !! i = Some x -> z ∈ l -> z = x \/ z ∈ take i l ++ drop (S i) l.
Proof. intros Hi Hz. rewrite <-(take_drop_middle _ _ _ Hi) in Hz. apply elem_of_app in Hz as [Hz|[->|Hz]%elem_of_cons]; [right; apply elem_of_app; by left|by left|right; apply elem_of_app; by right]. Qed.
Lemma take_drop_sub {X} (l : list X) i z : z ∈ take i l ++ drop (S i) l -> z ∈ l.
Proof.
  intros [H|H]%elem_of_app.
  - rewrite <-(take_drop i l). apply elem_of_app. by left.
  - rewrite <-(take_drop (S i) l). apply elem_of_app. by right.
Qed.
Lemma mapinv_step y y' : pmove y y' -> mapinv y -> mapinv y'.
Proof.
  intros Hm [I1 I2 I3 I4 I5 I6 I7 I8].
  assert (T : forall e, (forall ch f, e = PvTold ch f -> False) -> forall ch f, PvTold ch f ∈ c_log y ++ [e] -> f_cmd f = ERROR \/
    exists id k q w l1 l2 l3, routes f id k /\ q_chan q = Some ch /\ names (q_frame q) id /\ c_log y ++ [e] = l1 ++ PvReq q w :: l2 ++ PvIn (Some f) :: PvTold ch f :: l3).
  { intros e He ch f [H|H]%snoc_in; [|by exfalso; eapply He]. destruct (I8 _ _ H) as [?|(id & k & q & w & l1 & l2 & l3 & R1 & R2 & R3 & ->)]; [by left|]. right.
    exists id, k, q, w, l1, l2, (l3 ++ [e]). split_and!; try done. by rewrite <-!app_assoc, <-!app_comm_cons, <-!app_assoc. }
  assert (M : forall k ch, c_map y !! k = Some ch -> forall e, exists q w, PvReq q w ∈ c_log y ++ [e] /\ q_chan q = Some ch /\ names (q_frame q) k).
  { intros k ch Hk e. destruct (I1 _ _ Hk) as (q & w & H1 & H2 & H3). exists q, w. split_and!; try done. by apply in_snoc. }
  assert (W : forall e, (forall q w, e = PvReq q w -> False) -> forall q w, PvReq q w ∈ c_log y ++ [e] -> match w with Some (fr, _) => fr = outgoing (q_frame q) /\ local_only (q_frame q) = false | None => local_only (q_frame q) = true end).
  { intros e He q w [H|H]%snoc_in; [by apply I3|]. exfalso. by eapply He. }
  assert (B : forall z : gmap str nat, (forall k ch, (k, ch) ∈ map_to_list z -> z !! k = Some ch)) by (intros z k ch H; by apply elem_of_map_to_list in H).
  destruct Hm as [E1 E2 E3|txt H0 E1 E2 E3|o H0 E1 E2 E3 Hi|f txt H0 Hf Hr E1 E2 E3|f H0 Hf E1 E2 E3|f id k ch H0 Hro Hk Hh E1 E2 E3|q l w txt H0 Hw Hl E1 E2 E3|q l H0 Hw Hl Hu E1 E2 E3|q l ch H0 Hw Hl Hc Hu Hh E1 E2 E3|i f rest err k ch H0 Hi Hh E1 E2 E3|ch f k H0 E1 E2 E3|f err H0 E1 E2 E3|err H0 E1 E2 E3].
  - constructor; rewrite ?E1, ?E2, ?E3; done.
  - constructor; rewrite ?E1, ?E2, ?E3; try done.
    + intros [?|(? & ? & ? & ? & _)]; done.
    + intros f rest err [[= <- <- <-]|(? & ? & ?)]; [|done]. split_and!; [done|apply B|]. intros k ch Hk. left. by apply elem_of_map_to_list.
    + by intros [[? ?]|?].
  - constructor; rewrite ?E1, ?E2, ?E3; try done.
    + intros k ch Hk. by apply M.
    + intros _ q fr [H|H]%snoc_in; [|done]. by eapply (I2 (or_introl H0)).
    + by apply W.
    + by intros ? ? ? [?|(? & ? & ?)].
    + by intros [[? ?]|?].
    + by apply T.
  - constructor; rewrite ?E1, ?E2, ?E3; try done.
    + intros k ch Hk. by apply M.
    + intros [?|(? & ? & ? & ? & _)]; done.
    + by apply W.
    + intros f0 rest err [[= <- <- <-]|(? & ? & ?)]; [|done]. split_and!; [done|apply B|]. intros k ch Hk. left. by apply elem_of_map_to_list.
    + by intros [[? ?]|?].
    + by apply T.
  - constructor; rewrite ?E1, ?E2, ?E3; try done.
    + intros k ch Hk. by apply M.
    + intros [?|(? & ? & ? & ? & _)]; done.
    + by apply W.
    + intros f0 rest err [[= <- <- <-]|(? & ? & ?)]; [|done]. split_and!; [done|apply B|]. intros k ch Hk. left. by apply elem_of_map_to_list.
    + by intros [[? ?]|?].
    + by apply T.
  - assert (forall f' rest err, k <> KBcast f' rest err) as Hnb by (by destruct Hro). constructor; rewrite ?E1, ?E2, ?E3; try done.
    + intros k0 ch0 Hk0. by apply M.
    + intros _ q fr [H|H]%snoc_in; [|done]. by eapply (I2 (or_introl H0)).
    + by apply W.
    + intros ch0 f0 k0 [= <- <- <-]. right. exists id, (c_log y). split_and!; try done. by apply I1.
    + intros f0 rest err [?|(? & ? & [= _ _ E])]; [done|]. by apply Hnb in E.
    + intros ? ? ? ? ? [= _ _ E]. by apply Hnb in E.
    + by intros [[? ?]|?].
    + by apply T.
  - constructor; rewrite ?E1, ?E2, ?E3.
    + intros k0 ch0 [[Hc Hn]|[Hk0 _]]%remember_inv; [|by apply M]. exists q, (Some (outgoing (q_frame q), w)). split_and!; try done. apply in_last.
    + destruct w; [|intros [?|(? & ? & ? & ? & _)]; done]. intros _ q0 fr [H|H]%snoc_in; [|done]. by eapply (I2 (or_introl H0)).
    + intros q0 w0 [H|[= -> ->]]%snoc_in; [by apply I3|done].
    + by destruct w.
    + intros f0 rest err [Hb|(? & ? & Hb)]; destruct w; try done. injection Hb as <- <- <-. split_and!; [done|apply B|]. intros k ch Hk. left. by apply elem_of_map_to_list.
    + by destruct w.
    + destruct w; by intros [[? ?]|?].
    + by apply T.
  - constructor; rewrite ?E1, ?E2, ?E3; try done.
    + intros k0 ch0 [[Hc Hn]|[Hk0 _]]%remember_inv; [|by apply M]. exists q, None. split_and!; try done. apply in_last.
    + intros _ q0 fr [H|H]%snoc_in; [|done]. by eapply (I2 (or_introl H0)).
    + intros q0 w0 [H|[= -> ->]]%snoc_in; [by apply I3|done].
    + by intros ? ? ? [?|(? & ? & ?)].
    + by intros [[? ?]|?].
    + by apply T.
  - constructor; rewrite ?E1, ?E2, ?E3; try done.
    + intros k0 ch0 [_ Hk0]%lookup_delete_Some. apply remember_inv in Hk0 as [[Hq Hn]|[Hk0 _]]; [|by apply M]. exists q, None. split_and!; try done. apply in_last.
    + intros _ q0 fr [H|H]%snoc_in; [|done]. by eapply (I2 (or_introl H0)).
    + intros q0 w0 [H|[= -> ->]]%snoc_in; [by apply I3|done].
    + by intros ? ? ? [?|(? & ? & ?)].
    + by intros [[? ?]|?].
    + by apply T.
  - destruct (I5 _ _ _ (or_introl H0)) as (B1 & B2 & B3). constructor; rewrite ?E1, ?E2, ?E3; try done.
    + intros [?|(c0 & f0 & k0 & [= <- <- <-] & Hn)]; [done|]. exfalso. by eapply Hn.
    + intros c0 f0 k0 [= <- <- <-]. left. by do 3 eexists.
    + intros f0 rest0 err0 [?|(c0 & f1 & [= <- <- <- <- <-])]; [done|]. split_and!; [done| |].
      * intros k0 ch0 Hin%take_drop_sub. by apply B2.
      * intros k0 ch0 Hk0. destruct (B3 _ _ Hk0) as [Hin|[(f' & Hf')|Ht]]; [|by rewrite H0 in Hf'|right; by right].
        destruct (take_drop_pick _ _ _ _ Hi Hin) as [[= -> ->]|?]; [|by left]. right; left. by exists f.
    + intros ? ? ? ? ? [= <- <- <- <- <-]. split; [done|]. exists k. apply B2. by eapply elem_of_list_lookup_2.
    + by intros [[? ?]|?].
  - assert (HT : forall ch0 f0, PvTold ch0 f0 ∈ c_log y ++ [PvTold ch f] -> f_cmd f0 = ERROR \/
      exists id k q w l1 l2 l3, routes f0 id k /\ q_chan q = Some ch0 /\ names (q_frame q) id /\ c_log y ++ [PvTold ch f] = l1 ++ PvReq q w :: l2 ++ PvIn (Some f0) :: PvTold ch0 f0 :: l3).
    { intros ch0 f0 [H|[= -> ->]]%snoc_in.
      - destruct (I8 _ _ H) as [?|(id & k' & q & w & l1 & l2 & l3 & R1 & R2 & R3 & ->)]; [by left|]. right.
        exists id, k', q, w, l1, l2, (l3 ++ [PvTold ch f]). split_and!; try done. by rewrite <-!app_assoc, <-!app_comm_cons, <-!app_assoc.
      - destruct (I4 _ _ _ H0) as [(f' & rest & err & ->)|(id & l & El & Hro & Hk & q & w & Hq & Hc & Hn)].
        + left. destruct (I6 _ _ _ _ _ H0) as [-> _]. by apply (I5 f rest err); right; do 2 eexists.
        + right. apply elem_of_list_split in Hq as (l1 & l2 & ->). exists id, k, q, w, l1, l2, []. split_and!; try done. rewrite El. by rewrite <-!app_assoc. }
    constructor; rewrite ?E1, ?E2, ?E3.
    + intros k0 ch0 Hk0. assert (c_map y !! k0 = Some ch0) by (destruct k; try done; by apply lookup_delete_Some in Hk0 as [_ ?]). by apply M.
    + intros Hp q fr [H|H]%snoc_in; [|done]. eapply I2; [|done]. right. exists ch, f, k. split; [done|]. intros f' l e ->. by destruct Hp as [?|(? & ? & ? & ? & _)].
    + by apply W.
    + by destruct k.
    + intros f0 rest err Hb. assert (k = KBcast f0 rest err) as -> by (destruct k; destruct Hb as [Hb|(? & ? & Hb)]; simplify_eq; done).
      destruct (I5 f0 rest err) as (B1 & B2 & B3); [right; by do 2 eexists|]. split_and!; [done..|]. intros k0 ch0 Hk0. destruct (B3 _ _ Hk0) as [?|[(f' & Hf')|Ht]]; [by left| |].
      * right; right. rewrite H0 in Hf'. injection Hf' as -> _. destruct (I6 _ _ _ _ _ H0) as [-> _]. apply in_last.
      * right; right. by apply in_snoc.
    + by destruct k.
    + intros [[? Hx]|Hx]; by destruct k.
    + done.
  - destruct (I5 _ _ _ (or_introl H0)) as (B1 & B2 & B3). constructor; rewrite ?E1, ?E2, ?E3; try done.
    + intros [?|(? & ? & ? & ? & _)]; done.
    + by intros ? ? ? [?|(? & ? & ?)].
    + intros _ k ch Hk. exists f. split; [done|]. destruct (B3 _ _ Hk) as [H|[(f' & Hf')|Ht]]; [by apply elem_of_nil in H|by rewrite H0 in Hf'|done].
  - assert (forall z, c_p y' = z -> z = PMust false \/ z = PEnd) as Hz by (intros z <-; done). constructor; rewrite ?E2, ?E3; try done.
    + intros [?%Hz|(? & ? & ? & ?%Hz & _)]; naive_solver.
    + intros ? ? ? ?%Hz. naive_solver.
    + intros ? ? ? [?%Hz|(? & ? & ?%Hz)]; naive_solver.
    + intros ? ? ? ? ? ?%Hz. naive_solver.
    + intros _. apply I7. left. by eexists.
Qed.
Lemma reach_map A cfg y : creach A cfg y -> mapinv y.
Proof.
  induction 1 as [|y a y' Hr IH _ Hs].
  - constructor; try done.
    + intros _ q fr H. by apply elem_of_nil in H.
    + intros q w H. by apply elem_of_nil in H.
    + by intros ? ? ? [?|(? & ? & ?)].
    + intros ch f H. by apply elem_of_nil in H.
  - eapply mapinv_step; [|done]. eapply cmv_pmove. by apply cstep_cmv.
Qed.
