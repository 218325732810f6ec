(** A subscription is given exactly the messages addressed to it. *)
From stdpp Require Import gmap.
From Verif Require Import GoBase HeaderModel FrameModel HeaderProofs NegotiationModel ClientApiModel ClientModel ClientSpec ClientLemmas ClientProofs ClientRequests ClientChannels ClientReceipts ClientDelivery ClientMessages.

Definition stopped (k : str) (l : list pev) : Prop := exists e, e ∈ l /\ stops k e.
Lemma due_snoc k l e : due k (l ++ [e]) = due k l \/ exists f, e = PvIn (Some f) /\ message_for k f /\ ~ stopped k l /\ due k (l ++ [e]) = due k l ++ [f].
Proof.
  induction l as [|x l IH]; cbn [app due].
  - destruct (decide (stops k e)); [by left|]. destruct e as [| [f|] |]; try by left. destruct (decide (message_for k f)) as [Hm|]; [|by left]. right. exists f. split_and!; try done.
    intros (? & ?%elem_of_nil & _). done.
  - destruct (decide (stops k x)) as [Hs|Hs]; [by left|].
    assert (~ stopped k l -> ~ stopped k (x :: l)) as Hst by (intros Hn (e0 & [->|H]%elem_of_cons & Hse); [done|apply Hn; by exists e0]).
    destruct IH as [E|(f & -> & Hm & Hn & E)].
    + left. rewrite E. done.
    + right. exists f. split_and!; try done; [by apply Hst|]. rewrite E. destruct x as [| [f0|] |]; try done. by destruct (decide (message_for k f0)).
Qed.
Lemma due_message k l f : message_for k f -> ~ stopped k l -> due k (l ++ [PvIn (Some f)]) = due k l ++ [f].
Proof.
  intros Hm Hn. induction l as [|x l IH]; cbn [app due].
  - rewrite decide_False; [|intros [E _]; destruct Hm as [Hm _]; by rewrite Hm in E]. by rewrite decide_True.
  - destruct (decide (stops k x)) as [Hs|Hs]; [exfalso; apply Hn; exists x; split; [left|done]|].
    rewrite IH by (intros (e & He & ?); apply Hn; exists e; split; [by right|done]). destruct x as [| [f0|] |]; try done. by destruct (decide (message_for k f0)).
Qed.
Lemma due_other k l e : (forall f, e = PvIn (Some f) -> message_for k f -> stopped k l) -> due k (l ++ [e]) = due k l.
Proof. intros H. destruct (due_snoc k l e) as [E|(f & -> & Hm & Hn & E)]; [done|]. exfalso. apply Hn. by eapply H. Qed.
Lemma stopped_snoc k l e : stopped k (l ++ [e]) <-> stopped k l \/ stops k e.
Proof.
  split.
  - intros (x & [H|H%elem_of_list_singleton]%elem_of_app & Hs); [left; by exists x|right; by subst].
  - intros [(x & H & Hs)|H]; [exists x; split; [apply elem_of_app; by left|done]|]. exists e. split; [apply in_last|done].
Qed.

Definition pcur (y : cl) (b : csub) : list frame := match c_p y with PSend ch f KMessage => if decide (ch = b_ch b) then [f] else [] | _ => [] end.
(** The subscription's state in the table follows the log. *)
Definition tracks (y : cl) (b : csub) (k : str) (l2 : list pev) : Prop :=
  told_to (b_ch b) (c_log y) ++ pcur y b = due k l2 /\
  (~ stopped k l2 -> c_map y !! k = Some (b_ch b)) /\
  (stopped k l2 -> c_map y !! k = None \/ exists ch f, c_p y = PSend ch f (KReceipt k)).
Definition logged (y : cl) (g : nat) : Prop := exists q w, PvReq q w ∈ c_log y /\ q_by q = g.
Definition routed (y : cl) (b : csub) (k : str) : Prop :=
  logged y (b_by b) -> exists l1 q w l2, c_log y = l1 ++ PvReq q w :: l2 /\ q_by q = b_by b /\ tracks y b k l2.

(** A logged request with the subscription's channel is the subscription's. *)
Lemma chan_req y s b q : reqinv y -> c_subs y !! s = Some b -> known y q -> q_chan q = Some (b_ch b) -> q_by q = b_by b.
Proof.
  intros HR Hb Hq Hc. destruct (rq_sub _ HR _ _ Hb) as (h & r & f & Hh & Ho & _). destruct (rq_ok _ HR _ Hq) as (r' & Hr' & _ & _ & Hx). destruct (Hx _ Hc) as (h' & Hh' & Hown).
  assert (h' = h) as -> by congruence. destruct (is_subscribe (g_op r')); [|congruence]. destruct Hown as (s' & b' & E1 & E2 & _ & E4 & _). assert (s' = s) as -> by congruence.
  assert (b' = b) as -> by congruence. done.
Qed.
(** and conversely. *)
Lemma req_chan A cfg y s b q r f : creach A cfg y -> c_subs y !! s = Some b -> known y q -> q_by q = b_by b -> c_gs y !! b_by b = Some r -> g_op r = OSubscribe (Some f) -> q_chan q = Some (b_ch b) /\ q_frame q = f.1.1.
Proof.
  intros Hr Hb Hq Eby Hg Ho. pose proof (reach_req _ _ _ Hr) as HR. destruct (rq_ok _ HR _ Hq) as (r' & Hr' & Hf & Hs & Hx). rewrite Eby in Hr'. assert (r' = r) as -> by congruence.
  rewrite Ho in Hs, Hx, Hf. cbn in Hs, Hx, Hf. destruct f as [[f id] rt]. injection Hf as Hf. split; [|done]. destruct Hs as [ch Hch]. destruct (Hx _ Hch) as (h & Hh & s' & b' & E1 & E2 & E3 & E4 & _).
  assert (s = s') as <- by (eapply (proj1 (reach_sub_uniq _ _ _ Hr)); [done..|congruence]). assert (b' = b) as -> by congruence. congruence.
Qed.

Section step.
  Context (A : cact -> Prop) (cfg : ccfg) (y y' : cl) (Hr : creach A cfg y).
  Context (s : nat) (b : csub) (r : gor) (f : frame) (id : str) (rt : bool).
  Context (Hb : c_subs y !! s = Some b) (Hg : c_gs y !! b_by b = Some r) (Ho : g_op r = OSubscribe (Some (f, id, rt))).
  Context (Hcmd : f_cmd f = SUBSCRIBE) (Hrec : hd_contains (f_hdr f) h_receipt = None) (Hsole : sole (c_gs y) (b_by b) (sub_key f)).
  Let k := sub_key f.

  Lemma names_sub j : names f j -> j = k.
  Proof. intros [H|[_ H]]; [congruence|done]. Qed.
  (** Who is in the table under k, and under which names is the channel. *)
  Lemma map_k ch : c_map y !! k = Some ch -> ch = b_ch b.
  Proof.
    intros H. pose proof (reach_map _ _ _ Hr) as HM. pose proof (reach_req _ _ _ Hr) as HR. destruct (mi_map _ HM _ _ H) as (q & w & Hq & Hc & Hn).
    assert (known y q) as Hkq by (right; left; by eapply log_req_in). destruct (rq_ok _ HR _ Hkq) as (r' & Hr' & Hf & _).
    assert (q_by q = b_by b) as Eby by (by eapply Hsole). destruct (req_chan _ _ _ _ _ _ _ _ Hr Hb Hkq Eby Hg Ho) as [E _]. congruence.
  Qed.
  Lemma map_ch j : c_map y !! j = Some (b_ch b) -> j = k.
  Proof.
    intros H. pose proof (reach_map _ _ _ Hr) as HM. pose proof (reach_req _ _ _ Hr) as HR. destruct (mi_map _ HM _ _ H) as (q & w & Hq & Hc & Hn).
    assert (known y q) as Hkq by (right; left; by eapply log_req_in). pose proof (chan_req _ _ _ _ HR Hb Hkq Hc) as Eby.
    destruct (req_chan _ _ _ _ _ _ _ _ Hr Hb Hkq Eby Hg Ho) as [_ E]. cbn in E. rewrite E in Hn. by apply names_sub.
  Qed.
  Lemma told_unlogged : ~ logged y (b_by b) -> told_to (b_ch b) (c_log y) = [] /\ pcur y b = [].
  Proof.
    intros Hn. pose proof (reach_map _ _ _ Hr) as HM. pose proof (reach_req _ _ _ Hr) as HR.
    assert (forall q w, PvReq q w ∈ c_log y -> q_chan q = Some (b_ch b) -> False) as Hx.
    { intros q w Hq Hc. apply Hn. exists q, w. split; [done|]. eapply chan_req; [done..| |done]. right; left. by eapply log_req_in. }
    split.
    - destruct (told_to (b_ch b) (c_log y)) as [|x l] eqn:E; [done|]. exfalso.
      assert (x ∈ told_to (b_ch b) (c_log y)) as Hi by (rewrite E; left). unfold told_to in Hi. apply elem_of_list_omap in Hi as ([| |ch f0] & He & Hf); try done.
      destruct (decide _) as [[-> Hm0]|]; [|done]. injection Hf as ->. destruct (mi_told _ HM _ _ He) as [Ee|(id0 & kk & q & w & l1 & l2 & l3 & _ & Hc & _ & El)]; [by rewrite Hm0 in Ee|].
      apply (Hx q w); [|done]. rewrite El. apply elem_of_app. right. left.
    - unfold pcur. destruct (c_p y) as [|ch f0 kk| | |] eqn:Hp; try done. destruct kk; try done. destruct (decide _) as [->|]; [|done]. exfalso.
      destruct (psend_req _ _ _ _ HM Hp) as (q & w & Hq & Hc). by eapply Hx.
  Qed.

  (** A step of processLoop. *)
  Lemma tracks_step b' l1 q w l2 : pmove y y' -> b_ch b' = b_ch b -> c_log y = l1 ++ PvReq q w :: l2 -> q_by q = b_by b -> tracks y b k l2 ->
    exists l2', c_log y' = l1 ++ PvReq q w :: l2' /\ tracks y' b' k l2'.
  Proof.
    intros Hpm Ech El Eby (T1 & T2 & T3). pose proof (reach_map _ _ _ Hr) as HM. pose proof (reach_req _ _ _ Hr) as HR. unfold tracks, pcur in *. rewrite Ech.
    assert (Hext : forall e, (l1 ++ PvReq q w :: l2) ++ [e] = l1 ++ PvReq q w :: (l2 ++ [e])) by (intros; by rewrite <-app_assoc, <-app_comm_cons).
    assert (Hfresh : forall q0 l, c_wch y = q0 :: l -> q_by q0 <> b_by b /\ ~ (is_Some (q_chan q0) /\ names (q_frame q0) k)).
    { intros q0 l Hw. assert (q_by q0 <> b_by b) as Hne.
      { intros E. pose proof (proj1 (reach_uniq _ _ _ Hr)) as HN. unfold allr in HN. rewrite El, Hw in HN. unfold log_reqs in HN. rewrite omap_app in HN. cbn in HN.
        rewrite <-app_assoc, fmap_app in HN. apply NoDup_app in HN as (_ & _ & HN). cbn in HN. apply NoDup_cons in HN as [HN _]. apply HN. rewrite fmap_app. apply elem_of_app. right. cbn. rewrite Eby, E. left. }
      split; [done|]. intros [_ Hn]. apply Hne. assert (known y q0) as Hk0 by (left; rewrite Hw; left). destruct (rq_ok _ HR _ Hk0) as (r' & Hr' & Hf & _). by eapply Hsole. }
    destruct Hpm as [E1 E2 E3|txt H0 E1 E2 E3|o H0 E1 E2 E3 Hi|f0 txt H0 Hf Hr0 E1 E2 E3|f0 H0 Hf E1 E2 E3|f0 id0 kk ch H0 Hro Hk Hh E1 E2 E3|q0 l w0 txt H0 Hw Hl E1 E2 E3|q0 l H0 Hw Hl Hu E1 E2 E3|q0 l ch H0 Hw Hl Hc Hu Hh E1 E2 E3|i f0 rest err kk ch H0 Hi Hh E1 E2 E3|ch f0 kk H0 E1 E2 E3|f0 err H0 E1 E2 E3|err H0 E1 E2 E3].
    - exists l2. rewrite E1, E2, E3. done.
    - exists l2. rewrite E1, E2, E3. rewrite H0 in T1, T3. split_and!; try done. intros Hst. destruct (T3 Hst) as [?|(? & ? & ?)]; [by left|done].
    - exists (l2 ++ [PvIn o]). split; [by rewrite E3, El, Hext|]. rewrite E1, E2, E3. rewrite H0 in T1, T3. rewrite told_to_snoc, app_nil_r.
      assert (forall fo, o = Some fo -> message_for k fo -> stopped k l2) as Hms.
      { intros fo -> [Hm1 Hm2]. destruct (decide (Exists (stops k) l2)) as [Hx|Hx]; [apply Exists_exists in Hx as (x & ? & ?); by exists x|]. exfalso.
        destruct Hi as (_ & _ & Hi). specialize (Hi k KMessage). rewrite T2 in Hi; [by specialize (Hi (ro_message _ _ Hm1 Hm2))|]. intros (x & ? & ?). apply Hx. apply Exists_exists. by exists x. }
      split_and!.
      + rewrite due_other; [done|]. intros fo [= ->]. by apply Hms.
      + intros Hst. apply T2. intros ?. apply Hst. apply stopped_snoc. by left.
      + intros [Hst|Hst]%stopped_snoc.
        * destruct (T3 Hst) as [?|(? & ? & ?)]; [by left|done].
        * left. destruct o as [fo|]; [|done]. destruct Hst as [Hs1 Hs2]. destruct Hi as (_ & _ & Hi). apply (Hi k (KReceipt k)). by constructor.
    - exists (l2 ++ [PvIn (Some f0)]). split; [by rewrite E3, El, Hext|]. rewrite E1, E2, E3. rewrite H0 in T1, T3. rewrite told_to_snoc, app_nil_r. split_and!.
      + rewrite due_other; [done|]. intros fo [= <-] [Hm _]. by rewrite Hf in Hm.
      + intros Hst. apply T2. intros ?. apply Hst. apply stopped_snoc. by left.
      + intros [Hst|Hst]%stopped_snoc; [destruct (T3 Hst) as [?|(? & ? & ?)]; [by left|done]|]. destruct Hst as [_ Hst]. congruence.
    - exists (l2 ++ [PvIn (Some f0)]). split; [by rewrite E3, El, Hext|]. rewrite E1, E2, E3. rewrite H0 in T1, T3. rewrite told_to_snoc, app_nil_r. split_and!.
      + rewrite due_other; [done|]. intros fo [= <-] [Hm _]. by rewrite Hf in Hm.
      + intros Hst. apply T2. intros ?. apply Hst. apply stopped_snoc. by left.
      + intros [Hst|Hst]%stopped_snoc; [destruct (T3 Hst) as [?|(? & ? & ?)]; [by left|done]|]. destruct Hst as [Hst _]. by rewrite Hf in Hst.
    - exists (l2 ++ [PvIn (Some f0)]). split; [by rewrite E3, El, Hext|]. rewrite E1, E2, E3. rewrite H0 in T1, T3. rewrite told_to_snoc, !app_nil_r in *.
      assert (stopped k l2 -> c_map y !! k = None) as T3' by (intros Hst; destruct (T3 Hst) as [?|(? & ? & ?)]; [done|done]).
      split_and!.
      + destruct Hro as [id0 Hc0 Hid|id0 Hc0 Hid].
        * rewrite due_other; [by rewrite app_nil_r|]. intros fo [= <-] [Hm _]. by rewrite Hc0 in Hm.
        * destruct (decide (id0 = k)) as [->|Hne].
          -- rewrite (due_message k l2 f0); [|done|intros Hst; rewrite T3' in Hk by done; done]. rewrite decide_True by (by apply map_k). by rewrite T1.
          -- rewrite decide_False by (intros ->; by apply map_ch in Hk). rewrite app_nil_r. rewrite due_other; [done|]. intros fo [= <-] [_ Hm]. congruence.
      + intros Hst. apply T2. intros ?. apply Hst. apply stopped_snoc. by left.
      + intros [Hst|Hst]%stopped_snoc; [left; by apply T3'|]. right. destruct Hro as [id0 Hc0 Hid|id0 Hc0 Hid].
        * destruct Hst as [_ Hst]. rewrite Hid in Hst. injection Hst as ->. by do 2 eexists.
        * destruct Hst as [Hst _]. by rewrite Hc0 in Hst.
    - destruct (Hfresh _ _ Hw) as [Hne Hnn]. exists (l2 ++ [PvReq q0 (Some (outgoing (q_frame q0), w0))]). split; [by rewrite E3, El, Hext|]. rewrite E2, E3. rewrite H0 in T1, T3. rewrite told_to_snoc, app_nil_r.
      assert ((match c_p y' with PSend ch f1 KMessage => if decide (ch = b_ch b) then [f1] else [] | _ => [] end) = []) as -> by (rewrite E1; by destruct w0).
      rewrite remember_out by done. split_and!.
      + rewrite due_other; [done|]. by intros fo [=].
      + intros Hst. apply T2. intros ?. apply Hst. apply stopped_snoc. by left.
      + intros [Hst|Hst]%stopped_snoc; [destruct (T3 Hst) as [?|(? & ? & ?)]; [by left|done]|done].
    - destruct (Hfresh _ _ Hw) as [Hne Hnn]. exists (l2 ++ [PvReq q0 None]). split; [by rewrite E3, El, Hext|]. rewrite E1, E2, E3. rewrite H0 in T1, T3. rewrite told_to_snoc, app_nil_r.
      rewrite remember_out by done. split_and!.
      + rewrite due_other; [done|]. by intros fo [=].
      + intros Hst. apply T2. intros ?. apply Hst. apply stopped_snoc. by left.
      + intros [Hst|[Hs1 Hs2]]%stopped_snoc; [destruct (T3 Hst) as [?|(? & ? & ?)]; [by left|done]|]. left. destruct Hu as [Hu|Hu]; [done|].
        unfold first_of in Hu. rewrite Hs2 in Hu. by rewrite remember_out in Hu by done.
    - destruct (Hfresh _ _ Hw) as [Hne Hnn]. exists (l2 ++ [PvReq q0 None]). split; [by rewrite E3, El, Hext|]. rewrite E1, E2, E3. rewrite H0 in T1, T3. rewrite told_to_snoc, app_nil_r.
      assert (hd_contains (f_hdr (q_frame q0)) h_reply_to = Some (first_of (f_hdr (q_frame q0)) h_reply_to)) as Hrt.
      { unfold local_only in Hl. unfold first_of. destruct (hd_contains (f_hdr (q_frame q0)) h_reply_to); [done|]. by rewrite andb_false_r in Hl. }
      split_and!.
      + rewrite due_other; [done|]. by intros fo [=].
      + intros Hst. rewrite lookup_delete_ne; [rewrite remember_out by done|intros E; apply Hst; apply stopped_snoc; right; split; [done|by rewrite Hrt, E]].
        apply T2. intros ?. apply Hst. apply stopped_snoc. by left.
      + intros [Hst|[Hs1 Hs2]]%stopped_snoc.
        * left. destruct (T3 Hst) as [?|(? & ? & ?)]; [|done]. apply lookup_delete_None. right. by rewrite remember_out.
        * left. rewrite Hrt in Hs2. injection Hs2 as ->. apply lookup_delete.
    - exists l2. rewrite E1, E2, E3. rewrite H0 in T1, T3. split_and!; try done. intros Hst. destruct (T3 Hst) as [?|(? & ? & ?)]; [by left|done].
    - exists (l2 ++ [PvTold ch f0]). split; [by rewrite E3, El, Hext|]. rewrite E1, E2, E3. rewrite H0 in T1, T3. rewrite told_to_snoc.
      assert (stopped k (l2 ++ [PvTold ch f0]) <-> stopped k l2) as Hss by (rewrite stopped_snoc; cbn; tauto).
      rewrite due_other by (by intros fo [=]). rewrite Hss.
      assert (Hkm : match kk with KMessage => f_cmd f0 = MESSAGE | KReceipt i => f_cmd f0 = RECEIPT /\ (i = k -> stopped k l2) | KBcast _ _ _ => f_cmd f0 = ERROR end).
      { destruct (mi_send _ HM _ _ _ H0) as [(f' & rest & err & ->)|(id0 & l & El0 & Hro & _)].
        - destruct (mi_cur _ HM _ _ _ _ _ H0) as [-> _]. apply (mi_bcast _ HM f0 rest err). right. by do 2 eexists.
        - destruct Hro as [id0 Hc0 Hid|id0 Hc0 Hid]; [|done]. split; [done|]. intros ->. exists (PvIn (Some f0)). split; [|done]. clear -El El0. rewrite El in El0.
          destruct l2 as [|x l2 _] using rev_ind.
          + apply app_inj_tail in El0 as [_ ?]. done.
          + rewrite app_comm_cons, app_assoc in El0. apply app_inj_tail in El0 as [_ ->]. apply in_last. }
      split_and!.
      + destruct kk as [i| |f1 rest err]; cbn [app] in T1 |- *.
        * rewrite decide_False; [by rewrite !app_nil_r in *|]. intros [_ E]. destruct Hkm as [Hkm _]. by rewrite Hkm in E.
        * destruct (decide (ch = b_ch b)) as [->|Hne]; [rewrite decide_True by done; by rewrite app_nil_r|]. rewrite decide_False by tauto. by rewrite !app_nil_r in *.
        * rewrite decide_False; [by rewrite !app_nil_r in *|]. intros [_ E]. by rewrite Hkm in E.
      + intros Hst. destruct kk as [i| |f1 rest err]; try (by apply T2). rewrite lookup_delete_ne; [by apply T2|]. intros ->. apply Hst. by apply Hkm.
      + intros Hst. destruct (T3 Hst) as [Hn|(? & ? & [= <- <- ->])].
        * left. destruct kk as [i| |f1 rest err]; try done. apply lookup_delete_None. by right.
        * left. apply lookup_delete.
    - exists l2. rewrite E1, E2, E3. rewrite H0 in T1, T3. split_and!; try done. intros Hst. destruct (T3 Hst) as [?|(? & ? & ?)]; [by left|done].
    - exists l2. rewrite E2, E3. rewrite H0 in T1, T3. split_and!; try done; [destruct E1 as [-> | ->]; done|]. intros Hst. destruct (T3 Hst) as [?|(? & ? & ?)]; [by left|done].
  Qed.
  Lemma routed_step b' : pmove y y' -> b_ch b' = b_ch b -> b_by b' = b_by b -> routed y b k -> routed y' b' k.
  Proof.
    intros Hpm Ech Eb HI Hlog. pose proof (reach_map _ _ _ Hr) as HM. pose proof (reach_req _ _ _ Hr) as HR. rewrite Eb in Hlog.
    assert (logged y (b_by b) \/ ~ logged y (b_by b)) as [Hl|Hl].
    { destruct (decide (b_by b ∈ q_by <$> log_reqs (c_log y))) as [Hx|Hx].
      - left. apply elem_of_list_fmap in Hx as (q & E & Hq). apply elem_of_list_omap in Hq as ([q' w| |] & Hin & Eq); try done. injection Eq as ->. by exists q, w.
      - right. intros (q & w & Hin & E). apply Hx. rewrite <-E. apply elem_of_list_fmap_1. by eapply log_req_in. }
    - destruct (HI Hl) as (l1 & q & w & l2 & El & Eby & HT). destruct (tracks_step b' l1 q w l2 Hpm Ech El Eby HT) as (l2' & El' & HT'). exists l1, q, w, l2'. by rewrite Eb.
    - destruct (told_unlogged Hl) as [Hto Hcu]. destruct Hlog as (q & w & Hin & E).
      assert (exists e, c_log y' = c_log y ++ [e]) as [e Ee] by (destruct (pmove_log _ _ Hpm) as [E'|?]; [|done]; exfalso; apply Hl; exists q, w; by rewrite <-E').
      rewrite Ee in Hin. apply snoc_in in Hin as [Hin| <-]; [exfalso; apply Hl; by exists q, w|].
      exists (c_log y), q, w, []. split_and!; [done|congruence|].
      assert (~ stopped k []) as Hns by (intros (? & ?%elem_of_nil & _); done).
      assert (Hnew : forall l, c_wch y = q :: l -> q_chan q = Some (b_ch b) /\ q_frame q = f) by (intros l Hw; assert (known y q) as Hkq by (left; rewrite Hw; left); exact (req_chan _ _ _ _ _ _ _ _ Hr Hb Hkq E Hg Ho)).
      unfold tracks, pcur. rewrite Ech, Ee, told_to_snoc, Hto.
      destruct Hpm as [E1 E2 E3|txt H0 E1 E2 E3|o H0 E1 E2 E3 Hi|f0 txt H0 Hf Hr0 E1 E2 E3|f0 H0 Hf E1 E2 E3|f0 id0 kk ch H0 Hro Hk Hh E1 E2 E3|q0 l w0 txt H0 Hw Hl0 E1 E2 E3|q0 l H0 Hw Hl0 Hu E1 E2 E3|q0 l ch H0 Hw Hl0 Hc Hu Hh E1 E2 E3|i f0 rest err kk ch H0 Hi Hh E1 E2 E3|ch f0 kk H0 E1 E2 E3|f0 err H0 E1 E2 E3|err H0 E1 E2 E3];
        rewrite E3 in Ee; try (by apply app_inj_tail in Ee as [_ ?]); try (exfalso; apply (f_equal length) in Ee; rewrite app_length in Ee; cbn in Ee; lia);
        apply app_inj_tail in Ee as [_ [= <- <-]]; destruct (Hnew _ Hw) as [Hch Hfr].
      + rewrite E1, E2. split_and!; [by destruct w0| |done]. intros _. eapply remember_in; [done|]. rewrite Hfr. by right.
      + rewrite E1, E2. split_and!; [done| |done]. intros _. eapply remember_in; [done|]. rewrite Hfr. by right.
      + by rewrite Hfr, Hcmd in Hc.
  Qed.
End step.

Lemma sole_back gs gs' g k : gchange gs gs' -> sole gs' g k -> sole gs g k.
Proof. intros HG HS j r f Hj Hf Hn. destruct (gchange_op _ _ _ _ HG Hj) as (r' & Hr' & E). eapply HS; [exact Hr'|by rewrite E|done]. Qed.
Lemma reach_routed A cfg y : creach A cfg y -> forall s b r f id rt, c_subs y !! s = Some b -> c_gs y !! b_by b = Some r -> g_op r = OSubscribe (Some (f, id, rt)) ->
  hd_contains (f_hdr f) h_receipt = None -> sole (c_gs y) (b_by b) (sub_key f) -> routed y b (sub_key f).
Proof.
  induction 1 as [|y a y' Hr IH Ha Hs]; [done|]. intros s b' r' f id rt Hb' Hg' Ho' Hrec Hsole. apply cstep_cmv in Hs as Hm.
  pose proof (cmv_gs _ _ _ _ Hm) as HG. pose proof (cmv_subs _ _ _ _ Hm) as HS. pose proof (reach_req _ _ _ Hr) as HR.
  destruct (schange_back _ _ _ _ HS Hb') as [(b & Hb & (K1 & K2 & K3 & K4))|(Es & g & r & f0 & id0 & rt0 & -> & Hg & Hst & Ho & _)].
  - destruct (rq_sub _ HR _ _ Hb) as (h & r & f0 & Hh & _ & Hg & Ho). rewrite K1 in Hg', Hsole. destruct (gchange_op _ _ _ _ HG Hg) as (r0 & Hr0 & Eo).
    assert (r0 = r') as -> by congruence. assert (g_op r = OSubscribe (Some (f, id, rt))) as Ho1 by congruence.
    assert (f_cmd f = SUBSCRIBE) as Hcmd by (pose proof (reach_ops _ _ _ Hr _ _ Hg) as Hk; rewrite Ho1 in Hk; by apply bool_decide_eq_true in Hk).
    pose proof (sole_back _ _ _ _ HG Hsole) as Hsole0. eapply (routed_step A cfg y y' Hr s b r f id rt); try done; [by eapply cmv_pmove|]. by eapply IH.
  - intros (q & w & Hq & E). cbn [new_sub b_by] in E. exfalso.
    assert (exists r1, c_gs y !! g = Some r1 /\ pre (g_pc r1)) as (r1 & Hr1 & Hp1) by (exists r; split; [done|by rewrite Hst]).
    assert (PvReq q w ∈ c_log y) as Hq0.
    { destruct (cmv_sub _ _ _ _ _ _ Hm HR (reach_map _ _ _ Hr) Hb') as [(b & ? & Hb & _)|(? & ? & ? & ? & ? & _ & _ & _ & _ & <- & _)]; [|done]. apply lookup_lt_Some in Hb. lia. }
    apply (proj2 (reach_uniq _ _ _ Hr) g r1 Hr1 Hp1). rewrite <-E. apply elem_of_list_fmap_1. unfold allr. apply elem_of_app. left. by eapply log_req_in.
Qed.
(** Together with the channel C. *)
Lemma reach_messages A cfg y s b r f id rt : creach A cfg y -> c_subs y !! s = Some b -> c_gs y !! b_by b = Some r -> g_op r = OSubscribe (Some (f, id, rt)) ->
  hd_contains (f_hdr f) h_receipt = None -> sole (c_gs y) (b_by b) (sub_key f) ->
  (exists l1 q w l2, c_log y = l1 ++ PvReq q w :: l2 /\ q_by q = b_by b /\ msgs (b_read b ++ b_buf b) ++ transit y b = due (sub_key f) l2) \/
  (forall q w, PvReq q w ∈ c_log y -> q_by q <> b_by b) /\ msgs (b_read b ++ b_buf b) ++ transit y b = [].
Proof.
  intros Hr Hb Hg Ho Hrec Hsole. pose proof (reach_routed _ _ _ Hr _ _ _ _ _ _ Hb Hg Ho Hrec Hsole) as HI. pose proof (reach_held _ _ _ Hr _ _ Hb) as HH.
  assert (msgs (b_read b ++ b_buf b) ++ transit y b = told_to (b_ch b) (c_log y) ++ pcur y b) as E by (rewrite HH; unfold held, rl_msg, transit, pcur; by rewrite <-app_assoc). rewrite E.
  destruct (decide (b_by b ∈ q_by <$> log_reqs (c_log y))) as [Hx|Hx].
  - left. destruct HI as (l1 & q & w & l2 & El & Eby & HT & _); [|by exists l1, q, w, l2].
    apply elem_of_list_fmap in Hx as (q & Eq & Hq). apply elem_of_list_omap in Hq as ([q' w| |] & Hin & E0); try done. injection E0 as ->. by exists q, w.
  - right. split.
    + intros q w Hin Eq. apply Hx. rewrite <-Eq. apply elem_of_list_fmap_1. by eapply log_req_in.
    + destruct (told_unlogged A cfg y Hr s b Hb) as [-> ->]; [|done]. intros (q & w & Hin & Eq). apply Hx. rewrite <-Eq. apply elem_of_list_fmap_1. by eapply log_req_in.
Qed.
