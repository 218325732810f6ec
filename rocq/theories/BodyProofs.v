(** Proofs for C95. *)
From stdpp Require Import gmap.
From Verif Require Import GoBase HeaderModel FrameModel NegotiationModel ClientApiModel ClientModel ClientSpec ClientLemmas ClientProofs ClientRequests ClientChannels ClientReceipts ClientDelivery ClientFinal OrderSpec OrderProofs OrderProps BodyModel BodySpec.

(* ---------------- the write channel and the log ---------------- *)
Definition no_req (e : pev) : Prop := match e with PvReq _ _ => False | _ => True end.
Inductive qmove (y : cl) (a : cact) (y' : cl) : Prop :=
| qm_same : c_wch y' = c_wch y -> c_log y' = c_log y -> qmove y a y'
| qm_log e : of_loop a = true -> c_wch y' = c_wch y -> c_log y' = c_log y ++ [e] -> no_req e -> qmove y a y'
| qm_put g r k q : c_gs y !! g = Some r -> g_pc r = GPut k q -> c_wch y' = c_wch y ++ [q] -> c_log y' = c_log y -> qmove y a y'
| qm_take q w : of_loop a = true -> c_wch y = q :: c_wch y' -> c_log y' = c_log y ++ [PvReq q w] -> qmove y a y'.
Lemma after_send_q y ch k : c_wch (after_send y ch k) = c_wch y /\ c_log (after_send y ch k) = c_log y.
Proof. destruct k as [id| |f rest []]; done. Qed.
Lemma cmv_queue cfg y a y' : cmv cfg y a y' -> qmove y a y'.
Proof.
  destruct 1; try (by apply qm_same); try (by eapply qm_log); try (by eapply qm_take).
  - destruct (submit_same y g k f own) as (_ & E1 & E2 & _). by apply qm_same.
  - eapply qm_put; [done|done|by destruct (put_next k (q_chan q)).2..].
  - eapply (qm_take _ _ _ q (Some (outgoing (q_frame q), w))); by destruct w.
  - destruct (after_send_q y ch k) as [E1 E2]. eapply (qm_log _ _ _ (PvTold ch f)); try done; destruct H4; cbn; by rewrite ?E1, ?E2.
  - destruct (after_send_q y ch k) as [E1 E2]. eapply (qm_log _ _ _ (PvTold ch f)); try done; cbn; by rewrite ?E1, ?E2.
Qed.

(* ---------------- answered calls ---------------- *)
Definition is_answer (x : gpc) : Prop := x = GDone RNil \/ exists fr, x = GDone (RErr (EResponse fr)).
Lemma frame_done_answer u r : is_answer (frame_done u r) -> r = RNil \/ exists fr, r = RErr (EResponse fr).
Proof. intros [H|[fr H]]; destruct u as [s|]; cbn in H; try (destruct r as [| |[]]; simplify_eq; eauto); simplify_eq; eauto. Qed.
Lemma cmv_answer cfg y a y' g r' f : cmv cfg y a y' -> calls_ok y -> c_gs y' !! g = Some r' -> receipt_call (g_op r') f -> is_answer (g_pc r') ->
  c_gs y !! g = Some r' \/
  exists r ch fr k w h, c_p y = PSend ch fr k /\ c_gs y !! g = Some r /\ g_op r = g_op r' /\ g_pc r = GWait w ch /\ c_chs y !! ch = Some h /\ h_owner h = OwnG g /\
    c_log y' = c_log y ++ [PvTold ch fr].
Proof.
  intros Hm HC Hg Hop Hd. assert (Hno : forall e, ~ is_answer (GDone (RErr e)) \/ exists fr, e = EResponse fr) by (intros []; try (left; intros [?|[? ?]]; done); eauto).
  destruct Hm as [o Ho|g0 r t x' H H0|g0 r q H H0|g0 r ch H H0|g0 r ch H H0|g0 r H H0 H1|g0 r s fo b H H0 H1|g0 r k f0 own H H0|g0 r f0 id rt H H0 H1|g0 r k q H H0|g0 r s b c res b' o H H0|g0 r s b H H0|g0 r s b H H0| | | | | | | | | | | |q l w| | | |ch fr k h g0 r w y' H H0 H1 H2 H3 H4|ch fr k h s b| | | | | | | |];
    try (left; exact Hg).
  - left. apply snoc_lookup in Hg as [[_ Hg]|[-> ->]]; [done|]. by destruct Hd as [?|[? ?]].
  - apply done_g in Hg as [Hg|(-> & r0 & Hr0 & Eo & Ex)]; [by left|]. exfalso. assert (r0 = r) as -> by congruence. rewrite Eo in Hop. rewrite Ex in Hd. pose proof (HC _ _ H) as Hp. destruct Hop as [Hop Hw]. destruct H0; try (by destruct Hd as [?|[? ?]]).
    + destruct Hop as [E|E]; rewrite E in *; cbn in *; simplify_eq; by destruct Hd as [?|[? ?]].
    + by apply frame_done_answer in Hd as [?|[? ?]].
    + by apply frame_done_answer in Hd as [?|[? ?]].
    + by apply frame_done_answer in Hd as [?|[? ?]].
    + rewrite H1 in Hp || rewrite H2 in Hp || idtac. destruct Hp as [f0 E]. destruct Hop; congruence.
  - apply done_g in Hg as [Hg|(-> & r0 & Hr0 & Eo & Ex)]; [by left|]. rewrite Ex in Hd. by destruct Hd as [?|[? ?]].
  - apply done_g in Hg as [Hg|(-> & r0 & Hr0 & Eo & Ex)]; [by left|]. rewrite Ex in Hd. by destruct Hd as [?|[? ?]].
  - apply done_g in Hg as [Hg|(-> & r0 & Hr0 & Eo & Ex)]; [by left|]. rewrite Ex in Hd. by destruct Hd as [?|[? ?]].
  - apply done_g in Hg as [Hg|(-> & r0 & Hr0 & Eo & Ex)]; [by left|]. assert (r0 = r) as -> by (cbn in Hr0; congruence). exfalso. destruct Hop as [[E|E] _]; congruence.
  - apply done_g in Hg as [Hg|(-> & r0 & Hr0 & Eo & Ex)]; [by left|]. exfalso. rewrite Ex in Hd. destruct fo; by destruct Hd as [?|[? ?]].
  - rewrite submit_gs' in Hg. apply done_g in Hg as [Hg|(-> & r0 & Hr0 & Eo & Ex)]; [by left|]. rewrite Ex in Hd. by destruct Hd as [?|[? ?]].
  - rewrite submit_gs' in Hg. apply done_g in Hg as [Hg|(-> & r0 & Hr0 & Eo & Ex)]; [by left|]. rewrite Ex in Hd. by destruct Hd as [?|[? ?]].
  - apply done_g in Hg as [Hg|(-> & r0 & Hr0 & Eo & Ex)]; [left; by destruct (put_next k (q_chan q)).2|]. exfalso.
    assert (r0 = r) as -> by (destruct (put_next k (q_chan q)).2; cbn in Hr0; congruence). pose proof (HC _ _ H) as Hp. rewrite H0 in Hp. destruct Hp as [Hk Hq].
    rewrite Eo in Hop. rewrite Ex in Hd. destruct Hop as [Hop Hw]. assert (op_frame (g_op r) = Some f) as Hf by (destruct Hop as [E|E]; by rewrite E).
    rewrite (kind_frame _ _ _ Hk) in Hf. injection Hf as Hf. rewrite Hf in Hq. destruct (q_chan q) as [c|] eqn:Ec; [destruct k; by destruct Hd as [?|[? ?]]|].
    destruct k as [|u|s|]; try (by destruct Hd as [?|[? ?]]); assert (is_Some (None : option nat)) as [? ?] by tauto; done.
  - apply done_g in Hg as [Hg|(-> & r0 & Hr0 & Eo & Ex)]; [by left|]. exfalso. assert (r0 = r) as -> by (cbn in Hr0; congruence).
    pose proof (HC _ _ H) as Hp. rewrite H0 in Hp. destruct Hp as [(f1 & E) _]. destruct Hop as [[?|?] _]; congruence.
  - apply done_g in Hg as [Hg|(-> & r0 & Hr0 & Eo & Ex)]; [by left|]. rewrite Ex in Hd. by destruct Hd as [?|[? ?]].
  - apply done_g in Hg as [Hg|(-> & r0 & Hr0 & Eo & Ex)]; [by left|]. rewrite Ex in Hd. by destruct Hd as [?|[? ?]].
  - left. by destruct w.
  - assert (forall z, c_gs (with_log (after_send y ch k) (PvTold ch fr)) !! z = c_gs y !! z) as Ez by (intros; cbn [with_log c_gs]; by rewrite after_send_gs).
    assert (c_gs y !! g = Some r' \/ g = g0 /\ g_op r' = g_op r) as [Hg'|(-> & Eo)]; [|by left|].
    { destruct H4 as [u|w Hw|Hc|Hc]; (apply done_g in Hg as [Hg|(-> & r0 & Hr0 & Eo & Ex)]; [left; by rewrite <-Ez|]); right; (assert (c_gs y !! g0 = Some r0) as Hr1 by (rewrite <-Ez; exact Hr0)); simplify_eq; done. }
    right. exists r, ch, fr, k, w, h. destruct (after_send_q y ch k) as [_ E2]. split_and!; try done. destruct H4; cbn; by rewrite E2.
  - left. cbn [with_subs with_log c_gs] in Hg. by rewrite after_send_gs in Hg.
Qed.
Lemma answered_log A cfg y : creach A cfg y -> forall g, answered y g -> exists q w l1 l2, c_log y = l1 ++ PvReq q w :: l2 /\ q_by q = g /\ l2 <> [].
Proof.
  induction 1 as [|y a y' Hr IH _ Hs]; intros g (r' & f & Hg & Hop & Hd); [done|]. apply cstep_cmv in Hs as Hm.
  destruct (cmv_answer _ _ _ _ _ _ _ Hm (reach_calls _ _ _ Hr) Hg Hop Hd) as [Hg'|(r & ch & fr & k & w & h & Hp & Hg' & Eo & Hw & Hh & Hown & El)].
  - destruct (IH g) as (q & w & l1 & l2 & E & Eq & Hn); [by exists r', f|]. destruct (pmove_log _ _ (cmv_pmove _ _ _ _ Hm)) as [->|[e ->]]; [by exists q, w, l1, l2|].
    exists q, w, l1, (l2 ++ [e]). rewrite E, <-app_assoc. split_and!; try done. by destruct l2.
  - pose proof (reach_map _ _ _ Hr) as HM. pose proof (reach_req _ _ _ Hr) as HR.
    assert (exists q wr, PvReq q wr ∈ c_log y /\ q_chan q = Some ch) as (q & wr & Hql & Hqc).
    { destruct (mi_send _ HM _ _ _ Hp) as [(f' & rest & err & ->)|(id & l & Ely & Hro & Hmap & q & wr & Hq & Hqc & Hn)].
      - destruct (mi_cur _ HM _ _ _ _ _ Hp) as [-> [k Hk]]. destruct (mi_map _ HM _ _ Hk) as (q & wr & Hq & Hqc & _). eauto.
      - exists q, wr. split; [|done]. rewrite Ely. by apply in_snoc. }
    destruct (rq_ok _ HR q) as (rq & Hrq & Hf & Hs1 & Hch); [right; left; by eapply log_req_in|]. destruct (Hch _ Hqc) as (h' & Hh' & Hown'). assert (h' = h) as -> by congruence.
    assert (is_subscribe (g_op rq) = false) as Hns by (destruct (is_subscribe (g_op rq)); [destruct Hown' as (s & b & E & _); congruence|done]).
    rewrite Hns in *. assert (q_by q = g) as Eby by congruence.
    apply elem_of_list_split in Hql as (l1 & l2 & E). exists q, wr, l1, (l2 ++ [PvTold ch fr]). rewrite El, E, <-app_assoc. split_and!; try done. by destruct l2.
Qed.

(* ---------------- any program ---------------- *)
Lemma begun_cases y a y' : qmove y a y' ->
  (begun y y' = None /\ log_outline y' = log_outline y /\ (of_loop a = false -> c_log y' = c_log y)) \/
  exists q f w, of_loop a = true /\ begun y y' = Some (mkCur (q_by q) f w []) /\ c_wch y = q :: c_wch y' /\ c_log y' = c_log y ++ [PvReq q (Some (f, w))].
Proof.
  unfold begun, log_outline. destruct 1 as [_ E|e Ha _ E He|g r k q _ _ _ E|q [[f w]|] Ha Ew E]; rewrite E.
  - left. rewrite drop_all. done.
  - left. rewrite drop_app, omap_app. split_and!; [by destruct e|destruct e; [done|by rewrite app_nil_r..]|congruence].
  - left. rewrite drop_all. done.
  - right. exists q, f, w. rewrite drop_app. done.
  - left. rewrite drop_app, omap_app. split_and!; [done|by rewrite app_nil_r|congruence].
Qed.
Record binv (cfg : ccfg) (u : bprog) : Prop := {
  bi_cl : creach anything cfg (b_cl u);
  bi_past : forall g j, (g, j) ∈ b_past u -> exists y0 l x, creach anything cfg y0 /\ crun cfg y0 l = Some (COk (b_cl u)) /\ gave y0 g x /\ length (c_gs y0) <= j;
  bi_use : forall g k, b_uses u !! g = Some k -> exists r f b, c_gs (b_cl u) !! g = Some r /\ send_of (g_op r) = Some f /\ b_bufs u !! k = Some b /\ length b = length (f_body f);
  bi_cur : forall c, b_cur u = Some c -> exists q l, c_log (b_cl u) = l ++ [PvReq q (Some (u_frame c, u_ok c))] /\ q_by q = u_call c;
  bi_out : outline u = log_outline (b_cl u) }.
Lemma send_op_frame o f : send_of o = Some f -> op_frame o = Some f.
Proof. by destruct o as [[]| | | | |]. Qed.
Lemma returned_gave y g : g ∈ returned_calls y -> exists x, gave y g x.
Proof.
  intros ([i r] & Hin & Hx)%elem_of_list_omap. cbn in Hx. destruct (g_pc r) as [| | | | | | | | | |x] eqn:E; simplify_eq. exists x, r. split; [|done].
  apply elem_of_lookup_zip_with in Hin as (n & x0 & y0 & E0 & H1 & H2). simplify_eq. apply lookup_seq in H1 as [-> _]. done.
Qed.
Lemma crun_snoc cfg y l y1 a y2 : crun cfg y l = Some (COk y1) -> cstep cfg y1 a = Some (COk y2) -> crun cfg y (l ++ [a]) = Some (COk y2).
Proof. intros H1 H2. rewrite crun_app, H1. cbn. by rewrite H2. Qed.
Lemma past_step cfg u a y : binv cfg u -> cstep cfg (b_cl u) a = Some (COk y) ->
  forall g j, (g, j) ∈ b_past u ++ past_of (b_cl u) a -> exists y0 l x, creach anything cfg y0 /\ crun cfg y0 l = Some (COk y) /\ gave y0 g x /\ length (c_gs y0) <= j.
Proof.
  intros HI Hs g j [H|H]%elem_of_app.
  - destruct (bi_past _ _ HI _ _ H) as (y0 & l & x & H1 & H2 & H3 & H4). exists y0, (l ++ [a]), x. split_and!; try done. by eapply crun_snoc.
  - destruct a; try (by apply elem_of_nil in H). cbn [past_of] in H. apply elem_of_list_fmap in H as (g' & E & Hg). simplify_eq. destruct (returned_gave _ _ Hg) as [x Hx].
    exists (b_cl u), [XCall o], x. split_and!; try done; [apply (bi_cl _ _ HI)|]. cbn [crun]. by rewrite Hs.
Qed.
Lemma use_step cfg u a y g r : binv cfg u -> cstep cfg (b_cl u) a = Some (COk y) -> c_gs (b_cl u) !! g = Some r -> exists r', c_gs y !! g = Some r' /\ g_op r' = g_op r.
Proof. intros HI Hs Hg. eapply gchange_op; [|done]. eapply cmv_gs, cstep_cmv, Hs. Qed.
Lemma client_inv cfg u a y : binv cfg u -> (of_loop a = true -> b_cur u = None) -> cstep cfg (b_cl u) a = Some (COk y) -> binv cfg (with_client u a y).
Proof.
  intros HI Hl Hs. apply cstep_cmv in Hs as Hm. apply cmv_queue in Hm as Hq. constructor.
  - eapply cr_step; [apply (bi_cl _ _ HI)|done|exact Hs].
  - by eapply past_step.
  - cbn [with_client b_uses b_cl b_bufs]. intros g k Hg. destruct (bi_use _ _ HI _ _ Hg) as (r & f & b & H1 & H2 & H3 & H4). destruct (use_step _ _ _ _ _ _ HI Hs H1) as (r' & Hr' & Eo). exists r', f, b. by rewrite Eo.
  - cbn [with_client b_cur b_cl]. intros c. destruct (begun_cases _ _ _ Hq) as [(E & _ & El)|(q & f & w & Ha & E & Ew & El)]; rewrite E.
    + intros Hc. rewrite El; [by eapply bi_cur|]. destruct (of_loop a); [|done]. by rewrite Hl in Hc.
    + intros [= <-]. exists q, (c_log (b_cl u)). done.
  - unfold outline. cbn [with_client b_cur b_cl b_wire]. destruct (begun_cases _ _ _ Hq) as [(E & -> & El)|(q & f & w & Ha & E & Ew & El)]; rewrite E; [apply (bi_out _ _ HI)|].
    pose proof (bi_out _ _ HI) as HO. unfold outline in HO. rewrite (Hl Ha), app_nil_r in HO. rewrite HO. unfold log_outline. by rewrite El, omap_app.
Qed.
Lemma call_log cfg y o y' : cstep cfg y (XCall o) = Some (COk y') -> c_gs y' = c_gs y ++ [mkGor o GStart].
Proof. intros Hs. apply cstep_cmv in Hs. by inversion Hs; simplify_eq; try (destruct t; done). Qed.
Lemma binv_step cfg u a u' : binv cfg u -> bstep cfg u a = Some u' -> binv cfg u'.
Proof.
  intros HI Hs. destruct a as [a|s|o k|k i c| |]; cbn [bstep] in Hs.
  - destruct (of_loop a && bool_decide (is_Some (b_cur u))) eqn:Eg; [done|]. destruct (cstep cfg (b_cl u) a) as [[p|y]|] eqn:Es; simplify_eq.
    apply client_inv; [done| |done]. intros Ha. rewrite Ha in Eg. cbn in Eg. apply bool_decide_eq_false in Eg. by apply eq_None_not_Some.
  - simplify_eq. destruct HI as [H1 H2 H3 H4 H5]. constructor; cbn; try done. intros g k Hg. destruct (H3 _ _ Hg) as (r & f & b & K1 & K2 & K3 & K4). exists r, f, b. split_and!; try done. by apply lookup_app_l_Some.
  - destruct (send_of o) as [f|] eqn:Eo; [|done]. destruct (b_bufs u !! k) as [s|] eqn:Ek; [|done]. destruct (decide (f_body f = s)) as [Ef|]; [|done]. destruct (cstep cfg (b_cl u) (XCall o)) as [[p|y]|] eqn:Es; simplify_eq.
    assert (Hnl : of_loop (XCall o) = true -> b_cur u = None) by done. pose proof (client_inv _ _ _ _ HI Hnl Es) as [H1 H2 H3 H4 H5]. constructor; try done.
    intros g k' Hg. cbn [b_uses] in Hg. apply lookup_insert_Some in Hg as [[<- <-]|[Hn Hg]]; [|by apply H3]. cbn [b_cl b_bufs with_client]. rewrite (call_log _ _ _ _ Es).
    exists (mkGor o GStart), f, (f_body f). split_and!; try done. by rewrite lookup_app_r, Nat.sub_diag by lia.
  - destruct (b_bufs u !! k) as [s|] eqn:Ek; [|done]. destruct (decide (i < length s)) as [Hi|]; simplify_eq. destruct HI as [H1 H2 H3 H4 H5]. constructor; try done.
    cbn [b_uses b_cl b_bufs]. intros g k' Hg. destruct (H3 _ _ Hg) as (r & f & b & K1 & K2 & K3 & K4). exists r, f. destruct (decide (k = k')) as [->|Hn].
    + exists (<[i:=c]> s). split_and!; try done; [apply list_lookup_insert; by apply lookup_lt_Some in K3|]. rewrite insert_length. congruence.
    + exists b. by rewrite list_lookup_insert_ne.
  - destruct (b_cur u) as [c|] eqn:Ec; [|done]. destruct (source u c !! length (u_body c)) as [x|]; simplify_eq. destruct HI as [H1 H2 H3 H4 H5]. constructor; try done.
    + cbn. intros c' [= <-]. cbn. by apply H4.
    + unfold outline in *. cbn. by rewrite Ec in H5.
  - destruct (b_cur u) as [c|] eqn:Ec; [|done]. destruct (_ || _); simplify_eq. destruct HI as [H1 H2 H3 H4 H5]. constructor; try done.
    unfold outline in *. cbn [b_wire b_cur b_cl]. rewrite Ec in H5. by rewrite fmap_app, app_nil_r.
Qed.
Lemma breach_inv A cfg u : breach A cfg u -> binv cfg u.
Proof.
  induction 1 as [|u a u' Hr IH HA Hs]; [|by eapply binv_step]. constructor; cbn; try done; [constructor|]. intros g j H. by apply elem_of_nil in H.
Qed.

(* ---------------- programs that wait ---------------- *)
Definition over_with (u : bprog) (g : nat) : Prop :=
  (exists x, gave (b_cl u) g x) /\ g ∉ queued (b_cl u) /\ forall c, b_cur u = Some c -> u_call c <> g.
Lemma gave_step cfg y a y' g x : creach anything cfg y -> cstep cfg y a = Some (COk y') -> gave y g x -> gave y' g x.
Proof. intros Hr Hs (r & Hg & Hx). exists r. split; [|done]. eapply done_stays; [by eapply reach_wmove; [|apply cstep_cmv]|done|done]. Qed.
Lemma gave_run cfg y l y' g x : creach anything cfg y -> crun cfg y l = Some (COk y') -> gave y g x -> gave y' g x.
Proof.
  intros Hr Hl Hg. eapply (run_keeps (fun z => gave z g x) anything); [|exact Hr|exact Hg|apply Forall_any|exact Hl].
  intros z a z' Hz (r & Hgz & Hx) _ Hm. exists r. split; [|done]. eapply done_stays; [by eapply reach_wmove|done|done].
Qed.
Lemma served_app y l1 q w l2 : c_log y = l1 ++ PvReq q w :: l2 -> exists k1 k2, served y = k1 ++ q_by q :: k2 /\ (forall q' w', PvReq q' w' ∈ l2 -> q_by q' ∈ k2).
Proof.
  intros E. unfold served. rewrite E, omap_app. cbn. eexists _, _. split; [done|]. intros q' w' H. apply elem_of_list_omap. by exists (PvReq q' w').
Qed.
Lemma last_in {X} (l1 l2 l : list X) x z : l1 ++ x :: l2 = l ++ [z] -> l2 <> [] -> z ∈ l2.
Proof.
  intros E Hn. destruct (exists_last Hn) as (l3 & z' & ->). rewrite app_comm_cons, app_assoc in E. apply app_inj_tail in E as [_ ->]. apply elem_of_app. right. by left.
Qed.
Lemma freed_over cfg u g : binv cfg u -> freed u g -> over_with u g.
Proof.
  intros HI Hf. pose proof (bi_cl _ _ HI) as Hr. destruct (reach_uniq _ _ _ Hr) as [Hnd _]. rewrite allr_served in Hnd.
  assert (Hans : forall j, answered (b_cl u) j -> exists k1 k2, served (b_cl u) = k1 ++ j :: k2 /\ forall c, b_cur u = Some c -> u_call c ∈ k2).
  { intros j Hj. destruct (answered_log _ _ _ Hr _ Hj) as (q & w & l1 & l2 & El & <- & Hn). destruct (served_app _ _ _ _ _ El) as (k1 & k2 & Es & Hk). exists k1, k2. split; [done|].
    intros c Hc. destruct (bi_cur _ _ HI _ Hc) as (q' & l & El' & <-). eapply Hk, last_in; [|done]. by rewrite <-El, <-El'. }
  destruct Hf as [x Hg Hx|Hg|j Hp Hj].
  - pose proof (C84_refused _ _ [] _ _ _ Hr eq_refl Hg Hx) as [Hs Hq]%not_elem_of_app. split_and!; [by exists x|done|]. intros c Hc <-. apply Hs.
    destruct (bi_cur _ _ HI _ Hc) as (q & l & El & <-). destruct (served_app _ _ _ _ _ El) as (k1 & k2 & -> & _). apply elem_of_app. right. by left.
  - destruct (Hans _ Hg) as (k1 & k2 & Es & Hc). rewrite Es, <-app_assoc in Hnd. cbn in Hnd. apply NoDup_app in Hnd as (_ & _ & [Hnd _]%NoDup_cons). apply not_elem_of_app in Hnd as [N1 N2]. split_and!; [|done|].
    + destruct Hg as (r & f & Hg & _ & [Hd|[fr Hd]]); eexists _, r; done.
    + intros c Hcc E. apply N1. rewrite <-E. by apply Hc.
  - destruct (bi_past _ _ HI _ _ Hp) as (y0 & l & x & Hr0 & Hl & Hg & Hlen). destruct (Hans _ Hj) as (k1 & k2 & Es & Hc).
    assert (Hn : g ∉ k2 ++ queued (b_cl u)). { eapply calls_order; [exact Hr0|exact Hl|exact Hg|exact Hlen|]. rewrite allr_served, Es, <-app_assoc. done. }
    apply not_elem_of_app in Hn as [N1 N2]. split_and!; [exists x; by eapply gave_run|done|]. intros c Hcc E. apply N1. rewrite <-E. by apply Hc.
Qed.
Lemma over_client cfg u a y g : binv cfg u -> cstep cfg (b_cl u) a = Some (COk y) -> over_with u g -> over_with (with_client u a y) g.
Proof.
  intros HI Hs ([x Hg] & Hq & Hc). pose proof (bi_cl _ _ HI) as Hr. apply cstep_cmv in Hs as Hm. apply cmv_queue in Hm as Hm. split_and!.
  - exists x. by eapply gave_step.
  - cbn [with_client b_cl]. unfold queued in *. destruct Hm as [-> _|e _ -> _ _|g' r k q H1 H2 -> _|q w _ E _]; [done|done| |].
    + rewrite fmap_app. apply not_elem_of_app. split; [done|]. intros ->%elem_of_list_singleton. destruct Hg as (r0 & Hr0 & Hx). rewrite (rq_put _ (reach_req _ _ _ Hr) _ _ _ _ H1 H2) in Hr0. simplify_eq. congruence.
    + rewrite E in Hq. cbn in Hq. by apply not_elem_of_cons in Hq as [_ Hq].
  - cbn [with_client b_cur]. intros c. destruct (begun_cases _ _ _ Hm) as [(-> & _)|(q & f & w & _ & -> & E & _)]; [apply Hc|]. intros [= <-]. cbn. intros <-. apply Hq. unfold queued. rewrite E. by left.
Qed.
Record pinv (u : bprog) : Prop := {
  pi_use : forall g k r f, b_uses u !! g = Some k -> c_gs (b_cl u) !! g = Some r -> send_of (g_op r) = Some f -> b_bufs u !! k = Some (f_body f) \/ over_with u g;
  pi_cur : forall c, b_cur u = Some c -> u_body c `prefix_of` f_body (u_frame c);
  pi_wire : as_called u }.
Lemma as_called_grow u u' : as_called u -> (forall g r, c_gs (b_cl u) !! g = Some r -> exists r', c_gs (b_cl u') !! g = Some r' /\ g_op r' = g_op r) -> b_wire u' = b_wire u -> as_called u'.
Proof.
  intros H Hg E g f w Hin. rewrite E in Hin. destruct (H _ _ _ Hin) as (r & f0 & H1 & H2 & H3). destruct (Hg _ _ H1) as (r' & Hr' & Eo). exists r', f0. by rewrite Eo.
Qed.
Lemma client_pinv cfg u a y : binv cfg u -> pinv u -> (of_loop a = true -> b_cur u = None) -> cstep cfg (b_cl u) a = Some (COk y) -> pinv (with_client u a y).
Proof.
  intros HI [P1 P2 P3] Hl Hs. constructor.
  - cbn [with_client b_uses b_cl b_bufs]. intros g k r f Hu Hg Hf. destruct (bi_use _ _ HI _ _ Hu) as (r0 & f0 & b & K1 & K2 & K3 & K4).
    destruct (use_step _ _ _ _ _ _ HI Hs K1) as (r' & Hr' & Eo). assert (r' = r) as -> by congruence. rewrite Eo in Hf. destruct (P1 _ _ _ _ Hu K1 Hf) as [H|H]; [by left|]. right. by eapply over_client.
  - cbn [with_client b_cur]. intros c. destruct (begun_cases _ _ _ (cmv_queue _ _ _ _ (cstep_cmv _ _ _ _ Hs))) as [(-> & _)|(q & f & w & _ & -> & E & _)]; [apply P2|]. intros [= <-]. cbn. apply prefix_nil.
  - eapply as_called_grow; [exact P3| |done]. intros g r Hg. by eapply use_step.
Qed.
(** What the body is read from. *)
Lemma source_ok cfg u c : binv cfg u -> pinv u -> b_cur u = Some c ->
  source u c = f_body (u_frame c) /\ exists r f0, c_gs (b_cl u) !! u_call c = Some r /\ op_frame (g_op r) = Some f0 /\ sent_as f0 (u_frame c) /\ f_body (u_frame c) = f_body f0.
Proof.
  intros HI [P1 P2 P3] Hc. destruct (bi_cur _ _ HI _ Hc) as (q & l & El & Eq).
  destruct (C84_written _ _ _ q (Some (u_frame c, u_ok c)) (bi_cl _ _ HI)) as (r & f & Hg & Ho & _ & Hs); [rewrite El; apply elem_of_app; right; by left|].
  rewrite Eq in Hg. assert (Hb : f_body (u_frame c) = f_body f). { unfold sent_as in Hs. destruct (decide _); [by destruct Hs as (_ & ? & _)|by rewrite Hs]. }
  split; [|by exists r, f]. unfold source. destruct (b_uses u !! u_call c) as [k|] eqn:Eu; [|done].
  destruct (bi_use _ _ HI _ _ Eu) as (r0 & f0 & b & K1 & K2 & K3 & K4). assert (r0 = r) as -> by congruence. rewrite (send_op_frame _ _ K2) in Ho. simplify_eq.
  destruct (P1 _ _ _ _ Eu Hg K2) as [H|(_ & _ & H)]; [by rewrite H|]. by specialize (H _ Hc).
Qed.
Lemma sent_as_eta f0 f : sent_as f0 f -> sent_as f0 (mkFrame (f_cmd f) (f_hdr f) (f_body f)).
Proof. by destruct f. Qed.
Lemma pinv_step cfg u a u' : binv cfg u -> pinv u -> patient u a -> bstep cfg u a = Some u' -> pinv u'.
Proof.
  intros HI HP HA Hs. destruct a as [a|s|o k|k i c| |]; cbn [bstep] in Hs.
  - destruct (of_loop a && bool_decide (is_Some (b_cur u))) eqn:Eg; [done|]. destruct (cstep cfg (b_cl u) a) as [[p|y]|] eqn:Es; simplify_eq.
    eapply client_pinv; [done|done| |done]. intros Ha. rewrite Ha in Eg. cbn in Eg. apply bool_decide_eq_false in Eg. by apply eq_None_not_Some.
  - simplify_eq. destruct HP as [P1 P2 P3]. constructor; try done. cbn [b_uses b_cl b_bufs]. intros g k r f Hu Hg Hf. destruct (P1 _ _ _ _ Hu Hg Hf) as [H|H]; [left; by apply lookup_app_l_Some|by right].
  - destruct (send_of o) as [f|] eqn:Eo; [|done]. destruct (b_bufs u !! k) as [s|] eqn:Ek; [|done]. destruct (decide (f_body f = s)) as [Ef|]; [|done]. destruct (cstep cfg (b_cl u) (XCall o)) as [[p|y]|] eqn:Es; simplify_eq.
    assert (Hnl : of_loop (XCall o) = true -> b_cur u = None) by done. pose proof (client_pinv _ _ _ _ HI HP Hnl Es) as [P1 P2 P3]. constructor; try done.
    cbn [b_uses b_cl b_bufs]. intros g k' r f' [[<- <-]|[Hn Hu]]%lookup_insert_Some Hg Hf; [|by eapply P1]. left. cbn [with_client b_cl b_bufs] in *. rewrite (call_log _ _ _ _ Es) in Hg. rewrite lookup_app_r, Nat.sub_diag in Hg by lia. cbn in Hg. simplify_eq. cbn in Hf. by simplify_eq.
  - destruct (b_bufs u !! k) as [s|] eqn:Ek; [|done]. destruct (decide (i < length s)) as [Hi|]; simplify_eq. destruct HP as [P1 P2 P3]. constructor; try done.
    cbn [b_uses b_cl b_bufs]. intros g k' r f Hu Hg Hf. destruct (decide (k = k')) as [->|Hn].
    + right. eapply freed_over in HI; [exact HI|]. by eapply HA.
    + rewrite list_lookup_insert_ne by done. by eapply P1.
  - destruct (b_cur u) as [c|] eqn:Ec; [|done]. destruct (source u c !! length (u_body c)) as [x|] eqn:Ex; simplify_eq. destruct (source_ok _ _ _ HI HP Ec) as [Es _]. destruct HP as [P1 P2 P3]. constructor; try done.
    + cbn [b_uses b_cl b_bufs]. intros g k r f Hu Hg Hf. destruct (P1 _ _ _ _ Hu Hg Hf) as [H|(H1 & H2 & H3)]; [by left|right]. split_and!; try done. cbn. intros c' [= <-]. cbn. by apply H3.
    + cbn. intros c' [= <-]. cbn. rewrite Es in Ex. destruct (P2 _ Ec) as [t Et]. rewrite Et in Ex |- *. rewrite lookup_app_r, Nat.sub_diag in Ex by lia. destruct t as [|x' t]; [done|]. cbn in Ex. simplify_eq. exists t. by rewrite <-app_assoc.
  - destruct (b_cur u) as [c|] eqn:Ec; [|done]. destruct (negb (u_ok c) || bool_decide (length (u_body c) = length (source u c))) eqn:Eb; simplify_eq.
    destruct (source_ok _ _ _ HI HP Ec) as (Es & r & f0 & Hg & Ho & Hsa & Hb). destruct HP as [P1 P2 P3]. pose proof (P2 _ Ec) as Hpre. constructor; try done.
    + cbn [b_uses b_cl b_bufs]. intros g k r' f Hu Hg' Hf. destruct (P1 _ _ _ _ Hu Hg' Hf) as [H|(H1 & H2 & H3)]; [by left|right]. split_and!; try done.
    + intros g f w. cbn [b_wire b_cl]. intros [H|H%elem_of_list_singleton]%elem_of_app; [by apply P3|]. injection H as -> -> ->. exists r, f0. cbn [f_cmd f_hdr f_body]. split_and!; try done.
      * rewrite <-Hb. by apply sent_as_eta.
      * destruct (u_ok c); [|by rewrite <-Hb]. cbn in Eb. apply bool_decide_eq_true in Eb. rewrite Es in Eb. rewrite <-Hb. destruct Hpre as [t Et]. rewrite Et in Eb |- *. rewrite app_length in Eb. destruct t; [by rewrite app_nil_r|cbn in Eb; lia].
Qed.
Lemma patient_inv cfg u : breach patient cfg u -> pinv u.
Proof.
  induction 1 as [|u a u' Hr IH HA Hs]; [|by eapply pinv_step; [eapply breach_inv|..]]. constructor; cbn; try done. intros g f w H. by apply elem_of_nil in H.
Qed.

(* ---------------- lengths ---------------- *)
Lemma source_length cfg u c : binv cfg u -> b_cur u = Some c ->
  exists r f0, c_gs (b_cl u) !! u_call c = Some r /\ op_frame (g_op r) = Some f0 /\ length (source u c) = length (f_body f0).
Proof.
  intros HI Hc. destruct (bi_cur _ _ HI _ Hc) as (q & l & El & Eq).
  destruct (C84_written _ _ _ q (Some (u_frame c, u_ok c)) (bi_cl _ _ HI)) as (r & f & Hg & Ho & _ & Hs); [rewrite El; apply elem_of_app; right; by left|].
  rewrite Eq in Hg. assert (Hb : f_body (u_frame c) = f_body f). { unfold sent_as in Hs. destruct (decide _); [by destruct Hs as (_ & ? & _)|by rewrite Hs]. }
  exists r, f. split_and!; try done. unfold source. destruct (b_uses u !! u_call c) as [k|] eqn:Eu; [|by rewrite Hb].
  destruct (bi_use _ _ HI _ _ Eu) as (r0 & f0 & b & K1 & K2 & K3 & K4). assert (r0 = r) as -> by congruence. rewrite (send_op_frame _ _ K2) in Ho. simplify_eq. by rewrite K3.
Qed.
Definition lengths (u : bprog) : Prop := forall (g : nat) (f : frame), (g, f, true) ∈ b_wire u -> exists r f0, c_gs (b_cl u) !! g = Some r /\ op_frame (g_op r) = Some f0 /\ length (f_body f) = length (f_body f0).
Lemma breach_lengths A cfg u : breach A cfg u -> lengths u.
Proof.
  induction 1 as [|u a u' Hr IH HA Hs]; [intros g f H; by apply elem_of_nil in H|]. pose proof (breach_inv _ _ _ Hr) as HI.
  assert (Hcl : forall z y, cstep cfg (b_cl u) z = Some (COk y) -> b_cl u' = y -> b_wire u' = b_wire u -> lengths u').
  { intros z y Es Ey Ew g f Hin. rewrite Ew in Hin. destruct (IH _ _ Hin) as (r & f0 & H1 & H2 & H3). destruct (use_step _ _ _ _ _ _ HI Es H1) as (r' & Hr' & Eo). exists r', f0. by rewrite Ey, Eo. }
  destruct a as [a|s|o k|k i c| |]; cbn [bstep] in Hs.
  - destruct (of_loop a && _); [done|]. destruct (cstep cfg (b_cl u) a) as [[p|y]|] eqn:Es; simplify_eq. by eapply Hcl.
  - by simplify_eq.
  - destruct (send_of o); [|done]. destruct (b_bufs u !! k); [|done]. destruct (decide _); [|done]. destruct (cstep cfg (b_cl u) (XCall o)) as [[p|y]|] eqn:Es; simplify_eq. by eapply Hcl.
  - destruct (b_bufs u !! k); [|done]. destruct (decide _); by simplify_eq.
  - destruct (b_cur u) as [c|]; [|done]. destruct (_ !! _); by simplify_eq.
  - destruct (b_cur u) as [c|] eqn:Ec; [|done]. destruct (negb (u_ok c) || bool_decide (length (u_body c) = length (source u c))) eqn:Eb; simplify_eq.
    intros g f. cbn [b_wire b_cl]. intros [H|H%elem_of_list_singleton]%elem_of_app; [by apply IH|]. injection H as -> -> Ew. rewrite <-Ew in Eb. cbn in Eb. apply bool_decide_eq_true in Eb.
    destruct (source_length _ _ _ HI Ec) as (r & f0 & H1 & H2 & H3). exists r, f0. cbn [f_body]. rewrite Eb. done.
Qed.
