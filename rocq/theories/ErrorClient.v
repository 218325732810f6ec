(** Errors that a program sees: where they come from, who gets them. *)
From stdpp Require Import gmap.
From Verif Require Import GoBase HeaderModel HeaderProofs FrameModel GrammarSpec NegotiationModel ClientApiModel ClientModel ClientSpec ClientLemmas ClientProofs ClientRequests ClientCalls ClientChannels ClientReceipts ClientDelivery
  ClientMessages ClientRouting ClientReady ClientEnd ClientFinal ClientUnsub.
From Verif Require Import NetSpec NetUnsub ErrorSpec.

(* ---------------- the client: one step ---------------- *)
Ltac pmoves H := destruct H as [E1 E2 E3|txt H0 E1 E2 E3|o H0 E1 E2 E3 Hi|f0 txt H0 Hf0 Hr0 E1 E2 E3|f0 H0 Hf0 E1 E2 E3|f0 id0 kk c H0 Hro Hk Hh E1 E2 E3|q0 l w0 txt H0 Hw Hl0 E1 E2 E3|q0 l H0 Hw Hl0 Hu E1 E2 E3|q0 l c H0 Hw Hl0 Hq0 Hu Hh E1 E2 E3|i f0 rest err kk c H0 Hi Hh E1 E2 E3|c f0 kk H0 E1 E2 E3|f0 err H0 E1 E2 E3|err H0 E1 E2 E3].
Lemma told_back cfg y a y' ch f : cmv cfg y a y' -> PvTold ch f ∈ c_log y' -> PvTold ch f ∈ c_log y \/ (a = XDeliver /\ exists k, c_p y = PSend ch f k).
Proof.
  intros Hm Hl. pmoves (cmv_pmove _ _ _ _ Hm); rewrite E3 in Hl; try (by left); apply snoc_in in Hl as [Hl|Hl]; try (by left); try done. injection Hl as <- <-. right. split; [|eauto].
  assert (a = XDeliver \/ a <> XDeliver) as [?|Hna] by (destruct a; (by left) || (by right)); [done|]. exfalso.
  assert (c_log y' = c_log y) as E by (clear E1 E2 E3; inversion Hm; subst; simplify_eq; try done; try congruence; try apply submit_same; try (by destruct (put_next _ _).2); try (by destruct t); try (etrans; [apply submit_same|done])).
  rewrite E3 in E. apply (f_equal length) in E. rewrite app_length in E. cbn in E. lia.
Qed.
Lemma log_mono cfg y a y' e : cmv cfg y a y' -> e ∈ c_log y -> e ∈ c_log y'.
Proof. intros Hm He. destruct (pmove_log _ _ (cmv_pmove _ _ _ _ Hm)) as [->|[e' ->]]; [done|by apply in_snoc]. Qed.

(* ---------------- the ERROR that is spread ---------------- *)
Definition spreads (y : cl) (f : frame) : Prop := exists rest err, c_p y = PBcast f rest err \/ exists ch f', c_p y = PSend ch f' (KBcast f rest err).
Lemma made_error t : t ∈ local_reasons -> made_here (error_frame t).
Proof. intros H. split_and!; [done..|]. by exists t. Qed.
Lemma spreads_step cfg y a y' f : cmv cfg y a y' -> spreads y' f -> spreads y f \/ (c_p y = PLoop /\ (made_here f \/ f_cmd f = ERROR /\ PvIn (Some f) ∈ c_log y')).
Proof.
  intros Hm (rest & err & H). assert (Hsame : c_p y' = c_p y -> spreads y f) by (intros E; exists rest, err; by rewrite <-E).
  assert (Hloop : c_p y' = PLoop -> spreads y f) by (intros E; rewrite E in H; by destruct H as [?|(? & ? & ?)]).
  assert (Hfail : forall t y1, t ∈ local_reasons -> c_p y = PLoop -> c_p (fail y1 t) = c_p y' -> c_p y = PLoop /\ (made_here f \/ f_cmd f = ERROR /\ PvIn (Some f) ∈ c_log y')).
  { intros t y1 Ht Hp E. split; [done|]. left. cbn in E. rewrite <-E in H. destruct H as [H|(? & ? & H)]; [|done]. injection H as <- _ _. by apply made_error. }
  assert (Hnone : (forall g l e, c_p y' <> PBcast g l e) -> (forall ch g k, c_p y' <> PSend ch g k) -> spreads y f) by (intros N1 N2; destruct H as [H|(? & ? & H)]; [by apply N1 in H|by apply N2 in H]).
  inversion Hm; subst; try (by left; apply Hsame); try (by left; apply Hnone); try (right; eapply Hfail; [|done|reflexivity]; unfold local_reasons; rewrite !elem_of_cons; tauto).
  - left. apply Hsame. apply submit_same.
  - left. apply Hsame. by destruct (put_next k (q_chan q)).2.
  - right. split; [done|]. right. destruct H as [H|(? & ? & H)]; [|done]. injection H as <- _ _. split; [done|]. apply in_last.
  - exfalso. destruct H as [H|(? & ? & H)]; [done|]. injection H as _ _ ->. match goal with H : routes _ _ _ |- _ => inversion H end.
  - destruct w; [left; by apply Hloop|]. right. eapply Hfail; [|done|reflexivity]. unfold local_reasons. rewrite !elem_of_cons. tauto.
  - left. destruct H as [H|(? & ? & H)]; [done|]. injection H as _ _ <- _ _. eexists _, _. left. done.
  - left. assert (c_p y' = match k with KBcast f rest err => PBcast f rest err | _ => PLoop end) as E.
    { match goal with H : answers _ _ _ _ _ |- _ => apply answers_same in H as (_ & _ & _ & _ & _ & E3) end. rewrite E3. apply after_send_p. }
    rewrite E in H. destruct k as [| |f1 rest1 err1]; [by destruct H as [H|(? & ? & H)]..|]. destruct H as [H|(? & ? & H)]; [|done]. injection H as -> -> ->. exists rest, err. eauto.
  - left. assert (c_p (with_subs (with_log (after_send y ch k) (PvTold ch f0)) (<[s:=b_with_rl b (rl_got b (Some f0))]> (c_subs y))) = match k with KBcast f rest err => PBcast f rest err | _ => PLoop end) as E.
    { cbn [with_subs with_log c_p]. apply after_send_p. }
    rewrite E in H. destruct k as [| |f1 rest1 err1]; [by destruct H as [H|(? & ? & H)]..|]. destruct H as [H|(? & ? & H)]; [|done]. injection H as -> -> ->. exists rest, err. eauto.
Qed.
Lemma reach_spreads A cfg y : creach A cfg y -> forall f, spreads y f -> made_here f \/ f_cmd f = ERROR /\ PvIn (Some f) ∈ c_log y.
Proof.
  induction 1 as [|y a y' Hr IH _ Hs]; [by intros f (? & ? & [?|(? & ? & ?)])|]. intros f Hf. apply cstep_cmv in Hs as Hm.
  destruct (spreads_step _ _ _ _ _ Hm Hf) as [Hf0|[_ H]]; [|done]. destruct (IH _ Hf0) as [?|[? ?]]; [by left|]. right. split; [done|]. by eapply log_mono.
Qed.
(** What is handed over was read from the network or made here. *)
Lemma told_src A cfg y : creach A cfg y -> forall ch f, PvTold ch f ∈ c_log y -> made_here f \/ PvIn (Some f) ∈ c_log y.
Proof.
  induction 1 as [|y a y' Hr IH _ Hs]; [intros ch f H; by apply elem_of_nil in H|]. intros ch f Ht. apply cstep_cmv in Hs as Hm.
  destruct (told_back _ _ _ _ _ _ Hm Ht) as [H|(_ & k & Hp)]; [destruct (IH _ _ H) as [?|?]; [by left|right; by eapply log_mono]|].
  destruct (mi_send _ (reach_map _ _ _ Hr) _ _ _ Hp) as [(f' & rest & err & ->)|(id & l & El & _)].
  - destruct (mi_cur _ (reach_map _ _ _ Hr) _ _ _ _ _ Hp) as [-> _]. destruct (reach_spreads _ _ _ Hr f) as [?|[_ ?]]; [exists rest, err; eauto|by left|right; by eapply log_mono].
  - right. eapply log_mono; [done|]. rewrite El. apply in_last.
Qed.
(** ERROR read: nothing else is spread. *)
Lemma one_error A cfg y : creach A cfg y -> forall f, PvIn (Some f) ∈ c_log y -> f_cmd f = ERROR ->
  ended (c_p y) = true /\ (forall f', spreads y f' -> f' = f) /\ (forall ch f', PvTold ch f' ∈ c_log y -> f_cmd f' = ERROR -> f' = f).
Proof.
  induction 1 as [|y a y' Hr IH _ Hs]; [intros f H; by apply elem_of_nil in H|]. intros f Hf Hc. apply cstep_cmv in Hs as Hm. pose proof (cmv_pmove _ _ _ _ Hm) as Hpm.
  assert (PvIn (Some f) ∈ c_log y \/ (c_p y = PLoop /\ c_p y' = PBcast f (map_to_list (c_map y)) true)) as [H|[Hp Hp']].
  { pmoves Hpm; rewrite E3 in Hf; try (by left); apply snoc_in in Hf as [Hf|Hf]; try (by left); try done.
    - injection Hf as <-. by destruct Hi as [? _].
    - injection Hf as ->. rewrite Hc in Hf0. done.
    - injection Hf as ->. by right.
    - injection Hf as ->. inversion Hro as [? Hx|? Hx]; by rewrite Hc in Hx. }
  - destruct (IH _ H Hc) as (H1 & H2 & H3). assert (c_p y <> PLoop) as Hnl by (intros E; by rewrite E in H1). split_and!.
    + by eapply pmove_ended.
    + intros f' Hf'. destruct (spreads_step _ _ _ _ _ Hm Hf') as [?|[? _]]; [by apply H2|done].
    + intros ch f' Ht Hc'. destruct (told_back _ _ _ _ _ _ Hm Ht) as [?|(_ & k & Hp)]; [by eapply H3|].
      destruct (mi_send _ (reach_map _ _ _ Hr) _ _ _ Hp) as [(f1 & rest & err & ->)|(id & l & _ & Hro & _)].
      * destruct (mi_cur _ (reach_map _ _ _ Hr) _ _ _ _ _ Hp) as [-> _]. apply H2. exists rest, err. eauto.
      * exfalso. inversion Hro as [? Hx|? Hx]; by rewrite Hc' in Hx.
  - split_and!; [by rewrite Hp'| |].
    + intros f' (rest & err & [E|(? & ? & E)]); rewrite Hp' in E; [by injection E|done].
    + intros ch f' Ht Hc'. destruct (told_back _ _ _ _ _ _ Hm Ht) as [H|(_ & k & E)]; [|by rewrite Hp in E]. exfalso. pose proof (told_error _ _ _ Hr _ _ H Hc') as He. by rewrite Hp in He.
Qed.

(* ---------------- calls ---------------- *)
Definition result_in (x : gpc) : option cres := match x with GDone r | GLoad _ r | GClose _ _ r => Some r | _ => None end.
Lemma result_frame_done u r : result_in (frame_done u r) = Some r.
Proof. unfold frame_done. destruct u as [s|]; [|done]. destruct r as [| |[]]; done. Qed.
(** An error that carries a frame was made from a frame handed over. *)
Lemma call_told A cfg y : creach A cfg y -> forall g r f, c_gs y !! g = Some r -> result_in (g_pc r) = Some (RErr (EResponse f)) -> f_cmd f <> RECEIPT /\ exists ch h, PvTold ch f ∈ c_log y /\ c_chs y !! ch = Some h /\ h_owner h = OwnG g.
Proof.
  induction 1 as [|y a y' Hr IH _ Hs]; [done|]. intros g r' f Hg' Hres. apply cstep_cmv in Hs as Hm. pose proof (reach_wmove _ _ _ _ _ Hr Hm) as Hw.
  assert (Hold : forall r, c_gs y !! g = Some r -> result_in (g_pc r) = Some (RErr (EResponse f)) -> f_cmd f <> RECEIPT /\ exists ch h, PvTold ch f ∈ c_log y' /\ c_chs y' !! ch = Some h /\ h_owner h = OwnG g).
  { intros r Hg Hx. destruct (IH _ _ _ Hg Hx) as [H1 (ch & h & H2 & H3 & H4)]. split; [done|]. destruct (hchange_mono _ _ _ _ (cmv_chs _ _ _ _ Hm) H3) as (h' & H5 & E). exists ch, h'. split_and!; [by eapply log_mono|done|congruence]. }
  destruct (c_gs y !! g) as [r|] eqn:Hg.
  - destruct (wmove_g _ _ _ _ _ _ Hw Hg) as [E|[(x & Hx & E & _)|[(f0 & id & rt & _ & _ & E)|(x & s & b & b' & Hu & _ & E & _)]]]; rewrite E in Hg'; injection Hg' as <-.
    + by eapply Hold.
    + cbn [g_pc] in Hres. destruct (g_pc r) as [|u f0|k q|w ch|s c v|s v|s|s|s|s|v] eqn:Hpc; inversion Hx as [t x1 x2 Ea Hmv|q1 Ea|ch1 Ea|ch1 Ea|Eo|x1 k1 f1 q1 Hsub Hq|k1 q1|ch1 f1 k1 w1 Hp Ea]; subst; try done; try (inversion Hmv; subst; cbn in Hres; try done; try (by rewrite result_frame_done in Hres)).
      * injection Hres as ->. match goal with H : at_closed _ = _ |- _ => by destruct (g_op r) as [[]| |[]| | |] end.
      * destruct k as [|u|s|], (q_chan q) as [ch|]; cbn in Hres; try done. by rewrite result_frame_done in Hres.
      * assert (PvTold ch f1 ∈ c_log y') as Ht by (by eapply told_log). unfold answer_pc in Hres.
        assert ((if decide (f_cmd f1 = RECEIPT) then RNil else RErr (EResponse f1)) = RErr (EResponse f)) as E' by (destruct w as [|u|s|]; [|rewrite result_frame_done in Hres|..]; by injection Hres).
        destruct (decide _); [done|]. injection E' as ->. split; [done|]. destruct (rq_wait _ (reach_req _ _ _ Hr) _ _ _ _ Hg Hpc) as (h & Hh & Ho). destruct (hchange_mono _ _ _ _ (cmv_chs _ _ _ _ Hm) Hh) as (h' & Hh' & E''). exists ch, h'. split_and!; [done..|congruence].
      * eapply Hold; [done|]. rewrite Hpc. done.
    + done.
    + cbn [g_pc] in Hres. destruct (g_pc r) as [|u f0|k q|w ch|s1 c v|s1 v|s1|s1|s1|s1|v] eqn:Hpc; inversion Hu; subst; try done.
      * match goal with H : context[match ?o with Some _ => _ | None => _ end] |- _ => by destruct o end.
      * eapply Hold; [done|]. rewrite Hpc. cbn. match goal with H : context[match ?o with Some _ => _ | None => _ end] |- _ => by destruct o end.
  - exfalso. destruct Hw as [E1 E2|o Ho E1 E2|h r0 x Hh Hx E1 E2|h r0 f0 id rt Hh Hst Ho E1 E2|s b b' Hb Hs0 E1 E2|h r0 x s b b' Hh Hb Ha0 Hx E1 E2]; rewrite E1 in Hg'; try congruence.
    + apply snoc_lookup in Hg' as [[_ ?]|[_ ->]]; [congruence|done].
    + destruct (decide (g = h)) as [->|Hn]; [congruence|rewrite with_g_other in Hg' by done; congruence].
    + destruct (decide (g = h)) as [->|Hn]; [congruence|rewrite with_g_other in Hg' by done; congruence].
    + destruct (decide (g = h)) as [->|Hn]; [congruence|rewrite with_g_other in Hg' by done; congruence].
Qed.
(** A call that was handed a frame returns it (as nil if it is a RECEIPT). *)
Definition plain_op (o : op) : Prop := match o with OSend _ | OFrame _ | ODisconnect _ => True | _ => False end.
Lemma told_call A cfg y : creach A cfg y -> forall ch f h g, PvTold ch f ∈ c_log y -> c_chs y !! ch = Some h -> h_owner h = OwnG g ->
  exists r, c_gs y !! g = Some r /\ (plain_op (g_op r) -> g_pc r = GDone (if decide (f_cmd f = RECEIPT) then RNil else RErr (EResponse f))).
Proof.
  induction 1 as [|y a y' Hr IH _ Hs]; [intros ch f h g H; by apply elem_of_nil in H|]. intros ch f h' g Ht Hh' Ho'. apply cstep_cmv in Hs as Hm. pose proof (reach_wmove _ _ _ _ _ Hr Hm) as Hw.
  destruct (told_back _ _ _ _ _ _ Hm Ht) as [Ht0|(-> & k & Hp)].
  - pose proof (told_alloc _ _ _ _ _ Hr Ht0) as Hlt. destruct (lookup_lt_is_Some_2 _ _ Hlt) as [h Hh]. destruct (hchange_mono _ _ _ _ (cmv_chs _ _ _ _ Hm) Hh) as (h1 & Hh1 & Eo).
    assert (h1 = h') as -> by congruence. assert (h_owner h = OwnG g) as Ho by congruence.
    destruct (IH _ _ _ _ Ht0 Hh Ho) as (r & Hg & Hd). destruct (gchange_op _ _ _ _ (cmv_gs _ _ _ _ Hm) Hg) as (r' & Hg' & Er). exists r'. split; [done|]. rewrite Er. intros Hop. specialize (Hd Hop).
    pose proof (done_stays _ _ _ _ _ _ _ Hw Hg Hd). congruence.
  - inversion Hm; subst; try (by destruct t); (match goal with H : c_p y = PSend ?c ?f' ?k' |- _ => lazymatch H with Hp => fail | _ => assert (c = ch /\ f' = f /\ k' = k) as (-> & -> & ->) by (split_and!; congruence) end end).
    + destruct (hchange_mono _ _ _ _ (cmv_chs _ _ _ _ Hm) H0) as (h2 & Hh2 & Eo). assert (g0 = g) as -> by congruence.
      pose proof (reach_calls _ _ _ Hr _ _ H2) as Hk. rewrite H3 in Hk. destruct Hk as [(f' & Hk & _) _].
      set (y1 := with_log (after_send y ch k) (PvTold ch f)) in *. assert (c_gs y1 = c_gs y) as E by (subst y1; cbn [with_log c_gs]; apply after_send_gs). rewrite <-E in H2.
      match goal with H : answers _ _ _ _ _ |- _ => destruct H as [u|w' Hw'|Hc|Hc] end; (eexists; split; [eapply with_g_same; exact H2|]); cbn [g_op g_pc]; intros Hop.
      * destruct u as [s|]; [|done]. cbn in Hk. rewrite Hk in Hop. done.
      * done.
      * by rewrite decide_True.
      * by rewrite decide_False.
    + destruct (hchange_mono _ _ _ _ (cmv_chs _ _ _ _ Hm) H0) as (h2 & Hh2 & Eo). congruence.
Qed.
Lemma known_wants A cfg y : creach A cfg y -> forall q, known y q -> wants_receipt (q_frame q) = true -> is_Some (q_chan q).
Proof.
  induction 1 as [|y a y' Hr IH _ Hs]; [intros q [H|[H|(? & ? & ? & H & _)]]; [by apply elem_of_nil in H|by apply elem_of_nil in H|done]|]. intros q Hq Hw. apply cstep_cmv in Hs as Hm.
  destruct (cmv_known _ _ _ _ _ Hm Hq) as [H|H]; [by apply IH|]. destruct H as [g r k f own Hg Hsub -> Hc -> ->|g r f id rt Hg Hp Ho Hc -> ->]; [|by eexists]. cbn in Hw |- *. unfold receipt_owner. rewrite Hw. by eexists.
Qed.
(** When processLoop has ended with the server's ERROR f, every call whose
    request it took and whose RECEIPT it did not get returns f. *)
Lemma waiting_told A cfg y g r q x k f : creach A cfg y -> apart (c_gs y) -> (exists err, c_p y = PMust err) \/ c_p y = PEnd -> PvIn (Some f) ∈ c_log y -> f_cmd f = ERROR ->
  c_gs y !! g = Some r -> plain_op (g_op r) -> PvReq q x ∈ c_log y -> q_by q = g -> hd_contains (f_hdr (q_frame q)) h_receipt = Some k -> sole (c_gs y) g k ->
  (forall rc, PvIn (Some rc) ∈ c_log y -> f_cmd rc = RECEIPT -> hd_contains (f_hdr rc) h_receipt_id <> Some k) -> g_pc r = GDone (RErr (EResponse f)).
Proof.
  intros Hr HA He Hin Hc Hg Hop Hq Hby Hk Hso Hno. pose proof (reach_req _ _ _ Hr) as HR. pose proof Hq as Hq0. apply log_req_in in Hq0.
  destruct (rq_ok _ HR q) as (r1 & Hg1 & Hof & Hwant & Hch); [right; by left|]. rewrite Hby in Hg1. assert (r1 = r) as -> by congruence. clear Hg1.
  assert (is_Some (q_chan q)) as [ch Hcq] by (eapply known_wants; [done|right; by left|unfold wants_receipt; by rewrite Hk]).
  assert (is_subscribe (g_op r) = false) as Hns by (destruct (g_op r); done). rewrite Hns in Hch. destruct (Hch _ Hcq) as (h & Hh & Hown). rewrite Hby in Hown.
  assert (listens (c_log y) k ch) as Hli.
  { assert (Hst : forall q' x', PvReq q' x' ∈ c_log y -> ~ stops k (PvReq q' x')).
    { intros q' x' Hq' Hs. destruct x' as [|]; [done|]. destruct Hs as [Hs1 Hs2]. destruct (rq_ok _ HR q') as (r' & Hg' & Hof' & _); [right; left; by eapply log_req_in|].
      by eapply (HA _ _ _ _ _ _ _ Hg' Hof' Hs1 Hs2 Hg Hof). }
    apply elem_of_list_split in Hq as Hsp. destruct Hsp as (l1 & l2 & El). exists l1, q, x, l2. split_and!; [done|done|by left|by apply Hst|]. apply Forall_forall. intros e Hine.
    assert (e ∈ c_log y) as Hel by (rewrite El; apply elem_of_app; right; by right). split.
    - destruct e as [q' x'|[rc|]|ch' f']; [by apply Hst| |by intros []|by intros []]. intros [H1 H2]. by eapply Hno.
    - intros q' w' -> Hsome Hnm. destruct (rq_ok _ HR q') as (r' & Hg' & Hof' & _); [right; left; by eapply log_req_in|]. pose proof (Hso _ _ _ Hg' Hof' Hnm) as Hby'.
      destruct (reach_uniq _ _ _ Hr) as [HN _]. unfold allr in HN. rewrite El in HN. unfold log_reqs in HN. rewrite omap_app in HN. cbn [omap list_omap] in HN. rewrite !fmap_app, <-app_assoc in HN. apply NoDup_app in HN as (_ & _ & HN).
      cbn in HN. apply NoDup_cons in HN as [HN _]. apply HN. rewrite Hby, <-Hby'. apply elem_of_app. left. apply elem_of_list_fmap_1. apply elem_of_list_omap. by exists (PvReq q' w'). }
  destruct (end_told _ _ _ _ _ Hr He Hli) as (f' & Hc' & Ht). destruct (one_error _ _ _ Hr _ Hin Hc) as (_ & _ & H1). rewrite (H1 _ _ Ht Hc') in Ht.
  destruct (told_call _ _ _ Hr _ _ _ _ Ht Hh Hown) as (r' & Hg' & Hd). assert (r' = r) as -> by congruence. rewrite (Hd Hop). rewrite decide_False; [done|]. rewrite Hc. done.
Qed.

(* ---------------- subscriptions ---------------- *)
(** An error message that carries a frame was made from an ERROR handed over. *)
Definition carried (c : clpc) : list cmsg := match c with Cl1 (Some m) | Cl2 (Some m) => [m] | _ => [] end.
Definition loop_has (x : rlpc) : list cmsg := match x with RlPut m => [m] | RlClose c => carried c | _ => [] end.
Definition sub_has (b : csub) : list cmsg := b_read b ++ b_buf b ++ loop_has (b_rl b).
Definition gpc_has (x : gpc) : list cmsg := match x with GClose _ c _ => carried c | _ => [] end.
Lemma clmove_has b c b' o : clmove b c b' o -> b_rl b' = b_rl b /\ b_ch b' = b_ch b /\ b_read b' = b_read b /\
  (forall m, m ∈ b_buf b' -> m ∈ b_buf b \/ m ∈ carried c) /\ (forall c' m, o = Some c' -> m ∈ carried c' -> m ∈ carried c).
Proof.
  destruct 1 as [m Ho|m Ho| |m Hc Hl| |Hc]; cbn; (split_and!; [done..| |]); auto; try (intros c' m' [= <-]; done); try done.
  - intros m' H. apply elem_of_app in H as [?|?]; auto.
  - intros c' m' [= <-] H. by apply elem_of_nil in H.
Qed.
Lemma gstep_has cfg y a g o x x' : gstep cfg y a g o x x' -> forall f, CmErr (Some f) ∉ gpc_has x -> CmErr (Some f) ∉ gpc_has x'.
Proof.
  assert (Hfd : forall u r f, CmErr (Some f) ∉ gpc_has (frame_done u r)).
  { intros u r f H. unfold frame_done in H. destruct u as [s|]; [|by apply elem_of_nil in H]. destruct r as [| |[]]; cbn in H; try (by apply elem_of_nil in H). by apply elem_of_list_singleton in H. }
  assert (Hni : forall f, CmErr (Some f) ∉ ([] : list cmsg)) by (intros f H; by apply elem_of_nil in H).
  destruct 1 as [t x x' Ea Hmv|q Ea|ch Ea|ch Ea|Eo|x k f0 q Hsub Hq|k q|ch f0 k w Hp Ea]; intros f Hx; try apply Hni.
  - destruct Hmv; try apply Hni; apply Hfd.
  - destruct k, (q_chan q); try apply Hni. apply Hfd.
  - unfold answer_pc. destruct w; try apply Hni. apply Hfd.
Qed.
Lemma reach_gpc_has A cfg y : creach A cfg y -> forall g r f, c_gs y !! g = Some r -> CmErr (Some f) ∉ gpc_has (g_pc r).
Proof.
  induction 1 as [|y a y' Hr IH _ Hs]; [done|]. intros g r' f Hg'. apply cstep_cmv in Hs as Hm. pose proof (reach_wmove _ _ _ _ _ Hr Hm) as Hw.
  destruct (gchange_back _ _ _ _ (cmv_gs _ _ _ _ Hm) Hg') as [(r & Hg & _)|[E _]]; [|rewrite E; intros H; by apply elem_of_nil in H]. specialize (IH _ _ f Hg).
  destruct (wmove_g _ _ _ _ _ _ Hw Hg) as [E|[(x & Hx & E & _)|[(f0 & id & rt & _ & _ & E)|(x & s & b & b' & Hu & _ & E & _)]]]; rewrite E in Hg'; injection Hg' as <-; cbn [g_pc].
  - done.
  - by eapply gstep_has.
  - intros H; by apply elem_of_nil in H.
  - destruct (g_pc r) as [|u f0|k q|w ch|s1 c v|s1 v|s1|s1|s1|s1|v] eqn:Hpc; inversion Hu as [f1 Ho Ha| | |]; subst; try (intros H; by apply elem_of_nil in H).
    + destruct f1; intros H; by apply elem_of_nil in H.
    + match goal with H : clmove _ _ _ ?o |- _ => destruct (clmove_has _ _ _ _ H) as (_ & _ & _ & _ & Hc); destruct o end; [|intros Hx; by apply elem_of_nil in Hx]. intros Hx. apply IH. cbn in Hx |- *. by eapply Hc.
    + intros Hx. by apply elem_of_nil in Hx.
Qed.
Lemma sub_told A cfg y : creach A cfg y -> forall s b f, c_subs y !! s = Some b -> CmErr (Some f) ∈ sub_has b -> f_cmd f = ERROR /\ PvTold (b_ch b) f ∈ c_log y.
Proof.
  induction 1 as [|y a y' Hr IH _ Hs]; [done|]. intros s b' f Hb' Hin. apply cstep_cmv in Hs as Hm. pose proof (reach_wmove _ _ _ _ _ Hr Hm) as Hw.
  assert (Hold : forall b, c_subs y !! s = Some b -> CmErr (Some f) ∈ sub_has b -> f_cmd f = ERROR /\ PvTold (b_ch b) f ∈ c_log y').
  { intros b Hb Hx. destruct (IH _ _ _ Hb Hx) as [H1 H2]. split; [done|]. by eapply log_mono. }
  destruct Hw as [E1 E2|o Hok E1 E2|j r0 x Hj Hx0 E1 E2|j r0 f1 id rt Hj Hst Hop E1 E2|s0 b0 b1 Hb0 Hs0 E1 E2|j r0 x s0 b0 b1 Hj Hb0 _ Hu E1 E2]; rewrite E2 in Hb'; try (by eapply Hold).
  - apply snoc_lookup in Hb' as [[_ Hb']|[-> ->]]; [by eapply Hold|]. cbn in Hin. by apply elem_of_nil in Hin.
  - apply upd_sub in Hb' as [(-> & -> & _)|[_ Hb']]; [|by eapply Hold]. unfold sub_has in *. rewrite !elem_of_app in Hin.
    assert (Hold' : CmErr (Some f) ∈ b_read b0 \/ CmErr (Some f) ∈ b_buf b0 \/ CmErr (Some f) ∈ loop_has (b_rl b0) -> f_cmd f = ERROR /\ PvTold (b_ch b0) f ∈ c_log y').
    { intros H. apply (Hold _ Hb0). by rewrite !elem_of_app. }
    destruct Hs0 as [f1 k Ea Hps Hrl|Ea Hrl Hcl|m Ea Hrl Hcc Hlen|c b' o Ea Hrl Hcm|m l Ea Hbuf]; cbn [b_with_rl b_with_buf b_read b_buf b_rl b_ch] in *.
    + destruct Hin as [H|[H|H]]; [by apply Hold'; left|by apply Hold'; right; left|]. subst a.
      assert (CmErr (Some f) ∈ loop_has (rl_got b0 (Some f1)) -> f1 = f /\ f_cmd f = ERROR) as Hg.
      { unfold rl_got. destruct (decide (f_cmd f1 = MESSAGE)); [cbn; intros Hx; by apply elem_of_list_singleton in Hx|]. destruct (decide (f_cmd f1 = ERROR)).
        - destruct (b_state b0); cbn; intros Hx; try (by apply elem_of_nil in Hx); apply elem_of_list_singleton in Hx; injection Hx as ->; done.
        - destruct (decide (f_cmd f1 = RECEIPT)); [destruct (b_state b0)|]; cbn; intros Hx; by apply elem_of_nil in Hx. }
      destruct (Hg H) as [-> Hc]. split; [done|]. by eapply told_log.
    + destruct Hin as [H|[H|H]]; [by apply Hold'; left|by apply Hold'; right; left|]. exfalso. unfold rl_got in H. destruct (b_state b0); cbn in H; try (by apply elem_of_nil in H); by apply elem_of_list_singleton in H.
    + apply Hold'. rewrite Hrl. cbn. destruct Hin as [H|[H|H]]; [by left| |by apply elem_of_nil in H]. apply elem_of_app in H as [?|?]; auto.
    + destruct (clmove_has _ _ _ _ Hcm) as (H1 & H2 & H3 & H4 & H5). rewrite H2. apply Hold'. rewrite Hrl. cbn. rewrite H3 in Hin. destruct Hin as [H|[H|H]]; [by left| |].
      * apply H4 in H. tauto.
      * destruct o as [c'|]; [|by apply elem_of_nil in H]. right; right. by eapply H5.
    + apply Hold'. rewrite Hbuf. destruct Hin as [H|[H|H]]; [|right; left; by right|auto]. apply elem_of_app in H as [?|H]; [by left|]. apply elem_of_list_singleton in H. right; left. rewrite H. left.
  - apply upd_sub in Hb' as [(-> & -> & _)|[_ Hb']]; [|by eapply Hold]. pose proof (reach_gpc_has _ _ _ Hr _ _ f Hj) as Hng. unfold sub_has in *. rewrite !elem_of_app in Hin.
    assert (Hold' : CmErr (Some f) ∈ b_read b0 \/ CmErr (Some f) ∈ b_buf b0 \/ CmErr (Some f) ∈ loop_has (b_rl b0) -> f_cmd f = ERROR /\ PvTold (b_ch b0) f ∈ c_log y').
    { intros H. apply (Hold _ Hb0). by rewrite !elem_of_app. }
    destruct (g_pc r0) as [|u f0|k q|w ch|s1 c v|s1 v|s1|s1|s1|s1|v] eqn:Hpc; inversion Hu; subst; try (by apply Hold').
    + match goal with H : clmove _ _ _ _ |- _ => destruct (clmove_has _ _ _ _ H) as (K1 & K2 & K3 & K4 & K5) end. rewrite K2. apply Hold'. rewrite K1, K3 in Hin. destruct Hin as [H|[H|H]]; [by left| |by right; right].
      apply K4 in H as [H|H]; [by right; left|]. done.
    + apply Hold'. cbn in Hin. rewrite !elem_of_app in Hin. destruct Hin as [H|[[H|H]|H]]; [by left|by right; left| |by right; right]. by apply elem_of_list_singleton in H.
Qed.

(** Without Unsubscribe, the ERROR is the last thing a subscription yields. *)
Definition kept (gs : list gor) (s : nat) : Prop := forall g r f, gs !! g = Some r -> g_op r <> OUnsub s f.
Definition tells (y : cl) (b : csub) : Prop :=
  let err m := forall f, PvTold (b_ch b) f ∈ c_log y -> f_cmd f = ERROR -> m = Some (CmErr (Some f)) in
  match b_rl b with
  | RlRecv | RlPut _ => b_state b = SubActive /\ b_once b = OnceFree /\ err None
  | RlClose (Cl1 m) => b_once b = OnceFree /\ err m
  | RlClose (Cl2 m) => b_once b = OnceRunning /\ err m
  | _ => err (last (b_read b ++ b_buf b))
  end.
Lemma kept_back gs gs' s : gchange gs gs' -> kept gs' s -> kept gs s.
Proof. intros HG HK g r f Hg E. destruct (gchange_op _ _ _ _ HG Hg) as (r' & Hg' & Er). eapply (HK g r' f); [done|congruence]. Qed.
Lemma reach_tells A cfg y : creach A cfg y -> forall s b, c_subs y !! s = Some b -> kept (c_gs y) s -> tells y b.
Proof.
  induction 1 as [|y a y' Hr IH _ Hs]; [done|]. intros s b' Hb' HK. apply cstep_cmv in Hs as Hm. pose proof (reach_wmove _ _ _ _ _ Hr Hm) as Hw. pose proof (kept_back _ _ _ (cmv_gs _ _ _ _ Hm) HK) as HK0.
  pose proof (reach_req _ _ _ Hr) as HR. pose proof (reach_map _ _ _ Hr) as HM.
  (* a frame newly handed over is the one this subscription receives *)
  assert (Hnew : forall b f, c_subs y !! s = Some b -> PvTold (b_ch b) f ∈ c_log y' -> PvTold (b_ch b) f ∈ c_log y \/ (b_rl b = RlRecv /\ b_rl b' = rl_got b (Some f) /\ b' = b_with_rl b (rl_got b (Some f)))).
  { intros b f Hb Ht. destruct (told_back _ _ _ _ _ _ Hm Ht) as [?|(-> & k & Hp)]; [by left|]. right. destruct (rq_sub _ HR _ _ Hb) as (h & _ & _ & Hh & Ho & _).
    inversion Hm; subst; try (by destruct t); (match goal with H : c_p y = PSend ?c ?f' ?k' |- _ => lazymatch H with Hp => fail | _ => assert (c = b_ch b /\ f' = f /\ k' = k) as (-> & -> & ->) by (split_and!; congruence) end end); [congruence|].
    assert (s0 = s) as -> by congruence. assert (b0 = b) as -> by congruence. cbn [with_subs c_subs] in Hb'. by apply upd_sub in Hb' as [(_ & -> & _)|[? _]]. }
  assert (Hsame : c_subs y !! s = Some b' -> tells y b' -> tells y' b').
  { intros Hb HT. assert (HH : forall f, PvTold (b_ch b') f ∈ c_log y' -> f_cmd f = ERROR -> PvTold (b_ch b') f ∈ c_log y).
    { intros f Hf Hc. destruct (Hnew _ _ Hb Hf) as [?|(E1 & E2 & _)]; [done|]. exfalso. rewrite E1 in E2. unfold rl_got in E2. rewrite decide_False in E2 by (by rewrite Hc). rewrite decide_True in E2 by done. by destruct (b_state b'). }
    unfold tells in *. destruct (b_rl b') as [|m|[m|m| |]|]; naive_solver. }
  destruct Hw as [E1 E2|o Hok E1 E2|j r0 x Hj Hx0 E1 E2|j r0 f1 id rt Hj Hst Hop E1 E2|s0 b0 b1 Hb0 Hs0 E1 E2|j r0 x s0 b0 b1 Hj Hb0 _ Hu E1 E2]; rewrite E2 in Hb'; try (by apply Hsame; [|apply (IH s)]).
  - apply snoc_lookup in Hb' as [[_ Hb']|[-> ->]]; [by apply Hsame; [|apply (IH s)]|]. cbn. split_and!; [done..|]. intros f Ht _. exfalso. destruct (told_back _ _ _ _ _ _ Hm Ht) as [Hl0|(_ & k & Hp)].
    + pose proof (told_alloc _ _ _ _ _ Hr Hl0). lia.
    + destruct (psend_req _ _ _ _ HM Hp) as (q & w & Hq & Hc). apply log_req_in in Hq. destruct (rq_ok _ HR q) as (r1 & _ & _ & _ & Hx); [right; by left|]. destruct (Hx _ Hc) as (h & Hh & _). apply lookup_lt_Some in Hh. lia.
  - apply upd_sub in Hb' as [(-> & -> & _)|[_ Hb']]; [|by apply Hsame; [|apply (IH s)]]. pose proof (IH _ _ Hb0 HK0) as HT.
    assert (HH : b_rl b0 <> RlRecv -> forall f, PvTold (b_ch b0) f ∈ c_log y' -> f_cmd f = ERROR -> PvTold (b_ch b0) f ∈ c_log y).
    { intros Hn f Hf Hc. by destruct (Hnew _ _ Hb0 Hf) as [?|(? & _)]. }
    destruct Hs0 as [f1 k Ea Hps Hrl|Ea Hrl Hcl|m Ea Hrl Hcc Hlen|c b' o Ea Hrl Hcm|m l Ea Hbuf].
    + unfold tells in HT. rewrite Hrl in HT. destruct HT as (Hst & Hon & Hno). 
      assert (Hex : forall f, PvTold (b_ch b0) f ∈ c_log y' -> f_cmd f = ERROR -> rl_got b0 (Some f1) = rl_got b0 (Some f)).
      { intros f Hf Hc. destruct (Hnew _ _ Hb0 Hf) as [H|(_ & H & _)]; [by specialize (Hno _ H Hc)|done]. }
      assert (Hok : forall f, f_cmd f = ERROR -> rl_got b0 (Some f) = RlClose (Cl1 (Some (CmErr (Some f))))).
      { intros f Hc. unfold rl_got. rewrite decide_False by (by rewrite Hc). rewrite decide_True by done. by rewrite Hst. }
      unfold tells. cbn [b_with_rl b_rl b_ch b_state b_once b_read b_buf]. destruct (rl_got b0 (Some f1)) as [|m|[m|m| |]|] eqn:Hgot.
      * split_and!; [done..|]. intros f Hf Hc. specialize (Hex _ Hf Hc). by rewrite Hok in Hex.
      * split_and!; [done..|]. intros f Hf Hc. specialize (Hex _ Hf Hc). by rewrite Hok in Hex.
      * split; [done|]. intros f Hf Hc. specialize (Hex _ Hf Hc). rewrite Hok in Hex by done. by injection Hex.
      * exfalso. unfold rl_got in Hgot. rewrite Hst in Hgot. repeat case_decide; done.
      * exfalso. unfold rl_got in Hgot. rewrite Hst in Hgot. repeat case_decide; done.
      * exfalso. unfold rl_got in Hgot. rewrite Hst in Hgot. repeat case_decide; done.
      * exfalso. unfold rl_got in Hgot. rewrite Hst in Hgot. repeat case_decide; done.
    + unfold tells in HT |- *. rewrite Hrl in HT. destruct HT as (Hst & Hon & Hno). cbn [b_with_rl b_rl b_ch b_state b_once b_read b_buf]. unfold rl_got. rewrite Hst. split; [done|]. intros f Hf Hc. exfalso.
      destruct (Hnew _ _ Hb0 Hf) as [H|(_ & E & _)]; [by specialize (Hno _ H Hc)|]. subst a. destruct (told_back _ _ _ _ _ _ Hm Hf) as [H|(? & _)]; [by specialize (Hno _ H Hc)|done].
    + unfold tells in HT |- *. rewrite Hrl in HT. destruct HT as (Hst & Hon & Hno). cbn [b_with_rl b_with_buf b_rl b_ch b_state b_once b_read b_buf]. split_and!; [done..|]. intros f Hf Hc. apply Hno; [|done]. apply HH; [congruence|done..].
    + assert (forall f, PvTold (b_ch b0) f ∈ c_log y' -> f_cmd f = ERROR -> PvTold (b_ch b0) f ∈ c_log y) as HH' by (apply HH; congruence). unfold tells in HT |- *. rewrite Hrl in HT.
      destruct Hcm as [m Ho|m Ho| |m Hc Hl| |Hc]; cbn in HT |- *; try (destruct HT as [HT1 HT2]).
      * split; [done|]. naive_solver.
      * congruence.
      * intros f Hf Hc. exfalso. specialize (HT2 _ (HH' _ Hf Hc) Hc). done.
      * intros f Hf Hc'. specialize (HT2 _ (HH' _ Hf Hc') Hc'). injection HT2 as ->. by rewrite app_assoc, last_snoc.
      * naive_solver.
      * naive_solver.
    + unfold tells in HT |- *. cbn [b_rl b_ch b_state b_once b_read b_buf].
      assert (HH' : forall f, PvTold (b_ch b0) f ∈ c_log y' -> f_cmd f = ERROR -> PvTold (b_ch b0) f ∈ c_log y).
      { intros f Hf Hc. subst a. destruct (told_back _ _ _ _ _ _ Hm Hf) as [H|(? & _)]; done. }
      rewrite Hbuf in HT. assert ((b_read b0 ++ [m]) ++ l = b_read b0 ++ m :: l) as -> by (by rewrite <-app_assoc). destruct (b_rl b0) as [|m0|[m0|m0| |]|]; naive_solver.
  - apply upd_sub in Hb' as [(-> & -> & _)|[_ Hb']]; [|by apply Hsame; [|apply (IH s)]]. exfalso.
    pose proof (reach_calls _ _ _ Hr _ _ Hj) as Hpk. destruct (g_pc r0) as [|u f0|k q|w ch|s1 c v|s1 v|s1|s1|s1|s1|v] eqn:Hpc; inversion Hu; subst; cbn in Hpk; try (by eapply HK0).
    + destruct Hpk as [(f & Hf) _]; by eapply HK0.
    + destruct Hpk as (f & Hf); by eapply HK0.
    + destruct Hpk as (f & Hf); by eapply HK0.
Qed.
