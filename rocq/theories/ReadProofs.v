(** Proofs about Subscription.Read. *)
From stdpp Require Import gmap.
From Verif Require Import GoBase HeaderModel FrameModel HeaderProofs NegotiationModel ClientApiModel ClientModel ClientSpec ClientLemmas ClientProofs ClientRequests ClientCalls
  ClientChannels ClientReceipts ClientDelivery ClientMessages ClientRouting ClientFinal ClientClosing ClientLive ClientReady ClientEnd ClientRestSpec ClientRest ReadModel ReadSpec.

(* ---------------- what the client does to a subscription ---------------- *)
Lemma clmove_keeps b c b' o : clmove b c b' o -> b_read b' = b_read b /\ (b_state b <> SubActive -> b_state b' <> SubActive).
Proof. by destruct 1. Qed.
Lemma rstep_keeps y a s b b' : rstep y a s b b' -> (a = XConsume s \/ b_read b' = b_read b) /\ (b_state b <> SubActive -> b_state b' <> SubActive).
Proof.
  destruct 1 as [f k|?|m|c b' o Ha Hrl Hc|m l ->]; try (by split; [by right|]); [|by split; [by left|]].
  apply clmove_keeps in Hc as [E1 E2]. split; [by right|done].
Qed.
Lemma ustep_keeps g o s b x b' x' : ClientFinal.ustep g o s b x b' x' -> b_read b' = b_read b /\ (b_state b <> SubActive -> b_state b' <> SubActive).
Proof. destruct 1 as [f|c res b' oc Hc| |]; try done. by apply clmove_keeps in Hc. Qed.
Lemma wmove_keeps cfg y a y' s b : wmove cfg y a y' -> c_subs y !! s = Some b ->
  exists b', c_subs y' !! s = Some b' /\ (a = XConsume s \/ b_read b' = b_read b) /\ (b_state b <> SubActive -> b_state b' <> SubActive).
Proof.
  intros Hm Hb. destruct Hm as [E1 E2|o Ho E1 E2|h r0 x Hh Hx E1 E2|h r0 f id rt Hh Hst Ho E1 E2|t b0 b' Hb0 Hs E1 E2|h r0 x t b0 b' Hh Hb0 Ha Hx E1 E2]; rewrite E2.
  - exists b. split_and!; [done|by right|done].
  - exists b. split_and!; [done|by right|done].
  - exists b. split_and!; [done|by right|done].
  - exists b. split_and!; [by apply lookup_app_l_Some|by right|done].
  - apply rstep_keeps in Hs as [K1 K2]. destruct (decide (s = t)) as [->|Hn].
    + simplify_eq. exists b'. rewrite list_lookup_insert by (by eapply lookup_lt_Some). done.
    + exists b. rewrite list_lookup_insert_ne by done. split_and!; [done|by right|done].
  - apply ustep_keeps in Hx as [K1 K2]. destruct (decide (s = t)) as [->|Hn].
    + simplify_eq. exists b'. rewrite list_lookup_insert by (by eapply lookup_lt_Some). split_and!; [done|by right|done].
    + exists b. rewrite list_lookup_insert_ne by done. split_and!; [done|by right|done].
Qed.
Lemma wmove_new cfg y a y' s b' : wmove cfg y a y' -> c_subs y' !! s = Some b' -> c_subs y !! s = None -> b_read b' = [].
Proof.
  intros Hm Hb Hn. destruct Hm as [E1 E2|o Ho E1 E2|h r0 x Hh Hx E1 E2|h r0 f id rt Hh Hst Ho E1 E2|t b0 b1 Hb0 Hs E1 E2|h r0 x t b0 b1 Hh Hb0 Ha Hx E1 E2]; rewrite E2 in Hb; try congruence.
  - apply snoc_lookup in Hb as [[_ Hb]|[_ ->]]; [congruence|done].
  - apply upd_sub in Hb as [(-> & _ & [? ?])|[_ ?]]; congruence.
  - apply upd_sub in Hb as [(-> & _ & [? ?])|[_ ?]]; congruence.
Qed.

(* ---------------- steps ---------------- *)
Inductive umove (cfg : ccfg) (u : prog) (a : uact) : prog -> Prop :=
| um_client c y : a = UClient c -> cmv cfg (u_cl u) c y -> umove cfg u a (mkProg y (u_reads u))
| um_call s b : a = URead s -> c_subs (u_cl u) !! s = Some b -> umove cfg u a (mkProg (u_cl u) (u_reads u ++ [mkRd s RdLoad]))
| um_load j d b : a = UStep j -> u_reads u !! j = Some d -> c_subs (u_cl u) !! d_sub d = Some b -> d_pc d = RdLoad -> b_state b = SubActive ->
    umove cfg u a (mkProg (u_cl u) (<[j := mkRd (d_sub d) RdRecv]> (u_reads u)))
| um_over j d b : a = UStep j -> u_reads u !! j = Some d -> c_subs (u_cl u) !! d_sub d = Some b -> b_state b <> SubActive -> is_done d = false ->
    umove cfg u a (mkProg (u_cl u) (<[j := mkRd (d_sub d) (RdDone RdCompleted)]> (u_reads u)))
| um_got j d b m l y : a = UStep j -> u_reads u !! j = Some d -> c_subs (u_cl u) !! d_sub d = Some b -> d_pc d = RdRecv -> b_buf b = m :: l ->
    cmv cfg (u_cl u) (XConsume (d_sub d)) y -> c_subs y = <[d_sub d := mkCsub (b_by b) (b_id b) (b_reply b) (b_ch b) (b_state b) l (b_cclosed b) (b_once b) (b_rl b) (b_wait b) (b_read b ++ [m])]> (c_subs (u_cl u)) ->
    umove cfg u a (mkProg y (<[j := mkRd (d_sub d) (RdDone (result_of m))]> (u_reads u))).
Lemma step_umove A cfg u a u' : creach A cfg (u_cl u) -> ustep_of cfg u a = Some u' -> umove cfg u a u'.
Proof.
  intros Hr Hs. destruct a as [c|s|j]; cbn in Hs.
  - destruct (cstep cfg (u_cl u) c) as [[p|y]|] eqn:E; [done| |done]. injection Hs as <-. eapply um_client; [done|by apply cstep_cmv].
  - destruct (c_subs (u_cl u) !! s) as [b|] eqn:E; [|done]. injection Hs as <-. by eapply um_call.
  - unfold do_read in Hs. destruct (u_reads u !! j) as [d|] eqn:Ed; [|done]. destruct (c_subs (u_cl u) !! d_sub d) as [b|] eqn:Eb; [|done]. destruct (d_pc d) as [| |r] eqn:Ep; [| |done].
    + unfold sub_active in Hs. injection Hs as <-. destruct (b_state b) eqn:Es; [by eapply um_load|eapply um_over; try done; [congruence|unfold is_done; by rewrite Ep]..].
    + destruct (b_buf b) as [|m l] eqn:El.
      * destruct (b_cclosed b) eqn:Ec; [|done]. injection Hs as <-. eapply um_over; try done; [|unfold is_done; by rewrite Ep].
        destruct (reach_closing _ _ _ Hr) as [_ HC]. rewrite (cg_state _ _ _ (HC _ _ Eb) Ec). done.
      * assert (cstep cfg (u_cl u) (XConsume (d_sub d)) = do_consume (u_cl u) (d_sub d)) as Ex by done. unfold do_consume in Hs, Ex. rewrite Eb, El in Hs, Ex. injection Hs as <-.
        eapply um_got; try done. by apply cstep_cmv.
Qed.
Lemma ureach_ind' (A : prog -> uact -> Prop) cfg (P : prog -> Prop) : P prog_init ->
  (forall u a u', ureach A cfg u -> creach anything cfg (u_cl u) -> P u -> A u a -> umove cfg u a u' -> P u') -> forall u, ureach A cfg u -> creach anything cfg (u_cl u) /\ P u.
Proof.
  intros H0 HS u Hu. induction Hu as [|u a u' Hu [IHr IHp] Ha Hs]; [split; [constructor|done]|].
  split; [|eapply HS; try done; by eapply step_umove].
  destruct a as [c|s|j]; cbn in Hs.
  - destruct (cstep cfg (u_cl u) c) as [[p|y]|] eqn:E; [done| |done]. injection Hs as <-. by eapply cr_step.
  - destruct (c_subs (u_cl u) !! s); [|done]. by injection Hs as <-.
  - unfold do_read in Hs. destruct (u_reads u !! j) as [d|]; [|done]. destruct (c_subs (u_cl u) !! d_sub d) as [b|] eqn:Eb; [|done]. destruct (d_pc d); [by injection Hs as <-| |done].
    destruct (b_buf b) as [|m l]; [destruct (b_cclosed b); [by injection Hs as <-|done]|].
    destruct (do_consume (u_cl u) (d_sub d)) as [[|y]|] eqn:E; try done. injection Hs as <-. eapply (cr_step _ _ _ (XConsume (d_sub d))); done.
Qed.
Lemma reads_client A cfg u : ureach A cfg u -> creach anything cfg (u_cl u).
Proof. intros Hu. by apply (ureach_ind' A cfg (fun _ => True)) in Hu as [? _]. Qed.
Lemma ustep_client cfg u a u' : ureach (fun _ _ => True) cfg u -> ustep_of cfg u a = Some u' -> umove cfg u a u'.
Proof. intros Hu Hs. eapply step_umove; [by eapply reads_client|done]. Qed.

(* ---------------- which call got what ---------------- *)
Definition match_order (u : prog) (s : nat) (b : csub) : Prop :=
  exists js, NoDup js /\ (forall j, j ∈ js <-> exists d, u_reads u !! j = Some d /\ d_sub d = s /\ took d) /\ Forall2 (fun j m => u_reads u !! j = Some (mkRd s (RdDone (result_of m)))) js (b_read b).
Lemma result_not_over m : result_of m <> RdCompleted.
Proof. by destruct m. Qed.
Lemma not_done_took d : is_done d = false -> ~ took d.
Proof. unfold is_done. intros H (r & E & _). by rewrite E in H. Qed.
(** A change that does not make or unmake results. *)
Lemma match_same u u' s b b' : match_order u s b -> b_read b' = b_read b ->
  (forall j d, u_reads u !! j = Some d -> took d -> u_reads u' !! j = Some d) ->
  (forall j d, u_reads u' !! j = Some d -> d_sub d = s -> took d -> u_reads u !! j = Some d) -> match_order u' s b'.
Proof.
  intros (js & H1 & H2 & H3) E K1 K2. exists js. split_and!; [done| |].
  - intros j. rewrite H2. split; intros (d & Hd & Hs & Ht); exists d; split_and!; eauto.
  - rewrite E. eapply Forall2_impl; [exact H3|]. intros j m Hj. apply K1; [done|]. exists (result_of m). split; [done|apply result_not_over].
Qed.
Lemma insert_keeps (l : list rd) i d0 d' : l !! i = Some d0 -> is_done d0 = false -> forall j d, l !! j = Some d -> took d -> <[i := d']> l !! j = Some d.
Proof.
  intros Hi Hn j d Hd Ht. rewrite list_lookup_insert_ne; [done|]. intros ->. simplify_eq. by apply not_done_took in Hn.
Qed.
Lemma insert_back (l : list rd) i d' : ~ took d' -> forall j d, <[i := d']> l !! j = Some d -> took d -> l !! j = Some d.
Proof.
  intros Hn j d Hd Ht. destruct (decide (i = j)) as [->|Hne]; [|by rewrite list_lookup_insert_ne in Hd]. exfalso. apply Hn.
  assert (j < length l) as Hl by (apply lookup_lt_Some in Hd; by rewrite insert_length in Hd). rewrite list_lookup_insert in Hd by done. by injection Hd as <-.
Qed.

Record readinv (u : prog) : Prop := {
  ri_sub : forall j d, u_reads u !! j = Some d -> is_Some (c_subs (u_cl u) !! d_sub d);
  ri_over : forall j d b, u_reads u !! j = Some d -> c_subs (u_cl u) !! d_sub d = Some b -> d_pc d = RdDone RdCompleted -> b_state b <> SubActive }.
Lemma reach_readinv A cfg u : ureach A cfg u -> readinv u.
Proof.
  intros Hu. apply (ureach_ind' A cfg readinv) in Hu as [_ H]; [done| |].
  - by split.
  - clear u Hu. intros u a u' Hu Hr [I1 I2] _ Hm.
    assert (HK : forall c y, cmv cfg (u_cl u) c y -> readinv (mkProg y (u_reads u))).
    { intros c y Hc. pose proof (reach_wmove _ _ _ _ _ Hr Hc) as Hw. split; cbn [u_cl u_reads].
      - intros j d Hd. destruct (I1 _ _ Hd) as [b Hb]. destruct (wmove_keeps _ _ _ _ _ _ Hw Hb) as (b' & -> & _). done.
      - intros j d b' Hd Hb' Hp. destruct (I1 _ _ Hd) as [b Hb]. destruct (wmove_keeps _ _ _ _ _ _ Hw Hb) as (b1 & Hb1 & _ & K). assert (b1 = b') as -> by congruence. apply K. by eapply I2. }
    assert (HI : forall y rs j d x b, readinv (mkProg y rs) -> rs !! j = Some d -> c_subs y !! d_sub d = Some b -> (x = RdDone RdCompleted -> b_state b <> SubActive) -> readinv (mkProg y (<[j := mkRd (d_sub d) x]> rs))).
    { clear. intros y rs j d x b [J1 J2] Hd Hb Hx. assert (j < length rs) as Hl by by eapply lookup_lt_Some. split; cbn [u_cl u_reads] in *.
      - intros i e He. destruct (decide (i = j)) as [->|Hn]; [rewrite list_lookup_insert in He by done; injection He as <-; cbn; by eapply J1|]. rewrite list_lookup_insert_ne in He by done. by eapply J1.
      - intros i e b' He Hb' Hp. destruct (decide (i = j)) as [->|Hn].
        + rewrite list_lookup_insert in He by done. injection He as <-. cbn in *. simplify_eq. by apply Hx.
        + rewrite list_lookup_insert_ne in He by done. by eapply J2. }
    destruct Hm as [c y _ Hc|s b _ Hb|j d b _ Hd Hb Hp Hs|j d b _ Hd Hb Hs Hn|j d b m l y _ Hd Hb Hp Hl Hc Hy].
    + by eapply HK.
    + split; cbn [u_cl u_reads].
      * intros j d Hd. apply snoc_lookup in Hd as [[_ Hd]|[_ ->]]; [by eapply I1|done].
      * intros j d b' Hd Hb' Hx. apply snoc_lookup in Hd as [[_ Hd]|[_ ->]]; [by eapply I2|done].
    + destruct u as [y rs]. eapply HI; try done.
    + destruct u as [y rs]. eapply HI; try done.
    + pose proof (HK _ _ Hc) as HK1. destruct (I1 _ _ Hd) as [b0 Hb0]. destruct (wmove_keeps _ _ _ _ _ _ (reach_wmove _ _ _ _ _ Hr Hc) Hb0) as (b' & Hb' & _).
      eapply HI; try done. intros [= E]. by apply result_not_over in E.
Qed.
Lemma reach_order (A : prog -> uact -> Prop) cfg u : (forall v a, A v a -> by_read v a) -> ureach A cfg u -> forall s b, c_subs (u_cl u) !! s = Some b -> match_order u s b.
Proof.
  intros HA Hu. apply (ureach_ind' A cfg (fun u => forall s b, c_subs (u_cl u) !! s = Some b -> match_order u s b)) in Hu as [_ H]; [done|done|].
  clear u Hu. intros u a u' Hu Hr IH Ha Hm. apply HA in Ha. pose proof (reach_readinv _ _ _ Hu) as HI. intros s b' Hb'.
  destruct Hm as [c y -> Hc|t b -> Hb|j d b -> Hd Hb Hp Hs|j d b -> Hd Hb Hs Hn|j d b m l y -> Hd Hb Hp Hl Hc Hy]; cbn [u_cl u_reads] in *.
  - pose proof (reach_wmove _ _ _ _ _ Hr Hc) as Hw. destruct (c_subs (u_cl u) !! s) as [b|] eqn:Hb.
    + destruct (wmove_keeps _ _ _ _ _ _ Hw Hb) as (b1 & Hb1 & [->|E] & _); [by destruct (Ha s)|]. assert (b1 = b') as -> by congruence. eapply match_same; [by apply IH|done|done|done].
    + exists []. rewrite (wmove_new _ _ _ _ _ _ Hw Hb' Hb). split_and!; [constructor| |constructor]. intros j. rewrite elem_of_nil. split; [done|].
      intros (d & Hd & <- & _). cbn [u_reads] in Hd. destruct (ri_sub _ HI _ _ Hd) as [? E]. congruence.
  - eapply match_same; [by apply IH|done| |]; cbn [u_reads].
    + intros j d Hd _. by apply lookup_app_l_Some.
    + intros j d Hd _ (r & Hx & _). apply snoc_lookup in Hd as [[_ Hd]|[_ ->]]; done.
  - eapply match_same; [by apply IH|done| |]; cbn [u_reads].
    + eapply insert_keeps; [done|]. unfold is_done. by rewrite Hp.
    + intros i e He _. eapply insert_back; [|done]. by intros (r & [=] & _).
  - eapply match_same; [by apply IH|done| |]; cbn [u_reads].
    + by eapply insert_keeps.
    + intros i e He _. eapply insert_back; [|done]. by intros (r & [= <-] & ?).
  - assert (is_done d = false) as Hnd by (unfold is_done; by rewrite Hp). rewrite Hy in Hb'. apply upd_sub in Hb' as [(-> & -> & _)|[Hne Hb']].
    + destruct (IH _ _ Hb) as (js & H1 & H2 & H3). assert (j ∉ js) as Hj. { intros Hj. apply H2 in Hj as (e & He & _ & Ht). simplify_eq. by apply not_done_took in Hnd. }
      assert (j < length (u_reads u)) as Hlt by by eapply lookup_lt_Some. exists (js ++ [j]). split_and!.
      * apply NoDup_app. split_and!; [done| |apply NoDup_singleton]. intros i Hi Hx%elem_of_list_singleton. by subst.
      * intros i. rewrite elem_of_app, elem_of_list_singleton, H2. cbn [u_reads]. split.
        -- intros [(e & He & Hs & Ht)| ->].
           ++ exists e. split_and!; try done. by eapply insert_keeps.
           ++ exists (mkRd (d_sub d) (RdDone (result_of m))). rewrite list_lookup_insert by done. split_and!; [done|done|]. eexists. split; [done|apply result_not_over].
        -- intros (e & He & Hs & Ht). destruct (decide (i = j)) as [->|Hn]; [by right|]. left. rewrite list_lookup_insert_ne in He by done. by exists e.
      * cbn [b_read u_reads]. apply Forall2_app; [|apply Forall2_cons; split; [by rewrite list_lookup_insert|constructor]].
        eapply Forall2_impl; [exact H3|]. intros i x Hi. eapply insert_keeps; [done|done|done|]. eexists. split; [done|apply result_not_over].
    + eapply match_same; [by apply IH|done| |]; cbn [u_reads].
      * by eapply insert_keeps.
      * intros i e He Hs Ht. destruct (decide (i = j)) as [->|Hn]; [|by rewrite list_lookup_insert_ne in He].
        assert (j < length (u_reads u)) as Hlt by by eapply lookup_lt_Some. rewrite list_lookup_insert in He by done. injection He as <-. by destruct Hne.
Qed.

(* ---------------- one Read at a time ---------------- *)
Definition lone (rs : list rd) : Prop := forall i j d e, i < j -> rs !! i = Some d -> rs !! j = Some e -> d_sub d = d_sub e -> is_done d = true.
Lemma lone_insert rs i d x : lone rs -> rs !! i = Some d -> is_done d = false -> lone (<[i := mkRd (d_sub d) x]> rs).
Proof.
  intros HL Hi Hn j k e f Hjk He Hf Es. assert (i < length rs) as Hlt by by eapply lookup_lt_Some.
  destruct (decide (j = i)) as [->|Hj].
  - rewrite list_lookup_insert in He by done. injection He as <-. rewrite list_lookup_insert_ne in Hf by lia. cbn [d_sub] in Es. pose proof (HL _ _ _ _ Hjk Hi Hf Es). congruence.
  - rewrite list_lookup_insert_ne in He by done. destruct (decide (k = i)) as [->|Hk].
    + rewrite list_lookup_insert in Hf by done. injection Hf as <-. exact (HL _ _ _ _ Hjk He Hi Es).
    + rewrite list_lookup_insert_ne in Hf by done. exact (HL _ _ _ _ Hjk He Hf Es).
Qed.
Lemma omap_none s (l : list rd) : Forall (fun e => got_by s e = None) l -> omap (got_by s) l = [].
Proof. induction 1 as [|e l He _ IH]; [done|]. cbn. by rewrite He. Qed.
Lemma lone_later rs i d s : lone rs -> rs !! i = Some d -> is_done d = false -> d_sub d = s -> omap (got_by s) (drop (S i) rs) = [].
Proof.
  intros HL Hi Hn Hs. assert (Forall (fun e => got_by s e = None) (drop (S i) rs)) as HF.
  { apply Forall_lookup. intros k e He. rewrite lookup_drop in He. unfold got_by. rewrite decide_False; [done|]. intros E. pose proof (HL i (S i + k) d e ltac:(lia) Hi He ltac:(congruence)). congruence. }
  by apply omap_none.
Qed.
Lemma insert_split (rs : list rd) i d d' : rs !! i = Some d -> rs = take i rs ++ d :: drop (S i) rs /\ <[i := d']> rs = take i rs ++ d' :: drop (S i) rs.
Proof. intros Hi. split; [by rewrite take_drop_middle|]. apply insert_take_drop. by eapply lookup_lt_Some. Qed.
Lemma reach_lone cfg u : ureach one_at_a_time cfg u -> lone (u_reads u).
Proof.
  intros Hu. apply (ureach_ind' one_at_a_time cfg (fun u => lone (u_reads u))) in Hu as [_ H]; [done|by intros ? ? ? ? _ ?|].
  clear u Hu. intros u a u' Hu Hr IH [_ Ha] Hm.
  destruct Hm as [c y -> Hc|t b -> Hb|j d b -> Hd Hb Hp Hs|j d b -> Hd Hb Hs Hn|j d b m l y -> Hd Hb Hp Hl Hc Hy]; cbn [u_reads].
  - done.
  - intros i j d e Hij Hd He Es. apply snoc_lookup in He as [[_ He]|[-> ->]].
    + apply snoc_lookup in Hd as [[_ Hd]|[-> ->]]; [by eapply IH|]. apply lookup_lt_Some in He. lia.
    + apply snoc_lookup in Hd as [[_ Hd]|[-> ->]]; [|lia]. pose proof (proj1 (Forall_lookup _ _) (Ha t eq_refl) _ _ Hd) as HF. by apply HF.
  - eapply lone_insert; [done|done|]. unfold is_done. by rewrite Hp.
  - by eapply lone_insert.
  - eapply lone_insert; [done|done|]. unfold is_done. by rewrite Hp.
Qed.
Lemma omap_insert_none (rs : list rd) s i d d' : rs !! i = Some d -> got_by s d = got_by s d' -> omap (got_by s) (<[i := d']> rs) = omap (got_by s) rs.
Proof. intros Hi E. destruct (insert_split rs i d d' Hi) as [E1 ->]. rewrite E1 at 3. rewrite !omap_app. cbn. by rewrite E. Qed.
Lemma got_none d s : is_done d = false -> got_by s d = None.
Proof. unfold got_by, is_done. intros H. destruct (decide _); [|done]. by destruct (d_pc d). Qed.
Lemma got_over s t : got_by s (mkRd t (RdDone RdCompleted)) = None.
Proof. unfold got_by. cbn. by destruct (decide _). Qed.
Lemma reach_sequential cfg u : ureach one_at_a_time cfg u -> forall s b, c_subs (u_cl u) !! s = Some b -> reads_of u s = result_of <$> b_read b.
Proof.
  intros Hu. apply (ureach_ind' one_at_a_time cfg (fun u => forall s b, c_subs (u_cl u) !! s = Some b -> reads_of u s = result_of <$> b_read b)) in Hu as [_ H]; [done|done|].
  clear u Hu. intros u a u' Hu Hr IH Ha Hm. pose proof (reach_readinv _ _ _ Hu) as HI. pose proof (reach_lone _ _ Hu) as HL. intros s b' Hb'. unfold reads_of in *.
  destruct Hm as [c y -> Hc|t b -> Hb|j d b -> Hd Hb Hp Hs|j d b -> Hd Hb Hs Hn|j d b m l y -> Hd Hb Hp Hl Hc Hy]; cbn [u_cl u_reads] in *.
  - pose proof (reach_wmove _ _ _ _ _ Hr Hc) as Hw. destruct (c_subs (u_cl u) !! s) as [b|] eqn:Hb.
    + destruct (wmove_keeps _ _ _ _ _ _ Hw Hb) as (b1 & Hb1 & [->|E] & _); [by destruct (proj1 Ha s)|]. assert (b1 = b') as -> by congruence. rewrite E. by apply IH.
    + rewrite (wmove_new _ _ _ _ _ _ Hw Hb' Hb). assert (Forall (fun e => got_by s e = None) (u_reads u)) as HF.
      { apply Forall_lookup. intros k e He. unfold got_by. rewrite decide_False; [done|]. intros <-. destruct (ri_sub _ HI _ _ He) as [? E]. congruence. }
      by apply omap_none.
  - rewrite omap_app, (IH _ _ Hb'). cbn. rewrite got_none by done. by rewrite app_nil_r.
  - assert (is_done d = false) as Hnd by (unfold is_done; by rewrite Hp). rewrite (omap_insert_none _ _ _ d); [by apply IH|done|]. by rewrite !got_none.
  - rewrite (omap_insert_none _ _ _ d); [by apply IH|done|]. by rewrite got_over, got_none.
  - assert (is_done d = false) as Hnd by (unfold is_done; by rewrite Hp). rewrite Hy in Hb'. apply upd_sub in Hb' as [(-> & -> & _)|[Hne Hb']].
    + pose proof (IH _ _ Hb) as E. destruct (insert_split (u_reads u) j d (mkRd (d_sub d) (RdDone (result_of m))) Hd) as [E1 ->]. pose proof (lone_later _ _ _ _ HL Hd Hnd eq_refl) as E2.
      assert (Ec : forall e l, omap (got_by (d_sub d)) (e :: l) = match got_by (d_sub d) e with Some r => [r] | None => [] end ++ omap (got_by (d_sub d)) l) by (intros e l0; cbn; by destruct (got_by _ e)).
      rewrite E1, omap_app, Ec, E2, (got_none d), !app_nil_r in E by done. rewrite omap_app, Ec, E2, E, app_nil_r. cbn [b_read]. rewrite fmap_app. f_equal.
      unfold got_by. cbn [d_sub d_pc]. rewrite decide_True by done. by destruct m.
    + rewrite (omap_insert_none _ _ _ d); [by apply IH|done|]. rewrite (got_none d) by done. unfold got_by. rewrite decide_False; [done|]. cbn. congruence.
Qed.

(* ---------------- nothing left to wait for ---------------- *)
Definition begun (b : csub) : Prop := b_state b = SubClosed \/ b_rl b = RlDone -> b_once b <> OnceFree.
Lemma clmove_begun b c b' o : clmove b c b' o -> begun b -> (hot c -> b_once b = OnceRunning) -> begun b' /\ (o = None -> b_once b' <> OnceFree).
Proof.
  unfold begun. destruct 1 as [m E|m E| |m E El| |E]; cbn; intros Hb Hh; (split; [|try done]); try done; try congruence.
  intros _. by rewrite Hh.
Qed.
Lemma reach_begun A cfg y : creach A cfg y -> forall s b, c_subs y !! s = Some b -> begun b.
Proof.
  induction 1 as [|y a y' Hr IH Ha Hs]; [done|]. intros s b' Hb'. apply cstep_cmv in Hs as Hm. pose proof (reach_wmove _ _ _ _ _ Hr Hm) as Hw. destruct (reach_closing _ _ _ Hr) as [_ HC].
  destruct Hw as [E1 E2|o Ho E1 E2|h r0 x Hh Hx E1 E2|h r0 f id rt Hh Hst Ho E1 E2|t b0 b1 Hb0 Hx E1 E2|h r0 x t b0 b1 Hh Hb0 _ Hx E1 E2]; rewrite E2 in Hb'; try (by eapply IH).
  - apply snoc_lookup in Hb' as [[_ Hb']|[_ ->]]; [by eapply IH|]. by intros [?|?].
  - apply upd_sub in Hb' as [(-> & -> & _)|[_ Hb']]; [|by eapply IH]. pose proof (IH _ _ Hb0) as HB. pose proof (HC _ _ Hb0) as C.
    assert (forall o, begun (b_with_rl b0 (rl_got b0 o))) as HG.
    { intros o. unfold begun. cbn. intros [E|E]; [apply HB; by left|]. apply HB. left. unfold rl_got in E. destruct (b_state b0); [exfalso| |]; try done; repeat (case_match; try done). }
    destruct Hx as [f k|?|m _ Hrl Hc Hl|c b1 o _ Hrl Hc|m l _ Hl]; try apply HG.
    + unfold begun in *. cbn. intros [E|E]; [by apply HB; left|done].
    + assert (hot c -> b_once b0 = OnceRunning) as Hh. { intros Hhot. destruct (b_once b0) eqn:Eo; [exfalso|done|exfalso]; (destruct (cg_idle _ _ _ C ltac:(congruence)) as [H1 _]; apply H1; unfold rl_hot; by rewrite Hrl). }
      destruct (clmove_begun _ _ _ _ Hc HB Hh) as [K1 K2]. unfold begun in *. cbn. intros [E|E]; [apply K1; by left|]. destruct o; [done|]. by apply K2.
    + done.
  - apply upd_sub in Hb' as [(-> & -> & _)|[_ Hb']]; [|by eapply IH]. pose proof (IH _ _ Hb0) as HB. pose proof (HC _ _ Hb0) as C.
    remember (g_pc r0) as p eqn:Ep. destruct Hx as [f Eo Es|c res b1 oc Hc| |Ec El]; unfold begun in *; cbn in *; try done.
    + intros [E|E]; [done|]. apply HB. by right.
    + eapply clmove_begun; [exact Hc|done|]. intros Hhot. destruct (b_once b0) eqn:Eo; [exfalso|done|exfalso]; (destruct (cg_idle _ _ _ C ltac:(congruence)) as [_ H1]; eapply H1; [exact Hh|by rewrite <-Ep]).
Qed.
Lemma rest_closed A cfg0 cfg y s b : creach A cfg0 y -> at_rest cfg y -> c_subs y !! s = Some b -> b_rl b = RlDone -> b_cclosed b = true.
Proof.
  intros Hr HR Hb Hrl. destruct (reach_closing _ _ _ Hr) as [HP HC]. pose proof (HC _ _ Hb) as C. apply (cg_flag _ _ _ C). pose proof (reach_begun _ _ _ Hr _ _ Hb (or_intror Hrl)) as Hn.
  destruct (b_once b) eqn:E; [done| |done]. exfalso. eapply (rest_close _ _ _ _ Hr HR s b (Cl1 None) Hb). cbn. by rewrite E.
Qed.

(** A Read that cannot move: it has returned, or waits on the empty, open C. *)
Lemma read_stuck A cfg u j d : ureach A cfg u -> u_reads u !! j = Some d -> do_read u j = None -> is_done d = true \/
  d_pc d = RdRecv /\ exists b, c_subs (u_cl u) !! d_sub d = Some b /\ b_buf b = [] /\ b_cclosed b = false.
Proof.
  intros Hu Hd Hn. destruct (ri_sub _ (reach_readinv _ _ _ Hu) _ _ Hd) as [b Hb]. unfold do_read in Hn. rewrite Hd, Hb in Hn. unfold is_done. destruct (d_pc d) as [| |r]; [done| |by left].
  right. split; [done|]. exists b. destruct (b_buf b) as [|m l] eqn:El; [by destruct (b_cclosed b)|]. unfold do_consume in Hn. by rewrite Hb, El in Hn.
Qed.
Lemma rest_reads A cfg u j d : ureach A cfg u -> at_rest cfg (u_cl u) -> u_reads u !! j = Some d -> do_read u j = None -> is_done d = true \/
  exists b, c_subs (u_cl u) !! d_sub d = Some b /\ b_rl b = RlRecv /\ h_is_closed (u_cl u) (b_ch b) = false.
Proof.
  intros Hu HR Hd Hn. pose proof (reads_client _ _ _ Hu) as Hr. destruct (read_stuck _ _ _ _ _ Hu Hd Hn) as [?|(_ & b & Hb & _ & Hc)]; [by left|]. right. exists b.
  destruct (rest_sub _ _ _ _ Hr HR _ _ Hb) as [_ [[? ?]|E]]; [done|]. pose proof (rest_closed _ _ _ _ _ _ Hr HR Hb E). congruence.
Qed.
Lemma read_msgs_of l : read_msgs (result_of <$> l) = msgs l.
Proof. unfold read_msgs, msgs. induction l as [|[f|o] l IH]; [done| |]; cbn; by rewrite IH. Qed.
Lemma sequential_messages cfg u s b r f id rt : ureach one_at_a_time cfg u -> c_subs (u_cl u) !! s = Some b -> c_gs (u_cl u) !! b_by b = Some r -> g_op r = OSubscribe (Some (f, id, rt)) ->
  hd_contains (f_hdr f) h_receipt = None -> sole (c_gs (u_cl u)) (b_by b) (sub_key f) ->
  (exists l1 q w l2, c_log (u_cl u) = l1 ++ PvReq q w :: l2 /\ q_by q = b_by b /\ read_msgs (reads_of u s) `prefix_of` due (sub_key f) l2) \/
  (forall q w, PvReq q w ∈ c_log (u_cl u) -> q_by q <> b_by b) /\ read_msgs (reads_of u s) = [].
Proof.
  intros Hu Hb Hg Ho Hrc Hso. rewrite (reach_sequential _ _ Hu _ _ Hb), read_msgs_of.
  assert (Em : msgs (b_read b ++ b_buf b) = msgs (b_read b) ++ msgs (b_buf b)) by (unfold msgs; apply omap_app).
  destruct (reach_messages _ _ _ _ _ _ _ _ _ (reads_client _ _ _ Hu) Hb Hg Ho Hrc Hso) as [(l1 & q & w & l2 & E1 & E2 & E3)|[E1 E2]].
  - left. exists l1, q, w, l2. split_and!; try done. rewrite <-E3, Em, <-app_assoc. by apply prefix_app_r.
  - right. split; [done|]. rewrite Em in E2. by apply app_nil in E2 as [[? _]%app_nil _].
Qed.
