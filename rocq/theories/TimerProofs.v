(** Heart-beat timers: proofs. *)
From stdpp Require Import gmap.
From Verif Require Import GoBase HeaderModel FrameModel NegotiationModel NegotiationSpec NegotiationLemmas BrokerModel ServerConnModel ServerConnSpec ServerConnProofs
  TimerModel TimerSpec.
From Verif Require ClientModel.
Local Open Scope Z.

(* ---------------- server ---------------- *)
Lemma iter_wt cfg cid w1 w2 c hp nx i o : tx_ok c -> conn_iter cfg cid w1 w2 c hp nx i = Fine o ->
  k_wt (i_c o) = k_wt c /\ k_connected (i_c o) = k_connected c \/
  drops_timer i = false /\ k_connected c = false /\ k_connected (i_c o) = true /\ i_wr o <> [].
Proof.
  intros Htx Ho. destruct i as [m| |m|s|].
  - pose proof (conn_iter_frame cfg cid w1 w2 c hp nx m Htx) as Hc. rewrite Ho in Hc. inversion Hc; subst; cbn [i_c k_wt k_connected set_tx set_sublist set_subs]; try (by left). right. done.
  - injection Ho as <-. by left.
  - cbn [conn_iter] in Ho. destruct (alloc_id _ _ _). injection Ho as <-. by left.
  - pose proof (conn_iter_sub cfg cid w1 w2 c hp nx s) as Hc. rewrite Ho in Hc. inversion Hc; subst; by left.
  - injection Ho as <-. by left.
Qed.
Lemma ts_cexec cfg cid id_of ack_of s st : tsexec cfg cid id_of ack_of s st -> cexec cfg cid id_of ack_of (se_ev <$> ts_log s) (ts_c s) st.
Proof.
  induction 1 as [t0|s st d H IH Hd Ht|s st d H IH Hd|s hp nx w1 w2 i o H IH Ht Hk Hb Hi Hk']; [apply ce_init|done|done|].
  cbn [ts_log ts_c]. rewrite fmap_app. exact (ce_step _ _ _ _ _ _ _ _ _ _ _ _ IH Hk Hb Hi Hk').
Qed.

Lemma silents_snoc l e : silents (l ++ [e]) = silents l + (if silent e then 1 else 0).
Proof.
  unfold silents. rewrite filter_app, app_length, Nat2Z.inj_add. f_equal. rewrite filter_cons, filter_nil. destruct (silent e).
  - by rewrite decide_True by done.
  - by rewrite decide_False by done.
Qed.
Lemma silents_nil : silents [] = 0. Proof. done. Qed.

Record tinv (s : tsv) : Prop := mkTinv {
  ti_off : k_wt (ts_c s) <= 0 -> ts_timer s = None;
  ti_conn : k_connected (ts_c s) = false -> k_wt (ts_c s) <= 0;
  ti_wt : forall e, e ∈ ts_log s -> 0 < se_wt e -> k_connected (ts_c s) = true /\ se_wt e = k_wt (ts_c s);
  ti_on : 0 < k_wt (ts_c s) -> exists a ba, ts_timer s = Some (a + k_wt (ts_c s)) /\ ba <= ts_busy s /\ ts_now s <= a + k_wt (ts_c s) + (ts_busy s - ba) /\
    ts_busy s - ba <= ts_now s - a /\
    forall pre e mid, ts_log s = pre ++ e :: mid -> transmits e = true -> Forall (fun e' => transmits e' = false) mid -> 0 < se_wt e ->
      a - se_time e <= k_wt (ts_c s) * silents mid + (ba - se_busy e)
}.
Lemma tinv_ok cfg cid id_of ack_of s st : tsexec cfg cid id_of ack_of s st -> tinv s.
Proof.
  intros H. assert (tx_ok (ts_c s) /\ tinv s) as [_ ?]; [|done].
  induction H as [t0|s st d H IH Hd Ht|s st d H IH Hd|s hp nx w1 w2 i o H IH Ht Hk Hb Hi Hk'].
  - split; [apply (cexec_tx_ok cfg cid id_of ack_of [] cst_init false); apply ce_init|]. split; cbn; try done. intros e He. by apply elem_of_nil in He.
  - destruct IH as [Htx [I1 I2 I3 I4]]. split; [done|]. split; cbn [ts_c ts_timer ts_log ts_now ts_busy]; try done. intros Hw. destruct (I4 Hw) as (a & ba & T1 & T2 & T3 & T4 & T5).
    exists a, ba. specialize (Ht _ T1). split_and!; [done|done|lia|lia|done].
  - destruct IH as [Htx [I1 I2 I3 I4]]. split; [done|]. split; cbn [ts_c ts_timer ts_log ts_now ts_busy]; try done. intros Hw. destruct (I4 Hw) as (a & ba & T1 & T2 & T3 & T4 & T5).
    exists a, ba. split_and!; [done|lia|lia|lia|done].
  - destruct IH as [Htx [I1 I2 I3 I4]].
    assert (tsexec cfg cid id_of ack_of
      (mkTsv (ts_now s) (ts_busy s) (next_timer (ts_now s) (ts_timer s) (i_c o) i) (i_c o)
         (ts_log s ++ [mkSentry (ts_now s) (ts_busy s) (k_wt (i_c o)) (mkCev i (i_wr o) (i_push o) (i_stop o))])) (i_stop o)) as Hn by (exact (ts_step _ _ _ _ s hp nx w1 w2 i o H Ht Hk Hb Hi Hk')).
    split; [apply ts_cexec, cexec_tx_ok in Hn; exact Hn|]. clear Hn.
    pose proof (iter_wt _ _ _ _ _ _ _ _ _ Htx Hi) as Hwt.
    split; cbn [ts_c ts_timer ts_log ts_now ts_busy].
    + intros Hle. unfold next_timer. assert (ts_timer s = None) as ->.
      { destruct Hwt as [[E _]|(_ & E & _)]; apply I1; [lia|auto]. }
      assert (0 <? k_wt (i_c o) = false) as -> by lia. by destruct (drops_timer i).
    + intros Hf. destruct Hwt as [[E1 E2]|(_ & _ & E & _)]; [|congruence]. rewrite E1. apply I2. congruence.
    + intros e He Hpos. apply elem_of_app in He as [He|He].
      * destruct (I3 _ He Hpos) as [J1 J2]. destruct Hwt as [[E1 E2]|(_ & E & _ & _)]; [|congruence]. split; congruence.
      * apply elem_of_list_singleton in He as ->. cbn [se_wt] in *. split; [|done]. destruct Hwt as [[E1 E2]|(_ & _ & E & _)]; [|done].
        destruct (k_connected (i_c o)) eqn:Ec; [done|]. rewrite E1 in Hpos. assert (k_wt (ts_c s) <= 0) by (apply I2; congruence). lia.
    + intros Hpos. set (ne := mkSentry _ _ _ _). destruct Hwt as [[E1 E2]|(Hdr & E & E2 & Hwr)].
      * rewrite E1 in *. destruct (I4 Hpos) as (a & ba & T1 & T2 & T3 & T4 & T5). unfold next_timer. rewrite T1. rewrite E1. assert (0 <? k_wt (ts_c s) = true) as -> by lia.
        destruct (drops_timer i) eqn:Hdr.
        -- exists (ts_now s), (ts_busy s). split_and!; [done|lia|lia|lia|]. intros pre e mid Hl He Hmid Hwe.
           destruct mid as [|e' mid' _] using rev_ind.
           ++ apply app_inj_tail in Hl as [_ <-]. change (silents []) with 0. cbn [ne se_time se_busy]. lia.
           ++ rewrite app_comm_cons, app_assoc in Hl. apply app_inj_tail in Hl as [Hl <-]. apply Forall_app in Hmid as [Hm1 Hm2]. apply Forall_cons in Hm2 as [Hm2 _].
              specialize (T5 _ _ _ Hl He Hm1 Hwe). rewrite silents_snoc. assert (silent ne = true) as ->. { unfold silent. rewrite Hm2. cbn. by rewrite Hdr. }
              nia.
        -- exists a, ba. split_and!; [done|done|done|done|]. intros pre e mid Hl He Hmid Hwe.
           destruct mid as [|e' mid' _] using rev_ind.
           ++ apply app_inj_tail in Hl as [_ <-]. change (silents []) with 0. cbn [ne se_time se_busy]. lia.
           ++ rewrite app_comm_cons, app_assoc in Hl. apply app_inj_tail in Hl as [Hl <-]. apply Forall_app in Hmid as [Hm1 Hm2].
              specialize (T5 _ _ _ Hl He Hm1 Hwe). rewrite silents_snoc. assert (silent ne = false) as ->. { unfold silent. cbn. by rewrite Hdr. } nia.
      * assert (ts_timer s = None) as Hno by (apply I1, I2, E). unfold next_timer. rewrite Hno. assert (0 <? k_wt (i_c o) = true) as -> by lia.
        exists (ts_now s), (ts_busy s). split_and!; [by destruct (drops_timer i)|lia|lia|lia|]. intros pre e mid Hl He Hmid Hwe.
        destruct mid as [|e' mid' _] using rev_ind.
        -- apply app_inj_tail in Hl as [_ <-]. change (silents []) with 0. cbn [ne se_time se_busy]. lia.
        -- exfalso. rewrite app_comm_cons, app_assoc in Hl. apply app_inj_tail in Hl as [Hl <-]. destruct (I3 e) as [J _]; [rewrite Hl; set_solver|done|congruence].
Qed.
Lemma server_beats cfg cid id_of ack_of s st : tsexec cfg cid id_of ack_of s st -> beats s.
Proof.
  intros H pre e mid Hl He Hmid Hw. apply tinv_ok in H as [I1 I2 I3 I4]. destruct (I3 e) as [J1 J2]; [rewrite Hl; set_solver|done|]. rewrite J2 in *.
  destruct (I4 Hw) as (a & ba & T1 & T2 & T3 & T4 & T5). specialize (T5 _ _ _ Hl He Hmid ltac:(lia)). nia.
Qed.
(** Histories are closed under prefixes. *)
Lemma ts_prefix cfg cid id_of ack_of s st : tsexec cfg cid id_of ack_of s st -> forall pre e post, ts_log s = pre ++ e :: post ->
  exists s', tsexec cfg cid id_of ack_of s' false /\ ts_log s' = pre /\ ts_now s' = se_time e /\ ts_busy s' = se_busy e.
Proof.
  induction 1 as [t0|s st d H IH Hd Ht|s st d H IH Hd|s hp nx w1 w2 i o H IH Ht Hk Hb Hi Hk']; intros pre e post Hl; cbn [ts_log] in Hl.
  - by apply app_cons_not_nil in Hl.
  - by eapply IH.
  - by eapply IH.
  - destruct post as [|e' post' _] using rev_ind.
    + apply app_inj_tail in Hl as [<- <-]. by exists s.
    + rewrite app_comm_cons, app_assoc in Hl. apply app_inj_tail in Hl as [Hl <-]. by eapply IH.
Qed.
(** The only silent iteration: a queue delivery whose subscription is gone. *)
Lemma silent_cause cfg cid id_of ack_of s st e : tsexec cfg cid id_of ack_of s st -> e ∈ ts_log s -> silent e = true ->
  exists sb m, v_in (se_ev e) = InSub sb /\ v_push (se_ev e) = [RRequeue m].
Proof.
  induction 1 as [t0|s st d H IH Hd Ht|s st d H IH Hd|s hp nx w1 w2 i o H IH Ht Hk Hb Hi Hk']; cbn [ts_log]; intros He Hs; [by apply elem_of_nil in He|auto|auto|].
  apply elem_of_app in He as [He|He]; [auto|]. apply elem_of_list_singleton in He as ->. unfold silent, transmits in Hs. cbn [se_ev v_in v_wr v_push] in *.
  destruct i as [m| |m|x|]; cbn [drops_timer andb] in Hs; try done.
  - cbn [conn_iter] in Hi. destruct (alloc_id _ _ _). injection Hi as <-. done.
  - pose proof (conn_iter_sub cfg cid w1 w2 (ts_c s) hp nx x) as Hc. rewrite Hi in Hc. inversion Hc; subst; cbn in Hs; try done. by eexists _, _.
  - injection Hi as <-. done.
Qed.

(* ---------------- client ---------------- *)
Record cinv (W : Z) (s : tcl) : Prop := mkCinv {
  ci_timer : exists a ba, tc_timer s = a + W /\ ba <= tc_busy s /\ tc_now s <= a + W + (tc_busy s - ba) /\ tc_busy s - ba <= tc_now s - a /\
    forall pre e mid, tc_log s = pre ++ e :: mid -> sent_entry e -> Forall (fun e' => ~ sent_entry e') mid ->
      a - e_time e <= W * Z.of_nat (length mid) + (ba - e_busy e)
}.
Lemma cinv_restart W s w y' : cinv W s -> 0 < W -> cinv W (mkTcl (tc_now s) (tc_busy s) (tc_now s + W) y' (tc_log s ++ [mkEntry (tc_now s) (tc_busy s) w])).
Proof.
  intros [(a & ba & T1 & T2 & T3 & T4 & T5)] HW. split. exists (tc_now s), (tc_busy s). cbn [tc_timer tc_now tc_busy tc_log]. split_and!; [done|lia|lia|lia|].
  intros pre e mid Hl He Hmid. destruct mid as [|e' mid' _] using rev_ind.
  - apply app_inj_tail in Hl as [_ <-]. cbn [e_time e_busy length]. lia.
  - rewrite app_comm_cons, app_assoc in Hl. apply app_inj_tail in Hl as [Hl <-]. apply Forall_app in Hmid as [Hm1 Hm2].
    specialize (T5 _ _ _ Hl He Hm1). rewrite app_length. cbn [length]. rewrite Nat2Z.inj_add. nia.
Qed.
Lemma cinv_ok A cfg W s : 0 < W -> tcreach A cfg W s -> cinv W s.
Proof.
  intros HW H. induction H as [t0|s d H IH Hd Hs Ht|s d H IH Hd Hs|s w y' H IH HA Ht Hs|s w y' H IH HA Hs|s a y' H IH HA H1 H2 Hs].
  - split. exists t0, 0. cbn. split_and!; [done|lia|lia|lia|]. intros pre e mid Hl. by apply app_cons_not_nil in Hl.
  - destruct IH as [(a & ba & T1 & T2 & T3 & T4 & T5)]. split. exists a, ba. cbn [tc_timer tc_now tc_busy tc_log]. split_and!; [done|done|lia|lia|done].
  - destruct IH as [(a & ba & T1 & T2 & T3 & T4 & T5)]. split. exists a, ba. cbn [tc_timer tc_now tc_busy tc_log]. split_and!; [done|lia|lia|lia|done].
  - by apply cinv_restart.
  - by apply cinv_restart.
  - destruct IH as [(b & ba & T1 & T2 & T3 & T4 & T5)]. split. exists b, ba. done.
Qed.
Lemma client_beats A cfg W s : 0 < W -> tcreach A cfg W s -> cbeats W s.
Proof.
  intros HW H. destruct (cinv_ok _ _ _ _ HW H) as [(a & ba & T1 & T2 & T3 & T4 & T5)]. intros pre e mid Hl He Hmid. specialize (T5 _ _ _ Hl He Hmid). nia.
Qed.
Lemma tc_prefix A cfg W s : tcreach A cfg W s -> forall pre e post, tc_log s = pre ++ e :: post ->
  exists s', tcreach A cfg W s' /\ tc_log s' = pre /\ tc_now s' = e_time e /\ tc_busy s' = e_busy e.
Proof.
  intros H. induction H as [t0|s d H IH Hd Hs Ht|s d H IH Hd Hs|s w y' H IH HA Ht Hs|s w y' H IH HA Hs|s a y' H IH HA H1 H2 Hs];
    intros pre e post Hl; cbn [tc_log] in Hl; try (by eapply IH); [by apply app_cons_not_nil in Hl|..].
  all: (destruct post as [|e' post' _] using rev_ind; [apply app_inj_tail in Hl as [<- <-]; by exists s|
    rewrite app_comm_cons, app_assoc in Hl; apply app_inj_tail in Hl as [Hl <-]; by eapply IH]).
Qed.
Lemma csilent_cause A cfg W s e : tcreach A cfg W s -> e ∈ tc_log s -> ~ sent_entry e ->
  exists q, e_what e = BSilent q /\ forall q0, q = Some q0 -> ClientModel.local_only (ClientModel.q_frame q0) = true.
Proof.
  intros H. induction H as [t0|s d H IH Hd Hs Ht|s d H IH Hd Hs|s w y' H IH HA Ht Hs|s w y' H IH HA Hs|s a y' H IH HA H1 H2 Hs];
    cbn [tc_log]; intros He Hn; auto; [by apply elem_of_nil in He|..]; (apply elem_of_app in He as [He|He]; [auto|]; apply elem_of_list_singleton in He as ->).
  - by destruct Hn.
  - unfold sent_entry in Hn. cbn [e_what] in *. unfold write_beat in *. destruct (ClientModel.c_wch (tc_y s)) as [|q l]; [by exists None|].
    destruct (ClientModel.local_only _) eqn:E; [|done]. exists (Some q). split; [done|]. by intros q0 [= <-].
Qed.
Lemma tc_creach A cfg W s : tcreach A cfg W s -> ClientModel.creach A cfg (tc_y s).
Proof.
  intros H. induction H as [t0|s d H IH Hd Hs Ht|s d H IH Hd Hs|s w y' H IH HA Ht Hs|s w y' H IH HA Hs|s a y' H IH HA H1 H2 Hs]; cbn [tc_y]; try done; [constructor|..];
    (eapply ClientModel.cr_step; [exact IH| |exact Hs]; done).
Qed.
