(** Why a subscription is closed, and what a nil result of Unsubscribe means. *)
From stdpp Require Import gmap.
From Verif Require Import GoBase HeaderModel FrameModel HeaderProofs NegotiationModel ClientApiModel ClientModel ClientSpec ClientLemmas ClientProofs ClientRequests ClientCalls ClientChannels ClientReceipts ClientDelivery ClientMessages ClientFinal ClientClosing.

(* ---------------- response channels ---------------- *)
(** The channel was given a RECEIPT or an ERROR. *)
Definition told_end (y : cl) (ch : nat) : Prop := exists f, PvTold ch f ∈ c_log y /\ (f_cmd f = RECEIPT \/ f_cmd f = ERROR).
(** An UNSUBSCRIBE whose reply-to header names the channel was processed. *)
Definition cut_off (y : cl) (ch : nat) : Prop := exists q q' w rt, PvReq q None ∈ c_log y /\ f_cmd (q_frame q) = UNSUBSCRIBE /\ hd_contains (f_hdr (q_frame q)) h_reply_to = Some rt /\
  PvReq q' w ∈ c_log y /\ q_chan q' = Some ch /\ names (q_frame q') rt.
Definition gone (y : cl) (ch : nat) : Prop := told_end y ch \/ cut_off y ch.
Lemma log_grows cfg y a y' e : cmv cfg y a y' -> e ∈ c_log y -> e ∈ c_log y'.
Proof. intros Hm He. destruct (pmove_log _ _ (cmv_pmove _ _ _ _ Hm)) as [->|[e' ->]]; [done|by apply in_snoc]. Qed.
Lemma gone_step cfg y a y' ch : cmv cfg y a y' -> gone y ch -> gone y' ch.
Proof.
  intros Hm [(f & Hf & Hc)|(q & q' & w & rt & H1 & H2 & H3 & H4 & H5 & H6)]; [left; exists f|right; exists q, q', w, rt]; split_and!; try done; by eapply log_grows.
Qed.
Lemma closed_ch y ch ch0 : h_is_closed (close_ch y ch0) ch = true -> h_is_closed y ch = true \/ ch = ch0.
Proof.
  unfold h_is_closed, close_ch. cbn [with_chs c_chs]. destruct (decide (ch = ch0)) as [->|Hn]; [by right|]. rewrite list_lookup_alter_ne by done. by left.
Qed.
Lemma closed_submit y g k f own ch : h_is_closed (submit y g k f own) ch = true -> h_is_closed y ch = true.
Proof.
  unfold h_is_closed, submit. destruct own as [o|]; [|done]. cbn [with_g with_mut with_chs c_chs]. destruct (c_chs y !! ch) as [h|] eqn:E; [by rewrite (lookup_app_l_Some _ _ _ _ E)|].
  rewrite lookup_app_r by (by apply lookup_ge_None). destruct (ch - _) as [|i]; cbn; done.
Qed.
Lemma reach_ch_closed A cfg y : creach A cfg y -> forall ch, h_is_closed y ch = true -> gone y ch.
Proof.
  induction 1 as [|y a y' Hr IH _ Hs]; [done|]. apply cstep_cmv in Hs as Hm. pose proof (reach_map _ _ _ Hr) as HM. intros ch Hc.
  assert (Hk : h_is_closed y ch = true -> gone y' ch) by (intros H; eapply gone_step; [done|by apply IH]).
  assert (Hsend : forall c0 f k y1, c_p y = PSend c0 f k -> c_chs y1 = c_chs (after_send y c0 k) -> PvTold c0 f ∈ c_log y' -> h_is_closed y1 ch = true -> gone y' ch).
  { intros c0 f k y1 Hp E Hl H. assert (h_is_closed (after_send y c0 k) ch = true) as H' by (unfold h_is_closed in *; by rewrite <-E). destruct k as [id| |f' rest err]; cbn [after_send] in H'.
    - apply closed_ch in H' as [H'| ->]; [by apply Hk|]. left. exists f. split; [done|]. left. destruct (mi_send _ HM _ _ _ Hp) as [(? & ? & ? & [=])|(id' & l & _ & Hro & _)]. by inversion Hro.
    - by apply Hk.
    - destruct err; [|by apply Hk]. apply closed_ch in H' as [H'| ->]; [by apply Hk|]. left. exists f. split; [done|]. right. destruct (mi_cur _ HM _ _ _ _ _ Hp) as [-> _]. by destruct (mi_bcast _ HM f rest true) as [? _]; [right; by do 2 eexists|]. }
  destruct Hm; try (by apply Hk).
  - apply Hk. by eapply closed_submit.
  - apply Hk. by apply closed_submit in Hc.
  - apply Hk. by destruct (put_next k (q_chan q)).2.
  - apply Hk. by destruct w.
  - apply closed_ch in Hc as [Hc| ->]; [by apply Hk|]. right. assert (exists rt, hd_contains (f_hdr (q_frame q)) h_reply_to = Some rt) as [rt Hrt].
    { unfold local_only in H1. apply andb_true_iff in H1 as [_ H1]. destruct (hd_contains (f_hdr (q_frame q)) h_reply_to); [eauto|done]. }
    unfold first_of in H3. rewrite Hrt in H3. unfold cut_off. cbn [close_ch with_chs with_map requested with_log c_log].
    apply remember_inv in H3 as [[Hq Hn]|[H3 _]].
    + exists q, q, None, rt. split_and!; try done; apply in_last.
    + destruct (mi_map _ HM _ _ H3) as (q' & w' & Hq' & Hqc & Hn). exists q, q', w', rt. split_and!; try done; first [apply in_last|by apply in_snoc].
  - match goal with H : answers _ _ _ _ _ |- _ => apply answers_same in H as (_ & E & _ & El & _) end. eapply (Hsend ch0 f k y'); [done|by rewrite E| |done]. rewrite El. cbn [with_log c_log]. apply in_last.
  - eapply (Hsend ch0 f k); [done|reflexivity| |exact Hc]. cbn [with_subs with_log c_log]. apply in_last.
Qed.

(* ---------------- subscriptions ---------------- *)
(** An Unsubscribe call that met the closed connection closes C, or has. *)
Definition broke (y : cl) (s : nat) : Prop := exists g r f, c_gs y !! g = Some r /\ g_op r = OUnsub s (Some f) /\
  ((exists c, g_pc r = GClose s c (RErr EClosedUnexpectedly)) \/ g_pc r = GDone (RErr EClosedUnexpectedly)).
Lemma broke_step cfg y a y' s : wmove cfg y a y' -> broke y s -> broke y' s.
Proof.
  intros Hw (g & r & f & Hg & Ho & Hp). destruct Hp as [[c Hp]|Hp]; [|exists g, r, f; split_and!; try done; [by eapply done_stays|by right]].
  destruct (wmove_g _ _ _ _ _ _ Hw Hg) as [?|[(x & Hx & Hg' & _)|[(f0 & id & rt & _ & Hst & _)|(x & s' & b & b' & Hx & _ & Hg' & _)]]].
  - exists g, r, f. split_and!; try done. left. eauto.
  - exfalso. rewrite Hp in Hx. inversion Hx; subst; match goal with H : gmove _ _ _ _ _ _ _ |- _ => inversion H | H : submits _ _ _ _ |- _ => inversion H end.
  - congruence.
  - exists g, (mkGor (g_op r) x), f. split_and!; try done. cbn [g_pc]. rewrite Hp in Hx. inversion Hx; subst. destruct oc; eauto.
Qed.
Definition over (b : csub) : Prop := b_state b = SubClosed \/ (exists c, b_rl b = RlClose c) \/ b_rl b = RlDone.
Lemma told_log cfg y y' ch f k : cmv cfg y XDeliver y' -> c_p y = PSend ch f k -> PvTold ch f ∈ c_log y'.
Proof.
  intros Hm Hp. inversion Hm; subst; simplify_eq; try (by match goal with H : (if ?t then _ else _) = _ |- _ => destruct t end); match goal with H : c_p y = PSend ?a ?b ?c |- _ => lazymatch goal with H2 : c_p y = PSend ch f k |- _ => rewrite H2 in H; injection H as <- <- <- end end.
  - match goal with H : answers _ _ _ _ _ |- _ => apply answers_same in H as (_ & _ & _ & El & _) end. rewrite El. cbn [with_log c_log]. apply in_last.
  - cbn [with_subs with_log c_log]. apply in_last.
Qed.
Lemma clmove_over b c b' o : clmove b c b' o -> b_ch b' = b_ch b /\ b_rl b' = b_rl b.
Proof. by destruct 1. Qed.
Lemma reach_over A cfg y : creach A cfg y -> forall s b, c_subs y !! s = Some b -> over b -> gone y (b_ch b) \/ broke y s.
Proof.
  induction 1 as [|y a y' Hr IH _ Hs]; [done|]. apply cstep_cmv in Hs as Hm. pose proof (reach_wmove _ _ _ _ _ Hr Hm) as Hw. pose proof (reach_calls _ _ _ Hr) as HC.
  assert (Hkeep : forall s b, c_subs y !! s = Some b -> over b -> gone y' (b_ch b) \/ broke y' s).
  { intros s b Hb Ho. destruct (IH _ _ Hb Ho); [left; by eapply gone_step|right; by eapply broke_step]. }
  intros s b'. destruct Hw as [E1 E2|o Ho E1 E2|g r x Hg Hx E1 E2|g r f id rt Hg Hst Ho E1 E2|j b b1 Hb Hx E1 E2|g r x j b b1 Hg Hb Ha Hx E1 E2]; rewrite E2; try (intros Hb; by apply Hkeep).
  - intros [[_ Hb]|[-> ->]]%snoc_lookup; [by apply Hkeep|]. by intros [?|[[c ?]|?]].
  - intros [(-> & -> & _)|[Hne Hj]]%upd_sub; [|by apply Hkeep].
    destruct Hx as [f k Ha Hp Hrl|Ha Hrl Hcl|m _ Hrl _ _|c b1 oc _ Hrl Hc|m l _ Hbuf]; cbn [b_with_rl b_with_buf b_ch].
    + unfold over. cbn [b_with_rl b_state b_rl]. intros Hov. assert (b_state b = SubClosed \/ b_state b <> SubClosed) as [Hst|Hst] by (destruct (b_state b); auto); [apply (Hkeep _ _ Hb); by left|]. left. left. exists f. subst a. split; [by eapply told_log|].
      destruct Hov as [?|Hov]; [done|]. unfold rl_got in Hov. repeat (case_decide; [by auto || (destruct Hov as [[c [=]]|[=]])|]). destruct Hov as [[c [=]]|[=]].
    + intros _. left. eapply gone_step; [exact Hm|]. by eapply reach_ch_closed.
    + intros Hov. apply (Hkeep _ _ Hb). destruct Hov as [?|[[c [=]]|[=]]]. by left.
    + intros _. rewrite (proj1 (clmove_over _ _ _ _ Hc)). apply (Hkeep _ _ Hb). right; left. eauto.
    + intros Hov. by apply (Hkeep _ _ Hb).
  - intros [(-> & -> & _)|[Hne Hj]]%upd_sub; [|by apply Hkeep]. remember (g_pc r) as x0 eqn:Hx0.
    destruct Hx as [f Ho Hst|c res b1 oc Hc| |Hcl Hlen]; cbn [b_with_state b_with_wait b_with_buf b_ch].
    + intros Hov. apply (Hkeep _ _ Hb). destruct Hov as [[=]|?]. by right.
    + intros _. right. pose proof (HC _ _ Hg) as Hp. rewrite <-Hx0 in Hp. destruct Hp as [[f Ho] ->].
      exists g, (mkGor (g_op r) (match oc with Some c' => GClose j c' (RErr EClosedUnexpectedly) | None => GDone (RErr EClosedUnexpectedly) end)), f. split_and!; [rewrite E1; by apply with_g_same|done|]. cbn [g_pc]. destruct oc; eauto.
    + intros Hov. by apply (Hkeep _ _ Hb).
    + intros Hov. by apply (Hkeep _ _ Hb).
Qed.

(* ---------------- one Unsubscribe per subscription ---------------- *)
(** The call won the compare-and-swap of Unsubscribe. *)
Definition won (s : nat) (r : gor) : Prop := (exists f, g_op r = OUnsub s f) /\ g_pc r <> GStart /\ g_pc r <> GDone (RErr ECompletedSub).
Record single (y : cl) : Prop := {
  sg_sub : forall s g r, c_gs y !! g = Some r -> won s r -> exists b, c_subs y !! s = Some b /\ b_state b <> SubActive;
  sg_one : forall s g g' r r', c_gs y !! g = Some r -> c_gs y !! g' = Some r' -> won s r -> won s r' -> g = g' }.
Lemma gstep_won cfg y a g o x x' s : gstep cfg y a g o x x' -> won s (mkGor o x') -> won s (mkGor o x).
Proof.
  intros Hx ([f Ho] & H1 & H2). cbn in *. split; [by exists f|]. cbn. split.
  - intros ->. inversion Hx as [t x0 x1 Ha Hgm Hx0 Hx1|q Ha Hx0 Hx1|ch Ha Hx0 Hx1|ch Ha Hx0 Hx1|Hm Hx0 Hx1|x0 k f0 q Hsb Hq Hx0 Hx1|k q Hx0 Hx1|ch f0 k w Hp Ha Hx0 Hx1]; subst; try done; try congruence.
    + inversion Hgm; subst; try congruence; match goal with H : bad_option _ |- _ => by destruct H | H : at_closed _ = _ |- _ => by cbn in H end.
    + inversion Hsb; congruence.
  - intros ->. by eapply gstep_done.
Qed.
Lemma ustep_won g o s b x b' x' s0 : ustep g o s b x b' x' -> (forall s1 c r, x = GClose s1 c r -> exists f, o = OUnsub s1 f) -> won s0 (mkGor o x') ->
  won s0 (mkGor o x) \/ s0 = s /\ b_state b = SubActive.
Proof.
  intros Hx HO ([f Ho] & H1 & H2). cbn in *. destruct Hx as [f0 Ho0 Hst|c res b1 oc Hc| |Hcl Hlen].
  - right. split; [congruence|done].
  - left. split; [by exists f|done].
  - left. split; [by exists f|done].
  - left. split; [by exists f|done].
Qed.
Lemma rstep_state y a s b b' : rstep y a s b b' -> b_state b <> SubActive -> b_state b' <> SubActive.
Proof. destruct 1 as [| | |c b1 oc _ _ Hc|]; cbn; try done. by destruct Hc. Qed.
Lemma ustep_state g o s b x b' x' : ustep g o s b x b' x' -> (b_state b <> SubActive -> b_state b' <> SubActive) /\ (x = GStart -> b_state b' <> SubActive).
Proof. destruct 1 as [| c res b1 oc Hc| |]; cbn; try done. by destruct Hc. Qed.
Lemma reach_single A cfg y : creach A cfg y -> single y.
Proof.
  induction 1 as [|y a y' Hr [H1 H2] _ Hs]; [by split|]. apply cstep_cmv in Hs as Hm. pose proof (reach_wmove _ _ _ _ _ Hr Hm) as Hw. pose proof (reach_calls _ _ _ Hr) as HC.
  destruct Hw as [E1 E2|o Ho E1 E2|g r x Hg Hx E1 E2|g r f id rt Hg Hst Ho E1 E2|j b b1 Hb Hx E1 E2|g r x j b b1 Hg Hb Ha Hx E1 E2].
  - split; rewrite ?E1, ?E2; done.
  - assert (HB : forall s g r, c_gs y' !! g = Some r -> won s r -> c_gs y !! g = Some r).
    { intros s g r Hg Hwn. rewrite E1 in Hg. apply snoc_lookup in Hg as [[_ Hg]|[-> ->]]; [done|]. by destruct Hwn as (_ & ? & _). }
    split; [intros s g r Hg Hwn; rewrite E2; by eapply H1; [eapply HB|]|]. intros s g g' r r' Hg Hg' Hwn Hwn'. by eapply (H2 s); [eapply HB|eapply HB|..].
  - assert (HB : forall s h r, c_gs y' !! h = Some r -> won s r -> exists r0, c_gs y !! h = Some r0 /\ won s r0).
    { intros s h r1 Hh Hwn. rewrite E1 in Hh. apply with_g_lookup in Hh as [[_ Hh]|(-> & r0 & Hr0 & ->)]; [by exists r1|]. exists r. split; [done|]. simplify_eq. destruct r as [o0 x0]. by eapply gstep_won. }
    split; [intros s h r1 Hh Hwn; rewrite E2; destruct (HB _ _ _ Hh Hwn) as (r0 & ? & ?); by eapply H1|].
    intros s h h' r1 r1' Hh Hh' Hwn Hwn'. destruct (HB _ _ _ Hh Hwn) as (r0 & ? & ?), (HB _ _ _ Hh' Hwn') as (r0' & ? & ?). by eapply (H2 s).
  - assert (HB : forall s h r, c_gs y' !! h = Some r -> won s r -> c_gs y !! h = Some r).
    { intros s h r1 Hh Hwn. rewrite E1 in Hh. apply with_g_lookup in Hh as [[_ Hh]|(-> & r0 & Hr0 & ->)]; [done|]. exfalso. simplify_eq. destruct Hwn as [[f1 Hf1] _]. cbn in Hf1. congruence. }
    split; [|intros s h h' r1 r1' Hh Hh' Hwn Hwn'; by eapply (H2 s); [eapply HB|eapply HB|..]].
    intros s h r1 Hh Hwn. destruct (H1 s h r1) as (b & Hb & Hst'); [by eapply HB|done|]. exists b. split; [|done]. rewrite E2. by apply lookup_app_l_Some.
  - split; [|by rewrite E1]. intros s h r1 Hh Hwn. rewrite E1 in Hh. destruct (H1 _ _ _ Hh Hwn) as (b0 & Hb0 & Hst). rewrite E2. destruct (decide (s = j)) as [->|Hn].
    + simplify_eq. exists b1. split; [by apply list_lookup_insert; eapply lookup_lt_Some|]. by eapply rstep_state.
    + exists b0. split; [by rewrite list_lookup_insert_ne|done].
  - assert (HO : forall s1 c r0, g_pc r = GClose s1 c r0 -> exists f, g_op r = OUnsub s1 f).
    { intros s1 c r0 E. pose proof (HC _ _ Hg) as Hp. rewrite E in Hp. destruct Hp as [[f ?] _]. by exists (Some f). }
    destruct (ustep_state _ _ _ _ _ _ _ Hx) as [HS1 HS2].
    assert (HB : forall s h r', c_gs y' !! h = Some r' -> won s r' -> (exists r0, c_gs y !! h = Some r0 /\ won s r0) \/ h = g /\ s = j /\ b_state b = SubActive).
    { intros s h r1 Hh Hwn. rewrite E1 in Hh. apply with_g_lookup in Hh as [[_ Hh]|(-> & r0 & Hr0 & ->)]; [left; by exists r1|]. simplify_eq. destruct r as [o0 x0].
      destruct (ustep_won _ _ _ _ _ _ _ _ Hx HO Hwn) as [Hwn'|[-> Hst]]; [left; eauto|by right]. }
    assert (Hj : j < length (c_subs y)) by (by eapply lookup_lt_Some). split.
    + intros s h r1 Hh Hwn. rewrite E2. destruct (HB _ _ _ Hh Hwn) as [(r0 & Hr0 & Hwn0)|(-> & -> & Hst)].
      * destruct (H1 _ _ _ Hr0 Hwn0) as (b0 & Hb0 & Hst0). destruct (decide (s = j)) as [->|Hn]; [|exists b0; split; [by rewrite list_lookup_insert_ne|done]].
        simplify_eq. exists b1. split; [by apply list_lookup_insert|]. by apply HS1.
      * exists b1. split; [by apply list_lookup_insert|]. remember (g_pc r) as x0 eqn:Hx0. intros E. destruct Hx as [f0 Ho0 _|c res b1 oc Hc| |Hcl Hlen]; [done|..].
        -- destruct (HO _ _ _ eq_refl) as [f Hf]. destruct (H1 j g r Hg) as (b0 & Hb0 & Hst0); [split; [by exists f|]; by rewrite <-Hx0|]. congruence.
        -- pose proof (HC _ _ Hg) as Hp. rewrite <-Hx0 in Hp. destruct Hp as [f Hf]. destruct (H1 j g r Hg) as (b0 & Hb0 & Hst0); [split; [by exists (Some f)|]; by rewrite <-Hx0|]. congruence.
        -- pose proof (HC _ _ Hg) as Hp. rewrite <-Hx0 in Hp. destruct Hp as [f Hf]. destruct (H1 j g r Hg) as (b0 & Hb0 & Hst0); [split; [by exists (Some f)|]; by rewrite <-Hx0|]. congruence.
    + intros s h h' r1 r1' Hh Hh' Hwn Hwn'. destruct (HB _ _ _ Hh Hwn) as [(r0 & Hr0 & Hwn0)|(-> & -> & Hst)], (HB _ _ _ Hh' Hwn') as [(r0' & Hr0' & Hwn0')|(-> & E & Hst')]; [by eapply (H2 s)|..].
      * subst s. destruct (H1 _ _ _ Hr0 Hwn0) as (b0 & Hb0 & Hst0). congruence.
      * destruct (H1 _ _ _ Hr0' Hwn0') as (b0 & Hb0 & Hst0). congruence.
      * done.
Qed.

(* ---------------- nil results ---------------- *)
Lemma put_next_unsub k q s : (put_next k q).1 = GDone RNil -> k <> FFrame (Some s).
Proof. intros H ->. by destruct q. Qed.
Lemma gstep_nil cfg y a g o x s f : gstep cfg y a g o x (GDone RNil) -> o = OUnsub s f -> pc_ok o x -> exists b, c_subs y !! s = Some b /\ b_state b = SubClosed.
Proof.
  intros Hx Ho Hp. inversion Hx as [t x0 x1 Ha Hgm Hx0 Hx1|q Ha Hx0 Hx1|ch Ha Hx0 Hx1|ch Ha Hx0 Hx1|Hm Hx0 Hx1|x0 k f0 q Hsb Hq Hx0 Hx1|k q Hx0 Hx1|ch f0 k w Hp' Ha Hx0 Hx1]; subst; try done.
  - inversion Hgm; subst; try done.
    + destruct u as [s0|]; cbn in *; [done|congruence].
    + destruct u as [s0|]; cbn in *; [done|congruence].
    + destruct u as [s0|]; cbn in *; [done|congruence].
    + destruct Hp as [f0 [= -> ->]]. eauto.
  - destruct Hp as [Hk _]. destruct k as [|[s0|]|s0|]; cbn in Hk, Hx1; try (by destruct Hk as (? & [=] & _)); try done.
    + by destruct (q_chan q).
  - destruct Hp as [(f1 & Hk & _) Hk']. destruct w as [|[s0|]|s0|]; cbn in Hk, Hx1; try (by destruct Hk as (? & [=] & _)); try done. by destruct (decide _).
Qed.
Lemma unsub_nil A cfg y : creach A cfg y -> forall g r s f, c_gs y !! g = Some r -> g_op r = OUnsub s f -> g_pc r = GDone RNil -> exists b, c_subs y !! s = Some b /\ gone y (b_ch b).
Proof.
  induction 1 as [|y a y' Hr IH _ Hs]; [done|]. apply cstep_cmv in Hs as Hm. pose proof (reach_wmove _ _ _ _ _ Hr Hm) as Hw. pose proof (reach_calls _ _ _ Hr) as HC. pose proof (reach_single _ _ _ Hr) as HS.
  assert (Hsub : forall s b, c_subs y !! s = Some b -> gone y (b_ch b) -> exists b', c_subs y' !! s = Some b' /\ gone y' (b_ch b')).
  { intros s b Hb Hgn. destruct (schange_mono _ _ _ _ (cmv_subs _ _ _ _ Hm) Hb) as (b' & Hb' & _ & _ & _ & Ech). exists b'. split; [done|]. rewrite Ech. by eapply gone_step. }
  intros g r' s f Hg' Ho Hp.
  assert (Hold : forall r, c_gs y !! g = Some r -> g_op r = OUnsub s f -> g_pc r = GDone RNil -> exists b, c_subs y' !! s = Some b /\ gone y' (b_ch b)).
  { intros r Hg Ho' Hp'. destruct (IH _ _ _ _ Hg Ho' Hp') as (b & Hb & Hgn). by eapply Hsub. }
  destruct (c_gs y !! g) as [r|] eqn:Hg.
  2: { exfalso. destruct Hw as [E1 E2|o Ho' E1 E2|h r x Hh Hx E1 E2|h r f0 id rt Hh Hst Ho' E1 E2|j b b1 Hb Hx E1 E2|h r x j b b1 Hh Hb Ha Hx E1 E2]; rewrite E1 in Hg'; try congruence.
       - apply snoc_lookup in Hg' as [[_ ?]|[_ ->]]; [congruence|done].
       - apply with_g_lookup in Hg' as [[_ ?]|(-> & r0 & ? & _)]; congruence.
       - apply with_g_lookup in Hg' as [[_ ?]|(-> & r0 & ? & _)]; congruence.
       - apply with_g_lookup in Hg' as [[_ ?]|(-> & r0 & ? & _)]; congruence. }
  destruct (wmove_g _ _ _ _ _ _ Hw Hg) as [E|[(x & Hx & E & Es)|[(f0 & id & rt & Hop & Hst & E)|(x & s' & b & b' & Hx & _ & E & Hb & _)]]]; rewrite E in Hg'; injection Hg' as <-.
  - by eapply Hold.
  - cbn in Ho, Hp. subst x. destruct (gstep_nil _ _ _ _ _ _ _ _ Hx Ho (HC _ _ Hg)) as (b & Hb & Hst).
    destruct (reach_over _ _ _ Hr _ _ Hb (or_introl Hst)) as [Hgn|(g' & r' & f' & Hg' & Ho' & Hp')]; [by eapply Hsub|]. exfalso.
    assert (g = g') as <-.
    { eapply (sg_one _ HS s _ _ r r'); try done.
      - split; [by eexists|]. remember (g_pc r) as x0 eqn:Hx0. split; intros E0; subst x0; [|by rewrite E0 in Hx; eapply gstep_done].
        rewrite E0 in Hx. rewrite Ho in Hx. inversion Hx as [t x0 x1 Ha Hgm|q Ha|ch Ha|ch Ha|Hm0|x0 k f0 q Hsb Hq|k q|ch f0 k w Hp0 Ha]; subst; try done. inversion Hgm; subst; try done; try congruence.
      - split; [by eexists|]. destruct Hp' as [[c Hp']|Hp']; by rewrite Hp'. }
    rewrite Hg in Hg'. injection Hg' as <-. destruct Hp' as [[c Hp']|Hp']; rewrite Hp' in Hx.
    + inversion Hx; subst; match goal with H : gmove _ _ _ _ _ _ _ |- _ => inversion H | H : submits _ _ _ _ |- _ => inversion H end.
    + by eapply gstep_done.
  - done.
  - cbn in Ho, Hp. exfalso. pose proof (HC _ _ Hg) as Hk. remember (g_pc r) as x0 eqn:Hx0. destruct Hx as [f0 Ho0 Hst|c res b1 oc Hc| |Hcl Hlen].
    + by destruct f0.
    + destruct Hk as [_ ->]. by destruct oc.
    + done.
    + done.
Qed.
