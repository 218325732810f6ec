(** Calls and the frames written for them. *)
From stdpp Require Import gmap.
From Verif Require Import GoBase HeaderModel FrameModel HeaderProofs NegotiationModel ClientApiModel ClientModel ClientSpec ClientLemmas ClientProofs ClientRequests ClientChannels ClientReceipts ClientDelivery ClientFinal OrderSpec.

Lemma allr_served y : q_by <$> allr y = served y ++ queued y.
Proof.
  unfold allr, served, queued, log_reqs. rewrite fmap_app. f_equal. generalize (c_log y). intros l.
  induction l as [|e l IH]; [done|]. destruct e as [q w| |]; cbn; by rewrite <-IH.
Qed.
Lemma written_served y : (written y).*1 `sublist_of` served y.
Proof.
  unfold written, served. generalize (c_log y). intros l. induction l as [|e l IH]; [constructor|]. destruct e as [q [[f b]|]| |]; cbn; try exact IH; by constructor.
Qed.
Lemma sublist_NoDup {X} (l k : list X) : l `sublist_of` k -> NoDup k -> NoDup l.
Proof.
  induction 1 as [|x l k H IH|x l k H IH]; [done| |].
  - intros [Hx Hn]%NoDup_cons. constructor; [|by apply IH]. intros Hin. apply Hx. by eapply elem_of_submseteq; [|apply sublist_submseteq].
  - intros [_ Hn]%NoDup_cons. by apply IH.
Qed.
Lemma outgoing_ok f : sent_as f (outgoing f).
Proof.
  unfold sent_as, outgoing. change (lit "UNSUBSCRIBE") with UNSUBSCRIBE. destruct (decide (f_cmd f = UNSUBSCRIBE)); [|done]. cbn [f_cmd f_body f_hdr]. split_and!; try done.
  - rewrite hd_contains_set_same. unfold first_of. change h_id with (lit "id"). by destruct (hd_contains (f_hdr f) (lit "id")).
  - intros k Hk. by apply hd_contains_set_other.
Qed.
Lemma stays_ok f : stays f <-> local_only f = true.
Proof.
  unfold stays, local_only. change (lit "SUBSCRIBE") with SUBSCRIBE. change (lit "UNSUBSCRIBE") with UNSUBSCRIBE. change (lit "reply-to") with h_reply_to.
  rewrite andb_true_iff, orb_true_iff, !bool_decide_eq_true. destruct (hd_contains (f_hdr f) h_reply_to); split; intros [H1 H2]; split; try done. by destruct H2.
Qed.

(* ---------------- what the result of a call says ---------------- *)
Definition in_pc (o : op) (x : gpc) : Prop :=
  match x with GDone r | GClose _ _ r => accepted o r | GStart | GFrame _ _ | GPut _ _ => False | _ => True end.
Definition out_pc (x : gpc) : Prop := match x with GDone r | GClose _ _ r | GLoad _ r => refused r | _ => False end.
Definition sentinv (y : cl) : Prop := forall g r, c_gs y !! g = Some r ->
  (in_pc (g_op r) (g_pc r) -> g ∈ q_by <$> allr y) /\ (out_pc (g_pc r) -> g ∉ q_by <$> allr y).
Lemma frame_done_out u r : out_pc (frame_done u r) -> refused r.
Proof. destruct u as [s|]; [|done]. cbn. destruct r as [| |[]]; done. Qed.
Lemma unrefused : ~ refused RNil /\ (forall s, ~ refused (RSub s)) /\ (forall f, ~ refused (RErr (EResponse f))) /\ ~ refused (RErr EClosedUnexpectedly) /\ ~ refused (RErr EReceiptTimeout) /\ ~ refused (RErr EUnsubTimeout).
Proof. split_and!; unfold refused; intros; naive_solver. Qed.
Lemma gmove_in cfg y g o t x x' : gmove cfg y g o t x x' -> in_pc o x' -> in_pc o x.
Proof.
  destruct 1 as [r _ _ H|_ _ H| | | |u ch H|u ch H| | | | | | |]; cbn; try done; try (destruct u; done).
  destruct o; cbn in H; simplify_eq; done.
Qed.
Lemma gmove_out cfg y g o t x x' : gmove cfg y g o t x x' -> out_pc x' -> pre x \/ out_pc x.
Proof.
  destruct unrefused as (U1 & U2 & U3 & U4 & U5 & U6).
  destruct 1 as [r _ _ H|_ _ H| | | |u ch H|u ch H| | | | | | |]; cbn; try tauto; intros Hx; try (by left); by apply frame_done_out in Hx.
Qed.
Lemma sent_step cfg y a y' : cmv cfg y a y' -> reqinv y -> (forall g r, c_gs y !! g = Some r -> pre (g_pc r) -> g ∉ q_by <$> allr y) -> sentinv y -> sentinv y'.
Proof.
  destruct unrefused as (U1 & U2 & U3 & U4 & U5 & U6).
  intros Hm HR Hpre HI g r' Hg. pose proof (cmv_allr _ _ _ _ Hm) as Ha.
  assert (Hold : c_gs y !! g = Some r' -> (in_pc (g_op r') (g_pc r') -> g ∈ q_by <$> allr y') /\ (out_pc (g_pc r') -> g ∉ q_by <$> allr y')).
  { intros Hg0. destruct (HI _ _ Hg0) as [H1 H2]. destruct Ha as [->|(g0 & r & k & q & Hg1 & Hp & -> & _)]; [done|]. rewrite fmap_app. split.
    - intros H. apply elem_of_app. left. by apply H1.
    - intros H. apply not_elem_of_app. split; [by apply H2|]. intros ->%elem_of_list_singleton. rewrite (rq_put _ HR _ _ _ _ Hg1 Hp) in Hg0. simplify_eq. by rewrite Hp in H. }
  assert (Hput : forall k q r, c_gs y !! g = Some r -> g_pc r = GPut k q -> (exists l, allr y' = l ++ [q]) -> g ∈ q_by <$> allr y').
  { intros k q r Hr Hp [l ->]. rewrite fmap_app, <-(rq_put _ HR _ _ _ _ Hr Hp). apply elem_of_app. right. by left. }
  (* a call moves *)
  assert (Hmove : forall z x r, c_gs y' = c_gs (with_g z g x) -> c_gs z = c_gs y -> c_gs y !! g = Some r -> allr y' = allr y ->
    (in_pc (g_op r) x -> in_pc (g_op r) (g_pc r)) -> (out_pc x -> pre (g_pc r) \/ out_pc (g_pc r)) ->
    (in_pc (g_op r') (g_pc r') -> g ∈ q_by <$> allr y') /\ (out_pc (g_pc r') -> g ∉ q_by <$> allr y')).
  { intros z x r E1 E2 Hr E3 Hi Ho. rewrite E1 in Hg. apply with_g_lookup in Hg as [[Hn _]|(_ & r0 & Hr0 & ->)]; [done|]. rewrite E2 in Hr0. assert (r0 = r) as -> by congruence. cbn [g_op g_pc]. rewrite E3.
    destruct (HI _ _ Hr) as [H1 H2]. split; [by intros; apply H1, Hi|]. intros [H|H]%Ho; [by eapply Hpre|by apply H2]. }
  assert (Hcase : forall z g0 x, c_gs y' = c_gs (with_g z g0 x) -> c_gs z = c_gs y -> g <> g0 ->
    (in_pc (g_op r') (g_pc r') -> g ∈ q_by <$> allr y') /\ (out_pc (g_pc r') -> g ∉ q_by <$> allr y')).
  { intros z g0 x E1 E2 Hn. apply Hold. rewrite E1 in Hg. apply with_g_lookup in Hg as [[_ Hg]|(-> & _)]; [by rewrite <-E2|done]. }
  destruct Hm as [o Ho|g0 r t x' H H0|g0 r q H H0|g0 r ch H H0|g0 r ch H H0|g0 r H H0 H1|g0 r s fo b H H0 H1|g0 r k f own H H0|g0 r f id rt H H0|g0 r k q H H0|g0 r s b c res b' o H H0|g0 r s b H H0|g0 r s b H H0| | | | | | | | | | | |q l w| | | |ch f k h g0 r w y' H H0 H1 H2 H3 H4|ch f k h s b| | | | | | | |]; try (apply Hold; exact Hg);
    try (destruct (decide (g = g0)) as [->|Hn]; [|by eapply Hcase]).
  - apply snoc_lookup in Hg as [[_ Hg]|[-> ->]]; [by apply Hold|]. cbn. by split.
  - eapply Hmove; try done; [by eapply gmove_in|by eapply gmove_out].
  - eapply (Hmove (with_mut y None)); try done. intros _. left. by rewrite H0.
  - eapply (Hmove (with_mut y None)); try done; rewrite H0; done.
  - eapply (Hmove (with_mut (with_closed y) None)); try done; rewrite H0; done.
  - eapply (Hmove (with_closed (with_wclosed y))); try done. cbn. by rewrite H1.
  - eapply (Hmove (with_subs y _)); try done; [by destruct fo|]. intros _. left. by rewrite H0.
  - destruct (decide (g = g0)) as [->|Hn]; [|by eapply (Hcase y); [apply submit_gs'|..]]. eapply (Hmove y); [apply submit_gs'|done|done| |done|done].
    unfold allr. by destruct (submit_same y g0 k f own) as (_ & -> & -> & _).
  - eapply (Hmove (with_subs y _)); [apply submit_gs'|done|done| |done|done]. done.
  - destruct (decide (g = g0)) as [->|Hn]; [|by eapply Hcase; [done|by destruct (put_next k (q_chan q)).2|done]].
    assert (El : exists l, allr (with_g (if (put_next k (q_chan q)).2 then with_wch y (c_wch y ++ [q]) else with_mut (with_wch y (c_wch y ++ [q])) None) g0 (put_next k (q_chan q)).1) = l ++ [q]).
    { exists (allr y). unfold allr. destruct (put_next k (q_chan q)).2; by rewrite <-app_assoc. }
    split; [intros _; by eapply Hput|]. intros Ho. exfalso. apply with_g_lookup in Hg as [[Hn _]|(_ & r0 & Hr0 & ->)]; [done|]. cbn [g_pc] in Ho.
    destruct k as [|u|s|], (q_chan q); cbn in Ho; try done; try (by apply frame_done_out in Ho); by apply (U2 s).
  - eapply (Hmove (with_subs y _)); try done; rewrite H0; destruct o; try done; by right.
  - eapply (Hmove (with_subs y _)); try done; rewrite H0; done.
  - eapply (Hmove (with_subs y _)); try done; rewrite H0; done.
  - apply Hold. by destruct w.
  - assert (Ez : c_gs (with_log (after_send y ch k) (PvTold ch f)) = c_gs y) by (cbn [with_log c_gs]; by rewrite after_send_gs).
    assert (Ea : allr y' = allr y).
    { unfold allr. apply answers_same in H4 as (_ & _ & _ & -> & -> & _). destruct (after_send_same y ch k) as (_ & E1 & E2 & _). cbn [with_log c_log c_wch]. rewrite E1, E2, log_reqs_snoc. by rewrite app_nil_r. }
    destruct (decide (g = g0)) as [->|Hn].
    + destruct H4 as [u|w Hw|Hc|Hc]; eapply (Hmove _ _ _ eq_refl Ez H2 Ea); rewrite H3; try done.
      * intros Hx%frame_done_out. exfalso. destruct (decide (f_cmd f = RECEIPT)); [by apply U1|by apply (U3 f)].
      * unfold out_pc. intros Hx. exfalso. destruct (decide (f_cmd f = RECEIPT)); [by apply U1|by apply (U3 f)].
      * unfold out_pc. intros Hx. exfalso. revert Hx. apply U3.
    + destruct H4 as [u|w Hw|Hc|Hc]; by eapply (Hcase _ _ _ eq_refl).
  - apply Hold. cbn [with_subs with_log c_gs] in Hg. by rewrite after_send_gs in Hg.
Qed.
Lemma reach_sent A cfg y : creach A cfg y -> sentinv y.
Proof.
  induction 1 as [|y a y' Hr IH _ Hs]; [intros g r Hg; done|]. apply cstep_cmv in Hs as Hm. eapply sent_step; [done|by eapply reach_req|by eapply reach_uniq|done].
Qed.

(* ---------------- the order ---------------- *)
Definition early (y : cl) (j : nat) : Prop := length (c_gs y) <= j \/ exists r, c_gs y !! j = Some r /\ pre (g_pc r).
Definition grown (y z : cl) : Prop :=
  (exists l, q_by <$> allr z = (q_by <$> allr y) ++ l /\ Forall (early y) l) /\ length (c_gs y) <= length (c_gs z) /\ forall j r, c_gs z !! j = Some r -> pre (g_pc r) -> early y j.
Lemma grown_refl y : grown y y.
Proof. split_and!; [exists []; by rewrite app_nil_r|done|]. intros j r H1 H2. right. eauto. Qed.
Lemma grown_step cfg y z a z' : cmv cfg z a z' -> reqinv z -> length (c_gs z) <= length (c_gs z') -> grown y z -> grown y z'.
Proof.
  intros Hm HR Hlen ((l & E & HF) & Hl & Hp). split_and!; [|lia|].
  - destruct (cmv_allr _ _ _ _ Hm) as [->|(g & r & k & q & Hg & Hq & -> & _)]; [eauto|]. exists (l ++ [g]). split; [by rewrite fmap_app, E, <-app_assoc, <-(rq_put _ HR _ _ _ _ Hg Hq)|].
    apply Forall_app. split; [done|]. constructor; [|done]. eapply Hp; [done|]. by rewrite Hq.
  - intros j r' Hj Hx. destruct (cmv_pre _ _ _ _ _ _ Hm Hj Hx) as [(r & Hr & Hx')| ->]; [by eapply Hp|]. left. lia.
Qed.
Lemma cmv_calls cfg y a y' : cmv cfg y a y' -> length (c_gs y) <= length (c_gs y').
Proof.
  intros Hm. apply cmv_gs in Hm as HG. destruct (decide (length (c_gs y) = 0)) as [->|Hn]; [lia|].
  destruct (lookup_lt_is_Some_2 (c_gs y) (length (c_gs y) - 1)) as [r Hr]; [lia|]. destruct (gchange_op _ _ _ _ HG Hr) as (r' & Hr'%lookup_lt_Some & _). lia.
Qed.
Lemma run_grown cfg y l y' : creach anything cfg y -> crun cfg y l = Some (COk y') -> grown y y'.
Proof.
  intros Hr Hl. eapply (run_keeps (grown y) anything); [|done|apply grown_refl|apply Forall_any|done].
  intros z a z' Hz Hg _ Hm. eapply grown_step; [done|by eapply reach_req|by eapply cmv_calls|done].
Qed.
(** A call that had returned comes before one that was made after that. *)
Lemma calls_order cfg y l y' g x j l1 l2 : creach anything cfg y -> crun cfg y l = Some (COk y') -> gave y g x -> length (c_gs y) <= j -> q_by <$> allr y' = l1 ++ j :: l2 -> g ∉ l2.
Proof.
  intros Hr Hl (r & Hg & Hx) Hj E Hin. destruct (run_grown _ _ _ _ Hr Hl) as ((l0 & E0 & HF) & _ & _).
  assert (Hr' : creach anything cfg y') by (eapply crun_reach; [done|apply Forall_any|done]). destruct (reach_uniq _ _ _ Hr') as [Hnd _].
  assert (Hne : ~ early y g) by (intros [H|(r0 & Hr0 & Hp)]; [apply lookup_lt_Some in Hg; lia|]; simplify_eq; by rewrite Hx in Hp).
  assert (Hgl : g ∉ l0) by (intros Hg0; eapply Forall_forall in Hg0; [|exact HF]; done).
  assert (Hja : j ∉ q_by <$> allr y).
  { intros (q & -> & Hq)%elem_of_list_fmap. destruct (rq_ok _ (reach_req _ _ _ Hr) q (allr_known _ _ Hq)) as (r0 & Hl0%lookup_lt_Some & _). lia. }
  rewrite E0 in E. apply app_eq_inv in E as [(k & E1 & E2)|(k & E1 & E2)].
  - apply Hja. rewrite E1. destruct k as [|j' k].
    + cbn in E2. rewrite app_nil_r in E1. exfalso. apply Hgl. rewrite <-E2. by right.
    + cbn in E2. injection E2 as <- _. apply elem_of_app. right. by left.
  - apply Hgl. rewrite E2. apply elem_of_app. right. by right.
Qed.
