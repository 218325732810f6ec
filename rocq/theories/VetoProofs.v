(** Calls that are refused before they do anything. *)
From stdpp Require Import gmap.
From Verif Require Import GoBase HeaderModel FrameModel HeaderProofs NegotiationModel ClientApiModel ClientModel ClientSpec ClientLemmas ClientProofs ClientRequests ClientCalls
  ClientChannels ClientReceipts ClientDelivery ClientMessages ClientRouting ClientFinal ClientUnsub OrderSpec OrderProofs VetoSpec.

(** What Unsubscribe remembers of its sendFrame is no veto. *)
Definition mild (x : gpc) : Prop := match x with GLoad _ (RErr e) => ~ veto e | _ => True end.
Lemma frame_done_mild u r : (forall e, r = RErr e -> ~ veto e) -> mild (frame_done u r).
Proof. intros H. destruct u as [s|]; [|done]. cbn. destruct r as [| |e]; try done. specialize (H _ eq_refl). by destruct e. Qed.
Lemma answer_mild f e : (if decide (f_cmd f = RECEIPT) then RNil else RErr (EResponse f)) = RErr e -> ~ veto e.
Proof. case_decide; [done|]. intros [= <-] Hv. inversion Hv. Qed.
Lemma unexp_mild e : RErr EClosedUnexpectedly = RErr e -> ~ veto e.
Proof. intros [= <-] Hv. inversion Hv. Qed.
Lemma gstep_mild cfg y a g o x x' : gstep cfg y a g o x x' -> mild x'.
Proof.
  destruct 1 as [t x x' _ Hg|q _|ch _|ch _|_|x k f q _ _|k q|ch f k w _ _]; try done.
  - destruct Hg; try done; apply frame_done_mild; apply unexp_mild.
  - destruct k as [|u|s|], (q_chan q); try done; cbn. by apply frame_done_mild.
  - destruct w as [|u|s|]; try done. cbn. apply frame_done_mild, answer_mild.
Qed.
Lemma reach_mild A cfg y : creach A cfg y -> forall g r, c_gs y !! g = Some r -> mild (g_pc r).
Proof.
  induction 1 as [|y a y' Hr IH _ Hs]; [done|]. apply cstep_cmv in Hs as Hm. pose proof (reach_wmove _ _ _ _ _ Hr Hm) as Hw.
  destruct Hw as [E1 _|o _ E1 _|g r x Hg Hx E1 _|g r f id rt Hg _ _ E1 _|j b b1 _ _ E1 _|g r x j b b1 Hg _ _ Hx E1 _]; intros h r' Hh; rewrite E1 in Hh; try (by eapply IH).
  - apply snoc_lookup in Hh as [[_ Hh]|[_ ->]]; [by eapply IH|done].
  - apply with_g_lookup in Hh as [[_ Hh]|(-> & r0 & _ & ->)]; [by eapply IH|]. by eapply gstep_mild.
  - apply with_g_lookup in Hh as [[_ Hh]|(-> & r0 & _ & ->)]; [by eapply IH|done].
  - apply with_g_lookup in Hh as [[_ Hh]|(-> & r0 & _ & ->)]; [by eapply IH|]. destruct Hx as [[f|]|c res b' [c'|]| |]; done.
Qed.

(** A veto is the result of a call's first step. *)
Lemma veto_first A cfg y a y' g e : creach A cfg y -> cstep cfg y a = Some (COk y') -> veto e -> returned y' g (RErr e) -> ~ returned y g (RErr e) ->
  a = XRun g /\ exists r, c_gs y !! g = Some r /\ g_pc r = GStart.
Proof.
  intros Hr Hs Hv (r' & Hr' & Hd) Hn. apply cstep_cmv in Hs as Hm. pose proof (reach_wmove _ _ _ _ _ Hr Hm) as Hw.
  assert (Hnew : c_gs y !! g <> Some r') by (intros H; apply Hn; by exists r').
  destruct Hw as [E1 _|o _ E1 _|h r x Hg Hx E1 _|h r f id rt Hg _ _ E1 _|j b b1 _ _ E1 _|h r x j b b1 Hg _ Ha Hx E1 _]; rewrite E1 in Hr'; try done.
  - apply snoc_lookup in Hr' as [[_ H]|[_ ->]]; done.
  - apply with_g_lookup in Hr' as [[_ H]|(-> & r0 & Hr0 & ->)]; [done|]. assert (r0 = r) as -> by congruence. cbn in Hd. subst x. pose proof (reach_mild _ _ _ Hr _ _ Hg) as Hmi.
    remember (g_pc r) as x eqn:Ex. remember (GDone (RErr e)) as x' eqn:Ex'.
    destruct Hx as [t x x' Ha Hgm|q _|ch _|ch _|_|x k f q _ _|k q|ch f k w _ _]; simplify_eq; try (by inversion Hv).
    + assert (HU : forall u, frame_done u (RErr EClosedUnexpectedly) = GDone (RErr e) -> False) by (intros [s|] E; cbn in E; simplify_eq; by inversion Hv).
      inversion Hgm; subst; try (split; [done|exists r; split; congruence]); exfalso; try (by eapply HU);
        try match goal with H : GLoad _ _ = g_pc r |- _ => rewrite <-H in Hmi; exact (Hmi Hv) end; by inversion Hv.
    + destruct k as [|[u|]|s|], (q_chan q); done.
    + destruct w as [|[u|]|s|]; cbn in Ex'; unfold answer_pc in Ex'; cbn in Ex'; repeat case_decide; cbn in Ex'; simplify_eq; by inversion Hv.
  - apply with_g_lookup in Hr' as [[_ H]|(-> & r0 & Hr0 & ->)]; [done|]. by cbn in Hd.
  - apply with_g_lookup in Hr' as [[_ H]|(-> & r0 & Hr0 & ->)]; [done|]. assert (r0 = r) as -> by congruence. cbn in Hd. subst x. pose proof (reach_calls _ _ _ Hr _ _ Hg) as Hp.
    remember (g_pc r) as x eqn:Ex. remember (GDone (RErr e)) as x' eqn:Ex'. destruct Hx as [f|c res b' [c'|] _| |]; simplify_eq; try (by inversion Hv).
    + split; [done|]. by exists r.
    + destruct Hp as [_ ?]. simplify_eq. by inversion Hv.
Qed.
Lemma same_with_g y g x : same_but y (with_g y g x) g.
Proof. unfold same_but. cbn [with_g c_mut c_closed c_wch c_wclosed c_rch c_rclosed c_map c_chs c_p c_log c_gs]. split_and!; try done; [by rewrite alter_length|]. intros h Hh. by rewrite list_lookup_alter_ne. Qed.
Lemma submit_pending y g k f own r : c_gs y !! g = Some r -> exists q, c_gs (submit y g k f own) !! g = Some (mkGor (g_op r) (GPut k q)).
Proof. intros H. unfold submit. destruct own; eexists; cbn; rewrite list_lookup_alter, H; reflexivity. Qed.
Lemma veto_effect cfg y y' g r e : cstep cfg y (XRun g) = Some (COk y') -> c_gs y !! g = Some r -> g_pc r = GStart -> returned y' g (RErr e) ->
  same_but y y' g /\ (c_subs y' = c_subs y \/ exists s, g_op r = OUnsub s None /\ e = EOption /\ deactivated y y' s).
Proof.
  intros Hs Hg Hp (r' & Hr' & Hd). cbn [cstep] in Hs. unfold do_run in Hs. rewrite Hg, Hp in Hs. unfold do_start in Hs.
  assert (Hdone : forall x, Some (COk (with_g y g x)) = Some (COk y') -> same_but y y' g /\ c_subs y' = c_subs y).
  { intros x [= <-]. split; [apply same_with_g|done]. }
  assert (Hsub : forall y1 k f own, c_gs y1 = c_gs y -> Some (COk (submit y1 g k f own)) = Some (COk y') -> False).
  { intros y1 k f own E [= <-]. rewrite <-E in Hg. destruct (submit_pending y1 g k f own r Hg) as [q Hq]. rewrite Hq in Hr'. injection Hr' as <-. done. }
  destruct (g_op r) as [f|f|f|s f|rid|] eqn:Ho.
  - destruct (c_mut y); [done|]. destruct (c_closed y); [apply Hdone in Hs as [? ?]; by auto|]. destruct f as [f|]; [by apply Hsub in Hs|apply Hdone in Hs as [? ?]; by auto].
  - apply Hdone in Hs as [? ?]. by auto.
  - destruct (c_mut y); [done|]. destruct (c_closed y); [apply Hdone in Hs as [? ?]; by auto|]. destruct f as [[[f id] rt]|]; [by apply Hsub in Hs|apply Hdone in Hs as [? ?]; by auto].
  - destruct (c_subs y !! s) as [b|] eqn:Hb; [|done]. destruct (b_state b) eqn:Hst; [|apply Hdone in Hs as [? ?]; by auto..].
    destruct f as [f|]; injection Hs as <-; cbn [with_g c_gs with_subs] in Hr'; rewrite list_lookup_alter, Hg in Hr'; injection Hr' as <-; cbn in Hd; [done|]. simplify_eq.
    split; [apply (same_with_g (with_subs y _))|]. right. exists s. split_and!; [done..|]. exists b. cbn [with_g with_subs c_subs]. split_and!; try done.
    + by apply list_lookup_insert; eapply lookup_lt_Some.
    + by rewrite insert_length.
    + intros s' Hn. by rewrite list_lookup_insert_ne.
  - destruct (c_mut y); [done|]. destruct (c_closed y); [apply Hdone in Hs as [? ?]; by auto|]. by apply Hsub in Hs.
  - destruct (c_mut y); [done|]. destruct (c_closed y); [apply Hdone in Hs as [? ?]; by auto|]. destruct (c_wclosed y); [done|]. injection Hs as <-.
    cbn in Hr'. rewrite list_lookup_alter, Hg in Hr'. injection Hr' as <-. done.
Qed.

(** After an Unsubscribe call with a bad option no call unsubscribes. *)
Lemma lost A cfg y g s : creach A cfg y -> called y g (OUnsub s None) -> returned y g (RErr EOption) ->
  (exists b, c_subs y !! s = Some b /\ b_state b <> SubActive) /\
  forall g' r f, g' <> g -> c_gs y !! g' = Some r -> g_op r = OUnsub s f -> g_pc r = GStart \/ g_pc r = GDone (RErr ECompletedSub).
Proof.
  intros Hr (r1 & Hg & Ho) (r & Hg1 & Hd). assert (r = r1) as -> by congruence. destruct (reach_single _ _ _ Hr) as [H1 H2].
  assert (won s r1) as Hw. { split; [by exists None|]. by rewrite Hd. }
  split; [by eapply H1|]. intros g' r' f Hn Hg' Ho'.
  assert (won s r' -> False) as Hl by (intros Hw'; apply Hn; by eapply (H2 s)). unfold won in Hl.
  destruct (g_pc r') as [| | | | | | | | | |[| |[]]]; [by left|..]; try (by right); exfalso; apply Hl; (split; [by exists f|done]).
Qed.
Lemma lost_silent A cfg y g s : creach A cfg y -> called y g (OUnsub s None) -> returned y g (RErr EOption) ->
  forall g' f, called y g' (OUnsub s f) -> g' ∉ served y ++ queued y.
Proof.
  intros Hr Hc Hret g' f (r & Hg & Ho). rewrite <-allr_served. destruct (lost _ _ _ _ _ Hr Hc Hret) as [_ Hl].
  assert (g_pc r = GStart \/ refused (RErr EOption) /\ g_pc r = GDone (RErr EOption) \/ g_pc r = GDone (RErr ECompletedSub)) as [E|[[_ E]|E]].
  { destruct (decide (g' = g)) as [->|Hn]; [|destruct (Hl _ _ _ Hn Hg Ho); auto]. destruct Hret as (r1 & Hg1 & Hd). assert (r1 = r) as -> by congruence. right. left. split; [unfold refused; auto|done]. }
  - destruct (reach_uniq _ _ _ Hr) as [_ HU]. apply (HU _ _ Hg). by rewrite E.
  - apply (reach_sent _ _ _ Hr _ _ Hg). rewrite E. cbn. unfold refused. auto.
  - apply (reach_sent _ _ _ Hr _ _ Hg). rewrite E. cbn. unfold refused. auto.
Qed.
