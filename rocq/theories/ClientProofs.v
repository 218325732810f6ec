(** Invariants of the client model: the close mutex, what calls do, and the
    requests they make. *)
From stdpp Require Import gmap.
From Verif Require Import GoBase HeaderModel FrameModel HeaderProofs NegotiationModel ClientApiModel ClientModel ClientLemmas.

Lemma creach_mono (A B : cact -> Prop) cfg y : (forall a, A a -> B a) -> creach A cfg y -> creach B cfg y.
Proof. intros H. induction 1 as [|y a y' _ IH Ha Hs]; [constructor|]. eapply cr_step; [exact IH|by apply H|done]. Qed.
Lemma crun_reach (A : cact -> Prop) cfg y l y' : creach A cfg y -> Forall A l -> crun cfg y l = Some (COk y') -> creach A cfg y'.
Proof.
  revert y. induction l as [|a l IH]; intros y Hr HA; cbn [crun]; [by intros [= <-]|]. apply Forall_cons in HA as [HA HAs].
  destruct (cstep cfg y a) as [[p|y1]|] eqn:E; try done. apply IH; [|done]. by eapply cr_step.
Qed.
Lemma crun_app cfg y l l' : crun cfg y (l ++ l') = match crun cfg y l with Some (COk y1) => crun cfg y1 l' | o => o end.
Proof. revert y. induction l as [|a l IH]; intros y; cbn [crun app]; [done|]. destruct (cstep cfg y a) as [[p|y1]|]; try done. Qed.

(* ---------------- goroutine table ---------------- *)
Lemma with_g_lookup y g x j r' : c_gs (with_g y g x) !! j = Some r' <->
  (j <> g /\ c_gs y !! j = Some r') \/ (j = g /\ exists r, c_gs y !! g = Some r /\ r' = mkGor (g_op r) x).
Proof.
  cbn [with_g c_gs]. destruct (decide (j = g)) as [->|Hne].
  - rewrite list_lookup_alter. destruct (c_gs y !! g) as [r|]; cbn [fmap option_fmap option_map].
    + split; [intros [= <-]; right; eauto|]. intros [[? _]|(_ & r0 & [= <-] & ->)]; done.
    + split; [done|]. intros [[? _]|(_ & r0 & ? & _)]; done.
  - rewrite list_lookup_alter_ne by done. split; [by left|]. intros [[_ ?]|[? _]]; done.
Qed.
Lemma with_g_same y g x r : c_gs y !! g = Some r -> c_gs (with_g y g x) !! g = Some (mkGor (g_op r) x).
Proof. intros H. apply with_g_lookup. right. eauto. Qed.
Lemma with_g_other y g x j : j <> g -> c_gs (with_g y g x) !! j = c_gs y !! j.
Proof. intros H. cbn [with_g c_gs]. by apply list_lookup_alter_ne. Qed.

Lemma snoc_lookup {X} (l : list X) x j z : (l ++ [x]) !! j = Some z -> j < length l /\ l !! j = Some z \/ j = length l /\ z = x.
Proof.
  intros H. destruct (decide (j < length l)) as [Hl|Hl].
  - left. split; [done|]. by rewrite lookup_app_l in H.
  - right. rewrite lookup_app_r in H by lia. destruct (j - length l) as [|n] eqn:E; cbn in H; [|done]. injection H as ->. split; [lia|done].
Qed.
(** How the calls change in a step. *)
Inductive gchange (gs : list gor) : list gor -> Prop :=
| gc_same : gchange gs gs
| gc_call o : op_ok o = true -> gchange gs (gs ++ [mkGor o GStart])
| gc_step g r x : gs !! g = Some r -> gchange gs (alter (fun r => mkGor (g_op r) x) g gs).
Lemma answers_gs y g f k y' : answers y g f k y' -> exists x, c_gs y' = alter (fun r => mkGor (g_op r) x) g (c_gs y).
Proof. destruct 1; by eexists. Qed.
Lemma after_send_gs y ch k : c_gs (after_send y ch k) = c_gs y.
Proof. destruct k as [id| |f rest []]; done. Qed.
Lemma submit_gs y g k f own : exists x, c_gs (submit y g k f own) = alter (fun r => mkGor (g_op r) x) g (c_gs y).
Proof. unfold submit. destruct own; by eexists. Qed.
Lemma cmv_gs cfg y a y' : cmv cfg y a y' -> gchange (c_gs y) (c_gs y').
Proof.
  destruct 1; try (by apply gc_same); try (by eapply gc_step).
  - by apply gc_call.
  - match goal with |- gchange _ (c_gs (submit ?z ?g ?k ?f ?o)) => destruct (submit_gs z g k f o) as [x ->] end. by eapply gc_step.
  - match goal with |- context [if ?b then _ else _] => destruct b end; by eapply gc_step.
  - destruct w; apply gc_same.
  - match goal with H : answers _ _ _ _ _ |- _ => destruct (answers_gs _ _ _ _ _ H) as [x ->] end. cbn [with_log c_gs]. rewrite after_send_gs. by eapply gc_step.
  - cbn [with_subs with_log c_gs]. rewrite after_send_gs. apply gc_same.
Qed.
Lemma gchange_op gs gs' g r : gchange gs gs' -> gs !! g = Some r -> exists r', gs' !! g = Some r' /\ g_op r' = g_op r.
Proof.
  intros H Hg. destruct H as [|o|j rj x Hj].
  - eauto.
  - exists r. split; [|done]. by apply lookup_app_l_Some.
  - destruct (decide (g = j)) as [->|Hne].
    + rewrite list_lookup_alter, Hg. by eexists.
    + rewrite list_lookup_alter_ne by done. eauto.
Qed.
Lemma gchange_back gs gs' g r : gchange gs gs' -> gs' !! g = Some r -> (exists r0, gs !! g = Some r0 /\ g_op r0 = g_op r) \/ g_pc r = GStart /\ g = length gs.
Proof.
  intros H Hg. destruct H as [|o|j rj x Hj].
  - eauto.
  - apply snoc_lookup in Hg as [[_ Hg]|[-> ->]]; [eauto|]. by right.
  - left. destruct (decide (g = j)) as [->|Hne].
    + rewrite list_lookup_alter, Hj in Hg. cbn in Hg. injection Hg as <-. eauto.
    + rewrite list_lookup_alter_ne in Hg by done. eauto.
Qed.
Lemma gchange_len gs gs' : gchange gs gs' -> length gs <= length gs'.
Proof. destruct 1; rewrite ?app_length, ?alter_length; lia. Qed.

(* ---------------- calls ---------------- *)
(** Which request a call makes. *)
Definition kind_ok (o : op) (k : from) (f : frame) : Prop :=
  match k with
  | FSend => o = OSend (Some f)
  | FFrame None => o = OFrame f
  | FFrame (Some s) => o = OUnsub s (Some f)
  | FSub s => exists id rt, o = OSubscribe (Some (f, id, rt))
  | FDisc => exists rid, o = ODisconnect rid /\ f = mkFrame DISCONNECT [(h_receipt, rid)] []
  end.
Definition pc_ok (o : op) (x : gpc) : Prop :=
  match x with
  | GStart | GDone _ => True
  | GFrame u f => kind_ok o (FFrame u) f
  | GPut k q => kind_ok o k (q_frame q) /\ (match k with FSub _ => True | _ => is_Some (q_chan q) <-> wants_receipt (q_frame q) = true end)
  | GWait k ch => (exists f, kind_ok o k f /\ wants_receipt f = true) /\ (match k with FSub _ => False | _ => True end)
  | GClose s _ r => (exists f, o = OUnsub s (Some f)) /\ r = RErr EClosedUnexpectedly
  | GLoad s _ | GReg s | GBlocked s | GExpired s | GPutErr s => exists f, o = OUnsub s (Some f)
  end.
Definition calls_ok (y : cl) : Prop := forall g r, c_gs y !! g = Some r -> pc_ok (g_op r) (g_pc r).
Lemma frame_done_ok o u f r : kind_ok o (FFrame u) f -> pc_ok o (frame_done u r).
Proof. destruct u as [s|]; cbn; [|done]. intros ->. destruct r as [| |[]]; cbn; eauto. Qed.
Lemma gmove_ok cfg y g o t x x' : gmove cfg y g o t x x' -> pc_ok o x -> pc_ok o x'.
Proof. destruct 1; cbn [pc_ok]; try done; try (by intros (f0 & ->); eauto); try (by intros [(f0 & Hf & _) _]; eapply frame_done_ok); try apply frame_done_ok. Qed.
Lemma calls_g y g r x : calls_ok y -> c_gs y !! g = Some r -> pc_ok (g_op r) x -> calls_ok (with_g y g x).
Proof. intros HC Hg Hx j r' [[_ Hj]|(-> & r0 & Hr0 & ->)]%with_g_lookup; [exact (HC _ _ Hj)|]. cbn. by simplify_eq. Qed.
Lemma calls_same y y' : calls_ok y -> c_gs y' = c_gs y -> calls_ok y'.
Proof. intros HC E g r. rewrite E. apply (HC g r). Qed.
Lemma submits_kind o x k f : submits o x k f -> pc_ok o x -> kind_ok o k f.
Proof. destruct 1; cbn; eauto. Qed.
Lemma submit_gs' y g k f own : c_gs (submit y g k f own) = c_gs (with_g y g (GPut k (mkReq g f (match own with Some _ => Some (length (c_chs y)) | None => None end)))).
Proof. unfold submit. by destruct own. Qed.
Lemma put_next_ok o k q : pc_ok o (GPut k q) -> pc_ok o (put_next k (q_chan q)).1.
Proof.
  intros [H1 H2]. destruct k as [|u|s|]; destruct (q_chan q) as [ch|]; cbn [put_next fst]; try done.
  - split; [|done]. exists (q_frame q). split; [done|]. apply H2. eauto.
  - split; [|done]. exists (q_frame q). split; [done|]. apply H2. eauto.
  - by eapply frame_done_ok.
  - split; [|done]. exists (q_frame q). split; [done|]. apply H2. eauto.
Qed.
Lemma calls_step cfg y a y' : cmv cfg y a y' -> calls_ok y -> calls_ok y'.
Proof.
  intros Hm HC. destruct Hm; try (by eapply calls_same; [exact HC|]); try (by apply (calls_g _ _ _ _ HC H)).
  - intros g r [[_ Hg]|[-> ->]]%snoc_lookup; [exact (HC _ _ Hg)|done].
  - apply (calls_g _ _ _ _ HC H). eapply gmove_ok; [done|exact (HC _ _ H)].
  - eapply calls_same; [apply (calls_g _ g r (match f with None => GDone (RErr EOption) | Some f => GFrame (Some s) f end) HC H)|done]. destruct f; cbn; [by rewrite H1|done].
  - eapply calls_same; [|apply submit_gs']. apply (calls_g _ _ _ _ HC H). split; [eapply submits_kind; [done|exact (HC _ _ H)]|].
    rewrite H1. unfold receipt_owner. cbn [q_chan q_frame]. assert (forall (X : Prop), X -> match k with FSub _ => True | _ => X end) as Hx by (intros; by destruct k). apply Hx.
    destruct (wants_receipt f); split; try done; eauto. by intros [? ?].
  - eapply calls_same; [|apply submit_gs']. eapply (calls_g (with_subs y _)); [exact HC|exact H|]. split; [|done]. cbn. rewrite H1. eauto.
  - pose proof (HC _ _ H) as Hp. rewrite H0 in Hp. apply put_next_ok in Hp. eapply calls_same; [apply (calls_g _ _ _ _ HC H Hp)|]. by destruct (put_next k (q_chan q)).2.
  - pose proof (HC _ _ H) as Hp. rewrite H0 in Hp. eapply calls_same; [apply (calls_g _ g r (match o with Some c' => GClose s c' res | None => GDone res end) HC H)|done]. by destruct o.
  - pose proof (HC _ _ H) as Hp. rewrite H0 in Hp. eapply calls_same; [apply (calls_g _ g r (GBlocked s) HC H)|done]. done.
  - destruct w; by eapply calls_same.
  - pose proof (HC _ _ H2) as Hp. rewrite H3 in Hp. set (y1 := with_log (after_send y ch k) (PvTold ch f)) in *.
    assert (calls_ok y1) as HC1 by (eapply calls_same; [exact HC|]; subst y1; cbn [with_log c_gs]; apply after_send_gs).
    assert (c_gs y1 !! g = Some r) as Hg1 by (subst y1; cbn [with_log c_gs]; by rewrite after_send_gs).
    destruct H4 as [u|w Hw|Hc|Hc]; try (by apply (calls_g _ _ _ _ HC1 Hg1)). apply (calls_g _ _ _ _ HC1 Hg1). destruct Hp as [(f0 & Hf & _) _]. by eapply frame_done_ok.
  - eapply calls_same; [exact HC|]. cbn [with_subs with_log c_gs]. apply after_send_gs.
Qed.
Lemma reach_calls A cfg y : creach A cfg y -> calls_ok y.
Proof. induction 1 as [|y a y' _ IH _ Hs]; [by intros g r ?|]. eapply calls_step; [by apply cstep_cmv|done]. Qed.

(* ---------------- closeMutex ---------------- *)
Definition locked (x : gpc) : Prop := match x with GPut _ _ | GWait FSend _ | GWait FDisc _ => True | _ => False end.
Record lockinv (y : cl) : Prop := {
  lk_mut : forall g r, c_gs y !! g = Some r -> locked (g_pc r) <-> c_mut y = Some g;
  lk_dom : forall g, c_mut y = Some g -> is_Some (c_gs y !! g);
  lk_open : c_mut y <> None -> c_closed y = false;
  lk_w : c_wclosed y = true -> c_closed y = true;
  lk_end : c_p y = PEnd -> c_closed y = true }.

Lemma frame_done_free u r : ~ locked (frame_done u r).
Proof. destruct u as [s|]; cbn; [|tauto]. destruct r as [| |[]]; cbn; tauto. Qed.
Lemma gmove_free cfg y g o t x x' : gmove cfg y g o t x x' -> ~ locked x /\ ~ locked x'.
Proof. destruct 1; split; try (by intros []); try apply frame_done_free. Qed.

(** The lock after a call's step from pc x to x', when the mutex was m and is m'. *)
Lemma lock_g y g r x m' : lockinv y -> c_gs y !! g = Some r ->
  (locked x <-> m' = Some g) -> (m' = c_mut y \/ m' = None /\ c_mut y = Some g \/ m' = Some g /\ c_mut y = None) ->
  (forall j r', c_gs (with_g y g x) !! j = Some r' -> locked (g_pc r') <-> m' = Some j) /\ (forall j, m' = Some j -> is_Some (c_gs (with_g y g x) !! j)).
Proof.
  intros HL Hg Hx Hm. split.
  - intros j r' [[Hne Hj]|(-> & r0 & _ & ->)]%with_g_lookup; [|done]. rewrite (lk_mut _ HL _ _ Hj).
    destruct Hm as [->|[[-> E]|[-> E]]]; [done| |]; rewrite E; split; congruence.
  - intros j ->. cbn [with_g c_gs]. apply lookup_lt_is_Some. rewrite alter_length. apply lookup_lt_is_Some.
    destruct Hm as [E|[[? _]|[[= ->] _]]]; [|done|by eauto]. by apply (lk_dom _ HL).
Qed.
Lemma submit_eq y g k f own : exists chs q, submit y g k f own = with_g (with_mut (with_chs y chs) (Some g)) g (GPut k q).
Proof. unfold submit. destruct own; by do 2 eexists. Qed.
Lemma lock_step cfg y a y' : cmv cfg y a y' -> calls_ok y -> lockinv y -> lockinv y'.
Proof.
  intros Hm HC HL. pose proof (lk_mut _ HL) as L1. pose proof (lk_dom _ HL) as L2. pose proof (lk_open _ HL) as L3. pose proof (lk_w _ HL) as L4. pose proof (lk_end _ HL) as L5.
  assert (Hfree : forall g r, c_gs y !! g = Some r -> ~ locked (g_pc r) -> c_mut y <> Some g) by (intros g r Hg Hn E; apply Hn; by apply (L1 _ _ Hg)).
  destruct Hm; try (by constructor).
  - constructor; try done.
    + intros g r [[_ Hg]|[-> ->]]%snoc_lookup; [by apply L1|]. split; [done|]. intros E. apply L2 in E as [? E%lookup_lt_Some]. lia.
    + intros g E. apply L2 in E as [r E]. exists r. by apply lookup_app_l_Some.
  - destruct (gmove_free _ _ _ _ _ _ _ H0) as [F1 F2].
    destruct (lock_g y g r x' (c_mut y) HL H) as [G1 G2]; [split; [done|by intros ?%(Hfree _ _ H)]|by left|]. constructor; try done.
  - assert (c_mut y = Some g) as Em by (apply (L1 _ _ H); by rewrite H0).
    destruct (lock_g y g r (GDone (RErr ESendTimeout)) None HL H) as [G1 G2]; [done|right; by left|]. by constructor.
  - assert (c_mut y = Some g) as Em by (apply (L1 _ _ H); by rewrite H0).
    destruct (lock_g y g r (GDone (RErr EReceiptTimeout)) None HL H) as [G1 G2]; [done|right; by left|]. by constructor.
  - assert (c_mut y = Some g) as Em by (apply (L1 _ _ H); by rewrite H0).
    destruct (lock_g y g r (GDone (RErr EReceiptTimeout)) None HL H) as [G1 G2]; [done|right; by left|]. by constructor.
  - destruct (lock_g y g r (GDone RNil) (c_mut y) HL H) as [G1 G2]; [by rewrite H2|by left|]. by constructor.
  - destruct (lock_g y g r (match f with None => GDone (RErr EOption) | Some f => GFrame (Some s) f end) (c_mut y) HL H) as [G1 G2];
      [split; [by destruct f|intros E; exfalso; apply (Hfree _ _ H); [rewrite H0; by intros []|done]]|by left|]. by constructor.
  - destruct (submit_eq y g k f own) as (chs & q & ->).
    destruct (lock_g y g r (GPut k q) (Some g) HL H) as [G1 G2]; [done|right; by right|]. constructor; try done.
  - match goal with |- lockinv (submit ?z g ?k0 ?f0 ?o0) => destruct (submit_eq z g k0 f0 o0) as (chs & q & ->) end.
    destruct (lock_g y g r (GPut (FSub (length (c_subs y))) q) (Some g) HL H) as [G1 G2]; [done|right; by right|]. constructor; try done.
  - assert (c_mut y = Some g) as Em by (apply (L1 _ _ H); by rewrite H0).
    destruct k as [|u|s|]; destruct (q_chan q) as [ch|]; cbn [put_next fst snd];
      match goal with |- lockinv (with_g (with_mut _ _) g ?x) => destruct (lock_g y g r x None HL H) as [G1 G2]; [split; [|done]; try done; by intros ?%frame_done_free|right; by left|by constructor]
      | |- lockinv (with_g _ g ?x) => destruct (lock_g y g r x (c_mut y) HL H) as [G1 G2]; [by rewrite Em|by left|by constructor] end.
  - destruct (lock_g y g r (match o with Some c' => GClose s c' res | None => GDone res end) (c_mut y) HL H) as [G1 G2];
      [split; [by destruct o|intros E; exfalso; apply (Hfree _ _ H); [rewrite H0; by intros []|done]]|by left|]. by constructor.
  - destruct (lock_g y g r (GBlocked s) (c_mut y) HL H) as [G1 G2]; [split; [done|intros E; exfalso; apply (Hfree _ _ H); [rewrite H0; by intros []|done]]|by left|]. by constructor.
  - destruct (lock_g y g r (GDone (RErr EUnsubTimeout)) (c_mut y) HL H) as [G1 G2]; [split; [done|intros E; exfalso; apply (Hfree _ _ H); [rewrite H0; by intros []|done]]|by left|]. by constructor.
  - destruct w; by constructor.
  - set (y1 := with_log (after_send y ch k) (PvTold ch f)) in *.
    assert (lockinv y1) as HL1 by (subst y1; destruct k as [id| |fe rest []]; by constructor).
    assert (c_gs y1 !! g = Some r) as Hg1 by (subst y1; cbn [with_log c_gs]; by rewrite after_send_gs).
    clear L1 L2 L3 L4 L5 Hfree. pose proof (lk_mut _ HL1) as L1. pose proof (lk_dom _ HL1) as L2. pose proof (lk_open _ HL1) as L3. pose proof (lk_w _ HL1) as L4. pose proof (lk_end _ HL1) as L5.
    assert (locked (g_pc r) -> c_mut y1 = Some g) as Hl by apply (L1 _ _ Hg1). assert (~ locked (g_pc r) -> c_mut y1 <> Some g) as Hl' by (intros Hn E; apply Hn; by apply (L1 _ _ Hg1)).
    rewrite H3 in Hl, Hl'. destruct H4 as [u|w Hw|Hc|Hc].
    + destruct (lock_g y1 g r (frame_done u (if decide (f_cmd f = RECEIPT) then RNil else RErr (EResponse f))) (c_mut y1) HL1 Hg1) as [G1 G2];
        [split; [by intros ?%frame_done_free|intros ?%Hl'; [done|tauto]]|by left|]. by constructor.
    + destruct (lock_g y1 g r (GDone (if decide (f_cmd f = RECEIPT) then RNil else RErr (EResponse f))) None HL1 Hg1) as [G1 G2];
        [done| |by constructor]. destruct Hw as [->|[s ->]]; [right; left; split; [done|by apply Hl]|].
      pose proof (HC _ _ H2) as Hf. rewrite H3 in Hf. by destruct Hf.
    + destruct (lock_g y1 g r (GDone RNil) None HL1 Hg1) as [G1 G2]; [done|right; left; split; [done|by apply Hl]|by constructor].
    + destruct (lock_g y1 g r (GDone (RErr (EResponse f))) None HL1 Hg1) as [G1 G2]; [done|right; left; split; [done|by apply Hl]|by constructor].
  - destruct k as [id| |fe rest []]; by constructor.
Qed.
Lemma reach_lock A cfg y : creach A cfg y -> lockinv y.
Proof.
  induction 1 as [|y a y' Hr IH _ Hs]; [by constructor|]. eapply lock_step; [by apply cstep_cmv|by eapply reach_calls|done].
Qed.
