(** Every subscription object is in at most one place of the server, and holds
    a message exactly while it is on its way to, or at, its connection. *)
From Verif Require Import GoBase HeaderModel FrameModel GrammarSpec HeaderProofs NegotiationModel NegotiationSpec NegotiationLemmas
  BrokerModel BrokerSpec BrokerProofs ServerConnModel ServerConnSpec ServerConnProofs SystemModel SystemLemmas SystemProofs.

Section cnt.
  Context {A : Type} `{EqDecision A}.
  Fixpoint cnt (x : A) (l : list A) : nat :=
    match l with [] => 0 | y :: l' => (if decide (y = x) then 1 else 0) + cnt x l' end.
  Lemma cnt_app x a b : cnt x (a ++ b) = cnt x a + cnt x b.
  Proof. induction a; cbn; lia. Qed.
  Lemma cnt_elem x l : 0 < cnt x l <-> x ∈ l.
  Proof. induction l as [|y l IH]; cbn; [rewrite elem_of_nil; lia|]. rewrite elem_of_cons, <-IH. destruct (decide (y = x)); intuition (congruence || lia). Qed.
  Lemma cnt_0 x l : x ∉ l -> cnt x l = 0.
  Proof. rewrite <-cnt_elem. lia. Qed.
  Lemma cnt_nodup l : (forall x, cnt x l <= 1) -> NoDup l.
  Proof.
    induction l as [|y l IH]; intros H; constructor.
    - intros Hy. apply cnt_elem in Hy. specialize (H y). cbn in H. rewrite decide_True in H by done. lia.
    - apply IH. intros x. specialize (H x). cbn in H. lia.
  Qed.
  Lemma cnt_filter x l (P : A -> Prop) `{!forall x, Decision (P x)} : cnt x (filter P l) = if decide (P x) then cnt x l else 0.
  Proof.
    induction l as [|y l IH]; [cbn; by destruct (decide (P x))|]. cbn [cnt]. destruct (decide (P y)) as [Hy|Hy].
    - rewrite filter_cons_True by done. cbn [cnt]. rewrite IH. destruct (decide (y = x)) as [->|]; destruct (decide (P x)); try lia; done.
    - rewrite filter_cons_False by done. rewrite IH. destruct (decide (y = x)) as [->|]; destruct (decide (P x)); try lia; done.
  Qed.
  Lemma cnt_perm l k : (forall x, cnt x l = cnt x k) -> l ≡ₚ k.
  Proof.
    revert k. induction l as [|y l IH]; intros k H.
    - destruct k as [|z k]; [done|]. specialize (H z). cbn in H. rewrite decide_True in H by done. lia.
    - assert (y ∈ k) as Hy. { apply cnt_elem. rewrite <-H. cbn. rewrite decide_True by done. lia. }
      apply elem_of_list_split in Hy as (k1 & k2 & ->). rewrite <-Permutation_middle. constructor. apply IH. intros x. specialize (H x).
      rewrite cnt_app in *. cbn in H. lia.
  Qed.
  Lemma perm_cnt l k x : l ≡ₚ k -> cnt x l = cnt x k.
  Proof. induction 1; cbn [cnt]; repeat case_decide; congruence || lia. Qed.
End cnt.

Lemma sum_upd {A} (f : A -> nat) (l : list A) c n n' : l !! c = Some n -> sum_list_with f (<[c := n']> l) + f n = sum_list_with f l + f n'.
Proof.
  revert c. induction l as [|a l IH]; intros [|c]; [done|done| |].
  - intros [= ->]. change (<[0 := n']> (n :: l)) with (n' :: l). cbn [sum_list_with]. lia.
  - intros H. change (l !! c = Some n) in H. specialize (IH _ H). change (<[S c := n']> (a :: l)) with (a :: <[c := n']> l).
    cbn [sum_list_with]. lia.
Qed.
Lemma sum_pos {A} (f : A -> nat) (l : list A) c n : l !! c = Some n -> f n <= sum_list_with f l.
Proof. revert c. induction l as [|a l IH]; intros [|c]; cbn; try done; [intros [= ->]; lia|]. intros H%IH. lia. Qed.
Lemma sum_zero {A} (f : A -> nat) (l : list A) : (forall c n, l !! c = Some n -> f n = 0) -> sum_list_with f l = 0.
Proof. induction l as [|a l IH]; cbn; [done|]. intros H. rewrite (H 0 a) by done. rewrite IH; [done|]. intros c n Hc. by apply (H (S c)). Qed.

Fixpoint rsub (rs : list request) : list nat :=
  match rs with
  | [] => []
  | RSubscribe s :: rs' => s :: rsub rs'
  | _ :: rs' => rsub rs'
  end.
Fixpoint psub (os : list pout) : list nat :=
  match os with
  | [] => []
  | OutSub _ s _ :: os' => s :: psub os'
  | OutTopic _ _ :: os' => psub os'
  end.
Definition fr (hp : sheap) (s : nat) : option msg := hp !! s ≫= s_frame.
Definition hdest (hp : sheap) (s : nat) : str := match hp !! s with Some sb => s_dest sb | None => [] end.
Definition cfree (s : nat) (n : sconn) : nat := cnt s (rsub (n_out n)).
Definition chold (s : nat) (n : sconn) : nat := cnt s (n_sub n) + cnt s (k_sublist (n_c n)).
Definition bfree (b : broker) (d : str) (s : nat) : nat := cnt s (ready b d) + cnt s (members b d).
Definition free (y : sys) (s : nat) : nat :=
  sum_list_with (cfree s) (y_conns y) + cnt s (rsub (y_req y)) + bfree (y_broker y) (hdest (y_heap y) s) s.
Definition hold (y : sys) (s : nat) : nat := sum_list_with (chold s) (y_conns y) + cnt s (psub (y_pout y)).

Record tok (y : sys) : Prop := mkTok {
  tk_one : forall s, free y s + hold y s <= 1;
  tk_free : forall s, 0 < free y s -> fr (y_heap y) s = None;
  tk_hold : forall s, 0 < hold y s -> fr (y_heap y) s <> None;
  tk_pout : forall c s m, OutSub c s m ∈ y_pout y -> fr (y_heap y) s = Some m
}.

Lemma rsub_app a b : rsub (a ++ b) = rsub a ++ rsub b.
Proof. induction a as [|[] a IH]; cbn; congruence. Qed.
Lemma elem_rsub s rs : s ∈ rsub rs <-> RSubscribe s ∈ rs.
Proof.
  induction rs as [|r rs IH]; [by rewrite !elem_of_nil|]. destruct r; cbn [rsub]; rewrite !elem_of_cons, IH; intuition congruence.
Qed.
Lemma elem_psub s os : s ∈ psub os <-> exists c m, OutSub c s m ∈ os.
Proof.
  induction os as [|o os IH]; [split; [by intros ?%elem_of_nil|by intros (?&?&?%elem_of_nil)]|]. destruct o as [c0 s0 m0|c0 m0]; cbn [psub].
  - rewrite elem_of_cons, IH. split.
    + intros [->|(c & m & H)]; [exists c0, m0|exists c, m]; rewrite elem_of_cons; auto.
    + intros (c & m & [E|H]%elem_of_cons); [left; congruence|right; eauto].
  - rewrite IH. split; intros (c & m & H); exists c, m; rewrite elem_of_cons in *; [auto|]. by destruct H.
Qed.

Lemma wf_fresh y s : wf y -> y_heap y !! s = None ->
  (forall d, bfree (y_broker y) d s = 0) /\ sum_list_with (cfree s) (y_conns y) = 0 /\ cnt s (rsub (y_req y)) = 0 /\ hold y s = 0.
Proof.
  intros [W1 W2 W3 W4 W5 W6 W7 W8] Hs. split_and!.
  - intros d. unfold bfree. rewrite !cnt_0; [done| |].
    + intros H. destruct (W7 _ _ H) as [_ (sb & E & _)]. congruence.
    + intros H. destruct (W6 _ _ H) as [_ (sb & E & _)]. congruence.
  - apply sum_zero. intros c n Hn. apply cnt_0. intros H%elem_rsub. pose proof (co_out _ _ _ (W3 _ _ Hn)) as Ho.
    rewrite Forall_forall in Ho. destruct (Ho _ H) as (c' & sb & E & _). congruence.
  - apply cnt_0. intros H%elem_rsub. rewrite Forall_forall in W4. destruct (W4 _ H) as (c' & sb & E & _). congruence.
  - unfold hold. rewrite cnt_0, sum_zero; [done| |].
    + intros c n Hn. unfold chold. destruct (W3 _ _ Hn) as [_ _ C3 C4 _ _]. rewrite !cnt_0; [done| |].
      * intros H. destruct (C3 _ H) as [(sb & E & _) _]. congruence.
      * intros H. destruct (C4 _ H) as [(sb & E & _) _]. congruence.
    + intros (c & m & H)%elem_psub. rewrite Forall_forall in W8. destruct (W8 _ H) as [(sb & E & _) _]. congruence.
Qed.
Lemma bfree_dest y d s : wf y -> d <> hdest (y_heap y) s -> bfree (y_broker y) d s = 0.
Proof.
  intros [W1 W2 W3 W4 W5 W6 W7 W8] Hne. unfold bfree, hdest in *. rewrite !cnt_0; [done| |].
  - intros H. destruct (W7 _ _ H) as [_ (sb & E & E')]. rewrite E in Hne. congruence.
  - intros H. destruct (W6 _ _ H) as [_ (sb & E & E')]. rewrite E in Hne. congruence.
Qed.
Lemma hdest_ext hp hp' s : hext hp hp' -> is_Some (hp !! s) -> hdest hp' s = hdest hp s.
Proof. intros Hx [sb Hs]. destruct (Hx _ _ Hs) as (sb' & Hs' & E). injection E as ?. unfold hdest. rewrite Hs, Hs'. congruence. Qed.
Lemma bfree_ext y hp' s : wf y -> hext (y_heap y) hp' -> bfree (y_broker y) (hdest hp' s) s = bfree (y_broker y) (hdest (y_heap y) s) s.
Proof.
  intros HW Hx. destruct (y_heap y !! s) as [sb|] eqn:Hs.
  - by rewrite (hdest_ext _ _ _ Hx) by eauto.
  - destruct (wf_fresh _ _ HW Hs) as [H _]. by rewrite !H.
Qed.

Lemma acks_tok hp l hp' l' rs : acks hp l hp' l' rs -> forall s,
  cnt s l = cnt s l' + cnt s (rsub rs) /\ (s ∈ rsub rs -> fr hp' s = None) /\ (s ∉ rsub rs -> hp' !! s = hp !! s) /\ (fr hp s = None -> fr hp' s = None).
Proof.
  induction 1 as [hp l|hp l hp' l' rs m Hm Ha IH|hp l1 s l2 sb hp' l' rs Hs Ha IH|hp l1 s l2 sb m hp' l' rs Hs Hm Ha IH]; intros t.
  - split_and!; [cbn; lia|by intros H%elem_of_nil|done|done].
  - apply IH.
  - destruct (IH t) as (I1 & I2 & I3 & I4). change (rsub (RSubscribe s :: rs)) with (s :: rsub rs). rewrite cnt_app in *. cbn [cnt].
    assert (t = s -> fr (<[s := set_frame sb None]> hp) t = None) as Hn by (intros ->; unfold fr; by rewrite lookup_insert).
    split_and!.
    + lia.
    + rewrite elem_of_cons. intros [E|E]; auto.
    + rewrite not_elem_of_cons. intros [E1 E2]. rewrite I3 by done. by rewrite lookup_insert_ne.
    + intros Hf. apply I4. destruct (decide (t = s)) as [E|E]; [auto|]. unfold fr in *. by rewrite lookup_insert_ne.
  - destruct (IH t) as (I1 & I2 & I3 & I4). change (rsub (RRequeue m :: RSubscribe s :: rs)) with (s :: rsub rs). rewrite cnt_app in *. cbn [cnt].
    assert (t = s -> fr (<[s := set_frame sb None]> hp) t = None) as Hn by (intros ->; unfold fr; by rewrite lookup_insert).
    split_and!.
    + lia.
    + rewrite elem_of_cons. intros [E|E]; auto.
    + rewrite not_elem_of_cons. intros [E1 E2]. rewrite I3 by done. by rewrite lookup_insert_ne.
    + intros Hf. apply I4. destruct (decide (t = s)) as [E|E]; [auto|]. unfold fr in *. by rewrite lookup_insert_ne.
Qed.

Lemma tok_init : tok sys_init.
Proof.
  assert (forall s, bfree broker_init (hdest ∅ s) s = 0) as Hb.
  { intros s. unfold hdest. by rewrite lookup_empty. }
  split; unfold free, hold; cbn.
  - intros s. rewrite Hb. lia.
  - intros s. rewrite Hb. lia.
  - intros s. lia.
  - intros c s m H. by apply elem_of_nil in H.
Qed.

(** Counting after a change of one connection. *)
Definition lfree (n : sconn) (req : list request) (s : nat) : nat := cfree s n + cnt s (rsub req).
Definition lhold (n : sconn) (os : list pout) (s : nat) : nat := chold s n + cnt s (psub os).
Lemma free_upd y c n n' hp nx uid req pout blog fin lost s : wf y -> y_conns y !! c = Some n -> hext (y_heap y) hp ->
  free (mkSys (<[c := n']> (y_conns y)) hp nx uid req (y_broker y) pout blog fin lost) s + lfree n (y_req y) s =
  free y s + lfree n' req s.
Proof.
  intros HW Hn Hx. unfold free, lfree. cbn [y_conns y_req y_broker y_heap]. rewrite bfree_ext by done. pose proof (sum_upd (cfree s) _ _ _ n' Hn). lia.
Qed.
Lemma hold_upd y c n n' hp nx uid req pout blog fin lost s : y_conns y !! c = Some n ->
  hold (mkSys (<[c := n']> (y_conns y)) hp nx uid req (y_broker y) pout blog fin lost) s + lhold n (y_pout y) s =
  hold y s + lhold n' pout s.
Proof.
  intros Hn. unfold hold, lhold. cbn [y_conns y_pout]. pose proof (sum_upd (chold s) _ _ _ n' Hn). lia.
Qed.
Lemma lfree_le y c n s : y_conns y !! c = Some n -> lfree n (y_req y) s <= free y s.
Proof. intros Hn. unfold lfree, free. pose proof (sum_pos (cfree s) _ _ _ Hn). lia. Qed.
Lemma lhold_le y c n s : y_conns y !! c = Some n -> lhold n (y_pout y) s <= hold y s.
Proof. intros Hn. unfold lhold, hold. pose proof (sum_pos (chold s) _ _ _ Hn). lia. Qed.

Lemma tok_local y c n n' hp nx uid req pout blog fin lost : wf y -> tok y -> y_conns y !! c = Some n -> hext (y_heap y) hp ->
  (forall s, lfree n (y_req y) s + lhold n (y_pout y) s <= 1 -> (0 < lfree n (y_req y) s -> fr (y_heap y) s = None) -> (0 < lhold n (y_pout y) s -> fr (y_heap y) s <> None) ->
    (y_heap y !! s = None -> lfree n (y_req y) s + lhold n (y_pout y) s = 0) ->
    (lfree n' req s + lhold n' pout s <= lfree n (y_req y) s + lhold n (y_pout y) s \/ y_heap y !! s = None /\ lfree n' req s + lhold n' pout s <= 1) /\
    (0 < lfree n' req s -> fr hp s = None) /\ (0 < lhold n' pout s -> fr hp s <> None) /\
    (lfree n (y_req y) s + lhold n (y_pout y) s = 0 -> y_heap y !! s <> None -> fr hp s = fr (y_heap y) s)) ->
  (forall c s m, OutSub c s m ∈ pout -> OutSub c s m ∈ y_pout y) -> (forall s, s ∈ psub (y_pout y) -> chold s n = 0 -> fr hp s = fr (y_heap y) s) ->
  tok (mkSys (<[c := n']> (y_conns y)) hp nx uid req (y_broker y) pout blog fin lost).
Proof.
  intros HW [T1 T2 T3 T4] Hn Hx Hl Hp Hq.
  assert (Hl' : forall s, lfree n (y_req y) s <= free y s /\ lhold n (y_pout y) s <= hold y s /\
    (y_heap y !! s = None -> free y s + hold y s = 0) /\
    (lfree n' req s + lhold n' pout s <= lfree n (y_req y) s + lhold n (y_pout y) s \/ y_heap y !! s = None /\ lfree n' req s + lhold n' pout s <= 1) /\
    (0 < lfree n' req s -> fr hp s = None) /\ (0 < lhold n' pout s -> fr hp s <> None) /\
    (lfree n (y_req y) s + lhold n (y_pout y) s = 0 -> y_heap y !! s <> None -> fr hp s = fr (y_heap y) s)).
  { intros s. pose proof (lfree_le y c n s Hn) as F1. pose proof (lhold_le y c n s Hn) as F2. specialize (T1 s). specialize (T2 s). specialize (T3 s).
    assert (y_heap y !! s = None -> free y s + hold y s = 0) as F3.
    { intros E. destruct (wf_fresh _ _ HW E) as (G1 & G2 & G3 & G4). unfold free. rewrite G1. lia. }
    split_and!; try done; apply Hl; try lia.
    all: try (intros E; specialize (F3 E); lia).
    all: intros E; (apply T2 || apply T3); lia. }
  split.
  - intros s. destruct (Hl' s) as (F1 & F2 & F3 & [F4|[F4 F4']] & _); specialize (T1 s);
      pose proof (free_upd y c n n' hp nx uid req pout blog fin lost s HW Hn Hx); pose proof (hold_upd y c n n' hp nx uid req pout blog fin lost s Hn).
    + lia.
    + specialize (F3 F4). lia.
  - intros s. cbn [y_heap]. destruct (Hl' s) as (F1 & F2 & F3 & F4 & F5 & F6 & F7); specialize (T1 s); specialize (T2 s).
    pose proof (free_upd y c n n' hp nx uid req pout blog fin lost s HW Hn Hx) as F8. intros Hpos.
    destruct (decide (0 < lfree n' req s)); [auto|]. destruct (decide (y_heap y !! s = None)) as [E|E]; [specialize (F3 E); lia|].
    rewrite F7; [apply T2|..]; try done; lia.
  - intros s. cbn [y_heap]. destruct (Hl' s) as (F1 & F2 & F3 & F4 & F5 & F6 & F7); specialize (T1 s); specialize (T3 s).
    pose proof (hold_upd y c n n' hp nx uid req pout blog fin lost s Hn) as F8. intros Hpos.
    destruct (decide (0 < lhold n' pout s)); [auto|]. destruct (decide (y_heap y !! s = None)) as [E|E]; [specialize (F3 E); lia|].
    rewrite F7; [apply T3|..]; try done; lia.
  - cbn [y_heap y_pout]. intros c0 s m Hin. pose proof (Hp _ _ _ Hin) as Hin'. rewrite <-(T4 _ _ _ Hin'). apply Hq.
    + apply elem_psub. eauto.
    + destruct (Hl' s) as (F1 & F2 & _). specialize (T1 s). assert (0 < cnt s (psub (y_pout y))) by (apply cnt_elem, elem_psub; eauto).
      unfold lhold in F2. lia.
Qed.
Lemma taken_fields n1 i o s : cfree s (taken n1 i o) = cnt s (rsub (i_push o)) /\
  chold s (taken n1 i o) = cnt s (n_sub n1) + cnt s (k_sublist (i_c o)).
Proof. unfold cfree, chold, taken. cbn. destruct (i_stop o); done. Qed.
Lemma fr_insert hp s sb t : fr (<[s := sb]> hp) t = if decide (t = s) then s_frame sb else fr hp t.
Proof. unfold fr. destruct (decide (t = s)) as [->|]; [by rewrite lookup_insert|by rewrite lookup_insert_ne]. Qed.

Ltac tok_case :=
  repeat first [ progress cbn [cnt rsub psub set_inlist set_frame s_frame] in *
               | match goal with |- context [decide (?a = ?b)] => destruct (decide (a = b)) end
               | match goal with H : context [decide (?a = ?b)] |- _ => destruct (decide (a = b)) end ];
  subst;
  repeat match goal with E : hdest _ _ = _ |- _ => rewrite E in * end;
  repeat match goal with E : ready _ _ = _ |- _ => rewrite E in * end;
  repeat match goal with E : members _ _ = _ |- _ => rewrite E in * end;
  rewrite ?cnt_app in *;
  repeat first [ progress cbn [cnt rsub psub set_inlist set_frame s_frame] in *
               | match goal with |- context [decide (?a = ?b)] => destruct (decide (a = b)) end
               | match goal with H : context [decide (?a = ?b)] |- _ => destruct (decide (a = b)) end ];
  try congruence;
  split_and!; intros; try lia; try congruence; try (match goal with Hold : _ /\ (_ -> _ = None) |- _ => (destruct Hold as [_ Hold]; (apply Hold || (match goal with Hfs : fr _ _ = s_frame _ |- _ => rewrite <-Hfs; apply Hold end)); lia) end).

(** Serving a request. *)
Lemma tok_serve y r rs b hp outs : wf y -> tok y -> y_pout y = [] -> y_req y = r :: rs -> serve (y_broker y) (y_heap y) r = Fine (b, hp, outs) ->
  forall uid nx blog fin lost, tok (mkSys (y_conns y) hp nx uid rs b outs blog fin lost).
Proof.
  intros HW HT Hpo Hreq Hs uid nx blog fin lost. destruct (serve_ok _ _ _ _ _ _ HW Hreq Hs) as (Hx & Hsame & _). apply serve_cases in Hs.
  destruct HT as [T1 T2 T3 T4].
  assert (Hd : forall s, hdest hp s = hdest (y_heap y) s).
  { intros s. destruct (y_heap y !! s) as [sb|] eqn:E; [by apply hdest_ext; eauto|]. unfold hdest. rewrite E.
    destruct (hp !! s) eqn:E'; [|done]. destruct (Hsame s) as [[? Hc] _]; [by rewrite E'|congruence]. }
  set (A := fun s => cnt s (rsub (r :: rs)) + bfree (y_broker y) (hdest (y_heap y) s) s).
  set (A' := fun s => cnt s (rsub rs) + bfree b (hdest (y_heap y) s) s).
  assert (Hold : forall s, A s <= 1 /\ (0 < A s -> fr (y_heap y) s = None)).
  { intros s. specialize (T1 s). specialize (T2 s). unfold free in *. rewrite Hreq in *. unfold A. split; [lia|]. intros. apply T2. lia. }
  assert (Hkey : (forall s, A' s + cnt s (psub outs) <= A s /\ (0 < A' s -> fr hp s = None) /\ (0 < cnt s (psub outs) -> fr hp s <> None) /\
     (A s = 0 -> fr hp s = fr (y_heap y) s)) /\ (forall c s m, OutSub c s m ∈ outs -> fr hp s = Some m)).
  { clear T1 T2 T3 T4 Hx Hsame Hd. 
    destruct Hs; split; try (by intros ? ? ? ?%elem_of_nil);
      try (intros c0 s0 m0 Hin; apply elem_of_list_singleton in Hin; injection Hin as -> -> ->; by rewrite fr_insert, decide_True).
    10: { 
      assert (s_dest sb = d) as Hd. { destruct (wf_ready _ HW d s) as [_ (sb' & E & <-)]; [rewrite H2; set_solver|]. congruence. }
      intros t; specialize (Hold t); revert Hold; unfold A, A', bfree. destruct H5 as (B1 & B2 & B3). rewrite B2, B3; unfold fupd.
      assert (hdest (y_heap y) s = s_dest sb) as Hds by (unfold hdest; by rewrite H3).
      assert (fr (y_heap y) s = s_frame sb) as Hfs by (unfold fr; by rewrite H3). intros Hold. rewrite fr_insert.
      assert (rsub (r :: rs) = rsub rs) as Hrs by (by destruct H as [-> | ->]). rewrite Hrs in *. subst d. clear A A'. tok_case. }
    10: { assert (psub outs = []) as Hps. { clear -H1. induction H1; [done|]. destruct H as (sb & _ & _ & ->). done. }
      intros t. specialize (Hold t). unfold A, A' in *. rewrite Hps. cbn [rsub] in *. clear A A'. tok_case. }
    10: { intros c s m' Hin. exfalso. clear -H1 Hin. induction H1 as [|s0 o l os (sb & _ & _ & ->)]; [by apply elem_of_nil in Hin|].
      apply elem_of_cons in Hin as [?|?]; [done|auto]. }
    11: { intros t. specialize (Hold t). unfold A, A' in *. assert (rsub (r :: rs) = rsub rs) as Hrs by (by destruct H as (? & [-> | ->])). rewrite Hrs in *.
      clear A A'. tok_case. }
    all: intros t; specialize (Hold t); revert Hold; unfold A, A', bfree.
    all: try match goal with Hb : bis _ _ _ _ |- _ => destruct Hb as (B1 & B2 & B3) end.
    all: try rewrite B2, B3; unfold fupd.
    all: try match goal with H : y_heap ?yy !! ?s = Some ?sb |- _ => 
       assert (hdest (y_heap yy) s = s_dest sb) as Hds by (unfold hdest; by rewrite H);
       assert (fr (y_heap yy) s = s_frame sb) as Hfs by (unfold fr; by rewrite H) end.
    all: clear A A'; intros Hold; rewrite ?fr_insert; tok_case. }
  destruct Hkey as [K1 K2]. split; cbn [y_heap y_pout]; [..|done]; intros s; unfold free, hold; cbn [y_conns y_req y_broker y_pout y_heap]; rewrite ?Hd;
    destruct (K1 s) as (K3 & K4 & K5 & K6); destruct (Hold s) as [O1 O2]; specialize (T1 s); specialize (T2 s); specialize (T3 s);
    unfold free, hold in T1, T2, T3; rewrite Hpo, Hreq in *; change (cnt s (psub [])) with 0 in *; subst A A'; cbn beta in *.
  - lia.
  - intros Hp. destruct (decide (0 < cnt s (rsub rs) + bfree b (hdest (y_heap y) s) s)); [auto|]. rewrite K6; [apply T2|]; lia.
  - intros Hp. destruct (decide (0 < cnt s (psub outs))); [auto|]. rewrite K6; [apply T3|]; lia.
Qed.

Lemma tok_move cfg y y' : wf y -> tok y -> move cfg y y' -> tok y'.
Proof.
  intros HW HT Hm. pose proof (move_hext _ _ _ HW Hm) as Hx. pose proof HW as [W1 W2 W3 W4 W5 W6 W7 W8].
  destruct Hm; cbn [y_heap] in Hx.
  - destruct HT as [T1 T2 T3 T4]. split; cbn [y_heap y_pout]; try done; intros s; specialize (T1 s); specialize (T2 s); specialize (T3 s); unfold free, hold in *; cbn [y_conns y_req y_broker y_pout y_heap];
      rewrite ?sum_list_with_app; cbn [sum_list_with]; change (cfree s sconn_init) with 0; change (chold s sconn_init) with 0; rewrite ?Nat.add_0_r; auto.
  - eapply tok_local; try done. intros s. unfold lfree, lhold, cfree, chold. cbn. intros. split_and!; [left; lia|done|done|done].
  - eapply tok_local; try done. intros s. unfold lfree, lhold, cfree, chold. cbn. intros. split_and!; [left; lia|done|done|done].
  - destruct (take_input_cases _ _ _ _ H2) as (I1 & I2 & I3 & I4 & I5 & I6).
    assert (shape c (n_c n) (y_heap y) (y_next y) i o) as Hsh by (eapply conn_iter_shape; [apply (W3 _ _ H)|done]).
    assert (Hlf : forall s, lfree n (y_req y) s = cnt s (rsub (y_req y))) by (intros s; unfold lfree, cfree; by rewrite H1).
    assert (Hlf' : forall s, lfree (taken n1 i o) (y_req y) s = cnt s (rsub (i_push o)) + cnt s (rsub (y_req y))).
    { intros s. unfold lfree. by destruct (taken_fields n1 i o s) as [-> _]. }
    assert (Hlh' : forall s, lhold (taken n1 i o) (y_pout y) s = cnt s (n_sub n1) + cnt s (k_sublist (i_c o)) + cnt s (psub (y_pout y))).
    { intros s. unfold lhold. by destruct (taken_fields n1 i o s) as [_ ->]. }
    assert (Hlh : forall s, lhold n (y_pout y) s = (match i with InSub t => if decide (t = s) then 1 else 0 | _ => 0 end) + cnt s (n_sub n1) + cnt s (k_sublist (n_c n)) + cnt s (psub (y_pout y))).
    { intros s. unfold lhold, chold. destruct i; cbn [cnt].
      - by destruct I6 as (_ & _ & ->).
      - by destruct I6 as (-> & _).
      - by destruct I6 as (_ & _ & ->).
      - by destruct I6 as (-> & _).
      - by rewrite I6. }
    assert (Hch : forall s, chold s n + cnt s (psub (y_pout y)) = lhold n (y_pout y) s) by done.
    eapply tok_local; try done.
    + intros s. rewrite Hlf, Hlf', Hlh, Hlh'. intros J1 J2 J3 J4. destruct Hsh.
      * destruct (acks_tok _ _ _ _ _ H5 s) as (A1 & A2 & A3 & A4). assert (match i with InSub t => if decide (t = s) then 1 else 0 | _ => 0 end = 0) as E0 by (destruct i; try done; by specialize (H4 s0)).
        rewrite E0 in *. split_and!; [left; lia| | |].
        -- intros Hp. destruct (decide (0 < cnt s (rsub (i_push o)))) as [Hq|Hq]; [by apply A2, cnt_elem|]. apply A4. apply J2. lia.
        -- intros Hp. assert (cnt s (rsub (i_push o)) = 0) as Hz.
           { destruct (decide (cnt s (rsub (i_push o)) = 0)); [done|]. lia. }
           unfold fr. rewrite A3; [apply J3; lia|]. rewrite <-cnt_elem. lia.
        -- intros Hp _. unfold fr. rewrite A3; [done|]. rewrite <-cnt_elem. lia.
      * rewrite H8, H5, H4. cbn [rsub cnt]. split_and!; [left; lia|intros; apply J2; lia|intros; apply J3; lia|done].
      * rewrite H10, H7, H6, fr_insert. cbn [rsub cnt]. assert (y_heap y !! y_next y = None) as Hfre.
        { destruct (y_heap y !! y_next y) eqn:E; [|done]. apply W1 in E. lia. }
        destruct (decide (y_next y = s)) as [<-|Hne].
        -- specialize (J4 Hfre). rewrite decide_True by done. split_and!; [right; split; [done|lia]|done|lia|done].
        -- rewrite decide_False by done. split_and!; [left; lia|intros; apply J2; lia|intros; apply J3; lia|done].
      * rewrite H10, H7, H6. cbn [rsub cnt]. split_and!; [left; lia|intros; apply J2; lia|intros; apply J3; lia|done].
      * rewrite H9, H7, H6. cbn [rsub cnt]. split_and!; [left; lia|intros; apply J2; lia|intros; apply J3; lia|done].
      * rewrite H10, H7, H6, fr_insert. cbn [rsub cnt set_last k_sublist set_frame s_frame]. split_and!; [left; lia| | |].
        -- intros. destruct (decide (s = s0)) as [->|]; [|apply J2; lia]. rewrite decide_True in J1 by done. lia.
        -- intros. destruct (decide (s = s0)) as [->|]; [done|apply J3; lia].
        -- intros. destruct (decide (s = s0)) as [->|]; [|done]. rewrite decide_True in * by done. lia.
      * rewrite H11, H7, H6, fr_insert. cbn [rsub cnt set_last k_sublist set_frame s_frame]. split_and!; [left; lia| | |].
        -- intros. destruct (decide (s = s0)) as [->|]; [done|]. rewrite decide_False in * by congruence. apply J2; lia.
        -- intros. destruct (decide (s = s0)) as [->|]; [rewrite decide_True in * by done; lia|]. apply J3; lia.
        -- intros. destruct (decide (s = s0)) as [->|]; [|done]. rewrite decide_True in * by done. lia.
      * rewrite H12, H7, H6, fr_insert. cbn [rsub cnt set_last set_sublist k_sublist set_frame set_inlist s_frame]. rewrite cnt_app. cbn [cnt]. split_and!; [left; lia| | |].
        -- intros. destruct (decide (s = s0)) as [->|]; [rewrite decide_True in * by done; lia|]. apply J2; lia.
        -- intros. destruct (decide (s = s0)) as [->|]; [done|apply J3]. rewrite decide_False in * by congruence. lia.
        -- intros. destruct (decide (s = s0)) as [->|]; [|done]. rewrite decide_True in * by done. lia.
    + intros s Hin Hch0. apply cnt_elem in Hin. specialize (Hlh s). rewrite <-Hch, Hch0 in Hlh. destruct Hsh.
      * destruct (acks_tok _ _ _ _ _ H5 s) as (A1 & A2 & A3 & A4). unfold fr. rewrite A3; [done|]. rewrite <-cnt_elem. lia.
      * by rewrite H4.
      * rewrite H6, fr_insert. destruct (decide (s = y_next y)) as [->|]; [|done]. exfalso. apply cnt_elem, elem_psub in Hin as (c0 & m0 & Hin).
        rewrite Forall_forall in W8. destruct (W8 _ Hin) as [(sb & E & _) _]. apply W1 in E. lia.
      * by rewrite H6.
      * by rewrite H6.
      * rewrite H6, fr_insert. destruct (decide (s = s0)) as [->|]; [rewrite decide_True in * by done; lia|done].
      * rewrite H6, fr_insert. destruct (decide (s = s0)) as [->|]; [rewrite decide_True in * by done; lia|done].
      * rewrite H6, fr_insert. destruct (decide (s = s0)) as [->|]; [rewrite decide_True in * by done; lia|done].
  - eapply tok_local; try done. intros s. unfold lfree, lhold, cfree, chold. rewrite H0, rsub_app, cnt_app. cbn [with_out n_out n_sub n_c].
    assert (cnt s (rsub (r :: rs)) = cnt s (rsub [r]) + cnt s (rsub rs)) as -> by (destruct r; cbn [rsub cnt]; lia).
    intros. split_and!; [left; lia|intros; apply H3; lia|done|done].
  - assert (Hmain : forall s, lfree n' (y_req y) s = lfree n (y_req y) s /\ lhold n' (y_pout y) s <= lhold n (y_pout y) s /\ fr hp' s = fr (y_heap y) s).
    { intros s. destruct H3; unfold lfree, lhold, cfree, chold; rewrite ?H0; cbn [with_out with_phase with_write with_sub_ch with_c n_out n_sub n_c rsub cnt k_sublist set_sublist set_subs].
      - rewrite H0. split_and!; (done || lia).
      - rewrite H0. split_and!; (done || lia).
      - split_and!; (done || lia).
      - rewrite H4. cbn [cnt]. split_and!; [done|lia|]. rewrite fr_insert. destruct (decide (s = s0)) as [->|]; [|done]. unfold fr. by rewrite H5.
      - rewrite H4. cbn [cnt]. split_and!; (done || lia).
      - split_and!; (done || lia). }
    eapply tok_local; try done.
    + intros s. destruct (Hmain s) as (M1 & M2 & M3). rewrite M1, M3. intros. split_and!; [left; lia|done|intros; apply H6; lia|done].
    + intros. apply Hmain.
  - by eapply tok_serve.
  - eapply tok_local; try done.
    + intros s0. unfold lfree, lhold, cfree, chold. rewrite H. cbn [with_sub_ch n_out n_sub n_c psub cnt]. rewrite cnt_app. cbn [cnt].
      intros. split_and!; [left; lia|done|intros; apply H4; lia|done].
    + intros c0 s0 m0 Hin. rewrite H. apply elem_of_cons. auto.
  - eapply tok_local; try done.
    + intros s0. unfold lfree, lhold, cfree, chold. rewrite H. cbn [with_write n_out n_sub n_c psub cnt].
      intros. split_and!; [left; lia|done|done|done].
    + intros c0 s0 m0 Hin. rewrite H. apply elem_of_cons. auto.
Qed.
Lemma reach_tok cfg y : reach cfg y -> tok y.
Proof. revert y. apply reach_ind'; [apply tok_init|]. intros y y' Hr H. apply tok_move; [by eapply reach_wf|done]. Qed.
