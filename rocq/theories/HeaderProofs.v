(** The flat-slice header refines the list of entries. *)
From Verif Require Import GoBase HeaderModel FrameModel GrammarSpec GoBaseProofs HeaderSpec.

Lemma hflat_app a b : hflat (a ++ b) = hflat a ++ hflat b.
Proof. induction a as [|[k v] t IH]; simpl; [done|]. by rewrite IH. Qed.
Lemma hflat_length h : length (hflat h) = 2 * length h.
Proof. induction h as [|[k v] t IH]; simpl; lia. Qed.
Lemma habs_hflat h : habs (hflat h) = h.
Proof. induction h as [|[k v] t IH]; simpl; [done|]. by rewrite IH. Qed.

Lemma list_ind2 {A} (P : list A -> Prop) :
  P [] -> (forall x, P [x]) -> (forall x y l, P l -> P (x :: y :: l)) -> forall l, P l.
Proof.
  intros H0 H1 H2 l. enough (P l /\ forall x, P (x :: l)) as [? _] by done.
  induction l as [|a l [IH1 IH2]]; split; auto.
Qed.

Lemma hnew_flat l : hnew l = hflat (entries_of l).
Proof.
  unfold hnew. induction l as [|x|x y l IH] using list_ind2; [done|done|].
  cbn [entries_of hflat length]. rewrite <- IH.
  replace (S (S (length l)) mod 2) with (length l mod 2).
  2:{ replace (S (S (length l))) with (length l + 1 * 2) by lia.
      rewrite Nat.mod_add; lia. }
  by case_decide.
Qed.

(* first_entry / no_entry vs hd_contains *)
Lemma no_entry_nil k : no_entry [] k.
Proof. intros v. apply not_elem_of_nil. Qed.
Lemma no_entry_cons k k' v' h : no_entry ((k', v') :: h) k <-> k' <> k /\ no_entry h k.
Proof.
  unfold no_entry. split.
  - intros H. split.
    + intros ->. eapply H. left.
    + intros v Hv. eapply H. right; done.
  - intros [H1 H2] v Hv. apply elem_of_cons in Hv as [Hv|Hv]; [by simplify_eq|]. by eapply H2.
Qed.
Lemma no_entry_app k a b : no_entry (a ++ b) k <-> no_entry a k /\ no_entry b k.
Proof.
  unfold no_entry. split.
  - intros H. split; intros v Hv; apply (H v); apply elem_of_app; auto.
  - intros [H1 H2] v Hv. apply elem_of_app in Hv as [Hv|Hv]; [by eapply H1|by eapply H2].
Qed.
Lemma hd_contains_None h k : hd_contains h k = None <-> no_entry h k.
Proof.
  induction h as [|[k' v'] h IH]; simpl.
  - split; [intros _; apply no_entry_nil|done].
  - rewrite no_entry_cons. case_decide; subst; [split; [done|intros [? _]; done]|].
    rewrite IH. naive_solver.
Qed.
Lemma first_entry_cons h k v k' v' :
  first_entry ((k', v') :: h) k v <-> (k' = k /\ v' = v) \/ (k' <> k /\ first_entry h k v).
Proof.
  unfold first_entry. split.
  - intros (h1 & h2 & He & Hn). destruct h1 as [|e h1]; simplify_eq/=; [by left|].
    right. apply no_entry_cons in Hn as [Hk Hn]. split; [done|]. eauto.
  - intros [[-> ->]|[Hk (h1 & h2 & -> & Hn)]].
    + exists [], h. split; [done|]. apply no_entry_nil.
    + exists ((k', v') :: h1), h2. split; [done|]. by apply no_entry_cons.
Qed.
Lemma hd_contains_Some h k v : hd_contains h k = Some v <-> first_entry h k v.
Proof.
  induction h as [|[k' v'] h IH]; simpl.
  - split; [done|]. intros (h1 & h2 & H & _). by destruct h1.
  - rewrite first_entry_cons. case_decide; subst; naive_solver.
Qed.
Lemma first_entry_fun h k v w : first_entry h k v -> first_entry h k w -> v = w.
Proof. rewrite <- !hd_contains_Some. congruence. Qed.
Lemma entry_dec h k : no_entry h k \/ exists v, first_entry h k v.
Proof.
  destruct (hd_contains h k) as [v|] eqn:He.
  - right. exists v. by apply hd_contains_Some.
  - left. by apply hd_contains_None.
Qed.

(* abstract operations satisfy the spec *)
Lemma hd_set_new h k v : no_entry h k -> hd_set h k v = h ++ [(k, v)].
Proof.
  induction h as [|[k' v'] h IH]; simpl; [done|]. rewrite no_entry_cons. intros [H1 H2].
  case_decide; [done|]. by rewrite IH.
Qed.
Lemma hd_set_old h1 h2 k v v0 : no_entry h1 k -> hd_set (h1 ++ (k, v0) :: h2) k v = h1 ++ (k, v) :: h2.
Proof.
  induction h1 as [|[k' v'] h1 IH]; simpl.
  - intros _. by case_decide.
  - rewrite no_entry_cons. intros [H1 H2]. case_decide; [done|]. by rewrite IH.
Qed.
Lemma hd_set_spec h k v : hop_spec h (OpSet k v) (hd_set h k v).
Proof.
  destruct (entry_dec h k) as [Hn|[v0 (h1 & h2 & -> & Hn)]].
  - rewrite hd_set_new by done. by constructor.
  - rewrite hd_set_old by done. by econstructor.
Qed.
Lemma hd_del_filter h k : hd_del h k = filter (fun e => fst e <> k) h.
Proof.
  induction h as [|[k' v'] h IH]; [done|]. cbn [hd_del].
  rewrite filter_cons. cbn [fst]. destruct (decide (k' = k)); destruct (decide (k' <> k)); try done.
  by rewrite IH.
Qed.
Lemma hd_get_all_filter h k : hd_get_all h k = snd <$> filter (fun e => fst e = k) h.
Proof.
  induction h as [|[k' v'] h IH]; [done|]. cbn [hd_get_all].
  rewrite filter_cons. cbn [fst]. case_decide; cbn; by rewrite IH.
Qed.

(* flat operations *)
Lemma hindex_from_flat_None h k i : no_entry h k -> hindex_from k (hflat h) i = None.
Proof.
  revert i. induction h as [|[k' v'] h IH]; intros i; simpl; [done|].
  rewrite no_entry_cons. intros [H1 H2]. case_decide; [done|]. by apply IH.
Qed.
Lemma hindex_from_flat_Some h1 h2 k v i : no_entry h1 k ->
  hindex_from k (hflat (h1 ++ (k, v) :: h2)) i = Some (i + 2 * length h1).
Proof.
  revert i. induction h1 as [|[k' v'] h1 IH]; intros i; simpl.
  - intros _. case_decide; [|done]. f_equal. lia.
  - rewrite no_entry_cons. intros [H1 H2]. case_decide; [done|]. rewrite IH by done. f_equal. lia.
Qed.
Lemma hcontains_flat h k : hcontains (hflat h) k = Some (hd_contains h k).
Proof.
  unfold hcontains, hindex. destruct (entry_dec h k) as [Hn|[v Hf]].
  - rewrite hindex_from_flat_None by done. f_equal. symmetry. by apply hd_contains_None.
  - pose proof Hf as Hc. apply hd_contains_Some in Hc. rewrite Hc.
    destruct Hf as (h1 & h2 & -> & Hn). rewrite hindex_from_flat_Some by done.
    rewrite hflat_app. rewrite lookup_app_r; rewrite hflat_length; [|lia].
    replace (0 + 2 * length h1 + 1 - 2 * length h1) with 1 by lia. done.
Qed.
Lemma hget_at_flat h i : hget_at (hflat h) i = h !! i.
Proof.
  unfold hget_at. revert i. induction h as [|[k v] h IH]; intros i.
  - destruct i; simpl; [done|]. by rewrite ?lookup_nil.
  - destruct i as [|i]; [done|]. cbn [hflat].
    replace (2 * S i) with (S (S (2 * i))) by lia.
    replace (S (S (2 * i)) + 1) with (S (S (2 * i + 1))) by lia.
    cbn [lookup list_lookup]. apply IH.
Qed.
Lemma hadd_header_loop_flat h1 h2 h s :
  hadd_header_loop (length h2) (length h1) (hflat s) (hflat h) =
  match decide (h = h1 ++ h2) with left _ => Some (hflat (s ++ h2)) | right _ => hadd_header_loop (length h2) (length h1) (hflat s) (hflat h) end.
Proof.
  case_decide as H; [|done]. revert h1 s H. induction h2 as [|[k v] h2 IH]; intros h1 s ->.
  - simpl. by rewrite app_nil_r.
  - cbn [length hadd_header_loop]. rewrite hget_at_flat.
    rewrite lookup_app_r by lia. rewrite Nat.sub_diag. simpl.
    unfold hadd. replace (hflat s ++ [k; v]) with (hflat (s ++ [(k, v)])) by (by rewrite hflat_app).
    replace (S (length h1)) with (length (h1 ++ [(k, v)])) by (rewrite app_length; simpl; lia).
    rewrite (IH (h1 ++ [(k, v)])) by (by rewrite <- app_assoc). by rewrite <- app_assoc.
Qed.
Lemma hadd_header_flat s h : hadd_header (hflat s) (hflat h) = Some (hflat (s ++ h)).
Proof.
  unfold hadd_header, hlen. rewrite hflat_length.
  replace (2 * length h / 2) with (length h) by (rewrite Nat.mul_comm, Nat.div_mul; lia).
  pose proof (hadd_header_loop_flat [] h h s) as H. simpl in H. rewrite H. by case_decide.
Qed.
Lemma hset_flat h k v : hset (hflat h) k v = Some (hflat (hd_set h k v)).
Proof.
  unfold hset, hindex. destruct (entry_dec h k) as [Hn|[v0 (h1 & h2 & -> & Hn)]].
  - rewrite hindex_from_flat_None by done. rewrite hd_set_new by done. by rewrite hflat_app.
  - rewrite hindex_from_flat_Some by done. rewrite hd_set_old by done.
    case_decide as Hl.
    2:{ exfalso. apply Hl. rewrite hflat_length, app_length. simpl. lia. }
    f_equal. rewrite !hflat_app. rewrite insert_app_r_alt by (rewrite hflat_length; lia).
    rewrite hflat_length. replace (0 + 2 * length h1 + 1 - 2 * length h1) with 1 by lia. done.
Qed.
Lemma hd_del_none h k : no_entry h k -> hd_del h k = h.
Proof.
  induction h as [|[k' v'] h IH]; simpl; [done|]. rewrite no_entry_cons. intros [? ?].
  case_decide; [done|]. by rewrite IH.
Qed.
Lemma hd_del_app a b k : hd_del (a ++ b) k = hd_del a k ++ hd_del b k.
Proof. induction a as [|[k' v'] a IH]; simpl; [done|]. case_decide; simpl; by rewrite IH. Qed.
Lemma hdel_loop_flat fuel h k : length h < fuel -> hdel_loop fuel (hflat h) k = Some (hflat (hd_del h k)).
Proof.
  revert h. induction fuel as [|n IH]; intros h Hl; [lia|]. cbn [hdel_loop]. unfold hindex.
  destruct (entry_dec h k) as [Hn|[v0 (h1 & h2 & -> & Hn)]].
  - rewrite hindex_from_flat_None by done. by rewrite hd_del_none.
  - rewrite hindex_from_flat_Some by done. rewrite app_length in Hl. simpl in Hl.
    case_decide as Hx.
    2:{ exfalso. apply Hx. rewrite hflat_length, app_length. simpl. lia. }
    replace (take (0 + 2 * length h1) (hflat (h1 ++ (k, v0) :: h2))) with (hflat h1).
    2:{ rewrite hflat_app. rewrite take_app_alt; [done|]. rewrite hflat_length. lia. }
    replace (drop (0 + 2 * length h1 + 2) (hflat (h1 ++ (k, v0) :: h2))) with (hflat h2).
    2:{ rewrite hflat_app. cbn [hflat]. rewrite <- drop_drop. rewrite drop_app_alt; [done|].
        rewrite hflat_length. lia. }
    rewrite <- hflat_app. rewrite IH by (rewrite app_length; lia).
    f_equal. f_equal. rewrite !hd_del_app. simpl. by case_decide.
Qed.
Lemma hdel_flat h k : hdel (hflat h) k = Some (hflat (hd_del h k)).
Proof. apply hdel_loop_flat. rewrite hflat_length. lia. Qed.
Lemma hget_all_flat h k : hget_all (hflat h) k = Some (hd_get_all h k).
Proof.
  induction h as [|[k' v'] h IH]; simpl; [done|]. rewrite IH. by case_decide.
Qed.
Lemma hcontent_length_flat h : hcontent_length (hflat h) = Some (hd_content_length h).
Proof.
  unfold hcontent_length, hd_content_length. rewrite hcontains_flat.
  by destruct (hd_contains h h_content_length).
Qed.

Definition hd_run_hop (h : header) (o : hop) : header :=
  match o with
  | OpAdd k v => hd_add h k v
  | OpAddHeader l => h ++ entries_of l
  | OpSet k v => hd_set h k v
  | OpDel k => hd_del h k
  | OpClone => h
  end.
Lemma hd_run_hop_spec h o : hop_spec h o (hd_run_hop h o).
Proof.
  destruct o; simpl; try by constructor.
  - apply hd_set_spec.
  - rewrite hd_del_filter. constructor.
Qed.
Lemma run_hop_flat h o : run_hop (hflat h) o = Some (hflat (hd_run_hop h o)).
Proof.
  destruct o; simpl.
  - unfold hadd, hd_add. by rewrite hflat_app.
  - rewrite hnew_flat. apply hadd_header_flat.
  - apply hset_flat.
  - apply hdel_flat.
  - done.
Qed.
Lemma hop_spec_fun h o h1 h2 : hop_spec h o h1 -> hop_spec h o h2 -> h1 = h2.
Proof.
  enough (forall h', hop_spec h o h' -> h' = hd_run_hop h o) as Hx.
  { intros ?%Hx ?%Hx. congruence. }
  intros h' Hs. inversion Hs as [| |k v Hn|k v v0 a b Hh Hn| |]; subst; simpl; try done.
  - by rewrite hd_set_new.
  - by rewrite hd_set_old.
  - by rewrite hd_del_filter.
Qed.

Lemma flat_observes h : observes (hflat h) h.
Proof.
  split.
  - unfold hlen. rewrite hflat_length, Nat.mul_comm, Nat.div_mul; lia.
  - intros i. apply hget_at_flat.
  - intros k v. rewrite hcontains_flat. rewrite <- hd_contains_Some. split; congruence.
  - intros k. rewrite hcontains_flat. rewrite <- hd_contains_None. split; congruence.
  - intros k. by rewrite hcontains_flat.
  - intros k v Hf. unfold hget. rewrite hcontains_flat. apply hd_contains_Some in Hf. by rewrite Hf.
  - intros k Hf. unfold hget. rewrite hcontains_flat. apply hd_contains_None in Hf. by rewrite Hf.
  - intros k. rewrite hget_all_flat. by rewrite hd_get_all_filter.
  - intros t Hf. rewrite hcontent_length_flat. unfold hd_content_length.
    apply hd_contains_Some in Hf. rewrite Hf. split.
    + intros n Hd Hn. rewrite (proj2 (parse_uint_iff 32 t n)) by done. done.
    + intros Hno. destruct (parse_uint 32 t) as [n|] eqn:Hp; [|done].
      apply parse_uint_iff in Hp as [Hd Hn]. by destruct (Hno n Hd).
  - intros Hn. rewrite hcontent_length_flat. unfold hd_content_length.
    apply hd_contains_None in Hn. by rewrite Hn.
Qed.

Lemma run_hops_refines h ops :
  exists s' h', run_hops (hflat h) ops = Some s' /\ hops_spec h ops h' /\ observes s' h'.
Proof.
  revert h. induction ops as [|o ops IH]; intros h.
  - exists (hflat h), h. split; [done|]. split; [constructor|apply flat_observes].
  - destruct (IH (hd_run_hop h o)) as (s' & h' & Hr & Hs & Ho).
    exists s', h'. simpl. rewrite run_hop_flat. split; [done|]. split; [|done].
    econstructor; [apply hd_run_hop_spec|done].
Qed.

(* ---- more facts about the abstract header used later ---- *)
Lemma hd_contains_add_other h k v k' : k' <> k -> hd_contains (hd_add h k v) k' = hd_contains h k'.
Proof.
  intros Hk. unfold hd_add. induction h as [|[a b] h IH]; simpl.
  - by case_decide.
  - case_decide; [done|]. apply IH.
Qed.
Lemma hd_contains_app h g k :
  hd_contains (h ++ g) k = match hd_contains h k with Some v => Some v | None => hd_contains g k end.
Proof. induction h as [|[a b] h IH]; simpl; [done|]. by case_decide. Qed.
Lemma hd_contains_set_same h k v : hd_contains (hd_set h k v) k = Some v.
Proof.
  induction h as [|[a b] h IH]; simpl.
  - by case_decide.
  - case_decide; subst; simpl; [by case_decide|]. by case_decide.
Qed.
Lemma hd_contains_set_other h k v k' : k' <> k -> hd_contains (hd_set h k v) k' = hd_contains h k'.
Proof.
  intros Hk. induction h as [|[a b] h IH]; simpl.
  - by case_decide.
  - destruct (decide (a = k)) as [->|]; simpl; destruct (decide (_ = k')); try done.
Qed.
Lemma hd_contains_del_same h k : hd_contains (hd_del h k) k = None.
Proof.
  induction h as [|[a b] h IH]; simpl; [done|]. case_decide; [done|]. simpl. by case_decide.
Qed.
Lemma hd_contains_del_other h k k' : k' <> k -> hd_contains (hd_del h k) k' = hd_contains h k'.
Proof.
  intros Hk. induction h as [|[a b] h IH]; simpl; [done|].
  destruct (decide (a = k)) as [->|]; simpl; [by rewrite decide_False|]. by case_decide.
Qed.
Lemma hd_set_keys h k v e : e ∈ hd_set h k v -> e = (k, v) \/ e ∈ h.
Proof.
  induction h as [|[a b] h IH]; simpl.
  - intros H%elem_of_list_singleton. by left.
  - case_decide; subst; rewrite !elem_of_cons; naive_solver.
Qed.
Lemma hd_del_keys h k e : e ∈ hd_del h k -> e ∈ h.
Proof. rewrite hd_del_filter. rewrite elem_of_list_filter. naive_solver. Qed.
