From Verif Require Import GoBase HeaderModel FrameModel GrammarSpec GoBaseProofs HeaderProofs CodecProofs
  NegotiationModel NegotiationProofs NegotiationLemmas ClientApiModel ClientApiSpec.
From Coq Require Import ZifyBool ZifyNat ZifyN.

(* ---------- C19 ---------- *)
Lemma alloc_inv k a : alloc_run k a -> (N.of_nat k < 2 ^ 64)%N ->
  al_last a = N.of_nat k /\
  exists ns, snd <$> al_returned a = format_uint <$> ns /\ NoDup (ns ++ (snd <$> al_pending a)) /\
    Forall (fun n => 1 <= n <= N.of_nat k)%N (ns ++ (snd <$> al_pending a)).
Proof.
  intros Hr. induction Hr as [|k g a Hr IH|k g n p1 p2 a Hr IH Hp]; intros Hk.
  - split; [done|]. exists []. simpl. split; [done|]. split; constructor.
  - destruct IH as (Hl & ns & Hret & Hnd & Hall); [lia|]. simpl.
    assert (next_id (al_last a) = N.of_nat (S k)) as Hn.
    { unfold next_id. rewrite Hl. rewrite N.mod_small by lia. lia. }
    split; [done|]. exists ns. split; [done|]. rewrite Hn. split.
    + rewrite <- Permutation_middle. constructor; [|done].
      intros Hin. rewrite Forall_forall in Hall. apply Hall in Hin. lia.
    + rewrite <- Permutation_middle. constructor; [lia|].
      eapply List.Forall_impl; [|exact Hall]. simpl. intros. lia.
  - destruct (IH Hk) as (Hl & ns & Hret & Hnd & Hall). simpl. split; [done|].
    exists (n :: ns). rewrite Hp in Hnd, Hall. rewrite !fmap_app in *. simpl in *.
    split; [by f_equal|].
    assert (ns ++ (snd <$> p1) ++ n :: (snd <$> p2) ≡ₚ n :: ns ++ (snd <$> p1) ++ (snd <$> p2)) as Hperm.
    { rewrite <- Permutation_middle. by rewrite <- Permutation_middle. }
    rewrite Hperm in Hnd, Hall. done.
Qed.
Lemma alloc_unique k a : alloc_run k a -> (N.of_nat k < 2 ^ 64)%N -> NoDup (snd <$> al_returned a).
Proof.
  intros Hr Hk. destruct (alloc_inv _ _ Hr Hk) as (_ & ns & -> & Hnd & _).
  apply NoDup_app in Hnd as (Hnd & _ & _). apply NoDup_fmap_2; [|done].
  intros x y. apply format_uint_inj.
Qed.

(* ---------- SEND frames ---------- *)
Definition keeps_key (k : str) (o : sopt) : Prop :=
  match o with
  | SoReceipt => k <> h_receipt
  | SoNoContentLength => k <> h_content_length
  | _ => True
  end.
Lemma apply_sopts_total os last f : f_cmd f = SEND ->
  exists l f', apply_sopts last f os = Some (l, f') /\ f_cmd f' = SEND /\ f_body f' = f_body f.
Proof.
  revert last f. induction os as [|o os IH]; intros last f Hc; simpl; [eauto|].
  destruct o; simpl.
  - by apply IH.
  - rewrite decide_True by done. destruct (IH (next_id last) (mkFrame (f_cmd f) (hd_set (f_hdr f) h_receipt (format_uint (next_id last))) (f_body f)) Hc) as (l & f' & ? & ? & ?). eauto.
  - rewrite decide_True by done. destruct (IH last (mkFrame (f_cmd f) (hd_del (f_hdr f) h_content_length) (f_body f)) Hc) as (l & f' & ? & ? & ?). eauto.
  - rewrite decide_True by done. destruct (IH last (mkFrame (f_cmd f) (hd_add (f_hdr f) k v) (f_body f)) Hc) as (l & f' & ? & ? & ?). eauto.
Qed.
Lemma apply_sopts_keeps os last f l f' k v : apply_sopts last f os = Some (l, f') ->
  hd_contains (f_hdr f) k = Some v -> Forall (keeps_key k) os -> hd_contains (f_hdr f') k = Some v.
Proof.
  revert last f. induction os as [|o os IH]; intros last f; simpl; [by intros [= <- <-]|].
  destruct (apply_sopt last f o) as [[l1 f1]|] eqn:Ho; [|done].
  intros H Hk Hf. inversion_clear Hf as [|? ? Hk1 Hf1]. apply (IH _ _ H); [|done].
  destruct o; simpl in Ho, Hk1.
  - by simplify_eq.
  - case_decide; [|done]. simplify_eq. cbn [f_hdr]. by rewrite hd_contains_set_other.
  - case_decide; [|done]. simplify_eq. cbn [f_hdr]. by rewrite hd_contains_del_other.
  - case_decide; [|done]. simplify_eq. cbn [f_hdr]. unfold hd_add. rewrite hd_contains_app. by rewrite Hk.
Qed.
Lemma apply_sopts_none os last f l f' k : apply_sopts last f os = Some (l, f') ->
  hd_contains (f_hdr f) k = None -> k <> h_receipt -> (forall v, SoHeader k v ∉ os) -> hd_contains (f_hdr f') k = None.
Proof.
  revert last f. induction os as [|o os IH]; intros last f; simpl; [by intros [= <- <-]|].
  destruct (apply_sopt last f o) as [[l1 f1]|] eqn:Ho; [|done].
  intros H Hk Hr Hf. apply (IH _ _ H); [|done|].
  2:{ intros v Hv. apply (Hf v). by right. }
  destruct o as [| | |k' v']; simpl in Ho.
  - by simplify_eq.
  - case_decide; [|done]. simplify_eq. cbn [f_hdr]. by rewrite hd_contains_set_other.
  - case_decide; [|done]. simplify_eq. cbn [f_hdr].
    destruct (decide (k = h_content_length)) as [->|]; [by rewrite hd_contains_del_same|by rewrite hd_contains_del_other].
  - case_decide; [|done]. simplify_eq. cbn [f_hdr].
    rewrite hd_contains_add_other; [done|]. intros <-. apply (Hf v'). left.
Qed.
Lemma apply_sopts_deleted os last f l f' : apply_sopts last f os = Some (l, f') ->
  SoNoContentLength ∈ os -> (forall v, SoHeader h_content_length v ∉ os) ->
  hd_contains (f_hdr f') h_content_length = None.
Proof.
  revert last f. induction os as [|o os IH]; intros last f H Hin Hf; [by apply elem_of_nil in Hin|].
  apply elem_of_cons in Hin as [<-|Hin].
  - simpl in H. case_decide; [|done]. eapply apply_sopts_none; [done| |neq_lit|].
    + cbn [f_hdr]. apply hd_contains_del_same.
    + intros v Hv. apply (Hf v). by right.
  - simpl in H. destruct (apply_sopt last f o) as [[l1 f1]|]; [|done].
    apply (IH _ _ H); [done|]. intros v Hv. apply (Hf v). by right.
Qed.
Lemma apply_sopts_names os last f l f' : apply_sopts last f os = Some (l, f') ->
  (forall k v, (k, v) ∈ f_hdr f -> k <> []) -> (forall k v, SoHeader k v ∈ os -> k <> []) ->
  forall k v, (k, v) ∈ f_hdr f' -> k <> [].
Proof.
  revert last f. induction os as [|o os IH]; intros last f; simpl; [by intros [= <- <-]|].
  destruct (apply_sopt last f o) as [[l1 f1]|] eqn:Ho; [|done].
  intros H Hn Hs. apply (IH _ _ H).
  2:{ intros k v Hv. apply (Hs k v). by right. }
  destruct o as [| | |k' v']; simpl in Ho.
  - by simplify_eq.
  - case_decide; [|done]. simplify_eq. cbn [f_hdr]. intros k v [Hk|Hk]%hd_set_keys; [|by eapply Hn].
    simplify_eq. neq_lit.
  - case_decide; [|done]. simplify_eq. cbn [f_hdr]. intros k v Hk%hd_del_keys. by eapply Hn.
  - case_decide; [|done]. simplify_eq. cbn [f_hdr]. intros k v. unfold hd_add.
    rewrite elem_of_app, elem_of_list_singleton. intros [Hk|Hk]; [by eapply Hn|]. simplify_eq.
    eapply Hs. left.
Qed.
Lemma apply_sopts_exact os last f : f_cmd f = SEND -> SoReceipt ∉ os -> SoNoContentLength ∉ os ->
  apply_sopts last f os = Some (last, mkFrame SEND (f_hdr f ++ custom_entries os) (f_body f)).
Proof.
  revert last f. induction os as [|o os IH]; intros last f Hc Hr Hn; simpl.
  - rewrite app_nil_r. destruct f; simpl in *; by subst.
  - rewrite not_elem_of_cons in Hr, Hn. destruct Hr as [Hr1 Hr], Hn as [Hn1 Hn].
    destruct o; try done; simpl.
    + by apply IH.
    + rewrite decide_True by done. rewrite IH by done. simpl. unfold hd_add. rewrite <- app_assoc. done.
Qed.

Local Instance sopt_eq_dec : EqDecision sopt.
Proof. solve_decision. Defined.
Lemma apply_sopts_receipt os last f l f' : apply_sopts last f os = Some (l, f') ->
  (SoReceipt ∈ os -> hd_contains (f_hdr f') h_receipt = Some (format_uint l)) /\ (SoReceipt ∉ os -> l = last).
Proof.
  revert last f. induction os as [|o os IH]; intros last f; simpl; [intros [= <- <-]; split; [by intros ?%elem_of_nil|done]|].
  destruct (apply_sopt last f o) as [[l1 f1]|] eqn:Ho; [|done]. intros H. destruct (IH _ _ H) as [IH1 IH2].
  rewrite elem_of_cons. destruct o as [| | |k v]; simpl in Ho.
  - simplify_eq. split; [intros [?|?]; [done|auto]|intros Hn; apply IH2; tauto].
  - split; [intros _|intros Hn; destruct Hn; by left]. destruct (decide (SoReceipt ∈ os)) as [Hin|Hin]; [auto|].
    case_decide; [|done]. simplify_eq. rewrite (IH2 Hin). eapply apply_sopts_keeps; [done|cbn [f_hdr]; apply hd_contains_set_same|].
    apply Forall_forall. intros [] Hx; try done.
  - case_decide; [|done]. simplify_eq. split; [intros [?|?]; [done|auto]|intros Hn; apply IH2; tauto].
  - case_decide; [|done]. simplify_eq. split; [intros [?|?]; [done|auto]|intros Hn; apply IH2; tauto].
Qed.
Lemma send_base_hdr dest ctype (len : str) :
  let h2 := (if decide (ctype = []) then hd_set [(h_content_length, len)] h_destination dest
             else hd_set (hd_set [(h_content_length, len)] h_destination dest) h_content_type ctype) in
  h2 = (h_content_length, len) :: (h_destination, dest) :: (if decide (ctype = []) then [] else [(h_content_type, ctype)]).
Proof. simpl. case_decide; simpl; done. Qed.

Lemma send_frame_spec last dest ctype body os :
  exists l f, create_send_frame last dest ctype body os = Some (l, f) /\
    f_cmd f = lit "SEND" /\ f_body f = body /\
    first_entry (f_hdr f) (lit "destination") dest /\
    (ctype <> [] -> first_entry (f_hdr f) (lit "content-type") ctype) /\
    (ctype = [] -> (forall v, SoHeader (lit "content-type") v ∉ os) -> no_entry (f_hdr f) (lit "content-type")) /\
    (SoNoContentLength ∉ os -> exists t, first_entry (f_hdr f) (lit "content-length") t /\ dec_text t (N.of_nat (length body))) /\
    (SoNoContentLength ∈ os -> (forall v, SoHeader (lit "content-length") v ∉ os) -> no_entry (f_hdr f) (lit "content-length")) /\
    (SoReceipt ∈ os -> exists t, first_entry (f_hdr f) (lit "receipt") t /\ dec_text t l) /\ (SoReceipt ∉ os -> l = last) /\
    (SoReceipt ∉ os -> SoNoContentLength ∉ os ->
       f_hdr f = (lit "content-length", format_uint (N.of_nat (length body))) :: (lit "destination", dest) ::
                 (if decide (ctype = []) then [] else [(lit "content-type", ctype)]) ++ custom_entries os).
Proof.
  unfold create_send_frame. rewrite send_base_hdr.
  set (f0 := mkFrame SEND _ body).
  destruct (apply_sopts_total os last f0 eq_refl) as (l & f & Hf & Hc & Hb).
  exists l, f. split; [done|]. split; [done|]. split; [done|].
  split.
  { apply hd_contains_Some. eapply apply_sopts_keeps; [done|done|].
    apply Forall_forall. intros [] _; try done; neq_lit. }
  split.
  { intros Hct. apply hd_contains_Some. eapply apply_sopts_keeps; [done| |].
    - unfold f0. rewrite decide_False by done. done.
    - apply Forall_forall. intros [] _; try done; neq_lit. }
  split.
  { intros -> Hno. apply hd_contains_None. eapply apply_sopts_none; [done|done|neq_lit|done]. }
  split.
  { intros Hno. exists (format_uint (N.of_nat (length body))). split; [|apply format_uint_text].
    apply hd_contains_Some. eapply apply_sopts_keeps; [done|done|].
    apply Forall_forall. intros [] Ho; try done; neq_lit. }
  split.
  { intros Hin Hno. apply hd_contains_None. by eapply apply_sopts_deleted. }
  pose proof (apply_sopts_receipt _ _ _ _ _ Hf) as [Hrc1 Hrc2].
  split; [intros Hin; exists (format_uint l); split; [by apply hd_contains_Some, Hrc1|apply format_uint_text]|]. split; [done|].
  intros H1 H2. rewrite (apply_sopts_exact os last f0 eq_refl H1 H2) in Hf. simplify_eq. done.
Qed.

Lemma send_frame_readable last dest ctype body os l f rest :
  create_send_frame last dest ctype body os = Some (l, f) ->
  (forall k v, SoHeader k v ∈ os -> k <> []) ->
  (SoNoContentLength ∉ os -> (N.of_nat (length body) < 2 ^ 32)%N ->
     read_stream (write_frame f ++ rest) = RFrame f rest) /\
  (SoNoContentLength ∈ os -> (forall v, SoHeader (lit "content-length") v ∉ os) ->
     (read_stream (write_frame f ++ rest) = RFrame f rest <-> NUL ∉ body)).
Proof.
  intros Hf Hn.
  destruct (send_frame_spec last dest ctype body os) as (l' & f' & Hf' & Hc & Hb & _ & _ & _ & Hcl & Hncl & _).
  rewrite Hf in Hf'. symmetry in Hf'. simplify_eq.
  assert (forall k v, (k, v) ∈ f_hdr f -> k <> []) as Hnames.
  { unfold create_send_frame in Hf. rewrite send_base_hdr in Hf. eapply apply_sopts_names; [done| |done].
    cbn [f_hdr]. intros k v. rewrite !elem_of_cons. intros [H|[H|H]].
    - simplify_eq. neq_lit.
    - simplify_eq. neq_lit.
    - case_decide; [by apply elem_of_nil in H|]. apply elem_of_list_singleton in H. simplify_eq. neq_lit. }
  assert (stomp_command (f_cmd f)) as Hcmd by (rewrite Hc; neq_lit).
  split.
  - intros Hno Hlen. apply read_write_frame. split; [done|done|]. left.
    destruct (Hcl Hno) as (t & Ht & Hd). exists t. done.
  - intros Hin Hno. pose proof (Hncl Hin Hno) as Hnone. split.
    + intros Hr. apply reader_iff_grammar in Hr as (raw & _ & He). apply encodes_writable in He as [_ _ [(t & Ht & _)|[_ H]]]; [|done].
      exfalso. apply hd_contains_Some in Ht. apply hd_contains_None in Hnone.
      change (lit "content-length") with h_content_length in Hnone. congruence.
    + intros Hnul. apply read_write_frame. split; [done|done|]. right. done.
Qed.

(* ---------- SUBSCRIBE frames ---------- *)
Lemma subopts_keep os h k v : hd_contains h k = Some v -> k <> h_id ->
  hd_contains (fold_left apply_subopt os h) k = Some v.
Proof.
  revert h. induction os as [|o os IH]; intros h Hh Hk; simpl; [done|]. apply IH; [|done].
  destruct o; simpl; [done|by rewrite hd_contains_set_other|]. unfold hd_add. by rewrite hd_contains_app, Hh.
Qed.
Lemma without_set h k v : without k (hd_set h k v) = without k h.
Proof.
  unfold without. induction h as [|[a b] h IH]; simpl.
  - by rewrite filter_cons_False by (simpl; tauto).
  - destruct (decide (a = k)) as [->|Hk].
    + by rewrite !filter_cons_False by (simpl; tauto).
    + rewrite !filter_cons_True by done. by rewrite IH.
Qed.
Lemma contains_without h k k' : k <> k' -> hd_contains (without k' h) k = hd_contains h k.
Proof.
  intros Hk. unfold without. induction h as [|[a b] h IH]; simpl; [done|]. destruct (decide (a = k')) as [->|Ha].
  - rewrite filter_cons_False by (simpl; tauto). rewrite decide_False by congruence. done.
  - rewrite filter_cons_True by done. simpl. by rewrite IH.
Qed.
Lemma subopts_without os h : without h_id (fold_left apply_subopt os h) = without h_id h ++ without h_id (sub_entries os).
Proof.
  revert h. induction os as [|o os IH]; intros h; simpl; [by rewrite app_nil_r|]. rewrite IH. destruct o as [|i|k v]; simpl; [done|by rewrite without_set|].
  unfold hd_add, without. rewrite filter_app, <-app_assoc. f_equal. rewrite <-filter_app. done.
Qed.
Lemma subopts_plain os h : (forall i, SubId i ∉ os) -> fold_left apply_subopt os h = h ++ sub_entries os.
Proof.
  revert h. induction os as [|o os IH]; intros h Hn; simpl; [by rewrite app_nil_r|].
  rewrite IH by (intros i Hi; apply (Hn i); by right). destruct o as [|i|k v]; simpl; [done|destruct (Hn i); by left|].
  unfold hd_add. by rewrite <-app_assoc.
Qed.
Lemma subopts_last os h i : last_id os i -> hd_contains (fold_left apply_subopt os h) h_id = Some i.
Proof.
  intros (pre & post & -> & Hn). rewrite fold_left_app. simpl. rewrite subopts_plain by done. by rewrite hd_contains_app, hd_contains_set_same.
Qed.
Lemma subscribe_frame_spec last dest mode os l f id rt :
  create_subscribe last dest mode os = (l, f, id, rt) ->
  f_cmd f = lit "SUBSCRIBE" /\ f_body f = [] /\
  first_entry (f_hdr f) (lit "destination") dest /\
  first_entry (f_hdr f) (lit "ack") (ack_text mode) /\
  first_entry (f_hdr f) (lit "id") id /\
  without (lit "id") (f_hdr f) = (lit "destination", dest) :: (lit "ack", ack_text mode) :: without (lit "id") (sub_entries os) /\
  (rt = true <-> exists r, first_entry (sub_entries os) (lit "reply-to") r) /\
  (forall r, first_entry (sub_entries os) (lit "reply-to") r -> id = r /\ l = last) /\
  (no_entry (sub_entries os) (lit "reply-to") ->
     (forall i, last_id os i -> id = i /\ l = last) /\
     ((forall i, SubId i ∉ os) -> forall i, first_entry (sub_entries os) (lit "id") i -> id = i /\ l = last) /\
     ((forall i, SubId i ∉ os) -> no_entry (sub_entries os) (lit "id") -> dec_text id l /\ l = ((last + 1) mod 2 ^ 64)%N)).
Proof.
  unfold create_subscribe. set (h := fold_left _ _ _).
  assert (hd_contains h h_destination = Some dest) as Hd by (apply subopts_keep; [done|neq_lit]).
  assert (hd_contains h h_ack = Some (ack_text mode)) as Ha by (apply subopts_keep; [done|neq_lit]).
  assert (without h_id h = (h_destination, dest) :: (h_ack, ack_text mode) :: without h_id (sub_entries os)) as Hw by (unfold h; by rewrite subopts_without).
  assert (hd_contains h h_reply_to = hd_contains (sub_entries os) h_reply_to) as Hrt.
  { rewrite <-(contains_without h _ h_id), Hw by neq_lit. apply (contains_without (sub_entries os)). neq_lit. }
  setoid_rewrite <-hd_contains_Some. rewrite <-!hd_contains_None.
  change (lit "id") with h_id. change (lit "destination") with h_destination.
  change (lit "ack") with h_ack. change (lit "reply-to") with h_reply_to.
  rewrite <-Hrt. destruct (hd_contains h h_reply_to) as [r|] eqn:Hr.
  - rewrite hd_contains_set_same. intros [= <- <- <- <-]. cbn [f_cmd f_body f_hdr].
    rewrite hd_contains_set_same, !hd_contains_set_other by neq_lit. rewrite without_set.
    split_and!; [done..| | |]; [split; [intros _; by exists r|done]|by intros ? [= ->]|done].
  - assert (forall i, last_id os i -> hd_contains h h_id = Some i) as Hl by (intros i; apply subopts_last).
    assert ((forall i, SubId i ∉ os) -> hd_contains h h_id = hd_contains (sub_entries os) h_id) as Hp.
    { intros Hn. unfold h. rewrite subopts_plain by done. rewrite hd_contains_app. done. }
    destruct (hd_contains h h_id) as [i|] eqn:Hi.
    + intros [= <- <- <- <-]. cbn [f_cmd f_body f_hdr]. split_and!; [done..| | |]; [by split; [|intros [? ?]]|done|].
      intros _. split_and!.
      * intros j Hj%Hl. by injection Hj.
      * intros Hn j Hj. rewrite <-Hp in Hj by done. by injection Hj.
      * intros Hn Hj. by rewrite <-Hp in Hj.
    + intros [= <- <- <- <-]. cbn [f_cmd f_body f_hdr]. unfold hd_add. rewrite !hd_contains_app, Hd, Ha, Hi. simpl.
      split_and!; [done..| | | |]; [|by split; [|intros [? ?]]|done|].
      { unfold without in *. rewrite filter_app, Hw, filter_cons_False by (simpl; tauto). by rewrite app_nil_r. }
      intros _. split_and!.
      * by intros j Hj%Hl.
      * intros Hn j Hj. by rewrite <-Hp in Hj by done.
      * intros _ _. split; [apply format_uint_text|done].
Qed.

(* ---------- C17 ---------- *)
Lemma create_ack_nack_spec version msg ack r : supported version ->
  (create_ack_nack version msg ack = r <-> ack_spec version msg ack r).
Proof.
  intros Hv.
  assert (ack_spec version msg ack (create_ack_nack version msg ack)) as Hsound.
  { unfold create_ack_nack. destruct (negb ack && negb (supports_nack version)) eqn:Hn.
    { apply andb_prop in Hn as [Hn1 Hn2]. destruct ack; [done|]. constructor.
      destruct Hv as [->|[->| ->]]; [done|by vm_compute in Hn2|by vm_compute in Hn2]. }
    assert (ack = false -> version <> lit "1.0") as Hnv.
    { intros -> ->. by vm_compute in Hn. }
    destruct (m_header msg) as [h|] eqn:Hh; [|constructor; [done|auto]].
    destruct (m_sub msg) as [[sid mode]|] eqn:Hs; [|constructor; [done|auto]].
    destruct (m_conn msg) eqn:Hc; [|constructor; [done|auto]].
    case_decide as Hm.
    { subst. destruct ack; [by eapply as_auto_ack|by eapply as_auto_nack; eauto]. }
    assert ((if ack then ACK else NACK) = (if ack then lit "ACK" else lit "NACK")) as -> by by destruct ack.
    destruct (decide (version = V10 \/ version = V11)) as [Hold|Hnew].
    - assert (version = lit "1.1" \/ version = lit "1.0" /\ ack = true) as Hvv.
      { destruct Hold as [->|?]; [right|by left]. split; [done|]. destruct ack; [done|]. by destruct Hnv. }
      destruct (hd_contains h h_message_id) as [mid|] eqn:Hmid.
      + apply hd_contains_Some in Hmid. by eapply as_old.
      + apply hd_contains_None in Hmid. by eapply as_old_missing.
    - assert (version = V12) as -> by (unfold V10, V11, V12 in *; destruct Hv as [?|[?|?]]; tauto).
      rewrite decide_True by done. destruct (hd_contains h h_ack) as [a|] eqn:Ha.
      + apply hd_contains_Some in Ha. by eapply as_new.
      + apply hd_contains_None in Ha. by eapply as_new_missing. }
  split; [by intros <-|]. clear Hsound. intros Hr. unfold create_ack_nack.
  assert (forall b : bool, (b = false -> version <> lit "1.0") -> negb b && negb (supports_nack version) = false) as Hnn.
  { intros [] Hb; [done|]. specialize (Hb eq_refl). destruct Hv as [->|[->| ->]]; [done|by vm_compute..]. }
  destruct Hr as [Hv0|ack Hv0 Hm|h sid Hh Hs Hc|h sid Hv0 Hh Hs Hc|ack h sid mode mid Hv0 Hh Hs Hmd Hc Hf
    |ack h sid mode Hv0 Hh Hs Hmd Hc Hf|ack h sid mode a Hv0 Hh Hs Hmd Hc Hf|ack h sid mode Hv0 Hh Hs Hmd Hc Hf].
  - subst. done.
  - rewrite Hnn by done. destruct (m_header msg), (m_sub msg) as [[]|], (m_conn msg); try done.
    destruct Hm as [?|[?|?]]; done.
  - simpl. by rewrite Hh, Hs, Hc.
  - rewrite Hnn by done. by rewrite Hh, Hs, Hc.
  - rewrite Hnn by (intros ->; destruct Hv0 as [->|[_ ?]]; done). rewrite Hh, Hs, Hc. rewrite decide_False by done.
    rewrite decide_True by (destruct Hv0 as [->|[-> _]]; auto).
    apply hd_contains_Some in Hf. change (lit "message-id") with h_message_id in *. rewrite Hf. by destruct ack.
  - rewrite Hnn by (intros ->; destruct Hv0 as [->|[_ ?]]; done). rewrite Hh, Hs, Hc. rewrite decide_False by done.
    rewrite decide_True by (destruct Hv0 as [->|[-> _]]; auto).
    apply hd_contains_None in Hf. change (lit "message-id") with h_message_id in *. by rewrite Hf.
  - rewrite Hnn by (intros ->; by subst). rewrite Hh, Hs, Hc. rewrite decide_False by done. subst version.
    rewrite decide_False by (intros [?|?]; done). rewrite decide_True by done.
    apply hd_contains_Some in Hf. change (lit "ack") with h_ack in *. rewrite Hf. by destruct ack.
  - rewrite Hnn by (intros ->; by subst). rewrite Hh, Hs, Hc. rewrite decide_False by done. subst version.
    rewrite decide_False by (intros [?|?]; done). rewrite decide_True by done.
    apply hd_contains_None in Hf. change (lit "ack") with h_ack in *. by rewrite Hf.
Qed.

(* ---------- C18 ---------- *)
Lemma tx_step_frames version t op o t' fs r : tx_step t op o version = (t', fs, r) ->
  tx_id t' = tx_id t /\ (forall f, f ∈ fs -> first_entry (f_hdr f) (lit "transaction") (tx_id t)) /\
  (tx_completed t = true -> t' = t /\ fs = [] /\ r = TxCompleted) /\
  (tx_completed t = false -> r <> TxCompleted /\
     (tx_completed t' = true <-> is_finish op = true /\ r = TxNil)).
Proof.
  assert (forall o g, (forall f, f ∈ sent_frames o g -> f = g)) as Hsent.
  { intros [] g f; simpl; [by intros ?%elem_of_nil|by intros ->%elem_of_list_singleton..]. }
  assert (forall h v, first_entry (hd_set h h_transaction v) (lit "transaction") v) as Hset.
  { intros h v. apply hd_contains_Some. apply hd_contains_set_same. }
  unfold tx_step. destruct (tx_completed t) eqn:Hc.
  { intros [= <- <- <-]. split; [done|]. split; [by intros f ?%elem_of_nil|]. split; [done|done]. }
  destruct op as [d c b os|m|m|rc|rc].
  - destruct (create_send_frame (tx_last t) d c b os) as [[l f]|]; intros [= <- <- <-]; cbn [tx_id];
      (split; [done|]); (split; [first [by intros f0 ?%elem_of_nil | intros g ->%Hsent; apply Hset]|]); (split; [done|]);
      (intros _; cbn [tx_completed]; rewrite ?Hc; simpl; (split; [first [done|by destruct o]|]); split; [done|by intros [? _]]).
  - destruct (create_ack_nack version m true) as [e| |f]; intros [= <- <- <-];
      (split; [done|]); (split; [first [by intros f0 ?%elem_of_nil | intros g ->%Hsent; apply Hset]|]); (split; [done|]);
      (intros _; cbn [tx_completed]; rewrite ?Hc; simpl; (split; [first [done|by destruct o]|]); split; [done|by intros [? _]]).
  - destruct (create_ack_nack version m false) as [e| |f]; intros [= <- <- <-];
      (split; [done|]); (split; [first [by intros f0 ?%elem_of_nil | intros g ->%Hsent; apply Hset]|]); (split; [done|]);
      (intros _; cbn [tx_completed]; rewrite ?Hc; simpl; (split; [first [done|by destruct o]|]); split; [done|by intros [? _]]).
  - unfold tx_finish. destruct rc; simpl; intros [= <- <- <-]; (split; [done|]);
      (split; [intros g ->%Hsent; by apply hd_contains_Some|]); (split; [done|]); intros _; destruct o; simpl; (split; [done|]); (split; [by try split|by try intros [_ ?]]).
  - unfold tx_finish. destruct rc; simpl; intros [= <- <- <-]; (split; [done|]);
      (split; [intros g ->%Hsent; by apply hd_contains_Some|]); (split; [done|]); intros _; destruct o; simpl; (split; [done|]); (split; [by try split|by try intros [_ ?]]).
Qed.
Lemma ack_frame_cmd version m ack f : supported version -> create_ack_nack version m ack = AFrame f -> f_cmd f = if ack then lit "ACK" else lit "NACK".
Proof. intros Hv H. apply create_ack_nack_spec in H; [|done]. by inversion H. Qed.
Lemma ack_nothing version m ack : supported version -> (create_ack_nack version m ack = ANothing <-> ack = true /\ exists sid h, m_sub m = Some (sid, AckAuto) /\ m_header m = Some h /\ m_conn m = true).
Proof.
  intros Hv. rewrite create_ack_nack_spec by done. split.
  - intros H. inversion H. subst. by eauto 10.
  - intros (-> & sid & h & H1 & H2 & H3). by eapply as_auto_ack.
Qed.
Lemma tx_step_result version t op o t' fs r : supported version -> tx_completed t = false -> tx_step t op o version = (t', fs, r) ->
  (forall f, f ∈ fs -> fs = [f] /\ o <> SendRefused /\ tx_frame_ok op f /\ first_entry (f_hdr f) (lit "transaction") (tx_id t)) /\
  (r = TxNil <-> (fs <> [] /\ o = SendOk) \/ tx_needs_no_frame op) /\ (tx_needs_no_frame op -> fs = []) /\
  (fs = [] -> o <> SendRefused -> exists m, op = TxAck m \/ op = TxNack m).
Proof.
  intros Hv Hc Hs. pose proof (tx_step_frames _ _ _ _ _ _ _ Hs) as (_ & Htx & _). unfold tx_step in Hs. rewrite Hc in Hs.
  assert (forall g, (forall f, f ∈ sent_frames o g -> f = g /\ sent_frames o g = [f] /\ o <> SendRefused)) as Hsent.
  { intros g f; destruct o; simpl; [by intros ?%elem_of_nil|by intros ->%elem_of_list_singleton..]. }
  assert (forall g, ~ tx_needs_no_frame op -> (send_result o = TxNil <-> (sent_frames o g <> [] /\ o = SendOk) \/ tx_needs_no_frame op)) as Hres.
  { intros g Hn. destruct o; simpl; intuition (try discriminate). }
  assert (forall g, sent_frames o g = [] -> o = SendRefused) as Hemp by (by destruct o).
  assert (forall cmd rc, (op = TxCommit rc /\ cmd = COMMIT \/ op = TxAbort rc /\ cmd = ABORT) -> tx_finish cmd rc o t = (t', fs, r) ->
    (forall f, f ∈ fs -> fs = [f] /\ o <> SendRefused /\ tx_frame_ok op f) /\
    (r = TxNil <-> (fs <> [] /\ o = SendOk) \/ tx_needs_no_frame op) /\ (tx_needs_no_frame op -> fs = []) /\
    (fs = [] -> o <> SendRefused -> exists m, op = TxAck m \/ op = TxNack m)) as Hfin.
  { intros cmd rc Hop. assert (~ tx_needs_no_frame op) as Hn by (intros (? & ? & ? & -> & _); by destruct Hop as [[? _]|[? _]]).
    assert (forall h b, (b = true <-> exists i, hd_contains h h_receipt = Some i) -> b = rc -> tx_frame_ok op (mkFrame cmd h [])) as Hfr.
    { intros h b Hb ->. destruct Hop as [[-> ->]|[-> ->]]; cbn; (split; [done|]); (split; [done|]); setoid_rewrite <-hd_contains_Some; done. }
    unfold tx_finish. destruct rc; intros [= <- <- <-];
      (split; [intros f Hf; destruct (Hsent _ _ Hf) as (-> & ? & ?); split_and!; [done..|]|split; [by apply Hres|split; [done|by intros ?%Hemp]]]).
    - apply (Hfr _ true); [|done]. split; [eauto|done].
    - apply (Hfr _ false); [|done]. split; [done|]. intros [i Hi]. vm_compute in Hi. done. }
  assert (forall m ack, (op = TxAck m /\ ack = true \/ op = TxNack m /\ ack = false) ->
    match create_ack_nack version m ack with
        | AErr _ => (t, [], TxError)
        | ANothing => (t, [], TxNil)
        | AFrame f =>
            let f' := mkFrame (f_cmd f) (hd_set (f_hdr f) h_transaction (tx_id t)) (f_body f) in
            (t, sent_frames o f', send_result o)
        end = (t', fs, r) ->
    (forall f, f ∈ fs -> fs = [f] /\ o <> SendRefused /\ tx_frame_ok op f) /\
    (r = TxNil <-> (fs <> [] /\ o = SendOk) \/ tx_needs_no_frame op) /\ (tx_needs_no_frame op -> fs = []) /\
    (fs = [] -> o <> SendRefused -> exists m, op = TxAck m \/ op = TxNack m)) as Hack.
  { intros m ack Hop.
    assert (tx_needs_no_frame op <-> create_ack_nack version m ack = ANothing) as Hiff.
    { rewrite ack_nothing by done. unfold tx_needs_no_frame. destruct Hop as [[-> ->]|[-> ->]]; [|split; [by intros (? & ? & ? & ? & _)|by intros [? _]]].
      split; [intros (m0 & sid & h & [= <-] & H); split; [done|eauto]|intros (_ & sid & h & H); eauto 10]. }
    assert (exists m0, op = TxAck m0 \/ op = TxNack m0) as Hex by (exists m; destruct Hop as [[-> _]|[-> _]]; auto).
    destruct (create_ack_nack version m ack) as [e| |f] eqn:Hcr; cbn zeta; intros [= <- <- <-].
    - split; [by intros ? ?%elem_of_nil|]. split; [|split; [done|done]]. split; [done|]. intros [[? _]|H]; [done|]. by apply Hiff in H.
    - split; [by intros ? ?%elem_of_nil|]. split; [|split; [done|done]]. split; [|done]. intros _. right. by apply Hiff.
    - assert (~ tx_needs_no_frame op) as Hn by (by rewrite Hiff). split.
      + intros g Hg. destruct (Hsent _ _ Hg) as (-> & ? & ?). split_and!; [done..|]. pose proof (ack_frame_cmd _ _ _ _ Hv Hcr) as Hcmd.
        destruct Hop as [[-> ->]|[-> ->]]; exact Hcmd.
      + split; [by apply Hres|]. split; [done|]. done. }
  cut ((forall f, f ∈ fs -> fs = [f] /\ o <> SendRefused /\ tx_frame_ok op f) /\
    (r = TxNil <-> (fs <> [] /\ o = SendOk) \/ tx_needs_no_frame op) /\ (tx_needs_no_frame op -> fs = []) /\
    (fs = [] -> o <> SendRefused -> exists m, op = TxAck m \/ op = TxNack m)).
  { intros (H1 & H2). split; [|done]. intros f Hf. destruct (H1 f Hf) as (? & ? & ?). split_and!; try done. by apply Htx. }
  destruct op as [d c b os|m|m|rc|rc].
  - destruct (send_frame_spec (tx_last t) d c b os) as (l & f & Hf & Hcmd & Hb & Hd & _). rewrite Hf in Hs. injection Hs as <- <- <-.
    assert (~ tx_needs_no_frame (TxSend d c b os)) as Hn by (by intros (? & ? & ? & ? & _)).
    split; [|split; [by apply Hres|split; [done|by intros ?%Hemp]]].
    intros g Hg. destruct (Hsent _ _ Hg) as (-> & ? & ?). split_and!; [done..|]. cbn. split_and!; [done..|].
    apply hd_contains_Some in Hd. apply hd_contains_Some. by rewrite hd_contains_set_other by neq_lit.
  - eapply (Hack m true); [auto|done].
  - eapply (Hack m false); [auto|done].
  - eapply (Hfin COMMIT rc); [auto|done].
  - eapply (Hfin ABORT rc); [auto|done].
Qed.
Lemma tx_run_completed version ops : forall t, tx_completed t = true ->
  Forall (fun e => snd e = TxCompleted /\ snd (fst e) = []) (tx_run version t ops).
Proof.
  induction ops as [|[op o] ops IH]; intros t Ht; simpl; [constructor|].
  destruct (tx_step t op o version) as [[t' fs] r] eqn:Hs.
  pose proof (tx_step_frames _ _ _ _ _ _ _ Hs) as (_ & _ & H & _).
  destruct (H Ht) as (-> & -> & ->). constructor; [done|by apply IH].
Qed.
Lemma tx_run_frames version ops : forall t,
  Forall (fun e => forall f, f ∈ snd (fst e) -> first_entry (f_hdr f) (lit "transaction") (tx_id t)) (tx_run version t ops).
Proof.
  induction ops as [|[op o] ops IH]; intros t; simpl; [constructor|].
  destruct (tx_step t op o version) as [[t' fs] r] eqn:Hs.
  pose proof (tx_step_frames _ _ _ _ _ _ _ Hs) as (Hid & Hf & _).
  constructor; [done|]. rewrite <- Hid. apply IH.
Qed.
Lemma tx_run_split version ops : forall t pre op fs post, tx_completed t = false ->
  tx_run version t ops = pre ++ (op, fs, TxNil) :: post -> is_finish op = true ->
  Forall (fun e => snd e = TxCompleted /\ snd (fst e) = []) post /\
  Forall (fun e => ~ (is_finish (fst (fst e)) = true /\ snd e = TxNil) /\ snd e <> TxCompleted) pre.
Proof.
  induction ops as [|[op0 o] ops IH]; intros t pre op fs post Ht He Hfin; simpl in He; [by destruct pre|].
  destruct (tx_step t op0 o version) as [[t' fs0] r0] eqn:Hs.
  pose proof (tx_step_frames _ _ _ _ _ _ _ Hs) as (_ & _ & _ & H). destruct (H Ht) as [Hr Hiff].
  destruct pre as [|e pre]; simpl in He; simplify_eq.
  - split; [|constructor]. apply tx_run_completed. by apply Hiff.
  - destruct (tx_completed t') eqn:Ht'.
    + (* completed: nothing later returns nil *)
      exfalso. pose proof (tx_run_completed version ops t' Ht') as Hall.
      match goal with E : tx_run _ _ _ = _ |- _ => rewrite E in Hall end.
      apply Forall_app in Hall as [_ Hall]. inversion_clear Hall as [|? ? [? _] _]. done.
    + destruct (IH t' pre op fs post) as [? ?]; [done..|]. split; [done|]. constructor; [|done].
      simpl. split; [|done]. intros Hn. apply Hiff in Hn. congruence.
Qed.

Lemma begin_spec last f t : begin_tx last = (f, t) ->
  f_cmd f = lit "BEGIN" /\ f_body f = [] /\ first_entry (f_hdr f) (lit "transaction") (tx_id t) /\ tx_completed t = false /\ dec_text (tx_id t) (tx_last t) /\
  tx_last t = ((last + 1) mod 2 ^ 64)%N.
Proof. unfold begin_tx. intros [= <- <-]. split_and!; try done; [by apply hd_contains_Some|apply format_uint_text]. Qed.

(* ---------- C20 ---------- *)
Lemma read_ops_spec ops : forall body rest outs, read_ops body ops = (rest, outs) ->
  delivered outs ++ rest = body /\ length outs = length ops.
Proof.
  induction ops as [|op ops IH]; intros body rest outs; simpl; [by intros [= <- <-]|].
  destruct (read_op body op) as [b1 o] eqn:Ho. destruct (read_ops b1 ops) as [b2 os] eqn:Hos.
  intros [= <- <-]. destruct (IH _ _ _ Hos) as [He Hl]. simpl. split; [|by rewrite Hl].
  destruct body as [|b t]; simpl in Ho.
  - injection Ho as <- <-. simpl. done.
  - destruct op; injection Ho as <- <-; cbn [delivered].
    + rewrite <- app_assoc, He. apply (take_drop _ (b :: t)).
    + simpl. by rewrite He.
Qed.
Lemma read_op_spec body op :
  (snd (read_op body op) = GotEOF <-> body = []) /\
  (body <> [] -> match op with
     | OpRead n => exists bs, snd (read_op body op) = GotBytes bs /\ length bs = min n (length body)
     | OpReadByte => exists b, snd (read_op body op) = GotByte b
     end).
Proof.
  destruct body as [|b t]; simpl; [done|]. split; [by destruct op|].
  intros _. destruct op; simpl; [|eauto]. eexists. split; [done|].
  rewrite take_length. simpl. lia.
Qed.
