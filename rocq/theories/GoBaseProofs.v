(** Lemmas about GoBase. *)
From Verif Require Import GoBase HeaderModel FrameModel GrammarSpec.
From Coq Require Import ZifyBool ZifyNat ZifyN.
Ltac Zify.zify_post_hook ::= Z.div_mod_to_equations.

Lemma N_ascii_small n : (n < 256)%N -> N_of_ascii (ascii_of_N n) = n.
Proof. apply N_ascii_embedding. Qed.

Lemma digit_char_val d : (d < 10)%N -> digit_val (digit_char d) = d.
Proof. intros H. unfold digit_val, digit_char. rewrite N_ascii_small; lia. Qed.
Lemma digit_char_is d : (d < 10)%N -> is_digit (digit_char d) = true.
Proof. intros H. unfold is_digit, digit_char. rewrite N_ascii_small; lia. Qed.
Lemma is_digit_char c : is_digit c = true -> c = digit_char (digit_val c) /\ (digit_val c < 10)%N.
Proof.
  unfold is_digit, digit_char, digit_val. intros H. split; [|lia].
  rewrite <- (ascii_N_embedding c) at 1. f_equal. lia.
Qed.

Lemma dec_fold s a : fold_left dec_step s a = (a * 10 ^ N.of_nat (length s) + dec_value s)%N.
Proof.
  unfold dec_value. revert a. induction s as [|c s IH]; intros a.
  - cbn. lia.
  - cbn [fold_left length]. rewrite IH. rewrite (IH (dec_step 0 c)).
    unfold dec_step. rewrite Nat2N.inj_succ, N.pow_succ_r'. ring.
Qed.
Lemma dec_value_snoc s c : dec_value (s ++ [c]) = (10 * dec_value s + digit_val c)%N.
Proof. unfold dec_value. rewrite fold_left_app. cbn [fold_left]. unfold dec_step. lia. Qed.
Lemma dec_value_cons c s : dec_value (c :: s) = (digit_val c * 10 ^ N.of_nat (length s) + dec_value s)%N.
Proof. unfold dec_value at 1. cbn [fold_left]. rewrite dec_fold. unfold dec_step. by rewrite N.mul_0_l, N.add_0_l. Qed.

(** [dec_text] is exactly "non-empty, all digits, Horner value". *)
Lemma dec_text_iff s n :
  dec_text s n <-> s <> [] /\ forallb is_digit s = true /\ dec_value s = n.
Proof.
  split.
  - induction 1 as [d Hd|s n d H IH Hd].
    + split; [done|]. fold (digit_char d). simpl. rewrite digit_char_is by done.
      split; [done|]. unfold dec_value; simpl. unfold dec_step.
      rewrite digit_char_val by done. lia.
    + destruct IH as (Hne & Hall & Hv). fold (digit_char d). split.
      { destruct s; done. }
      rewrite forallb_app. simpl. rewrite digit_char_is by done. rewrite Hall.
      split; [done|]. rewrite dec_value_snoc, digit_char_val by done. lia.
  - revert n. induction s as [|c s IH] using rev_ind; intros n (Hne & Hall & Hv); [done|].
    rewrite forallb_app in Hall. simpl in Hall.
    apply andb_prop in Hall as [Hs Hc]. apply andb_prop in Hc as [Hc _].
    destruct (is_digit_char c Hc) as [Hce Hlt].
    rewrite dec_value_snoc in Hv.
    destruct s as [|c' s'].
    + simpl. rewrite Hce. unfold digit_char.
      change (dec_value []) with 0%N in Hv.
      replace n with (digit_val c) by lia. by apply dt_one.
    + rewrite <- Hv. rewrite Hce. unfold digit_char at 1.
      rewrite digit_char_val by done. apply dt_snoc; [|done].
      apply IH. repeat split; done.
Qed.

Lemma dec_text_fun s n m : dec_text s n -> dec_text s m -> n = m.
Proof. rewrite !dec_text_iff. intros (_ & _ & <-) (_ & _ & <-). done. Qed.

Lemma parse_uint_iff bits s n :
  parse_uint bits s = Some n <-> dec_text s n /\ (n < 2 ^ bits)%N.
Proof.
  rewrite dec_text_iff. unfold parse_uint. destruct s as [|c s].
  { split; [done|]. intros [[? _] _]; done. }
  destruct (forallb is_digit (c :: s)) eqn:Hd.
  - destruct (N.ltb_spec (dec_value (c :: s)) (2 ^ bits)) as [Hl|Hl].
    + split; [intros [= <-]; done|]. intros [(_ & _ & <-) _]. done.
    + split; [done|]. intros [(_ & _ & <-) ?]. lia.
  - split; [done|]. intros [(_ & ? & _) _]. done.
Qed.

(** formatting *)
Lemma fmt_aux_spec fuel n acc :
  (n < 10 ^ N.of_nat fuel)%N -> (0 < fuel)%nat ->
  exists ds, fmt_aux fuel n acc = ds ++ acc /\ dec_text ds n /\
             (head ds = Some (digit_char 0) -> n = 0%N /\ ds = [digit_char 0]).
Proof.
  revert n acc. induction fuel as [|k IH]; intros n acc Hn Hf; [lia|].
  cbn [fmt_aux]. destruct (N.ltb_spec n 10) as [Hl|Hl].
  - exists [digit_char (n mod 10)]. split; [done|]. rewrite N.mod_small by lia. split.
    + unfold digit_char. by apply dt_one.
    + simpl. intros [= He]. apply (f_equal digit_val) in He.
      rewrite !digit_char_val in He by lia. rewrite He. done.
  - assert (n / 10 < 10 ^ N.of_nat k)%N as Hk.
    { rewrite Nat2N.inj_succ, N.pow_succ_r' in Hn. apply N.div_lt_upper_bound; lia. }
    assert (0 < k)%nat as Hk0.
    { destruct k; [|lia]. simpl in Hn. change (10 ^ 1)%N with 10%N in Hn. lia. }
    destruct (IH (n / 10)%N (digit_char (n mod 10) :: acc) Hk Hk0) as (ds & He & Hd & Hz).
    exists (ds ++ [digit_char (n mod 10)]). rewrite He. split; [by rewrite <- app_assoc|].
    split.
    + replace n with (10 * (n / 10) + n mod 10)%N at 2 by lia.
      unfold digit_char at 1. apply dt_snoc; [done|lia].
    + destruct ds as [|d ds']. { apply dec_text_iff in Hd as [? _]; done. }
      simpl. intros [= ->]. destruct (Hz eq_refl) as [H0 _]. lia.
Qed.

Lemma log2_digits n : (n < 10 ^ N.of_nat (S (N.to_nat (N.log2 n))))%N.
Proof.
  rewrite Nat2N.inj_succ, N2Nat.id.
  destruct (N.eq_dec n 0) as [->|Hn].
  { apply N.neq_0_lt_0, N.pow_nonzero. lia. }
  destruct (N.log2_spec n) as [_ H]; [lia|].
  eapply N.lt_le_trans; [exact H|]. apply N.pow_le_mono_l. lia.
Qed.

Lemma format_uint_text n : dec_text (format_uint n) n.
Proof.
  unfold format_uint.
  destruct (fmt_aux_spec (S (N.to_nat (N.log2 n))) n [] (log2_digits n)) as (ds & He & Hd & _); [lia|].
  rewrite He, app_nil_r. done.
Qed.
Lemma format_uint_nolead n :
  head (format_uint n) = Some (digit_char 0) -> n = 0%N /\ format_uint n = [digit_char 0].
Proof.
  unfold format_uint.
  destruct (fmt_aux_spec (S (N.to_nat (N.log2 n))) n [] (log2_digits n)) as (ds & He & Hd & Hz); [lia|].
  rewrite He, app_nil_r. done.
Qed.
Lemma format_uint_inj n m : format_uint n = format_uint m -> n = m.
Proof.
  intros H. pose proof (format_uint_text n) as Hn. rewrite H in Hn.
  eapply dec_text_fun; [exact Hn|apply format_uint_text].
Qed.
Lemma parse_format bits n : (n < 2 ^ bits)%N -> parse_uint bits (format_uint n) = Some n.
Proof. intros H. apply parse_uint_iff. split; [apply format_uint_text|done]. Qed.
Lemma format_uint_digits n : forallb is_digit (format_uint n) = true.
Proof. pose proof (format_uint_text n) as H. apply dec_text_iff in H. tauto. Qed.
Lemma format_uint_ne n : format_uint n <> [].
Proof. pose proof (format_uint_text n) as H. apply dec_text_iff in H. tauto. Qed.
Lemma format_uint_0 : format_uint 0 = lit "0".
Proof. reflexivity. Qed.

Lemma dec_value_bound s : forallb is_digit s = true -> (dec_value s < 10 ^ N.of_nat (length s))%N.
Proof.
  induction s as [|c s IH]; intros H; [simpl; unfold dec_value; simpl; lia|].
  simpl in H. apply andb_prop in H as [Hc Hs]. rewrite dec_value_cons.
  cbn [length]. rewrite Nat2N.inj_succ, N.pow_succ_r'.
  specialize (IH Hs). destruct (is_digit_char c Hc) as [_ Hd]. nia.
Qed.

(** split / join *)
Lemma split_on_ne sep s : split_on sep s <> [].
Proof. destruct s as [|c t]; simpl; [done|]. case_decide; [done|]. destruct (split_on sep t); done. Qed.
Lemma split_on_nosep sep s : sep ∉ s -> split_on sep s = [s].
Proof.
  induction s as [|c t IH]; simpl; [done|]. rewrite not_elem_of_cons. intros [H1 H2].
  case_decide; [done|]. by rewrite IH.
Qed.
Lemma split_on_app sep a b : sep ∉ a -> split_on sep (a ++ sep :: b) = a :: split_on sep b.
Proof.
  induction a as [|c t IH]; simpl.
  - intros _. by case_decide.
  - rewrite not_elem_of_cons. intros [H1 H2]. case_decide; [done|]. by rewrite IH.
Qed.
Lemma split_on_join sep l :
  l <> [] -> Forall (fun x => sep ∉ x) l -> split_on sep (join_with sep l) = l.
Proof.
  induction l as [|x l IH]; [done|]. intros _ Hf. inversion_clear Hf as [|? ? Hx Hl].
  destruct l as [|y l].
  - by apply split_on_nosep.
  - change (join_with sep (x :: y :: l)) with (x ++ sep :: join_with sep (y :: l)).
    rewrite split_on_app by done. by rewrite IH.
Qed.
Lemma split_on_pieces sep s : Forall (fun x => sep ∉ x) (split_on sep s).
Proof.
  induction s as [|c t IH]; simpl.
  - constructor; [apply not_elem_of_nil|done].
  - case_decide; [constructor; [apply not_elem_of_nil|done]|].
    destruct (split_on sep t) as [|p ps].
    + constructor; [by apply not_elem_of_cons; split; [|apply not_elem_of_nil]|constructor].
    + inversion_clear IH. constructor; [by apply not_elem_of_cons|done].
Qed.
Lemma join_split sep s : join_with sep (split_on sep s) = s.
Proof.
  induction s as [|c t IH]; simpl; [done|].
  case_decide as Hc.
  - subst. pose proof (split_on_ne sep t). destruct (split_on sep t) as [|p ps]; [done|].
    simpl. simpl in IH. by rewrite IH.
  - pose proof (split_on_ne sep t). destruct (split_on sep t) as [|p ps]; [done|].
    destruct ps; simpl in *; by rewrite IH.
Qed.

(** prefixes, suffixes, slices *)
Lemma has_prefix_iff p s : has_prefix p s = true <-> exists t, s = p ++ t.
Proof.
  revert s. induction p as [|a p IH]; intros s; simpl.
  - split; [eauto|done].
  - destruct s as [|b s]; simpl.
    + split; [done|]. intros [t ?]; done.
    + case_decide as Hab; subst.
      * rewrite IH. split; intros [t Ht]; exists t; by simplify_eq.
      * split; [done|]. intros [t Ht]. by simplify_eq.
Qed.
Lemma has_suffix_iff s suf : has_suffix s suf = true <-> exists t, s = t ++ suf.
Proof.
  unfold has_suffix. rewrite has_prefix_iff. split; intros [t Ht].
  - exists (rev t). rewrite <- (rev_involutive s), Ht, rev_app_distr, rev_involutive. done.
  - exists (rev t). rewrite Ht, rev_app_distr. done.
Qed.
Lemma go_slice_prefix a b : go_slice 0 (length a) (a ++ b) = Some a.
Proof.
  unfold go_slice. rewrite app_length.
  destruct (Nat.leb_spec (length a) (length a + length b)); [|lia]. simpl.
  rewrite drop_0, Nat.sub_0_r. by rewrite take_app.
Qed.
Lemma go_slice_suffix a b n : n = length a + length b -> go_slice (length a) n (a ++ b) = Some b.
Proof.
  intros ->. unfold go_slice. rewrite app_length.
  destruct (Nat.leb_spec (length a) (length a + length b)); [|lia].
  destruct (Nat.leb_spec (length a + length b) (length a + length b)); [|lia]. simpl.
  rewrite drop_app. f_equal. apply take_ge. lia.
Qed.

Lemma index_byte_None c s : index_byte c s = None <-> c ∉ s.
Proof.
  induction s as [|x t IH]; simpl; [split; [intros _; apply not_elem_of_nil|done]|].
  rewrite not_elem_of_cons. case_decide; subst.
  - split; [done|]. intros [? _]; done.
  - destruct (index_byte c t); simpl; [|naive_solver].
    split; [done|]. intros [_ H1]. apply IH in H1. done.
Qed.
Lemma index_byte_Some c s i :
  index_byte c s = Some i <-> exists a b, s = a ++ c :: b /\ c ∉ a /\ length a = i.
Proof.
  revert i. induction s as [|x t IH]; intros i; simpl.
  - split; [done|]. intros (a & b & H & _). by destruct a.
  - case_decide as Hx; subst.
    + split.
      * intros [= <-]. exists [], t. split; [done|]. split; [apply not_elem_of_nil|done].
      * intros (a & b & H & Hn & Hl). destruct a as [|y a]; simpl in *; [by subst|].
        simplify_eq. exfalso. apply Hn. left.
    + split.
      * destruct (index_byte c t) as [j|]; simpl; [|done]. intros [= <-].
        destruct (proj1 (IH j) eq_refl) as (a & b & -> & Hn & Hl).
        exists (x :: a), b. split; [done|]. rewrite not_elem_of_cons. simpl. split; [done|lia].
      * intros (a & b & H & Hn & Hl). destruct a as [|y a]; simplify_eq/=.
        rewrite not_elem_of_cons in Hn. destruct Hn as [_ Hn].
        assert (index_byte c (a ++ c :: b) = Some (length a)) as ->; [|done].
        apply IH. eauto.
Qed.
