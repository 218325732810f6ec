From Verif Require Import GoBase HeaderModel FrameModel GrammarSpec GoBaseProofs HeaderProofs CodecProofs
  NegotiationModel NegotiationSpec.
From Coq Require Import ZifyBool ZifyNat ZifyN Sorted.

Ltac neq_lit := apply (bool_decide_unpack _); vm_compute; exact I.

Lemma wrap64_id z : is_int64 z -> wrap64 z = z.
Proof. unfold is_int64, wrap64. intros H. rewrite Z.mod_small by lia. lia. Qed.

(* ---------- digit runs ---------- *)
Lemma span_digits_app a c r : forallb is_digit a = true -> is_digit c = false ->
  span_digits (a ++ c :: r) = (a, c :: r).
Proof.
  induction a as [|x a IH]; simpl; intros Ha Hc.
  - by rewrite Hc.
  - apply andb_prop in Ha as [Hx Ha]. rewrite Hx, IH by done. done.
Qed.
Lemma span_digits_all a : forallb is_digit a = true -> span_digits a = (a, []).
Proof.
  induction a as [|x a IH]; simpl; [done|]. intros [Hx Ha]%andb_prop. by rewrite Hx, IH.
Qed.
Lemma span_digits_spec s : forallb is_digit (fst (span_digits s)) = true /\
  s = fst (span_digits s) ++ snd (span_digits s).
Proof.
  induction s as [|c s IH]; simpl; [done|]. destruct (is_digit c) eqn:Hc; [|done].
  destruct (span_digits s) as [a b]. simpl in *. rewrite Hc. simpl. destruct IH as [-> ->]. done.
Qed.
Lemma digits_nocomma a : forallb is_digit a = true -> COMMA ∉ a.
Proof.
  induction a as [|x a IH]; simpl; [intros _; apply not_elem_of_nil|].
  intros [Hx Ha]%andb_prop. apply not_elem_of_cons. split; [|auto]. intros <-. by vm_compute in Hx.
Qed.

Definition len_ok (mx : option nat) (d : str) : Prop :=
  match mx with None => True | Some m => length d <= m end.
Lemma hb_regexp_iff mx s : hb_regexp mx s = true <->
  exists a b, s = a ++ COMMA :: b /\ a <> [] /\ b <> [] /\
    forallb is_digit a = true /\ forallb is_digit b = true /\ len_ok mx a /\ len_ok mx b.
Proof.
  unfold hb_regexp. split.
  - pose proof (span_digits_spec s) as [Hd Hs]. destruct (span_digits s) as [a r]. simpl in Hd, Hs.
    destruct r as [|c r']; [done|]. case_decide as Hc; [|done]. subst c.
    pose proof (span_digits_spec r') as [Hd' Hs']. destruct (span_digits r') as [b r'']. simpl in Hd', Hs'.
    intros [[H1 H2]%andb_prop H3]%andb_prop. apply bool_decide_eq_true in H3. subst r''.
    apply andb_prop in H1 as [Ha Hla]. apply andb_prop in H2 as [Hb Hlb].
    apply negb_true_iff, bool_decide_eq_false in Ha, Hb.
    exists a, b. rewrite app_nil_r in Hs'. subst r'. repeat split; try done.
    + destruct mx; simpl; [lia|done].
    + destruct mx; simpl; [lia|done].
  - intros (a & b & -> & Ha & Hb & Hda & Hdb & Hla & Hlb).
    rewrite span_digits_app by done. rewrite decide_True by done.
    rewrite span_digits_all by done. rewrite !bool_decide_eq_false_2 by done. simpl.
    try rewrite bool_decide_eq_true_2 by done.
    destruct mx as [m|]; simpl in *; [|done].
    destruct (Nat.leb_spec (length a) m); [|lia]. destruct (Nat.leb_spec (length b) m); [|lia]. done.
Qed.

Lemma hb_split a b : forallb is_digit a = true -> forallb is_digit b = true ->
  split_on COMMA (a ++ COMMA :: b) = [a; b].
Proof.
  intros Ha Hb. rewrite split_on_app by by apply digits_nocomma.
  rewrite split_on_nosep by by apply digits_nocomma. done.
Qed.
Lemma app_comma_inj a b c d : COMMA ∉ a -> COMMA ∉ c -> a ++ COMMA :: b = c ++ COMMA :: d -> a = c /\ b = d.
Proof.
  intros Ha Hc He. apply (f_equal (cut_after COMMA)) in He.
  rewrite !cut_after_app in He by done. injection He as He1 He2. by apply app_inj_tail in He1 as [? _].
Qed.

(* ---------- C11 ---------- *)
Lemma parse_heart_beat_iff s d1 d2 :
  parse_heart_beat s = Some (d1, d2) <->
  exists n m, hb_pair s n m /\ (Z.of_N n * 1000000 < 2 ^ 63)%Z /\ (Z.of_N m * 1000000 < 2 ^ 63)%Z /\
              d1 = (Z.of_N n * 1000000)%Z /\ d2 = (Z.of_N m * 1000000)%Z.
Proof.
  unfold parse_heart_beat. destruct (hb_regexp None s) eqn:Hr.
  - apply hb_regexp_iff in Hr as (a & b & -> & Ha & Hb & Hda & Hdb & _).
    rewrite hb_split by done.
    assert (dec_text a (dec_value a)) as Ta by by apply dec_text_iff.
    assert (dec_text b (dec_value b)) as Tb by by apply dec_text_iff.
    assert (forall n m, hb_pair (a ++ COMMA :: b) n m <-> n = dec_value a /\ m = dec_value b) as Hp.
    { intros n m. split.
      - intros (a' & b' & He & Ta' & Tb').
        pose proof (proj1 (dec_text_iff _ _) Ta') as (_ & Hda' & _).
        apply app_comma_inj in He as [<- <-]; [|by apply digits_nocomma..].
        split; eapply dec_text_fun; done.
      - intros [-> ->]. exists a, b. done. }
    assert (max_milliseconds = 9223372036854)%N as Hmax by done.
    destruct (parse_uint 63 a) as [v1|] eqn:E1; [|].
    2:{ split; [done|]. intros (n & m & Hnm & Hn & _). apply Hp in Hnm as [-> _].
        assert (parse_uint 63 a = Some (dec_value a)) as Hc; [|congruence].
        apply parse_uint_iff. split; [done|]. change (2 ^ 63)%N with 9223372036854775808%N. lia. }
    destruct (parse_uint 63 b) as [v2|] eqn:E2.
    2:{ split; [done|]. intros (n & m & Hnm & _ & Hn & _). apply Hp in Hnm as [_ ->].
        assert (parse_uint 63 b = Some (dec_value b)) as Hc; [|congruence].
        apply parse_uint_iff. split; [done|]. change (2 ^ 63)%N with 9223372036854775808%N. lia. }
    apply parse_uint_iff in E1 as [E1 _]. apply parse_uint_iff in E2 as [E2 _].
    pose proof (dec_text_fun _ _ _ E1 Ta) as ->. pose proof (dec_text_fun _ _ _ E2 Tb) as ->.
    rewrite Hmax. unfold ms. set (x := dec_value a) in *. set (y := dec_value b) in *.
    destruct (N.ltb_spec 9223372036854 x); simpl; [|destruct (N.ltb_spec 9223372036854 y); simpl].
    + split; [done|]. intros (n & m & Hnm & Hn & _). apply Hp in Hnm as [-> _].
      change (2 ^ 63)%Z with 9223372036854775808%Z in Hn. lia.
    + split; [done|]. intros (n & m & Hnm & _ & Hn & _). apply Hp in Hnm as [_ ->].
      change (2 ^ 63)%Z with 9223372036854775808%Z in Hn. lia.
    + rewrite !wrap64_id by (unfold is_int64; change (2 ^ 63)%Z with 9223372036854775808%Z; lia).
      split.
      * intros [= <- <-]. exists x, y. split; [by apply Hp|].
        change (2 ^ 63)%Z with 9223372036854775808%Z. lia.
      * intros (n & m & Hnm & _ & _ & -> & ->). apply Hp in Hnm as [-> ->]. done.
  - split; [done|]. intros (n & m & (a & b & -> & Ta & Tb) & _). exfalso.
    rewrite (proj2 (hb_regexp_iff None _)) in Hr; [done|].
    apply dec_text_iff in Ta as (? & ? & _), Tb as (? & ? & _). exists a, b. done.
Qed.

Lemma heart_beat_text_pair n m : (0 <= n)%Z -> (0 <= m)%Z ->
  hb_pair (heart_beat_text n m) (Z.to_N n) (Z.to_N m).
Proof.
  intros Hn Hm. unfold heart_beat_text. exists (format_int n), (format_int m). split; [done|].
  unfold format_int. destruct n; [|..|lia]; destruct m; try lia; split; apply format_uint_text.
Qed.
Lemma parse_heart_beat_text n m : (0 <= n)%Z -> (0 <= m)%Z ->
  (n * 1000000 < 2 ^ 63)%Z -> (m * 1000000 < 2 ^ 63)%Z ->
  parse_heart_beat (heart_beat_text n m) = Some (n * 1000000, m * 1000000)%Z.
Proof.
  intros Hn Hm Hn' Hm'. apply parse_heart_beat_iff. exists (Z.to_N n), (Z.to_N m).
  split; [by apply heart_beat_text_pair|]. rewrite !Z2N.id by done. done.
Qed.

(* ---------- server heart-beat text ---------- *)
Lemma get_heart_beat_iff f cx cy : f_cmd f = CONNECT \/ f_cmd f = STOMP ->
  get_heart_beat f = inr (cx, cy) <->
  (no_entry (f_hdr f) h_heart_beat /\ cx = 0%Z /\ cy = 0%Z) \/
  (exists t n m, first_entry (f_hdr f) h_heart_beat t /\ hb_pair9 t n m /\ cx = Z.of_N n /\ cy = Z.of_N m).
Proof.
  intros Hcmd. unfold get_heart_beat. rewrite decide_False by (intros (A & B & _); destruct Hcmd; done).
  destruct (hd_contains (f_hdr f) h_heart_beat) as [hb|] eqn:Hh.
  - apply hd_contains_Some in Hh.
    destruct (hb_regexp (Some 9) hb) eqn:Hr.
    + apply hb_regexp_iff in Hr as (a & b & -> & Ha & Hb & Hda & Hdb & Hla & Hlb). simpl in Hla, Hlb.
      rewrite hb_split by done.
      assert (forall d, d <> [] -> forallb is_digit d = true -> length d <= 9 -> parse_uint 32 d = Some (dec_value d)) as Hpu.
      { intros d Hd1 Hd2 Hd3. apply parse_uint_iff. split; [by apply dec_text_iff|].
        pose proof (dec_value_bound d Hd2). eapply N.lt_le_trans; [done|].
        etransitivity; [apply (N.pow_le_mono_r 10 _ 9); lia|]. by vm_compute. }
      rewrite !Hpu by done. simpl. split.
      * intros [= <- <-]. right. exists (a ++ COMMA :: b), (dec_value a), (dec_value b).
        split; [done|]. split; [|done]. exists a, b. repeat split; try done; by apply dec_text_iff.
      * intros [[Hno _]|(t & n & m & Ht & (a' & b' & -> & Ta & Tb & _) & -> & ->)].
        { exfalso. destruct Hh as (h1 & h2 & He & _). apply (Hno (a ++ COMMA :: b)). rewrite He.
          apply elem_of_app; right; left. }
        pose proof (first_entry_fun _ _ _ _ Hh Ht) as He.
        pose proof (proj1 (dec_text_iff _ _) Ta) as (_ & Hda' & <-).
        pose proof (proj1 (dec_text_iff _ _) Tb) as (_ & Hdb' & <-).
        apply app_comma_inj in He as [<- <-]; [|by apply digits_nocomma..]. done.
    + split; [done|]. intros [[Hno _]|(t & n & m & Ht & (a' & b' & -> & Ta & Tb & Hla & Hlb) & -> & ->)]; exfalso.
      { destruct Hh as (h1 & h2 & He & _). apply (Hno hb). rewrite He. apply elem_of_app; right; left. }
      pose proof (first_entry_fun _ _ _ _ Hh Ht) as ->.
      rewrite (proj2 (hb_regexp_iff (Some 9) _)) in Hr; [done|].
      apply dec_text_iff in Ta as (? & ? & _), Tb as (? & ? & _). exists a', b'. done.
  - split.
    + intros [= <- <-]. left. by apply hd_contains_None in Hh.
    + intros [(_ & -> & ->)|(t & n & m & Ht & _)]; [done|].
      apply hd_contains_Some in Ht. congruence.
Qed.
Lemma get_heart_beat_range f cx cy : get_heart_beat f = inr (cx, cy) ->
  (0 <= cx <= 999999999)%Z /\ (0 <= cy <= 999999999)%Z.
Proof.
  unfold get_heart_beat. case_decide; [done|].
  destruct (hd_contains (f_hdr f) h_heart_beat) as [hb|]; [|intros [= <- <-]; lia].
  destruct (hb_regexp (Some 9) hb) eqn:Hr; [|done].
  apply hb_regexp_iff in Hr as (a & b & -> & Ha & Hb & Hda & Hdb & Hla & Hlb). simpl in Hla, Hlb.
  rewrite hb_split by done.
  assert (forall d, forallb is_digit d = true -> length d <= 9 -> (default 0%N (parse_uint 32 d) <= 999999999)%N) as Hpu.
  { intros d Hd2 Hd3. destruct (parse_uint 32 d) as [v|] eqn:Hp; simpl; [|lia].
    apply parse_uint_iff in Hp as [Hp _]. apply dec_text_iff in Hp as (_ & _ & <-).
    pose proof (dec_value_bound d Hd2).
    assert (10 ^ N.of_nat (length d) <= 10 ^ 9)%N by (apply N.pow_le_mono_r; lia).
    change (10 ^ 9)%N with 1000000000%N in *. lia. }
  pose proof (Hpu a Hda Hla). pose proof (Hpu b Hdb Hlb). intros [= <- <-]. lia.
Qed.

Lemma as_milliseconds_spec d : whole_ms d (as_milliseconds d max_heart_beat).
Proof.
  unfold as_milliseconds, whole_ms, max_heart_beat, ms. cbn [Z.ltb Z.compare].
  change (999999999 <? 0)%Z with false. cbv iota.
  destruct (Z.ltb_spec 999999999 (Z.quot d 1000000)).
  - destruct (Z_lt_le_dec d 0).
    + exfalso. assert (Z.quot d 1000000 <= 0)%Z; [|lia]. apply Z.quot_le_upper_bound; lia.
    + right. split; [done|]. right. split; [done|]. rewrite Z.quot_div_nonneg in H by lia. lia.
  - destruct (Z_lt_le_dec d 0).
    + left. split; [done|]. apply Z.quot_le_upper_bound; lia.
    + right. split; [done|]. left. rewrite Z.quot_div_nonneg by lia. lia.
Qed.
Lemma as_milliseconds_max d : (as_milliseconds d max_heart_beat <= 999999999)%Z.
Proof.
  unfold as_milliseconds, max_heart_beat. change (999999999 <? 0)%Z with false. cbv iota.
  destruct (Z.ltb_spec 999999999 (Z.quot d ms)); lia.
Qed.
Lemma raise_min_spec mn v : (0 <= v)%Z -> raised mn v (raise_min mn v).
Proof.
  intros Hv. unfold raise_min, raised.
  destruct (Z.ltb_spec 0 v); simpl; [|lia]. destruct (Z.ltb_spec v mn); lia.
Qed.
Lemma raised_fun mn v a b : raised mn v a -> raised mn v b -> a = b.
Proof. unfold raised. lia. Qed.

(* ---------- versions ---------- *)
Lemma str_le_refl a : str_le a a = true.
Proof. induction a as [|x a IH]; simpl; [done|]. by rewrite N.ltb_irrefl. Qed.
Lemma str_le_trans a b c : str_le a b = true -> str_le b c = true -> str_le a c = true.
Proof.
  revert b c. induction a as [|x a IH]; intros [|y b] [|z c]; simpl; try done.
  destruct (N.ltb_spec (N_of_ascii x) (N_of_ascii y)).
  - destruct (N.ltb_spec (N_of_ascii y) (N_of_ascii z)).
    + destruct (N.ltb_spec (N_of_ascii x) (N_of_ascii z)); [done|lia].
    + destruct (N.ltb_spec (N_of_ascii z) (N_of_ascii y)); [done|].
      destruct (N.ltb_spec (N_of_ascii x) (N_of_ascii z)); [done|lia].
  - destruct (N.ltb_spec (N_of_ascii y) (N_of_ascii x)); [done|].
    destruct (N.ltb_spec (N_of_ascii y) (N_of_ascii z)).
    + destruct (N.ltb_spec (N_of_ascii x) (N_of_ascii z)); [done|lia].
    + destruct (N.ltb_spec (N_of_ascii z) (N_of_ascii y)); [done|].
      destruct (N.ltb_spec (N_of_ascii x) (N_of_ascii z)); [done|].
      destruct (N.ltb_spec (N_of_ascii z) (N_of_ascii x)); [lia|]. apply IH.
Qed.
Lemma str_le_total a b : str_le a b = true \/ str_le b a = true.
Proof.
  revert b. induction a as [|x a IH]; intros [|y b]; simpl; auto.
  destruct (N.ltb_spec (N_of_ascii x) (N_of_ascii y)); [auto|].
  destruct (N.ltb_spec (N_of_ascii y) (N_of_ascii x)); [auto|]. apply IH.
Qed.
Definition sle (a b : str) : Prop := str_le a b = true.
Lemma insert_sorted_elem x l y : y ∈ insert_sorted x l <-> y = x \/ y ∈ l.
Proof.
  induction l as [|z l IH]; simpl.
  - rewrite elem_of_list_singleton. split; [auto|]. intros [?|H]; [done|by apply elem_of_nil in H].
  - destruct (str_le x z); rewrite !elem_of_cons, ?IH; tauto.
Qed.
Lemma insert_sorted_sorted x l : StronglySorted sle l -> StronglySorted sle (insert_sorted x l).
Proof.
  induction 1 as [|z l Hs IH Hz]; simpl.
  - repeat constructor.
  - destruct (str_le x z) eqn:Hx.
    + constructor; [by constructor|]. constructor; [done|].
      eapply List.Forall_impl; [|exact Hz]. intros w Hw. by eapply str_le_trans.
    + constructor; [done|]. apply Forall_forall. intros w Hw. apply insert_sorted_elem in Hw as [->|Hw].
      * destruct (str_le_total x z); [congruence|done].
      * rewrite Forall_forall in Hz. auto.
Qed.
Lemma sort_strings_sorted l : StronglySorted sle (sort_strings l).
Proof. induction l as [|x l IH]; simpl; [constructor|by apply insert_sorted_sorted]. Qed.
Lemma sort_strings_elem l y : y ∈ sort_strings l <-> y ∈ l.
Proof.
  induction l as [|x l IH]; simpl; [done|]. rewrite insert_sorted_elem, elem_of_cons, IH. done.
Qed.
Lemma sorted_snoc l x y : StronglySorted sle (l ++ [x]) -> y ∈ l -> sle y x.
Proof.
  induction l as [|z l IH]; simpl; intros Hs Hy; [by apply elem_of_nil in Hy|].
  inversion Hs as [|? ? Hs' Hz]; subst. apply elem_of_cons in Hy as [->|Hy]; [|auto].
  rewrite Forall_forall in Hz. apply Hz. apply elem_of_app; right. by apply elem_of_list_singleton.
Qed.
Lemma sorted_init l x : StronglySorted sle (l ++ [x]) -> StronglySorted sle l.
Proof.
  induction l as [|z l IH]; simpl; intros Hs; [constructor|].
  inversion Hs as [|? ? Hs' Hz]; subst. constructor; [auto|]. by apply Forall_app in Hz as [? _].
Qed.
Lemma pick_sorted l : StronglySorted sle l ->
  fold_left pick_version l None =
  if decide (V12 ∈ l) then Some V12 else if decide (V11 ∈ l) then Some V11
  else if decide (V10 ∈ l) then Some V10 else None.
Proof.
  induction l as [|x l IH] using rev_ind; intros Hs; [done|].
  rewrite fold_left_app. simpl. rewrite (IH (sorted_init _ _ Hs)).
  assert (forall v, v ∈ l ++ [x] <-> v ∈ l \/ v = x) as Hel.
  { intros v. by rewrite elem_of_app, elem_of_list_singleton. }
  assert (forall v, v ∈ l -> sle v x) as Hle by (intros v; by apply sorted_snoc).
  unfold pick_version.
  destruct (decide (x = V10)) as [->|H10].
  { rewrite (decide_False (P:=V12 ∈ _)), (decide_False (P:=V11 ∈ _)), (decide_True (P:=V10 ∈ _)); [done|..].
    - apply Hel; auto.
    - intros [H|H]%Hel; [by apply Hle in H|by vm_compute in H].
    - intros [H|H]%Hel; [by apply Hle in H|by vm_compute in H]. }
  destruct (decide (x = V11)) as [->|H11].
  { rewrite (decide_False (P:=V12 ∈ l ++ _)), (decide_True (P:=V11 ∈ l ++ _)); [done|..].
    - apply Hel; auto.
    - intros [H|H]%Hel; [by apply Hle in H|by vm_compute in H]. }
  destruct (decide (x = V12)) as [->|H12].
  { rewrite (decide_True (P:=V12 ∈ l ++ _)); [done|]. apply Hel; auto. }
  assert (forall v, v <> x -> (v ∈ l ++ [x] <-> v ∈ l)) as He by (intros v Hv; rewrite Hel; naive_solver).
  repeat match goal with |- context [decide (?v ∈ l)] =>
     rewrite (decide_ext (v ∈ l ++ [x]) (v ∈ l)) by (apply He; done);
     destruct (decide (v ∈ l)); try done end.
Qed.

Lemma comma_item_iff s v : comma_item s v <-> v ∈ split_on COMMA s.
Proof.
  split.
  - intros (Hv & pre & post & -> & Hpre & Hpost).
    assert (v ∈ split_on COMMA (v ++ post)) as Hin.
    { destruct Hpost as [->|Hp].
      - rewrite app_nil_r, split_on_nosep by done. by apply elem_of_list_singleton.
      - destruct post as [|c post]; [done|]. simpl in Hp. simplify_eq. rewrite split_on_app by done. left. }
    destruct Hpre as [->|Hl]; [done|].
    apply last_Some in Hl as [p ->]. rewrite <- app_assoc. cbn [app].
    set (t := v ++ post) in *. clearbody t. clear - Hin.
    induction p as [|c p IH]; cbn [app split_on].
    + rewrite decide_True by done. by right.
    + case_decide; [by right|].
      pose proof (split_on_ne COMMA (p ++ COMMA :: t)) as Hne.
      assert (exists hd tl, split_on COMMA (p ++ COMMA :: t) = hd :: tl /\ v ∈ tl) as (hd & tl & -> & Ht).
      { clear -Hin. induction p as [|c p IH]; cbn [app split_on].
        - rewrite decide_True by done. eauto.
        - case_decide.
          + destruct IH as (hd & tl & -> & ?). eexists _, _. split; [done|]. by right.
          + destruct IH as (hd & tl & -> & ?). eauto. }
      by right.
  - intros Hin. split.
    { pose proof (split_on_pieces COMMA s) as Hf. rewrite Forall_forall in Hf. auto. }
    revert v Hin. induction s as [|c s IH]; intros v; cbn [split_on].
    + intros ->%elem_of_list_singleton. exists [], []. auto.
    + case_decide as Hc.
      * subst c. intros [->|Hin]%elem_of_cons.
        { exists [], (COMMA :: s). split; [done|]. auto. }
        destruct (IH v Hin) as (pre & post & -> & Hpre & Hpost).
        exists (COMMA :: pre), post. split; [done|]. split; [|done]. right.
        destruct Hpre as [->|Hp]; [done|]. by rewrite last_cons, Hp.
      * pose proof (split_on_ne COMMA s) as Hne.
        destruct (split_on COMMA s) as [|p ps] eqn:Hsp; [done|].
        intros [->|Hin]%elem_of_cons.
        { (* first piece extended by c *)
          exists [], (drop (S (length p)) (c :: s)). split; [|split; [by left|]].
          - cbn [app drop]. f_equal.
            assert (take (length p) s = p) as Ht.
            { rewrite <- (join_split COMMA s), Hsp. destruct ps; simpl; [by rewrite take_ge|by rewrite take_app]. }
            transitivity (take (length p) s ++ drop (length p) s); [by rewrite take_drop|by rewrite Ht].
          - cbn [drop]. rewrite <- (join_split COMMA s), Hsp. destruct ps; simpl.
            + left. by rewrite drop_ge.
            + right. by rewrite drop_app. }
        destruct (IH v) as (pre & post & He & Hpre & Hpost); [by right|].
        (* v is not the first piece; pre is non-empty or v is first piece again *)
        destruct Hpre as [->|Hp].
        { (* pre = []: then v would be the first piece p too; need another occurrence *)
          clear IH. 
          assert (exists pre' post', s = pre' ++ v ++ post' /\ last pre' = Some COMMA /\ (post' = [] \/ head post' = Some COMMA)) as (pre' & post' & He' & Hl & Hpo).
          { clear He Hpost post. 
            rewrite <- (join_split COMMA s), Hsp. clear Hsp Hne.
            apply elem_of_list_split in Hin as (l1 & l2 & ->). clear.
            revert p. induction l1 as [|q l1 IH]; intros p.
            - exists (p ++ [COMMA]), (match l2 with [] => [] | _ => COMMA :: join_with COMMA l2 end).
              split; [|split; [by rewrite last_snoc|destruct l2; auto]].
              cbn [app]. destruct l2; cbn [join_with]; rewrite <- ?app_assoc; cbn; by rewrite ?app_nil_r.
            - destruct (IH q) as (pre & post & He & Hl & Hp).
              exists (p ++ COMMA :: pre), post. split; [|split; [|done]].
              + cbn [app] in *. change (join_with COMMA (p :: q :: l1 ++ v :: l2)) with (p ++ COMMA :: join_with COMMA (q :: l1 ++ v :: l2)).
                rewrite He. rewrite <- app_assoc. done.
              + rewrite last_app, last_cons, Hl. done. }
          exists (c :: pre'), post'. split; [by rewrite He'|]. split; [|done]. right. by rewrite last_cons, Hl. }
        exists (c :: pre), post. split; [by rewrite He|]. split; [|done]. right. by rewrite last_cons, Hp.
Qed.

Lemma highest_version_fun P v w : highest_version P v -> highest_version P w -> v = w.
Proof. intros [] []; done. Qed.
Lemma determine_version_iff f v :
  determine_version f = inr v <->
  ((f_cmd f = CONNECT \/ f_cmd f = STOMP) /\
   (exists av, first_entry (f_hdr f) h_accept_version av /\ highest_version (comma_item av) v)) \/
  (f_cmd f = CONNECT /\ no_entry (f_hdr f) h_accept_version /\ v = lit "1.0").
Proof.
  unfold determine_version. destruct (decide (f_cmd f <> CONNECT /\ f_cmd f <> STOMP)) as [[H1 H2]|Hc].
  { split; [done|]. intros [[[?|?] _]|[? _]]; done. }
  assert (f_cmd f = CONNECT \/ f_cmd f = STOMP) as Hcmd.
  { destruct (decide (f_cmd f = CONNECT)); [by left|]. destruct (decide (f_cmd f = STOMP)); [by right|]. tauto. }
  destruct (hd_contains (f_hdr f) h_accept_version) as [av|] eqn:Ha.
  - apply hd_contains_Some in Ha.
    rewrite pick_sorted by apply sort_strings_sorted.
    rewrite !(decide_ext (_ ∈ sort_strings _) (_ ∈ split_on COMMA av)) by apply sort_strings_elem.
    assert (forall v, (exists av', first_entry (f_hdr f) h_accept_version av' /\ highest_version (comma_item av') v) <->
            highest_version (comma_item av) v) as Hex.
    { intros w. split; [|eauto]. intros (av' & H1 & H2). by rewrite (first_entry_fun _ _ _ _ Ha H1). }
    assert (~ no_entry (f_hdr f) h_accept_version) as Hnn.
    { intros Hn. apply hd_contains_None in Hn. apply hd_contains_Some in Ha. congruence. }
    assert (forall w, w ∈ split_on COMMA av <-> comma_item av w) as Hci by (intros; by rewrite comma_item_iff).
    assert (forall w, highest_version (comma_item av) w ->
      (match (if decide (V12 ∈ split_on COMMA av) then Some V12
       else if decide (V11 ∈ split_on COMMA av) then Some V11
       else if decide (V10 ∈ split_on COMMA av) then Some V10 else None) with
       | Some w' => w' = w | None => False end)) as Hhv.
    { intros w Hw.
      destruct (decide (V12 ∈ split_on COMMA av)) as [H12|H12].
      { apply Hci in H12. destruct Hw; done. }
      destruct (decide (V11 ∈ split_on COMMA av)) as [H11|H11].
      { apply Hci in H11. destruct Hw; try done. by destruct H12; apply Hci. }
      destruct (decide (V10 ∈ split_on COMMA av)) as [H10|H10].
      { destruct Hw; try done; [by destruct H12; apply Hci|by destruct H11; apply Hci]. }
      destruct Hw; [by destruct H12; apply Hci|by destruct H11; apply Hci|by destruct H10; apply Hci]. }
    split.
    + intros He. left. split; [done|]. apply Hex.
      destruct (decide (V12 ∈ split_on COMMA av)) as [H12|H12].
      { simplify_eq. constructor. by apply Hci. }
      destruct (decide (V11 ∈ split_on COMMA av)) as [H11|H11].
      { simplify_eq. constructor; [by apply Hci|]. intros H. by apply H12, Hci. }
      destruct (decide (V10 ∈ split_on COMMA av)) as [H10|H10]; [|done].
      simplify_eq. constructor; [by apply Hci|..]; intros H; [by apply H11, Hci|by apply H12, Hci].
    + intros [[_ H]|(_ & H & _)]; [|done]. apply Hex, Hhv in H.
      destruct (if decide (V12 ∈ split_on COMMA av) then _ else _); [by subst|done].
  - pose proof (proj1 (hd_contains_None _ _) Ha) as Hn. split.
    + case_decide; [|done]. intros [= <-]. right. done.
    + intros [[_ (av & H & _)]|(H & _ & ->)].
      * apply hd_contains_Some in H. congruence.
      * by rewrite decide_True.
Qed.
