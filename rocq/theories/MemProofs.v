(** Readers in memory: proofs. *)
From stdpp Require Import gmap.
From Verif Require Import GoBase HeaderModel FrameModel GrammarSpec GoBaseProofs HeaderProofs CodecProofs BufioModel BufioProofs MemModel MemSpec.

(* ---------------- memory ---------------- *)

(** m' is m with more arrays, and with changes only in the arrays X. *)
Record ext (X : nat -> Prop) (m m' : mem) : Prop := {
  ex_len : length m <= length m';
  ex_same : forall a, a < length m -> ~ X a -> m' !! a = m !! a;
  ex_size : forall a, a < length m -> length (array m' a) = length (array m a) }.
Definition valid (m : mem) (r : ref) : Prop := f_arr r < length m /\ f_off r + f_len r <= length (array m (f_arr r)).

Lemma ext_refl X m : ext X m m.
Proof. by split. Qed.
Lemma ext_trans X m1 m2 m3 : ext X m1 m2 -> ext X m2 m3 -> ext X m1 m3.
Proof.
  intros [A1 A2 A3] [B1 B2 B3]. split; [lia| |].
  - intros a Ha Hx. rewrite B2 by (done || lia). by apply A2.
  - intros a Ha. rewrite B3 by lia. by apply A3.
Qed.
Lemma ext_weaken (X Y : nat -> Prop) m m' : ext X m m' -> (forall a, a < length m -> X a -> Y a) -> ext Y m m'.
Proof. intros [A1 A2 A3] H. split; [done| |done]. intros a Ha Hy. apply A2; [done|]. intros Hx. by apply Hy, H. Qed.
Lemma ext_array (X : nat -> Prop) m m' a : ext X m m' -> a < length m -> ~ X a -> array m' a = array m a.
Proof. intros [A1 A2 A3] Ha Hx. unfold array. by rewrite A2. Qed.
Lemma ext_deref (X : nat -> Prop) m m' r : ext X m m' -> valid m r -> ~ X (f_arr r) -> deref m' r = deref m r.
Proof. intros He [Hv _] Hx. unfold deref. by rewrite (ext_array X m m'). Qed.
Lemma ext_valid X m m' r : ext X m m' -> valid m r -> valid m' r.
Proof. intros [A1 A2 A3] [H1 H2]. split; [lia|]. by rewrite A3. Qed.
Lemma deref_length m r : valid m r -> length (deref m r) = f_len r.
Proof. intros [_ H]. unfold deref. rewrite take_length, drop_length. lia. Qed.

Lemma alloc_ext X m s m' r : alloc m s = (m', r) -> ext X m m' /\ valid m' r /\ f_arr r = length m /\ deref m' r = s /\ f_len r = length s /\ f_off r = 0 /\ array m' (f_arr r) = s.
Proof.
  intros [= <- <-]. assert (array (m ++ [s]) (length m) = s) as E by (unfold array; by rewrite lookup_app_r, Nat.sub_diag).
  split_and!; try done.
  - split; [rewrite app_length; lia| |].
    + intros a Ha _. by rewrite lookup_app_l.
    + intros a Ha. unfold array. by rewrite lookup_app_l.
  - split; cbn; [rewrite app_length; cbn; lia|]. by rewrite E.
  - unfold deref. cbn. by rewrite E, drop_0, take_ge.
Qed.
Lemma poke_array m a off s : a < length m -> array (poke m a off s) a = take off (array m a) ++ s ++ drop (off + length s) (array m a).
Proof. intros H. unfold array, poke. rewrite list_lookup_alter. apply lookup_lt_is_Some in H as [x ->]. done. Qed.
Lemma poke_ext m a off s : off + length s <= length (array m a) -> ext (eq a) m (poke m a off s).
Proof.
  intros H. split.
  - unfold poke. by rewrite alter_length.
  - intros b Hb Hx. unfold poke. by rewrite list_lookup_alter_ne.
  - intros b Hb. destruct (decide (a = b)) as [->|Hne].
    + rewrite poke_array by done. rewrite !app_length, take_length, drop_length. lia.
    + unfold array, poke. by rewrite list_lookup_alter_ne.
Qed.

(* ---------------- the buffer ---------------- *)
Record rd_ok (m : mem) (b : mrd) : Prop := {
  ro_arr : b_arr b < length m; ro_size : length (array m (b_arr b)) = b_cap b; ro_cap : 0 < b_cap b;
  ro_pos : b_r b <= b_w b <= b_cap b; ro_net : net_ok (b_net b) }.
Definition abs (m : mem) (b : mrd) : bufr := mkBufr (buffered m b) (b_net b).
Definition same (b b' : mrd) : Prop := b_arr b' = b_arr b /\ b_cap b' = b_cap b.
Lemma buffered_length m b : rd_ok m b -> length (buffered m b) = b_w b - b_r b.
Proof. intros [H1 H2 H3 H4 H5]. unfold buffered. rewrite deref_length; [done|]. split; cbn; [done|]. lia. Qed.
Lemma rd_ext (X : nat -> Prop) m m' b : ext X m m' -> rd_ok m b -> rd_ok m' b.
Proof. intros [A1 A2 A3] [H1 H2 H3 H4 H5]. split; try done; [lia|]. by rewrite A3. Qed.
Lemma buffered_ext (X : nat -> Prop) m m' b : ext X m m' -> rd_ok m b -> ~ X (b_arr b) -> buffered m' b = buffered m b.
Proof. intros He [H1 H2 H3 H4 H5] Hx. apply ext_deref with X; [done| |done]. split; cbn; [done|]. lia. Qed.

Lemma m_fill_spec m b : rd_ok m b -> length (buffered m b) < b_cap b ->
  match m_fill m b with
  | (m1, None) => ext (eq (b_arr b)) m m1 /\ fill (b_cap b) (abs m b) = None
  | (m1, Some b1) => ext (eq (b_arr b)) m m1 /\ fill (b_cap b) (abs m b) = Some (abs m1 b1) /\ rd_ok m1 b1 /\ same b b1
  end.
Proof.
  intros Hok Hl. pose proof Hok as [H1 H2 H3 H4 H5]. unfold m_fill, fill. cbn [r_buf r_net abs].
  set (s := buffered m b) in *. set (m1 := poke m (b_arr b) 0 s).
  assert (He : ext (eq (b_arr b)) m m1) by (apply poke_ext; lia).
  pose proof (net_read_spec (b_cap b - length s) (b_net b) ltac:(lia) H5) as Hn.
  destruct (net_read (b_cap b - length s) (b_net b)) as [[x net]|]; [|done]. destruct Hn as (Hx & Hxl & _ & Hnet).
  assert (Hs1 : length (array m1 (b_arr b)) = b_cap b) by (rewrite (ex_size _ _ _ He); done).
  assert (Hlen : length m1 = length m) by (unfold m1, poke; by rewrite alter_length).
  assert (He2 : ext (eq (b_arr b)) m1 (poke m1 (b_arr b) (length s) x)) by (apply poke_ext; lia).
  split_and!; [by eapply ext_trans| | |done].
  - f_equal. unfold abs. f_equal. unfold buffered, deref. cbn [f_arr f_off f_len b_arr b_r b_w b_net].
    rewrite poke_array by lia. unfold m1 at 1 2. rewrite !poke_array by lia. cbn [Nat.add]. rewrite drop_0, Nat.sub_0_r. rewrite !take_0. cbn [app]. rewrite take_app.
    rewrite app_assoc, take_app_alt by (rewrite app_length; done). done.
  - split; cbn [b_arr b_cap b_r b_w b_net]; try done; [pose proof (ex_len _ _ _ He2); lia|rewrite (ex_size _ _ _ He2) by lia; done|lia].
Qed.

Lemma m_read_slice_spec fuel d m b : rd_ok m b ->
  match m_read_slice fuel d m b, read_slice fuel (b_cap b) d (abs m b) with
  | (m1, MsFound r b1), SlFound line st | (m1, MsFull r b1), SlFull line st =>
      ext (eq (b_arr b)) m m1 /\ rd_ok m1 b1 /\ same b b1 /\ abs m1 b1 = st /\ deref m1 r = line
  | (m1, MsErr), SlErr _ | (m1, MsFuel), SlFuel => ext (eq (b_arr b)) m m1
  | _, _ => False
  end.
Proof.
  revert m b. induction fuel as [|k IH]; intros m b Hok; cbn [m_read_slice read_slice]; [apply ext_refl|].
  pose proof Hok as [H1 H2 H3 H4 H5]. pose proof (buffered_length _ _ Hok) as Hbl. cbn [abs r_buf r_net].
  destruct (cut_after d (buffered m b)) as [[line rest]|] eqn:Hc.
  - apply cut_after_Some in Hc as (p & -> & _ & Hb).
    assert (length (p ++ [d]) <= b_w b - b_r b) as Hle. { rewrite <- Hbl, Hb. rewrite !app_length. cbn. lia. }
    assert (Hb' : buffered m b = (p ++ [d]) ++ rest) by (rewrite Hb; by rewrite <- app_assoc).
    split_and!; [apply ext_refl| |done| |].
    + split; cbn [b_arr b_cap b_r b_w b_net]; try done. lia.
    + unfold abs, buffered, deref. cbn [f_arr f_off f_len b_arr b_r b_w b_net]. f_equal. unfold buffered, deref in Hb'. cbn [f_arr f_off f_len] in Hb'.
      rewrite <- drop_drop. rewrite <- (drop_app (p ++ [d]) rest), <- Hb'. rewrite take_drop_commute. do 2 f_equal. lia.
    + unfold deref. cbn [f_arr f_off f_len]. unfold buffered, deref in Hb'. cbn [f_arr f_off f_len] in Hb'.
      apply (f_equal (take (length (p ++ [d])))) in Hb'. rewrite take_app, take_take in Hb'. rewrite Nat.min_l in Hb' by lia. done.
  - rewrite Hbl. case_decide as Hd.
    + split_and!; [apply ext_refl| |done| |done].
      * split; cbn [b_arr b_cap b_r b_w b_net]; try done. lia.
      * unfold abs, buffered, deref. cbn [f_arr f_off f_len b_arr b_r b_w b_net]. by rewrite Nat.sub_diag.
    + pose proof (m_fill_spec m b Hok ltac:(lia)) as Hf. destruct (m_fill m b) as [m1 [b1|]].
      * destruct Hf as (He & Hf & Hok1 & Hs). rewrite Hf. specialize (IH m1 b1 Hok1). destruct Hs as [Ha Hcap]. rewrite Ha, Hcap in IH.
        destruct (m_read_slice k d m1 b1) as [m2 [r b2|r b2| |]], (read_slice k (b_cap b) d _); try done.
        -- destruct IH as (I1 & I2 & [I3 I3'] & I4 & I5). split_and!; try done; [by eapply ext_trans|split; congruence].
        -- destruct IH as (I1 & I2 & [I3 I3'] & I4 & I5). split_and!; try done; [by eapply ext_trans|split; congruence].
        -- by eapply ext_trans.
        -- by eapply ext_trans.
      * destruct Hf as [He Hf]. by rewrite Hf.
Qed.

Notation nowhere := (fun _ : nat => False).
Lemma ext_none (X : nat -> Prop) m m' : ext nowhere m m' -> ext X m m'.
Proof. intros H. by eapply ext_weaken. Qed.
Lemma abs_ext (X : nat -> Prop) m m' b : ext X m m' -> rd_ok m b -> ~ X (b_arr b) -> abs m' b = abs m b.
Proof. intros H1 H2 H3. unfold abs. f_equal. by eapply buffered_ext. Qed.

(** A part of an array made after the first lo. *)
Definition fresh (lo : nat) (m : mem) (r : ref) : Prop := valid m r /\ lo <= f_arr r.
Lemma fresh_ext X lo m m' r : ext X m m' -> fresh lo m r -> fresh lo m' r.
Proof. intros He [H1 H2]. split; [|done]. by eapply ext_valid. Qed.
Lemma fresh_ext_all {A} (g : A -> ref) X lo m m' l : ext X m m' -> Forall (fun r => fresh lo m (g r)) l -> Forall (fun r => fresh lo m' (g r)) l.
Proof. intros He H. eapply Forall_impl; [exact H|]. intros r. by apply fresh_ext with X. Qed.
Lemma fresh_deref arr lo m m' r : ext (eq arr) m m' -> arr < lo -> fresh lo m r -> deref m' r = deref m r.
Proof. intros He Ha [H1 H2]. eapply ext_deref; [done|done|lia]. Qed.
Lemma fresh_deref_all arr lo m m' l : ext (eq arr) m m' -> arr < lo -> Forall (fresh lo m) l -> deref m' <$> l = deref m <$> l.
Proof. intros He Ha H. apply list_fmap_ext. intros i r Hr. eapply fresh_deref; [done..|]. by eapply Forall_lookup_1. Qed.

Lemma m_read_bytes_spec fuel d frags m b lo acc : rd_ok m b -> b_arr b < lo <= length m -> Forall (fresh lo m) frags -> concat (deref m <$> frags) = acc ->
  match m_read_bytes fuel d frags m b, read_bytes fuel (b_cap b) d acc (abs m b) with
  | (m1, MbOk r b1), ByOk line st => ext (eq (b_arr b)) m m1 /\ rd_ok m1 b1 /\ same b b1 /\ abs m1 b1 = st /\ deref m1 r = line /\ valid m1 r /\ length m <= f_arr r
  | (m1, MbErr), ByErr | (m1, MbFuel), ByFuel => ext (eq (b_arr b)) m m1
  | _, _ => False
  end.
Proof.
  revert frags m b acc. induction fuel as [|k IH]; intros frags m b acc Hok Hlo Hf Hacc; cbn [m_read_bytes read_bytes]; [apply ext_refl|].
  pose proof (m_read_slice_spec (S (b_cap b)) d m b Hok) as Hs.
  destruct (m_read_slice (S (b_cap b)) d m b) as [m1 [r b1|r b1| |]], (read_slice (S (b_cap b)) (b_cap b) d (abs m b)) as [line st|line st|st|]; try done.
  - destruct Hs as (He & Hok1 & Hs & <- & <-). destruct (alloc m1 _) as [m2 r2] eqn:Ha.
    apply (alloc_ext nowhere) in Ha as (He2 & Hv & Har & Hd & Hl & Ho). pose proof (ex_len _ _ _ He).
    split_and!; try done.
    + eapply ext_trans; [done|]. by apply ext_none.
    + by eapply rd_ext.
    + eapply (abs_ext nowhere); [done|done|tauto].
    + rewrite Hd. rewrite (fresh_deref_all (b_arr b) lo m m1) by (done || lia). by rewrite Hacc.
    + by rewrite Har.
  - destruct Hs as (He & Hok1 & [Hs Hs'] & <- & <-). destruct (alloc m1 _) as [m2 r2] eqn:Ha.
    apply (alloc_ext nowhere) in Ha as (He2 & Hv & Har & Hd & Hl & Ho). pose proof (ex_len _ _ _ He). pose proof (ex_len _ _ _ He2).
    assert (He3 : ext (eq (b_arr b)) m m2) by (eapply ext_trans; [done|by apply ext_none]).
    assert (Ha1 : abs m1 b1 = abs m2 b1) by (symmetry; eapply (abs_ext nowhere); [done|done|tauto]). rewrite Ha1.
    assert (P1 : rd_ok m2 b1) by (by apply (rd_ext nowhere m1)).
    assert (P2 : b_arr b1 < lo <= length m2) by (rewrite Hs; lia).
    assert (P3 : Forall (fresh lo m2) (frags ++ [r2])).
    { apply Forall_app. split; [by apply (fresh_ext_all (fun r => r) _ _ _ _ _ He3)|]. apply Forall_singleton. split; [done|lia]. }
    assert (P4 : concat (deref m2 <$> frags ++ [r2]) = acc ++ deref m1 r).
    { rewrite fmap_app, concat_app. cbn. rewrite app_nil_r, Hd. rewrite (fresh_deref_all (b_arr b) lo m m2) by (done || lia). by rewrite Hacc. }
    pose proof (IH _ _ _ _ P1 P2 P3 P4) as HI. rewrite Hs, Hs' in HI.
    destruct (m_read_bytes k d (frags ++ [r2]) m2 b1) as [m3 [r3 b3| |]], (read_bytes k (b_cap b) d _ (abs m2 b1)); try done.
    + destruct HI as (I1 & I2 & [I3 I3'] & I4 & I5 & I6 & I7). split_and!; try done; [by eapply ext_trans|split; congruence|lia].
    + by eapply ext_trans.
    + by eapply ext_trans.
Qed.

(* ---------------- lines and headers ---------------- *)
Lemma deref_take m a o k n : n <= k -> deref m (mkRef a o n) = take n (deref m (mkRef a o k)).
Proof. intros H. unfold deref. cbn. rewrite take_take. by rewrite Nat.min_l. Qed.
Lemma deref_drop m a o k i : deref m (mkRef a (o + i) (k - i)) = drop i (deref m (mkRef a o k)).
Proof.
  unfold deref. cbn. rewrite <- drop_drop. destruct (decide (i <= k)) as [H|H].
  - replace k with (i + (k - i)) at 2 by lia. by rewrite take_drop_commute.
  - replace (k - i) with 0 by lia. rewrite take_0. symmetry. apply drop_ge. rewrite take_length. lia.
Qed.
Lemma ref_eta r : r = mkRef (f_arr r) (f_off r) (f_len r).
Proof. by destruct r. Qed.
Lemma go_slice_cut i j (s t : str) : go_slice i j s = Some t -> i <= j <= length s /\ t = take (j - i) (drop i s).
Proof. unfold go_slice. destruct ((i <=? j) && (j <=? length s)) eqn:H; [|done]. intros [= <-]. apply andb_true_iff in H as [H1 H2]. apply Nat.leb_le in H1, H2. done. Qed.
Lemma go_slice_in i j s : i <= j <= length s -> go_slice i j s = Some (take (j - i) (drop i s)).
Proof. intros [H1 H2]. unfold go_slice. by rewrite (proj2 (Nat.leb_le _ _) H1), (proj2 (Nat.leb_le _ _) H2). Qed.
Lemma strip_eol_take raw l : strip_eol raw = Some l -> length l <= length raw /\ l = take (length l) raw.
Proof.
  unfold strip_eol. intros H.
  assert (exists n, n <= length raw /\ l = take n raw) as (n & Hn & ->).
  { destruct (has_suffix raw [CR; LF]); [|destruct (has_suffix raw [LF])].
    - apply go_slice_cut in H as [H ->]. eexists. split; [|by rewrite drop_0, Nat.sub_0_r]. lia.
    - apply go_slice_cut in H as [H ->]. eexists. split; [|by rewrite drop_0, Nat.sub_0_r]. lia.
    - injection H as <-. exists (length raw). by rewrite take_ge. }
  rewrite take_length, Nat.min_l by done. done.
Qed.

Lemma read_slice_some fuel cap d st line st' : read_slice fuel cap d st = SlFound line st' -> line <> [].
Proof.
  revert st. induction fuel as [|k IH]; intros st; cbn [read_slice]; [done|]. destruct (cut_after d (r_buf st)) as [[l rest]|] eqn:Hc.
  - intros [= <- _]. apply cut_after_Some in Hc as (p & -> & _). by destruct p.
  - case_decide; [done|]. destruct (fill cap st); [apply IH|done].
Qed.
Lemma read_bytes_some fuel cap d acc st line st' : read_bytes fuel cap d acc st = ByOk line st' -> line <> [].
Proof.
  revert acc st. induction fuel as [|k IH]; intros acc st; cbn [read_bytes]; [done|]. destruct (read_slice (S cap) cap d st) as [l s|l s|s|] eqn:Hs; try done.
  - intros [= <- _]. apply read_slice_some in Hs. by destruct acc.
  - apply IH.
Qed.
Section reading.
  Context (al : nat -> bool).

  Lemma m_read_line_spec fuel m b : rd_ok m b ->
    match m_read_line fuel m b, read_line fuel (b_cap b) (abs m b) with
    | (m1, MlOk r b1), LiOk l st => ext (eq (b_arr b)) m m1 /\ rd_ok m1 b1 /\ same b b1 /\ abs m1 b1 = st /\ deref m1 r = l /\ fresh (length m) m1 r
    | (m1, MlErr), LiErr | (m1, MlPanic), LiPanic | (m1, MlFuel), LiFuel => ext (eq (b_arr b)) m m1
    | _, _ => False
    end.
  Proof.
    intros Hok. unfold m_read_line, read_line. pose proof (ro_arr _ _ Hok).
    pose proof (m_read_bytes_spec fuel LF [] m b (length m) [] Hok ltac:(lia) (Forall_nil_2 _) eq_refl) as Hs.
    destruct (m_read_bytes fuel LF [] m b) as [m1 [r b1| |]], (read_bytes fuel (b_cap b) LF [] (abs m b)) as [line st| |]; try done.
    destruct Hs as (He & Hok1 & Hs & <- & <- & Hv & Hf). destruct (strip_eol (deref m1 r)) as [l|] eqn:Hl; [|done].
    apply strip_eol_take in Hl as [Hl1 Hl2]. rewrite deref_length in Hl1 by done.
    split_and!; try done.
    - rewrite (deref_take m1 _ _ (f_len r)) by done. by rewrite <- ref_eta.
    - destruct Hv as [V1 V2]. split; [|done]. split; cbn; [done|lia].
  Qed.
  Lemma m_unencode_spec m r lo m' r' : m_unencode al m r = (m', r') -> fresh lo m r -> lo <= length m ->
    ext nowhere m m' /\ fresh lo m' r' /\ deref m' r' = unencode_value (deref m r).
  Proof.
    unfold m_unencode. intros H Hf Hlo. destruct (al (length m) && bool_decide _) eqn:Hb.
    - injection H as <- <-. apply andb_true_iff in Hb as [_ Hb]. apply bool_decide_eq_true in Hb. split_and!; [apply ext_refl|done|done].
    - apply (alloc_ext nowhere) in H as (He & Hv & Har & Hd & _). split_and!; try done. split; [done|lia].
  Qed.

  Definition both (P : ref -> Prop) (kv : ref * ref) : Prop := P kv.1 /\ P kv.2.
  Definition pairs (m : mem) (l : list (ref * ref)) : header := (fun kv => (deref m kv.1, deref m kv.2)) <$> l.
  Lemma both_ext X lo m m' l : ext X m m' -> Forall (both (fresh lo m)) l -> Forall (both (fresh lo m')) l.
  Proof. intros He H. eapply Forall_impl; [exact H|]. intros r [H1 H2]. split; by eapply fresh_ext. Qed.
  Lemma pairs_ext arr lo m m' l : ext (eq arr) m m' -> arr < lo -> Forall (both (fresh lo m)) l -> pairs m' l = pairs m l.
  Proof.
    intros He Ha H. apply list_fmap_ext. intros i r Hr. destruct (Forall_lookup_1 _ _ _ _ H Hr) as [H1 H2].
    rewrite (fresh_deref arr lo m m' r.1), (fresh_deref arr lo m m' r.2); done.
  Qed.

  Lemma m_read_headers_spec fuel fuel' m b lo acc : rd_ok m b -> b_arr b < lo <= length m -> Forall (both (fresh lo m)) acc ->
    match m_read_headers al fuel fuel' m b acc, bread_headers fuel fuel' (b_cap b) (abs m b) (pairs m acc) with
    | (m1, MhOk h b1), BHOk g st => ext (eq (b_arr b)) m m1 /\ rd_ok m1 b1 /\ same b b1 /\ abs m1 b1 = st /\ pairs m1 h = g /\ Forall (both (fresh lo m1)) h
    | (m1, MhError e), BHError e' => ext (eq (b_arr b)) m m1 /\ e = e'
    | (m1, MhPanic), BHPanic | (m1, MhFuel), BHFuel => ext (eq (b_arr b)) m m1
    | _, _ => False
    end.
  Proof.
    revert m b acc. induction fuel as [|k IH]; intros m b acc Hok Hlo Hacc; cbn [m_read_headers bread_headers]; [apply ext_refl|].
    pose proof (m_read_line_spec fuel' m b Hok) as Hs.
    destruct (m_read_line fuel' m b) as [m1 [r b1| | |]], (read_line fuel' (b_cap b) (abs m b)) as [l st| | |]; try done.
    destruct Hs as (He & Hok1 & [Hs Hs'] & <- & Hd & [Hv Hfr]). pose proof (deref_length _ _ Hv) as Hlen. pose proof (ex_len _ _ _ He).
    destruct l as [|c l].
    { rewrite Hd in Hlen. cbn in Hlen. rewrite <- Hlen. split_and!; try done; [apply (pairs_ext (b_arr b) lo); [done|lia|done]|]. by eapply both_ext. }
    rewrite Hd in Hlen. cbn in Hlen. destruct (decide (f_len r = 0)) as [|_]; [lia|]. rewrite Hd. unfold parse_header_line.
    destruct (index_byte COLON (c :: l)) as [[|i]|] eqn:Hi; [by split| |by split].
    destruct (m_unencode al m1 _) as [m2 k1] eqn:Hk. destruct (m_unencode al m2 _) as [m3 v1] eqn:Hv1.
    destruct Hv as [V1 V2].
    assert (Hil : S i < length (c :: l)). { apply index_byte_Some in Hi as (x & y & -> & _ & Hi). rewrite app_length. cbn. lia. }
    assert (Hcl : length (c :: l) = S (length l)) by done.
    apply m_unencode_spec with (lo := lo) in Hk as (E2 & F2 & D2); [|split; cbn; [split; cbn; lia|lia]|lia].
    pose proof (ex_len _ _ _ E2). pose proof (ex_size _ _ _ E2 _ V1).
    apply m_unencode_spec with (lo := lo) in Hv1 as (E3 & F3 & D3); [|split; cbn; [split; cbn; lia|lia]|lia].
    pose proof (ex_len _ _ _ E3).
    destruct (go_slice 0 (S i) (c :: l)) as [rn|] eqn:Hg1; [|rewrite go_slice_in in Hg1 by lia; done].
    destruct (go_slice (S i + 1) (length (c :: l)) (c :: l)) as [rv|] eqn:Hg2; [|rewrite go_slice_in in Hg2 by lia; done].
    apply go_slice_cut in Hg1 as [_ Hg1]. apply go_slice_cut in Hg2 as [_ Hg2].
    assert (E : ext (eq (b_arr b)) m m3) by (eapply ext_trans; [done|]; apply ext_none; by eapply ext_trans).
    assert (Ha : abs m1 b1 = abs m3 b1). { symmetry. eapply (abs_ext nowhere); [by eapply ext_trans|done|tauto]. }
    assert (P1 : rd_ok m3 b1) by (eapply rd_ext; [|done]; by eapply ext_trans).
    assert (P2 : b_arr b1 < lo <= length m3) by (rewrite Hs; lia).
    assert (P3 : Forall (both (fresh lo m3)) (acc ++ [(k1, v1)])).
    { apply Forall_app. split; [by apply (both_ext (eq (b_arr b)) lo m)|]. apply Forall_singleton. split; cbn; [by apply (fresh_ext nowhere lo m2)|done]. }
    pose proof (IH _ _ _ P1 P2 P3) as HI.
    assert (P4 : pairs m3 (acc ++ [(k1, v1)]) = pairs m acc ++ [(unencode_value rn, unencode_value rv)]).
    { unfold pairs. rewrite fmap_app. f_equal; [apply (pairs_ext (b_arr b) lo); [done|lia|done]|]. cbn. f_equal. f_equal.
      - destruct F2. rewrite (ext_deref nowhere m2 m3) by (done || tauto). rewrite D2. f_equal. rewrite (deref_take m1 _ _ (f_len r)) by lia. rewrite <- ref_eta, Hd, Hg1. by rewrite drop_0, Nat.sub_0_r.
      - rewrite D3. f_equal. rewrite (ext_deref nowhere m1 m2); [|done|split; cbn; lia|tauto]. rewrite deref_drop, <- ref_eta, Hd, Hg2.
        rewrite take_ge; [done|]. rewrite drop_length. lia. }
    rewrite P4, Hs, Hs', <- Ha in HI.
    destruct (m_read_headers al k fuel' m3 b1 (acc ++ [(k1, v1)])) as [m4 [h b4|e| |]], (bread_headers k fuel' (b_cap b) (abs m1 b1) _); try done.
    - destruct HI as (I1 & I2 & [I3 I3'] & I4 & I5 & I6). split_and!; try done; [by eapply ext_trans|split; congruence].
    - destruct HI as [I1 I2]. split; [by eapply ext_trans|done].
    - by eapply ext_trans.
    - by eapply ext_trans.
  Qed.

  (* ---------------- the body ---------------- *)
  Lemma upto_want want s : (N.of_nat (upto want s) <= want)%N.
  Proof. unfold upto. lia. Qed.
  Lemma poke_length m a off s : length (poke m a off s) = length m.
  Proof. apply alter_length. Qed.
  Lemma poke_other m a off s a' : a' <> a -> array (poke m a off s) a' = array m a'.
  Proof. intros H. unfold array, poke. by rewrite list_lookup_alter_ne. Qed.
  Lemma rd_move m b r w net : rd_ok m b -> r <= w <= b_cap b -> net_ok net -> rd_ok m (mkMrd (b_arr b) (b_cap b) r w net).
  Proof. by intros [H1 H2 H3 H4 H5] ? ?. Qed.

  Lemma m_buf_read_spec a off want m b : rd_ok m b -> a < length m -> a <> b_arr b -> (N.of_nat off + want <= N.of_nat (length (array m a)))%N -> (0 < want)%N ->
    match m_buf_read a off want m b, buf_read (b_cap b) want (abs m b) with
    | (m1, Some (n, b1)), Some (x, st) =>
        ext (fun c => c = b_arr b \/ c = a) m m1 /\ rd_ok m1 b1 /\ same b b1 /\ abs m1 b1 = st /\ n = length x /\ (N.of_nat n <= want)%N /\
        array m1 a = take off (array m a) ++ x ++ drop (off + length x) (array m a)
    | (m1, None), None => ext (fun c => c = b_arr b \/ c = a) m m1
    | _, _ => False
    end.
  Proof.
    intros Hok Ha Hne Hw Hpos. pose proof Hok as [H1 H2 H3 H4 H5]. unfold m_buf_read, buf_read. cbn [abs r_buf r_net].
    pose proof (buffered_length m b Hok) as Hbl.
    destruct (buffered m b) as [|c0 s0] eqn:Hb.
    - case_decide as Hd.
      + destruct (b_net b) as [|c net] eqn:Hnet; [apply ext_refl|].
        assert (0 < upto want c). { apply Forall_cons in H5 as [H5 _]. destruct c; [done|]. unfold upto. cbn [length]. lia. }
        pose proof (net_read_spec (upto want c) (c :: net) ltac:(done) H5) as Hn. pose proof (upto_want want c).
        destruct (net_read (upto want c) (c :: net)) as [[x net']|]; [|apply ext_refl]. destruct Hn as (Hx & Hxl & _ & Hn).
        assert (He : ext (eq a) m (poke m a off x)) by (apply poke_ext; lia).
        assert (Hok' : rd_ok (poke m a off x) b) by (by apply (rd_ext (eq a) m)).
        split_and!; try done.
        * eapply ext_weaken; [done|]. intros ? _ <-. by right.
        * apply rd_move; done.
        * unfold abs. f_equal. cbn [b_net]. transitivity (buffered (poke m a off x) b); [done|]. rewrite (buffered_ext (eq a) m); [done|done|done|congruence].
        * lia.
        * by apply poke_array.
      + pose proof (net_read_spec (b_cap b) (b_net b) H3 H5) as Hn. destruct (net_read (b_cap b) (b_net b)) as [[x net']|]; [|apply ext_refl].
        destruct Hn as (Hx & Hxl & _ & Hn). pose proof (upto_want want x). pose proof (upto_le want x).
        set (m1 := poke m (b_arr b) 0 x). set (k := upto want x) in *.
        assert (He : ext (eq (b_arr b)) m m1) by (apply poke_ext; lia).
        assert (Har : array m1 a = array m a) by (by apply poke_other).
        assert (Hlen : length (take k x) = k) by (rewrite take_length; lia).
        assert (He2 : ext (eq a) m1 (poke m1 a off (take k x))). { apply poke_ext. rewrite Har, Hlen. lia. }
        assert (Hl1 : length m1 = length m) by apply poke_length.
        split_and!; try done.
        * eapply ext_trans; (eapply ext_weaken; [done|]); intros ? _ <-; [by left|by right].
        * apply rd_move; [|lia|done]. apply (rd_ext (eq a) m1); [done|]. by apply (rd_ext (eq (b_arr b)) m).
        * unfold abs. f_equal. unfold buffered, deref. cbn [b_arr b_r b_w b_net f_arr f_off f_len]. rewrite poke_other by done. unfold m1. rewrite poke_array by done.
          rewrite take_0. cbn [app Nat.add]. rewrite drop_app_le by lia. rewrite take_app_alt; [done|]. by rewrite drop_length.
        * rewrite poke_array by lia. by rewrite Har.
    - set (s := c0 :: s0) in *. set (k := upto want s). pose proof (upto_want want s) as Hu. pose proof (upto_le want s) as Hu'. fold k in Hu, Hu'.
      assert (Hlen : length (take k s) = k) by (rewrite take_length; lia).
      assert (He : ext (eq a) m (poke m a off (take k s))) by (apply poke_ext; lia).
      split_and!; try done.
      + eapply ext_weaken; [done|]. intros ? _ <-. by right.
      + apply rd_move; [by apply (rd_ext (eq a) m)|lia|done].
      + unfold abs. f_equal. unfold buffered, deref. cbn [b_arr b_r b_w b_net f_arr f_off f_len]. rewrite poke_other by done.
        rewrite <- Hb. unfold buffered. rewrite <- deref_drop. unfold deref. cbn. f_equal. lia.
      + by apply poke_array.
  Qed.
  Lemma m_body_loop_spec fuel a off want m b : rd_ok m b -> a < length m -> a <> b_arr b -> (N.of_nat off + want = N.of_nat (length (array m a)))%N ->
    match m_body_loop fuel a off want m b, body_loop fuel (b_cap b) want (take off (array m a)) (abs m b) with
    | (m1, MoOk b1), BoOk body st => ext (fun c => c = b_arr b \/ c = a) m m1 /\ rd_ok m1 b1 /\ same b b1 /\ abs m1 b1 = st /\ array m1 a = body
    | (m1, MoErr), BoErr | (m1, MoFuel), BoFuel => ext (fun c => c = b_arr b \/ c = a) m m1
    | _, _ => False
    end.
  Proof.
    revert off want m b. induction fuel as [|k IH]; intros off want m b Hok Ha Hne Hw; cbn [m_body_loop body_loop]; [apply ext_refl|].
    case_decide as Hz.
    { split_and!; try done. rewrite take_ge; [done|]. lia. }
    pose proof (m_buf_read_spec a off want m b Hok Ha Hne ltac:(lia) ltac:(lia)) as Hs.
    destruct (m_buf_read a off want m b) as [m1 [[n b1]|]], (buf_read (b_cap b) want (abs m b)) as [[x st]|]; try done.
    destruct Hs as (He & Hok1 & [Hs Hs'] & <- & -> & Hle & Har). pose proof (ex_len _ _ _ He).
    assert (Hsz : length (array m1 a) = length (array m a)) by (by apply (ex_size _ _ _ He)).
    pose proof (IH (off + length x) (want - N.of_nat (length x))%N m1 b1 Hok1 ltac:(lia) ltac:(congruence) ltac:(lia)) as HI.
    assert (Ht : take (off + length x) (array m1 a) = take off (array m a) ++ x).
    { rewrite Har, app_assoc. apply take_app_alt. rewrite app_length, take_length. lia. }
    rewrite Ht, Hs, Hs' in HI.
    destruct (m_body_loop k a _ _ m1 b1) as [m2 [b2| |]], (body_loop k (b_cap b) _ _ (abs m1 b1)) as [body st| |]; try done.
    - destruct HI as (I1 & I2 & [I3 I3'] & I4 & I5). split_and!; try done; [by eapply ext_trans|split; congruence].
    - by eapply ext_trans.
    - by eapply ext_trans.
  Qed.
  Lemma m_read_byte_spec m b : rd_ok m b ->
    match m_read_byte m b, buf_read_byte (b_cap b) (abs m b) with
    | (m1, Some (c, b1)), Some (c', st) => ext (eq (b_arr b)) m m1 /\ rd_ok m1 b1 /\ same b b1 /\ abs m1 b1 = st /\ c = c'
    | (m1, None), None => ext (eq (b_arr b)) m m1
    | _, _ => False
    end.
  Proof.
    intros Hok. unfold m_read_byte, buf_read_byte. cbn [abs r_buf r_net].
    assert (Hnext : forall m b c s, rd_ok m b -> buffered m b = c :: s -> let b1 := mkMrd (b_arr b) (b_cap b) (S (b_r b)) (b_w b) (b_net b) in rd_ok m b1 /\ abs m b1 = mkBufr s (b_net b)).
    { clear. intros m b c s Hok Hb. pose proof (buffered_length m b Hok) as Hl. rewrite Hb in Hl. cbn in Hl. pose proof Hok as [H1 H2 H3 H4 H5]. split; [apply rd_move; [done|lia|done]|].
      unfold abs. f_equal. transitivity (drop 1 (buffered m b)); [|by rewrite Hb]. unfold buffered. rewrite <- deref_drop. cbn [b_arr b_r b_w]. f_equal. f_equal; lia. }
    destruct (buffered m b) as [|c s] eqn:Hb.
    - pose proof (ro_cap _ _ Hok). pose proof (m_fill_spec m b Hok) as Hf. rewrite Hb in Hf. specialize (Hf ltac:(cbn; lia)).
      destruct (m_fill m b) as [m1 [b1|]].
      + destruct Hf as (He & Hf & Hok1 & [Hs Hs']). rewrite Hf. change (abs m1 b1) with (mkBufr (buffered m1 b1) (b_net b1)). destruct (buffered m1 b1) as [|c s] eqn:Hb1; [done|].
        destruct (Hnext m1 b1 c s Hok1 Hb1) as [N1 N2]. by split_and!.
      + destruct Hf as [He Hf]. by rewrite Hf.
    - destruct (Hnext m b c s Hok Hb) as [N1 N2]. by split_and!.
  Qed.

  (* ---------------- a frame ---------------- *)
  (** The parts of a frame lie in arrays made after the first lo, the body in
      one of its own. *)
  Record frame_ok (lo : nat) (m : mem) (f : mframe) : Prop := {
    fo_cmd : fresh lo m (m_cmd f); fo_hdr : Forall (both (fresh lo m)) (m_hdr f); fo_body : fresh lo m (m_body f);
    fo_own : f_arr (m_cmd f) <> f_arr (m_body f) /\ Forall (both (fun r => f_arr r <> f_arr (m_body f))) (m_hdr f) }.

  Lemma own_later lo m h n : Forall (both (fresh lo m)) h -> length m <= n -> Forall (both (fun r => f_arr r <> n)) h.
  Proof. intros H Hn. eapply Forall_impl; [exact H|]. intros [r1 r2] [[[H1 _] _] [[H2 _] _]]. cbn in *. split; cbn; lia. Qed.

  Lemma m_read_body_spec fuel cmd h m b lo : rd_ok m b -> b_arr b < lo <= length m -> fresh lo m cmd -> Forall (both (fresh lo m)) h ->
    match m_read_body fuel cmd h m b, bread_body fuel (b_cap b) (deref m cmd) (pairs m h) (abs m b) with
    | (m1, MFrame f b1), BFrame g st => ext (eq (b_arr b)) m m1 /\ rd_ok m1 b1 /\ same b b1 /\ abs m1 b1 = st /\ look m1 f = g /\ frame_ok lo m1 f
    | (m1, MError e), BError e' => ext (eq (b_arr b)) m m1 /\ e = e'
    | (m1, MPanic), BPanic | (m1, MFuel), BFuel => ext (eq (b_arr b)) m m1
    | _, _ => False
    end.
  Proof.
    intros Hok Hlo Hc Hh. unfold m_read_body, bread_body. cbn [look f_hdr m_hdr]. fold (pairs m h).
    assert (Hlook : forall m1 body, ext (eq (b_arr b)) m m1 -> look m1 (mkMframe cmd h body) = mkFrame (deref m cmd) (pairs m h) (deref m1 body)).
    { intros m1 body He. unfold look. cbn. f_equal; [by apply (fresh_deref (b_arr b) lo); [|lia|]|]. by apply (pairs_ext (b_arr b) lo); [|lia|]. }
    destruct (hd_content_length (pairs m h)) as [| |n].
    - pose proof (m_read_bytes_spec fuel NUL [] m b lo [] Hok Hlo (Forall_nil_2 _) eq_refl) as Hs.
      destruct (m_read_bytes fuel NUL [] m b) as [m1 [r b1| |]], (read_bytes fuel (b_cap b) NUL [] (abs m b)) as [raw st| |] eqn:Hrb; try done.
      apply read_bytes_some in Hrb as Hne. destruct Hs as (He & Hok1 & Hs & <- & <- & Hv & Hfr). rewrite deref_length by done. destruct Hv as [V1 V2].
      rewrite go_slice_in by (rewrite deref_length by done; lia). rewrite drop_0, Nat.sub_0_r.
      case_decide as Hz.
      { exfalso. by apply Hne, nil_length_inv; rewrite deref_length. }
      split_and!; try done.
      + rewrite Hlook by done. f_equal. rewrite (deref_take m1 _ _ (f_len r)) by lia. by rewrite <- ref_eta.
      + split; cbn [m_cmd m_hdr m_body f_arr].
        * by apply (fresh_ext (eq (b_arr b)) lo m).
        * by apply (both_ext (eq (b_arr b)) lo m).
        * split; [split; cbn; lia|cbn; lia].
        * destruct Hc as [[Hc _] _]. split; [lia|]. by eapply own_later.
    - split; [apply ext_refl|done].
    - destruct (alloc m _) as [m1 body] eqn:Hal. apply (alloc_ext nowhere) in Hal as (He & Hv & Har & Hd & Hl & Ho & Hall). rewrite replicate_length in Hl.
      pose proof (ex_len _ _ _ He) as Hle. destruct Hv as [V1 V2].
      assert (Hsz : length (array m1 (f_arr body)) = N.to_nat n).
      { by rewrite Hall, replicate_length. }
      assert (Hok1 : rd_ok m1 b) by (by apply (rd_ext nowhere m)).
      pose proof (m_body_loop_spec fuel (f_arr body) 0 n m1 b Hok1 ltac:(lia) ltac:(lia) ltac:(lia)) as Hb. rewrite take_0 in Hb.
      rewrite (abs_ext nowhere m m1 b He Hok ltac:(tauto)) in Hb.
      assert (Hw : forall m2, ext (fun c => c = b_arr b \/ c = f_arr body) m1 m2 -> ext (eq (b_arr b)) m m2).
      { intros m2 H2. eapply ext_weaken; [eapply ext_trans; [by apply ext_none|exact H2]|]. intros a Ha [->| ->]; [done|lia]. }
      destruct (m_body_loop fuel (f_arr body) 0 n m1 b) as [m2 [b2| |]], (body_loop fuel (b_cap b) n [] (abs m b)) as [bd st| |]; try done.
      2: { split; [by apply Hw|done]. }
      2: { by apply Hw. }
      destruct Hb as (He2 & Hok2 & [Hs Hs'] & <- & Hbd). pose proof (Hw _ He2) as Hw2. pose proof (m_read_byte_spec m2 b2 Hok2) as Hr. rewrite Hs, Hs' in Hr.
      destruct (m_read_byte m2 b2) as [m3 [[t b3]|]], (buf_read_byte (b_cap b) (abs m2 b2)) as [[t' st]|]; try done.
      2: { split; [by eapply ext_trans|done]. }
      destruct Hr as (He3 & Hok3 & [Hs3 Hs3'] & <- & ->). assert (He4 : ext (eq (b_arr b)) m m3) by (by eapply ext_trans).
      pose proof (ex_len _ _ _ He2). pose proof (ex_len _ _ _ He3).
      assert (Hsz3 : length (array m3 (f_arr body)) = N.to_nat n). { rewrite (ex_size _ _ _ He3) by lia. rewrite (ex_size _ _ _ He2) by lia. done. }
      case_decide as Ht; [|by split]. split_and!; try done.
      + split; congruence.
      + rewrite Hlook by done. f_equal. unfold deref. rewrite Ho, drop_0, Hl. rewrite take_ge by lia. rewrite (ext_array (eq (b_arr b)) m2 m3); [done|done|lia|lia].
      + split; cbn [m_cmd m_hdr m_body].
        * by apply (fresh_ext (eq (b_arr b)) lo m).
        * by apply (both_ext (eq (b_arr b)) lo m).
        * split; [split; lia|lia].
        * destruct Hc as [[Hc _] _]. split; [lia|]. eapply own_later; [done|]. lia.
  Qed.

  Lemma m_read_spec m b : rd_ok m b ->
    match m_read al m b, bread (b_cap b) (abs m b) with
    | (m1, MHeartbeat b1), BHeartbeat st => ext (eq (b_arr b)) m m1 /\ rd_ok m1 b1 /\ same b b1 /\ abs m1 b1 = st
    | (m1, MFrame f b1), BFrame g st => ext (eq (b_arr b)) m m1 /\ rd_ok m1 b1 /\ same b b1 /\ abs m1 b1 = st /\ look m1 f = g /\ frame_ok (length m) m1 f
    | (m1, MError e), BError e' => ext (eq (b_arr b)) m m1 /\ e = e'
    | (m1, MPanic), BPanic | (m1, MFuel), BFuel => ext (eq (b_arr b)) m m1
    | _, _ => False
    end.
  Proof.
    intros Hok. unfold m_read, bread. unfold flat at 1. cbn [abs r_buf r_net]. set (fuel := S (S _)).
    pose proof (m_read_line_spec fuel m b Hok) as Hs.
    destruct (m_read_line fuel m b) as [m1 [r b1| | |]], (read_line fuel (b_cap b) (abs m b)) as [l st| | |]; try done.
    destruct Hs as (He & Hok1 & [Hs Hs'] & <- & Hd & [Hv Hfr]). pose proof (deref_length _ _ Hv) as Hlen. pose proof (ex_len _ _ _ He). rewrite Hd in Hlen.
    destruct l as [|c l]. { cbn in Hlen. by rewrite <- Hlen. }
    cbn in Hlen. destruct (decide (f_len r = 0)) as [|_]; [lia|]. rewrite Hd.
    destruct (alloc m1 (c :: l)) as [m2 cmd] eqn:Ha. apply (alloc_ext nowhere) in Ha as (He2 & Hv2 & Har & Hd2 & _). rewrite Hd2. pose proof (ex_len _ _ _ He2).
    assert (E2 : ext (eq (b_arr b)) m m2) by (eapply ext_trans; [done|by apply ext_none]).
    case_decide as Hc; [|by split]. pose proof (ro_arr _ _ Hok).
    assert (Hok2 : rd_ok m2 b1) by (by apply (rd_ext nowhere m1)).
    pose proof (m_read_headers_spec fuel fuel m2 b1 (length m) [] Hok2 ltac:(lia) (Forall_nil_2 _)) as Hh. rewrite Hs, Hs' in Hh.
    rewrite (abs_ext nowhere m1 m2 b1 He2 Hok1 ltac:(tauto)) in Hh. change (pairs m2 []) with ([] : header) in Hh.
    destruct (m_read_headers al fuel fuel m2 b1 []) as [m3 [h b3|e| |]], (bread_headers fuel fuel (b_cap b) (abs m1 b1) []) as [g st|e'| |]; try done.
    2: { destruct Hh as [Hh ->]. split; [by eapply ext_trans|done]. }
    2: { by eapply ext_trans. }
    2: { by eapply ext_trans. }
    destruct Hh as (He3 & Hok3 & [Hs3 Hs3'] & <- & <- & Hh3).
    assert (E3 : ext (eq (b_arr b)) m m3) by (by eapply ext_trans). pose proof (ex_len _ _ _ He3).
    assert (Hcmd : fresh (length m) m2 cmd) by (split; [done|lia]).
    pose proof (m_read_body_spec fuel cmd h m3 b3 (length m) Hok3 ltac:(lia) (fresh_ext _ _ _ _ _ He3 Hcmd) Hh3) as Hb.
    rewrite Hs3', Hs', (fresh_deref (b_arr b) (length m) m2 m3), Hd2 in Hb by done. rewrite Hs3, Hs in Hb.
    destruct (m_read_body fuel cmd h m3 b3) as [m4 [?|f b4|e| |]], (bread_body fuel (b_cap b) (c :: l) (pairs m3 h) (abs m3 b3)) as [?|g st|e'| |]; try done.
    - destruct Hb as (I1 & I2 & [I3 I3'] & I4 & I5 & I6). split_and!; try done; [by eapply ext_trans|split; congruence].
    - destruct Hb as [I1 ->]. split; [by eapply ext_trans|done].
    - by eapply ext_trans.
    - by eapply ext_trans.
  Qed.
End reading.

(* ---------------- programs ---------------- *)
Definition refs (f : mframe) : list ref := m_cmd f :: m_body f :: (m_hdr f ≫= fun kv => [kv.1; kv.2]).
Lemma refs_hdr f kv : kv ∈ m_hdr f -> kv.1 ∈ refs f /\ kv.2 ∈ refs f.
Proof.
  intros H. assert (forall r, r ∈ [kv.1; kv.2] -> r ∈ refs f) as Hr.
  { intros r Hr. do 2 right. apply elem_of_list_bind. eauto. }
  split; apply Hr; set_solver.
Qed.
Lemma refs_inv f r : r ∈ refs f -> r = m_cmd f \/ r = m_body f \/ exists kv, kv ∈ m_hdr f /\ (r = kv.1 \/ r = kv.2).
Proof.
  intros [->|[->|H]%elem_of_cons]%elem_of_cons; [by left|by right; left|]. right; right.
  apply elem_of_list_bind in H as (kv & Hr & Hkv). exists kv. split; [done|]. set_solver.
Qed.
Lemma look_same m m' f : (forall r, r ∈ refs f -> deref m' r = deref m r) -> look m' f = look m f.
Proof.
  intros H. unfold look. f_equal.
  - apply H. by left.
  - apply list_fmap_ext. intros i kv Hkv. apply elem_of_list_lookup_2, refs_hdr in Hkv as [H1 H2]. by rewrite !H.
  - apply H. right. by left.
Qed.
Lemma frame_ok_refs lo m f r : frame_ok lo m f -> r ∈ refs f -> fresh lo m r.
Proof.
  intros [F1 F2 F3 [F4 F5]] [->|[->|(kv & Hkv & Hr)]]%refs_inv; [done|done|].
  rewrite Forall_forall in F2. destruct (F2 _ Hkv) as [? ?]. by destruct Hr as [-> | ->].
Qed.

Lemma frame_ok_ext X lo m m' f : ext X m m' -> frame_ok lo m f -> frame_ok lo m' f.
Proof. intros He [F1 F2 F3 F4]. split; [by eapply fresh_ext|by eapply both_ext|by eapply fresh_ext|done]. Qed.

Definition rest_ok (m : mem) (o : option mrd) (rest : str) : Prop :=
  match o with
  | Some b => rest = flat (abs m b)
  | None => forall x s, ~ on_wire rest [x] s
  end.
Record PI (l : list pact) (u : prog) : Prop := {
  pi_rd : forall i b, p_rds u !! i = Some (Some b) -> rd_ok (p_mem u) b;
  pi_dis : forall i j b b', p_rds u !! i = Some (Some b) -> p_rds u !! j = Some (Some b') -> b_arr b = b_arr b' -> i = j;
  pi_ok : forall k f, p_frames u !! k = Some f -> frame_ok 0 (p_mem u) f;
  pi_buf : forall k f r i b, p_frames u !! k = Some f -> r ∈ refs f -> p_rds u !! i = Some (Some b) -> f_arr r <> b_arr b;
  pi_own : forall k f k' f' r, p_frames u !! k = Some f -> p_frames u !! k' = Some f' -> k' <> k -> r ∈ refs f' -> f_arr r <> f_arr (m_body f);
  pi_len : length (p_rds u) = length (p_bytes u) /\ length (p_got u) = length (p_bytes u);
  pi_poke : forall k i c, PPoke k i c ∈ l -> k < length (p_frames u);
  pi_str : forall i s g o, p_bytes u !! i = Some s -> p_got u !! i = Some g -> p_rds u !! i = Some o ->
    exists vals rest, on_wire s vals rest /\ Forall2 (shows l u) g vals /\ rest_ok (p_mem u) o rest }.

Lemma scribbled_snoc k l a b : scribbled k (l ++ [a]) b = match a with PPoke k' i c => if decide (k' = k) then <[i := c]> (scribbled k l b) else scribbled k l b | _ => scribbled k l b end.
Proof. unfold scribbled. rewrite foldl_app. cbn. by destruct a. Qed.
Lemma scribbled_none k l b : (forall i c, PPoke k i c ∉ l) -> scribbled k l b = b.
Proof.
  induction l as [|a l IH] using rev_ind; [done|]. intros H. rewrite scribbled_snoc, IH by (intros i c Hx; apply (H i c), elem_of_app; by left).
  destruct a as [| |k' i c]; try done. case_decide as Hk; [|done]. subst. destruct (H i c). apply elem_of_app. right. by left.
Qed.
Lemma on_wire_app s l x l' y : on_wire s l x -> on_wire x l' y -> on_wire s (l ++ l') y.
Proof. induction 1; intros Hx; cbn; [done|constructor; auto..]. Qed.
Lemma on_wire_one s o y : on_wire s [o] y <-> match o with Some f => read_stream s = RFrame f y | None => read_stream s = RHeartbeat y end.
Proof.
  split.
  - intros H. inversion H as [|s' raw l rest Hraw Hs|s' raw f l rest Hraw Hs]; subst; inversion Hs; subst.
    + apply reader_heartbeat_iff. eauto.
    + apply reader_iff_grammar. eauto.
  - destruct o as [f|]; intros H.
    + apply reader_iff_grammar in H as (raw & -> & H). eapply ow_frame; [done|constructor].
    + apply reader_heartbeat_iff in H as (raw & -> & H). eapply ow_beat; [done|constructor].
Qed.
Lemma on_wire_cons_inv s o l y : on_wire s (o :: l) y -> exists x, on_wire s [o] x /\ on_wire x l y.
Proof. inversion 1 as [|s' raw l' rest Hraw Hs|s' raw f l' rest Hraw Hs]; subst; exists s'; (split; [|done]); [eapply ow_beat|eapply ow_frame]; done || constructor. Qed.
Lemma on_wire_det s o x o' x' : on_wire s [o] x -> on_wire s [o'] x' -> o = o' /\ x = x'.
Proof. rewrite !on_wire_one. destruct o, o'; intros H1 H2; rewrite H1 in H2; by simplify_eq. Qed.
Lemma on_wire_prefix s l x l' x' : on_wire s l x -> on_wire s l' x' -> length l <= length l' -> l = take (length l) l' /\ on_wire x (drop (length l) l') x'.
Proof.
  revert s l'. induction l as [|o l IH]; intros s l' H1 H2 Hl.
  - inversion H1; subst. cbn. by rewrite drop_0.
  - destruct l' as [|o' l']; [cbn in Hl; lia|]. apply on_wire_cons_inv in H1 as (y & H1 & H1'), H2 as (y' & H2 & H2').
    destruct (on_wire_det _ _ _ _ _ H1 H2) as [-> ->]. cbn in *. destruct (IH y' l' H1' H2' ltac:(lia)) as [I1 I2]. by rewrite <- I1.
Qed.

Lemma PI_init : PI [] prog_init.
Proof. split; cbn; try done; intros; by set_solver. Qed.

Lemma shows_mono l u a u' o x : shows l u o x -> (forall k f, p_frames u !! k = Some f -> p_frames u' !! k = Some f /\ look (p_mem u') f = look (p_mem u) f) ->
  match a with PPoke _ _ _ => False | _ => True end -> shows (l ++ [a]) u' o x.
Proof.
  intros Hs Hf Ha. destruct o as [k|], x as [f|]; cbn in *; try done. destruct Hs as (g & Hg & Hl). destruct (Hf _ _ Hg) as [H1 H2].
  exists g. split; [done|]. rewrite H2, Hl, scribbled_snoc. by destruct a.
Qed.

Lemma poke_one m a i c : i < length (array m a) -> a < length m -> array (poke m a i [c]) a = <[i := c]> (array m a).
Proof. intros H Ha. rewrite poke_array by done. cbn. rewrite Nat.add_1_r. symmetry. by apply insert_take_drop. Qed.

Lemma PI_step l u a u' : PI l u -> pstep u a = Some u' -> PI (l ++ [a]) u'.
Proof.
  intros HI Hs. pose proof HI as [I1 I2 I3 I4 I5 [I6 I6'] I7 I8].
  assert (IV : forall k f r, p_frames u !! k = Some f -> r ∈ refs f -> valid (p_mem u) r).
  { intros k f r Hf Hr. by destruct (frame_ok_refs _ _ _ _ (I3 _ _ Hf) Hr). } destruct a as [cap net|al i|k i c]; cbn [pstep] in Hs.
  - case_decide as Hc; [|done]. injection Hs as <-. destruct Hc as [Hc Hn].
    destruct (alloc (p_mem u) (replicate cap NUL)) as [m2 r] eqn:Ha. pose proof (alloc_ext nowhere _ _ _ _ Ha) as (He & Hv & Har & _ & _ & _ & Hall). injection Ha as <- <-. cbn in Har, Hall.
    assert (Hnew : rd_ok (p_mem u ++ [replicate cap NUL]) (mkMrd (length (p_mem u)) cap 0 0 net)).
    { split; cbn; try done; [rewrite app_length; cbn; lia|by rewrite Hall, replicate_length|lia|]. apply Forall_forall. intros x Hx ->. done. }
    split; cbn.
    + intros j b Hj. apply lookup_app_Some in Hj as [Hj|[_ Hj]]; [by eapply rd_ext; [|by eapply I1]|]. apply list_lookup_singleton_Some in Hj as [_ [= <-]]. done.
    + intros j j' b b' Hj Hj' E. apply lookup_app_Some in Hj as [Hj|[Hl Hj]]; apply lookup_app_Some in Hj' as [Hj'|[Hl' Hj']].
      * by eapply I2.
      * apply list_lookup_singleton_Some in Hj' as [_ [= <-]]. pose proof (ro_arr _ _ (I1 _ _ Hj)). cbn in E. lia.
      * apply list_lookup_singleton_Some in Hj as [_ [= <-]]. pose proof (ro_arr _ _ (I1 _ _ Hj')). cbn in E. lia.
      * apply list_lookup_singleton_Some in Hj as [? _], Hj' as [? _]. lia.
    + intros k f Hf. eapply frame_ok_ext; [done|]. by eapply I3.
    + intros k f r j b Hf Hr Hj. apply lookup_app_Some in Hj as [Hj|[_ Hj]]; [by eapply I4|]. apply list_lookup_singleton_Some in Hj as [_ [= <-]]. cbn. destruct (IV _ _ _ Hf Hr). lia.
    + done.
    + rewrite !app_length. cbn. lia.
    + intros k j c Hin. apply elem_of_app in Hin as [Hin|Hin]; [by eapply I7|]. apply elem_of_list_singleton in Hin. done.
    + assert (Hmono : forall o x, shows l u o x -> shows (l ++ [POpen cap net]) (mkProg (p_mem u ++ [replicate cap NUL]) (p_rds u ++ [Some (mkMrd (length (p_mem u)) cap 0 0 net)]) (p_frames u) (p_bytes u ++ [concat net]) (p_got u ++ [[]])) o x).
      { intros o x Hx. eapply shows_mono; [done| |done]. cbn. intros k f Hf. split; [done|]. apply look_same. intros r Hr. eapply (ext_deref nowhere); [done|by eapply IV|tauto]. }
      intros j s g o Hb Hg Ho. apply lookup_app_Some in Hb as [Hb|[Hlb Hb]].
      * pose proof (lookup_lt_Some _ _ _ Hb). rewrite lookup_app_l in Hg by lia. rewrite lookup_app_l in Ho by lia.
        destruct (I8 _ _ _ _ Hb Hg Ho) as (vals & rest & H1 & H2 & H3). exists vals, rest. split_and!; [done|by eapply Forall2_impl; [|exact Hmono]|].
        destruct o as [b|]; [|done]. cbn [rest_ok] in *. rewrite H3. f_equal. symmetry. eapply (abs_ext nowhere); [done|by eapply I1|tauto].
      * apply list_lookup_singleton_Some in Hb as [Hj <-]. rewrite lookup_app_r in Hg by lia. rewrite lookup_app_r in Ho by lia.
        apply list_lookup_singleton_Some in Hg as [_ <-]. apply list_lookup_singleton_Some in Ho as [_ <-]. exists [], (concat net). split_and!; [constructor|constructor|done].
  - destruct (p_rds u !! i) as [[b|]|] eqn:Hi; try done.
    pose proof (m_read_spec al (p_mem u) b (I1 _ _ Hi)) as Hr. pose proof (bread_spec (b_cap b) (abs (p_mem u) b) (ro_cap _ _ (I1 _ _ Hi)) (ro_net _ _ (I1 _ _ Hi))) as [Hb _].
    destruct (m_read al (p_mem u) b) as [m res]. pose proof (lookup_lt_Some _ _ _ Hi) as Hlt.
    (* what holds in any case *)
    assert (He : ext (eq (b_arr b)) (p_mem u) m).
    { destruct res, (bread (b_cap b) (abs (p_mem u) b)); try done; by destruct Hr as [? ?]. }
    assert (Hlook : forall k f, p_frames u !! k = Some f -> look m f = look (p_mem u) f).
    { intros k f Hf. apply look_same. intros r Hr'. eapply ext_deref; [done|by eapply IV|]. intros E. by eapply (I4 k f r i b). }
    assert (Hothers : forall j b', j <> i -> p_rds u !! j = Some (Some b') -> rd_ok m b' /\ abs m b' = abs (p_mem u) b').
    { intros j b' Hne Hj. split; [by eapply rd_ext; [|by eapply I1]|]. eapply abs_ext; [done|by eapply I1|]. intros E. apply Hne. by eapply I2. }
    (* the reader dies, or it goes on with at most one more frame *)
    assert (Hgen : forall o fs gl, u' = mkProg m (<[i := o]> (p_rds u)) (p_frames u ++ fs) (p_bytes u) (alter (fun l => l ++ gl) i (p_got u)) ->
      (forall b1, o = Some b1 -> rd_ok m b1 /\ b_arr b1 = b_arr b) ->
      (fs = [] \/ exists f, fs = [f] /\ frame_ok (length (p_mem u)) m f) ->
      (exists vals rest, on_wire (flat (abs (p_mem u) b)) vals rest /\ Forall2 (shows (l ++ [PRead al i]) u') gl vals /\ rest_ok m o rest) ->
      PI (l ++ [PRead al i]) u').
    { clear Hs Hr. intros o fs gl -> Ho Hfs Hstr.
      assert (Hfs' : forall k f, (p_frames u ++ fs) !! k = Some f -> p_frames u !! k = Some f \/ k = length (p_frames u) /\ frame_ok (length (p_mem u)) m f).
      { intros k f Hf. apply lookup_app_Some in Hf as [Hf|[Hk Hf]]; [by left|]. right. destruct Hfs as [->|(f' & -> & Hf')]; [done|]. apply list_lookup_singleton_Some in Hf as [Hk' <-]. split; [lia|done]. }
      assert (Hrds : forall j b', <[i := o]> (p_rds u) !! j = Some (Some b') -> rd_ok m b' /\ b_arr b' < length (p_mem u) /\ exists b0, p_rds u !! j = Some (Some b0) /\ b_arr b' = b_arr b0).
      { intros j b' Hj. apply list_lookup_insert_Some in Hj as [(<- & -> & _)|[Hne Hj]].
        - destruct (Ho _ eq_refl) as [H1 H2]. split; [done|]. rewrite H2. split; [by apply (ro_arr _ _ (I1 _ _ Hi))|eauto].
        - destruct (Hothers j b' ltac:(done) Hj) as [H1 _]. split_and!; [done|by apply (ro_arr _ _ (I1 _ _ Hj))|eauto]. }
      split; cbn [p_mem p_rds p_frames p_bytes p_got].
      - intros j b' Hj. by destruct (Hrds _ _ Hj).
      - intros j j' b1 b2 Hj Hj' E. destruct (Hrds _ _ Hj) as (_ & _ & b1' & E1 & E1'), (Hrds _ _ Hj') as (_ & _ & b2' & E2 & E2'). eapply I2; [done..|]. congruence.
      - intros k f Hf. destruct (Hfs' _ _ Hf) as [Hf'|[_ Hok]]; [by eapply frame_ok_ext; [|by eapply I3]|].
        destruct Hok as [F1 F2 F3 F4]. split; [split; [apply F1|lia]| |split; [apply F3|lia]|done]. eapply Forall_impl; [exact F2|]. intros kv [[G1 _] [G2 _]]. split; (split; [done|lia]).
      - intros k f r j b' Hf Hr Hj. destruct (Hrds _ _ Hj) as (_ & Hb' & b0 & Hj0 & ->). destruct (Hfs' _ _ Hf) as [Hf'|[_ Hok]]; [by eapply I4|].
        destruct (frame_ok_refs _ _ _ _ Hok Hr) as [_ Hlo]. pose proof (ro_arr _ _ (I1 _ _ Hj0)). lia.
      - intros k f k' f' r Hf Hf' Hne Hr. destruct (Hfs' _ _ Hf) as [Hf0|[Hk Hok]], (Hfs' _ _ Hf') as [Hf0'|[Hk' Hok']].
        + by eapply (I5 k f k' f').
        + destruct (frame_ok_refs _ _ _ _ Hok' Hr) as [_ Hlo]. destruct (IV k f (m_body f) Hf0 ltac:(right; by left)). lia.
        + destruct (fo_body _ _ _ Hok) as [_ Hlo]. destruct (IV _ _ _ Hf0' Hr). lia.
        + lia.
      - rewrite insert_length, alter_length. done.
      - intros k j c Hin. rewrite app_length. apply elem_of_app in Hin as [Hin|Hin]; [pose proof (I7 _ _ _ Hin); lia|]. apply elem_of_list_singleton in Hin. done.
      - assert (Hmono : forall x y, shows l u x y -> shows (l ++ [PRead al i]) (mkProg m (<[i := o]> (p_rds u)) (p_frames u ++ fs) (p_bytes u) (alter (fun l => l ++ gl) i (p_got u))) x y).
        { intros x y Hx. eapply shows_mono; [done| |done]. cbn. intros k f Hf. split; [by apply lookup_app_l_Some|by eapply Hlook]. }
        intros j s g o' Hbj Hg Ho'. destruct (decide (j = i)) as [->|Hne].
        + rewrite list_lookup_insert in Ho' by done. injection Ho' as <-. rewrite list_lookup_alter in Hg. destruct (p_got u !! i) as [g0|] eqn:Hg0; [|done]. injection Hg as <-.
          destruct (I8 _ _ _ _ Hbj Hg0 Hi) as (vals & rest & H1 & H2 & H3). cbn in H3. subst rest. destruct Hstr as (vals' & rest & S1 & S2 & S3).
          exists (vals ++ vals'), rest. split_and!; [by eapply on_wire_app| |done]. apply Forall2_app; [|done]. by eapply Forall2_impl.
        + rewrite list_lookup_insert_ne in Ho' by done. rewrite list_lookup_alter_ne in Hg by done.
          destruct (I8 _ _ _ _ Hbj Hg Ho') as (vals & rest & H1 & H2 & H3). exists vals, rest. split_and!; [done|by eapply Forall2_impl|].
          destruct o' as [b'|]; [|done]. cbn [rest_ok] in *. rewrite H3. f_equal. symmetry. by eapply (Hothers j). }
    assert (Hdead : (exists e, read_stream (flat (abs (p_mem u) b)) = RError e) \/ read_stream (flat (abs (p_mem u) b)) = RPanic \/ read_stream (flat (abs (p_mem u) b)) = RFuel ->
      exists vals rest, on_wire (flat (abs (p_mem u) b)) vals rest /\ Forall2 (shows (l ++ [PRead al i]) u') [] vals /\ rest_ok m None rest).
    { intros Hd. exists [], (flat (abs (p_mem u) b)). split_and!; [constructor|constructor|]. intros x s Hx%on_wire_one. destruct x; destruct Hd as [[e Hd]|[Hd|Hd]]; congruence. }
    assert (Hid : forall (g : list (list (option nat))) n, alter (fun l => l ++ []) n g = g).
    { clear. induction g as [|x g IH]; intros [|n]; cbn; [done..|by rewrite app_nil_r|]. f_equal. apply IH. }
    assert (Hdies : u' = mkProg m (<[i := None]> (p_rds u)) (p_frames u) (p_bytes u) (p_got u) -> (exists e, read_stream (flat (abs (p_mem u) b)) = RError e) \/ read_stream (flat (abs (p_mem u) b)) = RPanic \/ read_stream (flat (abs (p_mem u) b)) = RFuel -> PI (l ++ [PRead al i]) u').
    { intros Hu Hd. apply (Hgen None [] []); [by rewrite app_nil_r, Hid|done|by left|by apply Hdead]. }
    destruct res as [b1|f b1|e| |], (bread (b_cap b) (abs (p_mem u) b)) as [st|g st|e'| |] eqn:Hbr; try done; injection Hs as Hs; cbn [bflat] in Hb.
    + destruct Hr as (_ & Hok1 & [Hs1 Hs1'] & <-). apply (Hgen (Some b1) [] [None]); [by rewrite app_nil_r|by intros ? [= <-]|by left|].
      exists [None], (flat (abs m b1)). split_and!; [by apply on_wire_one|by repeat constructor|done].
    + destruct Hr as (_ & Hok1 & [Hs1 Hs1'] & <- & Hg & Hfok). apply (Hgen (Some b1) [f] [Some (length (p_frames u))]); [done|by intros ? [= <-]|right; eauto|].
      exists [Some g], (flat (abs m b1)). split_and!; [by apply on_wire_one| |done]. constructor; [|constructor]. subst u'. cbn. exists f. split; [by rewrite lookup_app_r, Nat.sub_diag|].
      rewrite Hg, scribbled_none; [by destruct g|]. intros n c Hin. apply elem_of_app in Hin as [Hin|Hin]; [|by apply elem_of_list_singleton in Hin]. apply I7 in Hin. lia.
    + apply Hdies; [done|]. left. eauto.
    + apply Hdies; [done|]. right. by left.
    + apply Hdies; [done|]. by right; right.
  - destruct (p_frames u !! k) as [f|] eqn:Hf; [|done]. case_decide as Hk; [|done]. injection Hs as <-.
    assert (Hbr : m_body f ∈ refs f) by (right; by left).
    destruct (IV _ _ _ Hf Hbr) as [V1 V2]. set (m := poke (p_mem u) (f_arr (m_body f)) (f_off (m_body f) + i) [c]).
    assert (He : ext (eq (f_arr (m_body f))) (p_mem u) m) by (apply poke_ext; cbn; lia).
    assert (Hrd : forall j b, p_rds u !! j = Some (Some b) -> rd_ok m b /\ abs m b = abs (p_mem u) b).
    { intros j b Hj. split; [by eapply rd_ext; [|by eapply I1]|]. eapply abs_ext; [done|by eapply I1|]. by eapply I4. }
    split; cbn.
    + intros j b Hj. by apply (Hrd j).
    + done.
    + intros k' f' Hf'. eapply frame_ok_ext; [done|]. by eapply I3.
    + done.
    + done.
    + done.
    + intros k' j d Hin. apply elem_of_app in Hin as [Hin|Hin]; [by eapply I7|]. apply elem_of_list_singleton in Hin. injection Hin as -> -> ->. by eapply lookup_lt_Some.
    + intros j s g o Hb Hg Ho. destruct (I8 _ _ _ _ Hb Hg Ho) as (vals & rest & H1 & H2 & H3). exists vals, rest. split_and!; [done| |].
      * eapply Forall2_impl; [done|]. intros [k'|] [x|] Hx; cbn in *; try done. destruct Hx as (f' & Hf' & Hl). exists f'. split; [done|].
        destruct (decide (k' = k)) as [->|Hne].
        -- assert (f' = f) as -> by congruence. rewrite scribbled_snoc, decide_True by done. unfold look in *. injection Hl as L1 L2 L3. f_equal.
           ++ rewrite <- L1. destruct (I3 _ _ Hf) as [[F1 _] _ _ [F4 _]]. eapply ext_deref; [done|done|]. congruence.
           ++ rewrite <- L2. destruct (I3 _ _ Hf) as [_ F2 _ [_ F5]]. apply list_fmap_ext. intros n kv Hkv.
              destruct (Forall_lookup_1 _ _ _ _ F2 Hkv) as [[? _] [? _]], (Forall_lookup_1 _ _ _ _ F5 Hkv) as [? ?].
              f_equal; (eapply ext_deref; [done|done|congruence]).
           ++ rewrite <- L3. unfold deref, m. rewrite poke_one by lia. rewrite drop_insert_le by lia. rewrite take_insert_lt by lia. f_equal. lia.
        -- rewrite scribbled_snoc, decide_False by done. rewrite <- Hl. apply look_same. intros r Hr. eapply ext_deref; [done|by eapply IV|]. intros E. by eapply (I5 k f k' f' r).
      * destruct o as [b|]; [|done]. cbn [rest_ok] in *. rewrite H3. f_equal. symmetry. by apply (Hrd j).
Qed.
Lemma PI_run l l0 u u' : PI l0 u -> prun u l = Some u' -> PI (l0 ++ l) u'.
Proof.
  revert l0 u. induction l as [|a l IH]; intros l0 u HI; cbn; [intros [= <-]; by rewrite app_nil_r|].
  destruct (pstep u a) as [u1|] eqn:Hs; [|done]. intros H. change (a :: l) with ([a] ++ l). rewrite app_assoc. eapply IH; [|done]. by eapply PI_step.
Qed.

Lemma frames_kept l u i s g : prun prog_init l = Some u -> p_bytes u !! i = Some s -> p_got u !! i = Some g ->
  exists items rest, on_wire s items rest /\ Forall2 (shows l u) g items /\ (p_rds u !! i = Some None -> forall x r, ~ on_wire rest [x] r).
Proof.
  intros Hr Hs Hg. pose proof (PI_run _ _ _ _ PI_init Hr) as HI. cbn in HI. pose proof (pi_len _ _ HI) as [Hl _].
  destruct (lookup_lt_is_Some_2 (p_rds u) i) as [o Ho]. { rewrite Hl. by eapply lookup_lt_Some. }
  destruct (pi_str _ _ HI _ _ _ _ Hs Hg Ho) as (vals & rest & H1 & H2 & H3). exists vals, rest. split_and!; [done..|]. rewrite Ho. intros [= ->]. done.
Qed.

Lemma read_keeps l u al i u' k f : prun prog_init l = Some u -> pstep u (PRead al i) = Some u' -> p_frames u !! k = Some f ->
  p_frames u' !! k = Some f /\ look (p_mem u') f = look (p_mem u) f.
Proof.
  intros Hr Hs Hf. pose proof (PI_run _ _ _ _ PI_init Hr) as [I1 I2 I3 I4 I5 I6 I7 I8]. cbn [pstep] in Hs.
  destruct (p_rds u !! i) as [[b|]|] eqn:Hi; try done. pose proof (m_read_spec al (p_mem u) b (I1 _ _ Hi)) as Hm.
  destruct (m_read al (p_mem u) b) as [m res].
  assert (He : ext (eq (b_arr b)) (p_mem u) m).
  { destruct res, (bread (b_cap b) (abs (p_mem u) b)); try done; by destruct Hm as [? ?]. }
  assert (Hlook : look m f = look (p_mem u) f).
  { apply look_same. intros r Hr'. eapply ext_deref; [done|by destruct (frame_ok_refs _ _ _ _ (I3 _ _ Hf) Hr')|]. intros E. by eapply (I4 k f r i b). }
  destruct res; injection Hs as <-; cbn; (split; [|done]); first [done|by apply lookup_app_l_Some].
Qed.
Lemma poke_frame l u k i c u' : prun prog_init l = Some u -> pstep u (PPoke k i c) = Some u' ->
  p_frames u' = p_frames u /\ forall k' f, p_frames u !! k' = Some f ->
    look (p_mem u') f = if decide (k' = k) then mkFrame (f_cmd (look (p_mem u) f)) (f_hdr (look (p_mem u) f)) (<[i := c]> (f_body (look (p_mem u) f))) else look (p_mem u) f.
Proof.
  intros Hr Hs. pose proof (PI_run _ _ _ _ PI_init Hr) as [I1 I2 I3 I4 I5 I6 I7 I8]. cbn [pstep] in Hs.
  destruct (p_frames u !! k) as [f|] eqn:Hf; [|done]. case_decide as Hk; [|done]. injection Hs as <-. cbn [p_frames p_mem]. split; [done|].
  assert (Hbr : m_body f ∈ refs f) by (right; by left).
  destruct (frame_ok_refs _ _ _ _ (I3 _ _ Hf) Hbr) as [[V1 V2] _]. set (m := poke (p_mem u) (f_arr (m_body f)) (f_off (m_body f) + i) [c]).
  assert (He : ext (eq (f_arr (m_body f))) (p_mem u) m) by (apply poke_ext; cbn; lia).
  intros k' f' Hf'. case_decide as Hne.
  - subst k'. assert (f' = f) as -> by congruence. unfold look. cbn [f_cmd f_hdr f_body]. destruct (I3 _ _ Hf) as [[F1 _] F2 _ [F4 F5]]. f_equal.
    + eapply ext_deref; [done|done|]. congruence.
    + apply list_fmap_ext. intros n kv Hkv.
      destruct (Forall_lookup_1 _ _ _ _ F2 Hkv) as [[? _] [? _]], (Forall_lookup_1 _ _ _ _ F5 Hkv) as [? ?].
      f_equal; (eapply ext_deref; [done|done|congruence]).
    + unfold deref, m. rewrite poke_one by lia. rewrite drop_insert_le by lia. rewrite take_insert_lt by lia. f_equal. lia.
  - apply look_same. intros r Hr'. eapply ext_deref; [done|by destruct (frame_ok_refs _ _ _ _ (I3 _ _ Hf') Hr')|]. intros E. by eapply (I5 k f k' f' r).
Qed.

Lemma on_wire_items items rest : Forall (fun o => match o with Some f => writable f | None => True end) items -> on_wire (concat (write_item <$> items) ++ rest) items rest.
Proof.
  induction 1 as [|o items Ho Hi IH]; [constructor|]. cbn. rewrite <- app_assoc. destruct o as [f|].
  - eapply ow_frame; [|done]. by apply write_frame_encodes.
  - cbn. change (LF :: concat (write_item <$> items) ++ rest) with ([LF] ++ (concat (write_item <$> items) ++ rest)). eapply ow_beat; [|done]. apply (el_lf []); set_solver.
Qed.
Lemma frames_written l u i items g : prun prog_init l = Some u -> p_bytes u !! i = Some (concat (write_item <$> items)) -> p_got u !! i = Some g ->
  Forall (fun o => match o with Some f => writable f | None => True end) items ->
  Forall2 (shows l u) g (take (length g) items) /\ length g <= length items /\ (p_rds u !! i = Some None -> length g = length items).
Proof.
  intros Hr Hs Hg Hw. destruct (frames_kept _ _ _ _ _ Hr Hs Hg) as (vals & rest & H1 & H2 & H3).
  pose proof (on_wire_items _ [] Hw) as H4. rewrite app_nil_r in H4. pose proof (Forall2_length _ _ _ H2) as Hl.
  assert (Hle : length vals <= length items).
  { destruct (decide (length vals <= length items)) as [|Hgt]; [done|]. destruct (on_wire_prefix _ _ _ _ _ H4 H1 ltac:(lia)) as [_ Hx].
    destruct (drop (length items) vals) as [|x xs] eqn:Hd; [apply (f_equal length) in Hd; rewrite drop_length in Hd; cbn in Hd; lia|].
    apply on_wire_cons_inv in Hx as (y & Hx & _). apply on_wire_one in Hx. by destruct x. }
  destruct (on_wire_prefix _ _ _ _ _ H1 H4 Hle) as [Hv Hx]. rewrite Hl. split_and!; [by rewrite <- Hv|done|].
  intros Hd. specialize (H3 Hd). destruct (drop (length vals) items) as [|x xs] eqn:Hdr.
  - apply (f_equal length) in Hdr. rewrite drop_length in Hdr. cbn in Hdr. lia.
  - apply on_wire_cons_inv in Hx as (y & Hx & _). by destruct (H3 _ _ Hx).
Qed.
