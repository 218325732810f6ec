(** Proofs about the read timer with a multiplier. *)
From stdpp Require Import numbers.
From Coq Require Import ZArith Lia Psatz.
From Verif Require Import GraceModel GraceSpec.
Local Open Scope Z.

Definition drop (n : Z) : Z := Z.max 0 (Z.log2 n - 52).
Lemma round_cases n : 0 <= n -> exists q, round53 n = q * 2 ^ drop n /\ 0 <= drop n /\ Z.abs (2 * (round53 n - n)) <= 2 ^ drop n /\
  n / 2 ^ drop n <= q <= n / 2 ^ drop n + 1 /\ (drop n = 0 -> round53 n = n) /\ (0 < drop n -> 2 ^ 52 * 2 ^ drop n <= n < 2 ^ 53 * 2 ^ drop n).
Proof.
  intros Hn. unfold round53. fold (drop n). set (k := drop n). assert (0 <= k) as Hk by (unfold k, drop; lia).
  pose proof (Z.pow_pos_nonneg 2 k ltac:(lia) Hk) as Hp. pose proof (Z.div_mod n (2 ^ k) ltac:(lia)) as Hd. pose proof (Z.mod_pos_bound n (2 ^ k) ltac:(lia)) as Hm.
  set (q := n / 2 ^ k) in *. set (r := n mod 2 ^ k) in *.
  assert (Hz : k = 0 -> r = 0) by (intros Hk0; rewrite Hk0 in Hm; change (2 ^ 0) with 1 in Hm; lia).
  assert (Hbig : 0 < k -> 2 ^ 52 * 2 ^ k <= n < 2 ^ 53 * 2 ^ k).
  { intros Hk0. assert (k = Z.log2 n - 52) as Ek by (unfold k, drop in *; lia). destruct (decide (n = 0)) as [->|Hne]; [unfold k, drop in Hk0; cbn in Hk0; lia|].
    pose proof (Z.log2_spec n ltac:(lia)) as [H1 H2]. rewrite <- !Z.pow_add_r by lia. replace (52 + k) with (Z.log2 n) by lia. replace (53 + k) with (Z.succ (Z.log2 n)) by lia. lia. }
  destruct ((2 ^ k <? 2 * r) || (2 * r =? 2 ^ k) && Z.odd q) eqn:E.
  - assert (2 ^ k <= 2 * r) as Hr. { apply orb_true_iff in E as [E|E]; [apply Z.ltb_lt in E; lia|]. apply andb_true_iff in E as [E _]. apply Z.eqb_eq in E. lia. }
    exists (q + 1). split_and!; [done|done|lia|lia|lia| |done]. intros Hk0. rewrite (Hz Hk0) in Hr. lia.
  - assert (2 * r <= 2 ^ k) as Hr. { apply orb_false_iff in E as [E _]. apply Z.ltb_ge in E. lia. }
    exists q. split_and!; [done|done|lia|lia|lia| |done]. intros Hk0. rewrite (Hz Hk0) in Hd. lia.
Qed.
Lemma round_small n : 0 <= n < 2 ^ 53 -> round53 n = n.
Proof.
  intros Hn. destruct (round_cases n) as (q & _ & _ & _ & _ & H & _); [lia|]. apply H. unfold drop.
  destruct (decide (n = 0)) as [->|Hne]; [done|]. assert (Z.log2 n < 53) by (apply Z.log2_lt_pow2; lia). lia.
Qed.
(** What has 53 bits is a lower bound of the rounded number if it was one. *)
Lemma round_above t j n : 0 <= t <= 2 ^ 53 -> 0 <= j -> t * 2 ^ j <= n -> t * 2 ^ j <= round53 n.
Proof.
  intros Ht Hj Hn. pose proof (Z.pow_pos_nonneg 2 j ltac:(lia) Hj) as Hpj. destruct (round_cases n) as (q & Hq & Hk & _ & Hqr & H0 & Hb); [nia|].
  destruct (decide (drop n = 0)) as [Hz|Hz]; [rewrite (H0 Hz); done|]. specialize (Hb ltac:(lia)). set (k := drop n) in *. pose proof (Z.pow_pos_nonneg 2 k ltac:(lia) Hk) as Hpk.
  rewrite Hq. destruct (decide (k <= j)) as [Hle|Hgt].
  - assert (Z.pow 2 j = 2 ^ (j - k) * 2 ^ k) as Ej by (rewrite <- Z.pow_add_r by lia; f_equal; lia).
    assert (t * 2 ^ (j - k) <= n / 2 ^ k) by (apply Z.div_le_lower_bound; [lia|]; rewrite Ej in Hn; nia). rewrite Ej. nia.
  - assert (2 ^ 52 <= n / 2 ^ k) by (apply Z.div_le_lower_bound; lia).
    assert (2 * 2 ^ j <= 2 ^ k). { replace (2 * 2 ^ j) with (2 ^ (j + 1)) by (rewrite Z.pow_add_r by lia; lia). apply Z.pow_le_mono_r; lia. }
    change (2 ^ 53) with (2 * 2 ^ 52) in Ht. nia.
Qed.
Lemma round_form n : 0 <= n -> exists t j, round53 n = t * 2 ^ j /\ 0 <= t <= 2 ^ 53 /\ 0 <= j.
Proof.
  intros Hn. destruct (round_cases n Hn) as (q & Hq & Hk & _ & Hqr & H0 & Hb). pose proof (Z.pow_pos_nonneg 2 (drop n) ltac:(lia) Hk) as Hpk.
  pose proof (Z.div_pos n (2 ^ drop n) Hn ltac:(lia)). destruct (decide (drop n = 0)) as [Hz|Hz].
  - exists n, 0. split; [rewrite (H0 Hz); lia|]. split; [|lia]. unfold drop in Hz. destruct (decide (n = 0)) as [->|]; [lia|]. pose proof (Z.log2_spec n ltac:(lia)) as [_ H2].
    assert (2 ^ Z.succ (Z.log2 n) <= 2 ^ 53) by (apply Z.pow_le_mono_r; lia). lia.
  - specialize (Hb ltac:(lia)). exists q, (drop n). split_and!; [done|lia| |done]. assert (n / 2 ^ drop n < 2 ^ 53) by (apply Z.div_lt_upper_bound; lia). lia.
Qed.
(** Relative error 2^-53. *)
Lemma round_error n : 0 <= n -> Z.abs (round53 n - n) * 2 ^ 53 <= n.
Proof.
  intros Hn. destruct (round_cases n Hn) as (q & _ & Hk & He & _ & H0 & Hb). destruct (decide (drop n = 0)) as [Hz|Hz]; [rewrite (H0 Hz), Z.sub_diag; done|].
  specialize (Hb ltac:(lia)). set (p := 2 ^ drop n) in *. change (2 ^ 53) with (2 * 2 ^ 52). lia.
Qed.
Lemma round_below t : 0 <= t < 2 ^ 63 -> t - 512 <= round53 t.
Proof.
  intros Ht. destruct (round_cases t) as (q & _ & Hk & He & _ & H0 & Hb); [lia|]. assert (drop t <= 10).
  { unfold drop. destruct (decide (t = 0)) as [->|]; [cbn; lia|]. assert (Z.log2 t < 63) by (apply Z.log2_lt_pow2; lia). lia. }
  assert (2 ^ drop t <= 2 ^ 10) by (apply Z.pow_le_mono_r; lia). lia.
Qed.

Lemma trunc_bounds m e : 0 <= m -> trunc m e * 2 ^ Z.max 0 (- e) <= m * 2 ^ Z.max 0 e < (trunc m e + 1) * 2 ^ Z.max 0 (- e).
Proof.
  intros Hm. unfold trunc. destruct (Z.leb_spec 0 e) as [He|He].
  - rewrite (Z.max_l 0 (- e)), (Z.max_r 0 e) by lia. change (2 ^ 0) with 1. lia.
  - rewrite (Z.max_r 0 (- e)), (Z.max_l 0 e) by lia. change (2 ^ 0) with 1. pose proof (Z.pow_pos_nonneg 2 (- e) ltac:(lia) ltac:(lia)).
    pose proof (Z.div_mod m (2 ^ (- e)) ltac:(lia)). pose proof (Z.mod_pos_bound m (2 ^ (- e)) ltac:(lia)). lia.
Qed.
Lemma round_nonneg n : 0 <= n -> 0 <= round53 n.
Proof. intros Hn. destruct (round_form n Hn) as (a & j & -> & ? & ?). pose proof (Z.pow_pos_nonneg 2 j ltac:(lia) ltac:(lia)). nia. Qed.
Lemma trunc_nonneg m e : 0 <= m -> 0 <= trunc m e.
Proof.
  intros Hm. unfold trunc. destruct (Z.leb_spec 0 e) as [He|He].
  - pose proof (Z.pow_pos_nonneg 2 e ltac:(lia) He). nia.
  - pose proof (Z.pow_pos_nonneg 2 (- e) ltac:(lia) ltac:(lia)). apply Z.div_pos; lia.
Qed.
(** A multiplier of at least 1 does not shorten what it is applied to. *)
Lemma grace_longer t f num den v : 0 <= t < 2 ^ 63 -> is_fraction f num den -> den <= num -> grace t f = Some v -> round53 t <= v.
Proof.
  intros Ht (m & e & -> & Hm & Hden & Hf) Hge. cbn [grace]. destruct (_ <? 2 ^ 63); [|done]. intros [= <-].
  pose proof (Z.pow_pos_nonneg 2 (Z.max 0 (- e)) ltac:(lia) ltac:(lia)) as Hp1. pose proof (Z.pow_pos_nonneg 2 (Z.max 0 e) ltac:(lia) ltac:(lia)) as Hp2.
  assert (2 ^ Z.max 0 (- e) <= m * 2 ^ Z.max 0 e) as H1 by nia.
  destruct (round_form t) as (a & j & Ha & Hb & Hj); [lia|]. set (T := round53 t) in *. pose proof (Z.pow_pos_nonneg 2 j ltac:(lia) Hj) as Hp3. assert (0 <= T) as HT by nia.
  destruct (trunc_bounds (round53 (T * m)) e) as [_ Hu]. { destruct (round_form (T * m)) as (a' & j' & -> & ? & ?); [nia|]. pose proof (Z.pow_pos_nonneg 2 j' ltac:(lia) ltac:(lia)). nia. }
  set (v := trunc (round53 (T * m)) e) in *.
  destruct (decide (0 <= e)) as [He|He].
  - rewrite (Z.max_l 0 (- e)), (Z.max_r 0 e) in * by lia. change (2 ^ 0) with 1 in *.
    assert (T <= round53 (T * m)) as HR. { rewrite Ha at 1. apply round_above; [done|done|]. rewrite <- Ha. assert (1 <= m) by nia. nia. }
    assert (round53 (T * m) * 1 <= round53 (T * m) * 2 ^ e) by (apply Z.mul_le_mono_nonneg_l; nia). lia.
  - rewrite (Z.max_r 0 (- e)), (Z.max_l 0 e) in * by lia. change (2 ^ 0) with 1 in *.
    assert (T * 2 ^ (- e) <= round53 (T * m)) as HR.
    { replace (T * 2 ^ (- e)) with (a * 2 ^ (j + - e)) by (rewrite Z.pow_add_r by lia; rewrite Ha; lia). apply round_above; [done|lia|]. rewrite Z.pow_add_r by lia. rewrite Z.mul_assoc, <- Ha. nia. }
    assert (T * 2 ^ (- e) < (v + 1) * 2 ^ (- e)) as HS by lia. apply Z.mul_lt_mono_pos_r in HS; lia.
Qed.
(** The timer is the product, up to the rounding of the product and less than a
    nanosecond. *)
Lemma grace_error t f num den v : 0 <= t < 2 ^ 53 -> is_fraction f num den -> grace t f = Some v ->
  Z.abs (v * den - t * num) * 2 ^ 53 < den * 2 ^ 53 + t * num.
Proof.
  intros Ht (m & e & -> & Hm & Hden & Hf). cbn [grace]. destruct (_ <? 2 ^ 63); [|done]. intros [= <-]. rewrite (round_small t) by lia.
  pose proof (Z.pow_pos_nonneg 2 (Z.max 0 (- e)) ltac:(lia) ltac:(lia)) as Hp1. pose proof (Z.pow_pos_nonneg 2 (Z.max 0 e) ltac:(lia) ltac:(lia)) as Hp2.
  assert (0 <= t * m) as HN by nia. pose proof (round_error _ HN) as He.
  assert (0 <= round53 (t * m)) as HR. { destruct (round_form _ HN) as (a & j & -> & ? & ?). pose proof (Z.pow_pos_nonneg 2 j ltac:(lia) ltac:(lia)). nia. }
  pose proof (trunc_bounds _ e HR) as Hb. set (v := trunc (round53 (t * m)) e) in *. set (P := round53 (t * m)) in *.
  set (A := 2 ^ Z.max 0 (- e)) in *. set (B := 2 ^ Z.max 0 e) in *. set (M := 2 ^ 53) in *. assert (0 < M) as HM by (unfold M; lia). clearbody A B M P v.
  (* multiply by A *)
  assert (A * (Z.abs (v * den - t * num) * M) < A * (den * M + t * num)); [|by apply Z.mul_lt_mono_pos_l in H].
  assert (Hx : A * (v * den - t * num) = (v * A - t * m * B) * den). { replace (A * (v * den - t * num)) with (v * A * den - t * (num * A)) by ring. rewrite Hf. ring. }
  assert (Hy : A * (t * num) = t * m * B * den). { replace (A * (t * num)) with (t * (num * A)) by ring. rewrite Hf. ring. }
  replace (A * (Z.abs (v * den - t * num) * M)) with (Z.abs (A * (v * den - t * num)) * M) by (rewrite Z.abs_mul, (Z.abs_eq A) by lia; ring).
  rewrite Hx, Z.abs_mul, (Z.abs_eq den) by lia. rewrite Z.mul_add_distr_l, Hy.
  assert (Z.abs (v * A - t * m * B) * M < A * M + t * m * B); [|nia].
  assert (Z.abs (v * A - t * m * B) < A + Z.abs ((P - t * m) * B)) by lia. rewrite Z.abs_mul, (Z.abs_eq B) in H by lia. nia.
Qed.
Lemma grace_one t : 0 <= t < 2 ^ 53 -> grace t one = Some t.
Proof.
  intros Ht. unfold one. cbn [grace]. rewrite (round_small t) by lia.
  assert (round53 (t * 2 ^ 52) = t * 2 ^ 52) as ->.
  { pose proof (round_above t 52 (t * 2 ^ 52) ltac:(lia) ltac:(lia) ltac:(lia)) as H1. destruct (round_cases (t * 2 ^ 52)) as (q & Hq & Hk & He & Hqr & H0 & Hb); [lia|].
    destruct (decide (drop (t * 2 ^ 52) = 0)) as [Hz|Hz]; [by apply H0|]. specialize (Hb ltac:(lia)).
    assert (drop (t * 2 ^ 52) <= 52) as Hd. { unfold drop. destruct (decide (t = 0)) as [->|]; [cbn; lia|]. rewrite Z.log2_mul_pow2 by lia. assert (Z.log2 t < 53) by (apply Z.log2_lt_pow2; lia). lia. }
    unfold round53. fold (drop (t * 2 ^ 52)). set (k := drop (t * 2 ^ 52)) in *. pose proof (Z.pow_pos_nonneg 2 k ltac:(lia) Hk) as Hpk.
    assert (Z.pow 2 52 = 2 ^ (52 - k) * 2 ^ k) as E by (rewrite <- Z.pow_add_r by lia; f_equal; lia).
    assert ((t * 2 ^ 52) mod 2 ^ k = 0) as Hm by (rewrite E, Z.mul_assoc; apply Z.mod_mul; lia). rewrite Hm.
    destruct (Z.ltb_spec (2 ^ k) (2 * 0)); [lia|]. destruct (Z.eqb_spec (2 * 0) (2 ^ k)); [lia|]. cbn [orb andb].
    rewrite E, Z.mul_assoc, Z.div_mul by lia. done. }
  unfold trunc. change (0 <=? -52) with false. change (- -52) with 52. rewrite Z.div_mul by lia. destruct (Z.ltb_spec t (2 ^ 63)); [done|lia].
Qed.
(** The rounding is that of IEEE 754. *)
Lemma between n x : 0 <= n -> has_53_bits x -> x <= n / 2 ^ drop n * 2 ^ drop n \/ (n / 2 ^ drop n + 1) * 2 ^ drop n <= x.
Proof.
  intros Hn (a & j & -> & Ha & Hj). destruct (round_cases n Hn) as (q & _ & Hk & _ & _ & _ & Hb). set (k := drop n) in *. pose proof (Z.pow_pos_nonneg 2 k ltac:(lia) Hk) as Hpk. pose proof (Z.pow_pos_nonneg 2 j ltac:(lia) Hj) as Hpj.
  destruct (decide (k <= j)) as [Hle|Hgt].
  - assert (Z.pow 2 j = 2 ^ (j - k) * 2 ^ k) as -> by (rewrite <- Z.pow_add_r by lia; f_equal; lia).
    destruct (decide (a * 2 ^ (j - k) <= n / 2 ^ k)); [left|right]; nia.
  - left. specialize (Hb ltac:(lia)). assert (2 ^ 52 <= n / 2 ^ k) by (apply Z.div_le_lower_bound; lia).
    assert (2 * 2 ^ j <= 2 ^ k). { replace (2 * 2 ^ j) with (2 ^ (j + 1)) by (rewrite Z.pow_add_r by lia; lia). apply Z.pow_le_mono_r; lia. }
    change (2 ^ 53) with (2 * 2 ^ 52) in Ha. nia.
Qed.
Lemma round_nearest n : 0 <= n -> nearest_even n (round53 n).
Proof.
  intros Hn. split.
  - destruct (round_form n Hn) as (a & j & -> & Ha & Hj). destruct (decide (a = 2 ^ 53)) as [->|]; [|exists a, j; split_and!; lia].
    exists (2 ^ 52), (j + 1). split_and!; [rewrite Z.pow_add_r by lia; lia|lia|lia|lia].
  - intros x Hx. pose proof (between n x Hn Hx) as Hb. unfold round53. fold (drop n). set (k := drop n) in *. assert (0 <= k) as Hk by (unfold k, drop; lia).
    pose proof (Z.pow_pos_nonneg 2 k ltac:(lia) Hk) as Hp. pose proof (Z.div_mod n (2 ^ k) ltac:(lia)) as Hd. pose proof (Z.mod_pos_bound n (2 ^ k) ltac:(lia)) as Hm.
    set (q := n / 2 ^ k) in *. set (r := n mod 2 ^ k) in *. set (p := 2 ^ k) in *. clearbody q r p.
    destruct (Z.ltb_spec p (2 * r)) as [H1|H1]; cbn [orb].
    { split; [lia|]. intros E Hne. exfalso. lia. }
    destruct (Z.eqb_spec (2 * r) p) as [H2|H2]; cbn [andb].
    + destruct (Z.odd q) eqn:Ho.
      * split; [lia|]. intros E Hne. assert (Z.abs (x - (q + 1) * p) = p) as -> by lia. apply Z.odd_spec in Ho as [c ->]. exists (c + 1). lia.
      * split; [lia|]. intros E Hne. assert (Z.abs (x - q * p) = p) as -> by lia. assert (Z.even q = true) as He by (rewrite <- Z.negb_odd, Ho; done). apply Z.even_spec in He as [c ->]. exists c. lia.
    + split; [lia|]. intros E Hne. exfalso. lia.
Qed.
Lemma nearest_unique n r r' : nearest_even n r -> nearest_even n r' -> r = r'.
Proof.
  intros [Hr H] [Hr' H']. destruct (decide (r = r')) as [|Hne]; [done|exfalso]. destruct (H r' Hr') as [H1 H2]. destruct (H' r Hr) as [H3 H4].
  destruct H2 as [a Ha]; [lia|done|]. destruct H4 as [b Hb]; [lia|done|]. replace (Z.abs (r - r')) with (Z.abs (r' - r)) in Hb by lia. set (d := Z.abs (r' - r)) in *.
  assert (0 < d) by (unfold d; lia). assert (r - r' = 2 * (a - b) * d) as E by lia. assert (d = Z.abs (2 * (a - b)) * d) as E2. { unfold d at 1. replace (r' - r) with (- (2 * (a - b) * d)) by lia. rewrite Z.abs_opp, Z.abs_mul. lia. }
  assert (Z.abs (2 * (a - b)) = 1) by nia. lia.
Qed.
