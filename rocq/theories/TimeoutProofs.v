(** The timeouts of a connected client as a function of the options it was
    given and the heart-beat entry of the server's answer (C59). *)
From Verif Require Import GoBase HeaderModel FrameModel GrammarSpec GoBaseProofs HeaderProofs CodecProofs
  NegotiationModel NegotiationSpec NegotiationProofs NegotiationLemmas TimeoutSpec.
From Coq Require Import ZifyBool ZifyNat ZifyN.

Lemma apply_copts_tolerance opts : forall o o', apply_copts o opts = Some o' ->
  o_hberr o' = last_opt (fun x => match x with OptHeartBeatError e => Some e | _ => None end) (o_hberr o) opts.
Proof.
  induction opts as [|x opts IH]; intros o o'; cbn [apply_copts last_opt]; [by intros [= ->]|].
  destruct (apply_copt o x) as [o1|] eqn:E; [|done]. intros ->%IH.
  destruct x; cbn [apply_copt] in E; try (destruct (add_versions _ _); [|done]); simplify_eq; done.
Qed.

Lemma hb_pair_fun t n m n' m' : hb_pair t n m -> hb_pair t n' m' -> n = n' /\ m = m'.
Proof.
  intros (a & b & -> & Ta & Tb) (a' & b' & He & Ta' & Tb'). apply app_comma_inj in He as [-> ->].
  - by split; eapply dec_text_fun.
  - apply digits_nocomma. by apply dec_text_iff in Ta as (_ & ? & _).
  - apply digits_nocomma. by apply dec_text_iff in Ta' as (_ & ? & _).
Qed.

Lemma new_conn_tolerance remote opts o : new_conn_options remote opts = Some o ->
  o_hberr o = asked_tolerance opts /\ o_read o = snd (asked_beats opts).
Proof.
  intros H. split.
  - unfold new_conn_options in H. destruct (apply_copts default_copts opts) eqn:E; [|done].
    apply apply_copts_tolerance in E. simplify_eq. cbn [o_hberr]. rewrite E. done.
  - destruct (connect_frame_asked remote opts) as [H1 H2].
    destruct (decide (Forall supported (asked_versions opts))) as [Hs|Hs].
    + apply H1 in Hs as (o1 & E & _ & _ & Hr). congruence.
    + apply H2 in Hs. congruence.
Qed.

Lemma client_timeouts_asked remote opts o f rest c :
  new_conn_options remote opts = Some o -> client_connect o (RFrame f rest) = CConnected c ->
  (no_entry (f_hdr f) (lit "heart-beat") -> cc_read c = 0%Z /\ cc_write c = 0%Z) /\
  (forall t n m, first_entry (f_hdr f) (lit "heart-beat") t -> hb_pair t n m ->
     let e := asked_tolerance opts in
     let r := Z.max (snd (asked_beats opts)) (Z.of_N n * 1000000) in
     let w := (Z.of_N m * 1000000)%Z in
     (0 <= e)%Z -> (r + e < 2 ^ 63)%Z ->
     cc_read c = (if decide (0 < r)%Z then r + e else r)%Z /\
     cc_write c = (if decide (e < w)%Z then w - e else w)%Z).
Proof.
  intros [He Hr]%new_conn_tolerance. unfold client_connect. case_decide; [|done].
  destruct (negb _ && negb _); [done|]. intros Hc. split.
  - intros Hn. change (lit "heart-beat") with h_heart_beat in Hn. apply hd_contains_None in Hn. rewrite Hn in Hc. by simplify_eq.
  - intros t n m Ht Hp. set (e := asked_tolerance opts). set (r := Z.max _ _). set (w := (Z.of_N m * 1000000)%Z). intros He0 Hb. change (lit "heart-beat") with h_heart_beat in Ht.
    apply hd_contains_Some in Ht. rewrite Ht in Hc.
    destruct (parse_heart_beat t) as [[rt wt]|] eqn:Hpt; [|done].
    apply parse_heart_beat_iff in Hpt as (n' & m' & Hp' & Hn & Hm & -> & ->).
    destruct (hb_pair_fun _ _ _ _ _ Hp Hp') as [En Em]; rewrite <-En, <-Em in *; clear En Em. unfold client_timeouts in Hc. rewrite He, Hr in Hc.
    fold e in Hc. simplify_eq. cbn [cc_read cc_write].
    assert ((if (Z.of_N n * 1000000 <? snd (asked_beats opts))%Z then snd (asked_beats opts) else (Z.of_N n * 1000000)%Z) = r) as ->.
    { unfold r. destruct (Z.ltb_spec (Z.of_N n * 1000000) (snd (asked_beats opts))); lia. }
    fold w. assert (0 <= r)%Z by (unfold r; lia).
    split.
    + case_decide; destruct (Z.ltb_spec 0 r); try lia. apply wrap64_id. unfold is_int64. change (2 ^ 63)%Z with 9223372036854775808%Z in *. lia.
    + case_decide; destruct (Z.ltb_spec e w); try lia. apply wrap64_id. unfold is_int64, w in *. change (2 ^ 63)%Z with 9223372036854775808%Z in *. lia.
Qed.
