(** Which steps can panic. *)
From Verif Require Import GoBase HeaderModel FrameModel GrammarSpec HeaderProofs NegotiationModel NegotiationSpec NegotiationLemmas
  BrokerModel BrokerSpec BrokerProofs ServerConnModel ServerConnSpec ServerConnProofs SystemModel SystemLemmas SystemSpec SystemProofs SystemTokens
  SystemMessages SystemUids SystemHistory.

(** Panics of ACK and NACK. *)
Definition odd_ack (hp : sheap) (l : list nat) : Prop :=
  exists s sb, s ∈ l /\ hp !! s = Some sb /\ s_ack sb <> ack_auto /\ s_ack sb <> ack_client /\ s_ack sb <> ack_individual.
Definition all_held (hp : sheap) (l : list nat) : Prop := forall s, s ∈ l -> fr hp s <> None.
Lemma all_held_insert hp s sb l : s ∉ l -> all_held hp l -> all_held (<[s := sb]> hp) l.
Proof. intros Hs Hl t Ht. rewrite (fr_not_in hp s sb t l); auto. Qed.
Lemma odd_ack_insert hp s sb l : hp !! s = Some sb -> odd_ack (<[s := set_frame sb None]> hp) l -> odd_ack hp l.
Proof.
  intros Hs (t & tb & Ht & H1 & H2 & H3 & H4). destruct (decide (t = s)) as [->|Hne].
  - rewrite lookup_insert in H1. injection H1 as <-. by exists s, sb.
  - rewrite lookup_insert_ne in H1 by done. by exists t, tb.
Qed.
Lemma odd_ack_sub hp l l' : (forall s, s ∈ l -> s ∈ l') -> odd_ack hp l -> odd_ack hp l'.
Proof. intros H (t & tb & Ht & H1). exists t, tb. split; [by apply H|done]. Qed.
Lemma sl_ack_panic hp l n p : NoDup l -> all_held hp l -> sl_ack hp l n = Panicked p -> p = PanicBadAck /\ odd_ack hp l.
Proof.
  revert hp. induction l as [|s l IH]; intros hp Hnd Hl; cbn [sl_ack]; [done|]. apply NoDup_cons in Hnd as [Hns Hnd].
  pose proof (Hl s ltac:(set_solver)) as Hs. unfold fr in Hs. destruct (hp !! s) as [sb|] eqn:E; [|done].
  unfold is_acked_by. destruct (decide (s_ack sb = ack_auto)) as [H1|H1].
  - destruct (sl_ack _ l n) as [p0|[[? ?] ?]] eqn:Er; [|done]. intros [= ->].
    apply IH in Er as [? Ho]; [|done|apply all_held_insert; [done|]; intros t Ht; apply Hl; set_solver].
    split; [done|]. eapply odd_ack_sub; [|by eapply odd_ack_insert]. set_solver.
  - destruct (decide (s_ack sb = ack_client)) as [H2|H2]; [|destruct (decide (s_ack sb = ack_individual)) as [H3|H3]].
    + destruct (s_msgid sb <=? n)%N.
      * destruct (sl_ack _ l n) as [p0|[[? ?] ?]] eqn:Er; [|done]. intros [= ->].
        apply IH in Er as [? Ho]; [|done|apply all_held_insert; [done|]; intros t Ht; apply Hl; set_solver].
        split; [done|]. eapply odd_ack_sub; [|by eapply odd_ack_insert]. set_solver.
      * destruct (sl_ack _ l n) as [p0|[[? ?] ?]] eqn:Er; [|done]. intros [= ->].
        apply IH in Er as [? Ho]; [|done|intros t Ht; apply Hl; set_solver]. split; [done|]. eapply odd_ack_sub; [|done]. set_solver.
    + destruct (n =? s_msgid sb)%N.
      * destruct (sl_ack _ l n) as [p0|[[? ?] ?]] eqn:Er; [|done]. intros [= ->].
        apply IH in Er as [? Ho]; [|done|apply all_held_insert; [done|]; intros t Ht; apply Hl; set_solver].
        split; [done|]. eapply odd_ack_sub; [|by eapply odd_ack_insert]. set_solver.
      * destruct (sl_ack _ l n) as [p0|[[? ?] ?]] eqn:Er; [|done]. intros [= ->].
        apply IH in Er as [? Ho]; [|done|intros t Ht; apply Hl; set_solver]. split; [done|]. eapply odd_ack_sub; [|done]. set_solver.
    + intros [= <-]. split; [done|]. exists s, sb. split_and!; try done. set_solver.
Qed.
Lemma sl_nack_panic hp l n p : NoDup l -> all_held hp l -> sl_nack hp l n = Panicked p -> False.
Proof.
  revert hp. induction l as [|s l IH]; intros hp Hnd Hl; cbn [sl_nack]; [done|]. apply NoDup_cons in Hnd as [Hns Hnd].
  pose proof (Hl s ltac:(set_solver)) as Hs. unfold fr in Hs. destruct (hp !! s) as [sb|] eqn:E; [|done]. cbn in Hs.
  destruct (is_nacked_by sb n).
  - destruct (s_frame sb) as [m|]; [|done]. destruct (sl_nack _ l n) as [p0|[[? ?] ?]] eqn:Er; [|done]. intros [= ->]. eapply IH; [done| |done].
    apply all_held_insert; [done|]. intros t Ht. apply Hl. set_solver.
  - destruct (sl_nack _ l n) as [p0|[[? ?] ?]] eqn:Er; [|done]. intros [= ->]. eapply IH; [done| |done]. intros t Ht. apply Hl. set_solver.
Qed.
Lemma sl_of_panic cmd hp l n p : NoDup l -> all_held hp l -> sl_of cmd hp l n = Panicked p -> p = PanicBadAck /\ odd_ack hp l /\ cmd = ACK.
Proof.
  unfold sl_of. destruct (decide (cmd = ACK)); intros Hn Hl H; [destruct (sl_ack_panic _ _ _ _ Hn Hl H) as [? ?]; split_and!; done|]. by destruct (sl_nack_panic _ _ _ _ Hn Hl H).
Qed.
Lemma nodup_cnt (l : list nat) s : NoDup l -> cnt s l <= 1.
Proof. intros Hnd. induction Hnd as [|x l Hx Hnd IH]; [cbn; lia|]. cbn [cnt]. destruct (decide (x = s)) as [->|]; [rewrite cnt_0 by done|]; lia. Qed.
Lemma acks_held hp l hp' l' rs : acks hp l hp' l' rs -> NoDup l -> all_held hp l -> NoDup l' /\ all_held hp' l' /\ (forall s, s ∈ l' -> s ∈ l).
Proof.
  intros Ha Hnd Hl. pose proof (acks_tok _ _ _ _ _ Ha) as HT. split_and!.
  - apply cnt_nodup. intros s. destruct (HT s) as (E & _). pose proof (nodup_cnt l s Hnd). lia.
  - intros s Hs. destruct (HT s) as (E & _ & E2 & _). pose proof (nodup_cnt l s Hnd).
    apply cnt_elem in Hs. unfold fr. rewrite E2 by (rewrite <-cnt_elem; lia). apply Hl. apply cnt_elem. lia.
  - intros s Hs. apply cnt_elem. apply cnt_elem in Hs. destruct (HT s) as (E & _). lia.
Qed.
Lemma acks_odd hp l hp' l' rs l0 : acks hp l hp' l' rs -> odd_ack hp' l0 -> odd_ack hp l0.
Proof.
  induction 1 as [hp l|hp l hp' l' rs m Hm Ha IH|hp l1 s l2 sb hp' l' rs Hs Ha IH|hp l1 s l2 sb m hp' l' rs Hs Hm Ha IH]; intros Ho; eauto.
  - eapply odd_ack_insert; eauto.
  - eapply odd_ack_insert; eauto.
Qed.
Lemma replay_panic hp sl l p : NoDup sl -> all_held hp sl -> replay hp sl l = Panicked p ->
  p = PanicBadAck /\ odd_ack hp sl /\ exists m, m ∈ l /\ cmd_of m = ACK.
Proof.
  revert hp sl. induction l as [|m l IH]; intros hp sl Hn Hh; cbn [replay]; [done|].
  destruct (apply_one hp sl m) as [p0|[[hp1 sl1] rs1]] eqn:Ha.
  - intros [= ->]. unfold apply_one in Ha. destruct (decide (cmd_of m = SEND)); [done|]. destruct (ack_id m); [done|].
    destruct (sl_of_panic _ _ _ _ _ Hn Hh Ha) as (? & ? & ?). split_and!; try done. exists m. split; [by left|done].
  - assert (acks hp sl hp1 sl1 rs1) as Hak.
    { assert (replay hp sl [m] = Fine (hp1, sl1, rs1 ++ [])) as E by (cbn; by rewrite Ha). rewrite app_nil_r in E. by eapply replay_acks. }
    destruct (acks_held _ _ _ _ _ Hak Hn Hh) as (Hn1 & Hh1 & Hsub).
    destruct (replay hp1 sl1 l) as [p0|[[hp2 sl2] rs2]] eqn:Er; [|done]. intros [= ->].
    destruct (IH _ _ Hn1 Hh1 Er) as (? & Ho & m1 & ? & ?). split_and!; try done.
    + eapply odd_ack_sub; [exact Hsub|]. by eapply acks_odd.
    + exists m1. split; [by right|done].
Qed.

(** The subscription list flag. *)
Definition listed (y : sys) : Prop := forall s sb, y_heap y !! s = Some sb -> s_inlist sb = true ->
  s ∈ ready (y_broker y) (s_dest sb) \/ (exists c n, y_conns y !! c = Some n /\ s ∈ k_sublist (n_c n)) \/ acknowledged y s.

Lemma log_mono cfg y y' c n e : move cfg y y' -> y_conns y !! c = Some n -> e ∈ n_log n -> exists n', y_conns y' !! c = Some n' /\ e ∈ n_log n'.
Proof.
  intros Hm Hn He.
  assert (Hupd : forall c0 n0 n', y_conns y !! c0 = Some n0 -> (exists l, n_log n' = n_log n0 ++ l) ->
    exists n1, <[c0 := n']> (y_conns y) !! c = Some n1 /\ e ∈ n_log n1).
  { intros c0 n0 n' Hn0 [l Hl]. destruct (decide (c0 = c)) as [->|Hne].
    - exists n'. rewrite list_lookup_insert by (by eapply lookup_lt_Some). split; [done|]. assert (n0 = n) as -> by congruence. rewrite Hl. set_solver.
    - exists n. by rewrite list_lookup_insert_ne. }
  destruct Hm; cbn [y_conns]; try (eapply Hupd; [done|]; exists []; by rewrite app_nil_r).
  - exists n. split; [|done]. rewrite lookup_app_l; [done|]. by eapply lookup_lt_Some.
  - eapply Hupd; [done|]. destruct (take_input_cases _ _ _ _ H2) as (T1 & T2 & T3 & T4 & T5 & T6). cbn [taken n_log]. rewrite T5. eauto.
  - eapply Hupd; [done|]. exists []. rewrite app_nil_r. by destruct H3.
  - by exists n.
Qed.
Lemma acknowledged_mono cfg y y' s : move cfg y y' -> acknowledged y s -> acknowledged y' s.
Proof.
  intros Hm (c & n & e & m & Hn & He & H1 & H2 & H3). destruct (log_mono _ _ _ _ _ _ Hm Hn He) as (n' & ? & ?). by exists c, n', e, m.
Qed.
Lemma acks_flag hp l hp' l' rs : acks hp l hp' l' rs -> forall s sb', hp' !! s = Some sb' ->
  exists sb, hp !! s = Some sb /\ s_inlist sb' = s_inlist sb /\ attr sb' = attr sb.
Proof.
  assert (Hone : forall (hp : sheap) t tb s sb', hp !! t = Some tb -> <[t := set_frame tb None]> hp !! s = Some sb' ->
    exists sb, hp !! s = Some sb /\ s_inlist sb' = s_inlist sb /\ attr sb' = attr sb).
  { intros hp0 t tb s sb' Ht. destruct (decide (s = t)) as [->|Hne].
    - rewrite lookup_insert. intros [= <-]. by exists tb.
    - rewrite lookup_insert_ne by done. intros H. by exists sb'. }
  induction 1 as [hp l|hp l hp' l' rs m Hm Ha IH|hp l1 s l2 sb hp' l' rs Hs Ha IH|hp l1 s l2 sb m hp' l' rs Hs Hm Ha IH]; intros t tb' Ht; eauto.
  - destruct (IH _ _ Ht) as (tb & H1 & H2 & H3). destruct (Hone _ _ _ _ _ Hs H1) as (t0 & ? & ? & ?). exists t0. split_and!; congruence.
  - destruct (IH _ _ Ht) as (tb & H1 & H2 & H3). destruct (Hone _ _ _ _ _ Hs H1) as (t0 & ? & ? & ?). exists t0. split_and!; congruence.
Qed.
Lemma frame_releases cfg cid w1 w2 c hp nx m o s : tx_ok c -> conn_iter cfg cid w1 w2 c hp nx (InFrame m) = Fine o -> RSubscribe s ∈ i_push o ->
  cmd_of m = SUBSCRIBE /\ s = nx /\ i_push o = [RSubscribe nx] \/
  cmd_of m <> SUBSCRIBE /\ s ∈ k_sublist c /\
    ((exists n, (cmd_of m = ACK \/ cmd_of m = NACK) /\ sl_of (cmd_of m) hp (k_sublist c) n = Fine (i_hp o, k_sublist (i_c o), i_push o)) \/
     (exists t l, k_tx c !! t = Some l /\ replay hp (k_sublist c) l = Fine (i_hp o, k_sublist (i_c o), i_push o))).
Proof.
  intros Htx Ho Hin. pose proof (conn_iter_frame cfg cid w1 w2 c hp nx m Htx) as Hc. rewrite Ho in Hc.
  assert (Hak : forall hp' l' rs, acks hp (k_sublist c) hp' l' rs -> RSubscribe s ∈ rs -> s ∈ k_sublist c).
  { intros hp' l' rs Ha Hs. apply elem_rsub in Hs. apply cnt_elem. apply cnt_elem in Hs. destruct (acks_tok _ _ _ _ _ Ha s) as (E & _). lia. }
  inversion Hc; subst; cbn [i_push i_hp i_c] in *; try (by apply elem_of_nil in Hin); try (by apply elem_of_list_singleton in Hin).
  - right. split_and!; [rewrite H1; neq_lits|eapply Hak; [by eapply replay_acks|done]|]. right. eauto.
  - right. split_and!; [match goal with Hq : _ \/ _ |- _ => destruct Hq as [-> | ->]; neq_lits end|eapply Hak; [by eapply sl_of_acks|done]|]. left. eauto.
  - left. apply elem_of_list_singleton in Hin. injection Hin as ->. done.
Qed.
Lemma listed_move cfg y y' : wf y -> tok y -> move cfg y y' -> listed y -> listed y'.
Proof.
  intros HW HT Hm HL. pose proof (fun s => acknowledged_mono _ _ _ s Hm) as Hmono. pose proof Hm as Hm'.
  assert (Hsame : forall c n n' hp nx uid req po bl fi lo, y_conns y !! c = Some n -> k_sublist (n_c n') = k_sublist (n_c n) -> hp = y_heap y ->
    y' = mkSys (<[c := n']> (y_conns y)) hp nx uid req (y_broker y) po bl fi lo -> listed y').
  { intros c n n' hp nx uid req po bl fi lo Hn Hsl -> -> s sb Hs Hi. destruct (HL s sb Hs Hi) as [H|[(c0 & n0 & H1 & H2)|H]]; [by left| |by right; right; apply Hmono].
    right; left. cbn [y_conns]. destruct (decide (c0 = c)) as [->|Hne].
    - exists c, n'. rewrite list_lookup_insert by (by eapply lookup_lt_Some). split; [done|]. assert (n0 = n) as -> by congruence. by rewrite Hsl.
    - exists c0, n0. by rewrite list_lookup_insert_ne. }
  destruct Hm'; try (eapply Hsame; [eassumption| | |reflexivity]; done).
  - intros s sb Hs Hi. destruct (HL s sb Hs Hi) as [H|[(c0 & n0 & H1 & H2)|H]]; [by left| |by right; right; apply Hmono].
    right; left. exists c0, n0. split; [|done]. cbn [y_conns]. rewrite lookup_app_l; [done|]. by eapply lookup_lt_Some.
  - destruct (take_input_cases _ _ _ _ H2) as (I1 & I2 & I3 & I4 & I5 & I6). pose proof (co_tx _ _ _ (wf_conns _ HW _ _ H)) as Htx.
    assert (shape c (n_c n) (y_heap y) (y_next y) i o) as Hsh by (by eapply conn_iter_shape).
    assert (k_sublist (n_c (taken n1 i o)) = k_sublist (i_c o)) as Hsl by (cbn; by destruct (i_stop o)).
    assert (Hlk : <[c := taken n1 i o]> (y_conns y) !! c = Some (taken n1 i o)) by (apply list_lookup_insert; by eapply lookup_lt_Some).
    assert (Hold : forall s sb, y_heap y !! s = Some sb -> s_inlist sb = true -> (s ∈ k_sublist (n_c n) -> s ∈ k_sublist (i_c o) \/ acknowledged (take_result y c n1 i o) s) ->
      s ∈ ready (y_broker y) (s_dest sb) \/ (exists c0 n0, <[c := taken n1 i o]> (y_conns y) !! c0 = Some n0 /\ s ∈ k_sublist (n_c n0)) \/ acknowledged (take_result y c n1 i o) s).
    { intros s sb Hs Hi Hk. destruct (HL s sb Hs Hi) as [H4|[(c0 & n0 & H4 & H5)|H4]]; [by left| |by right; right; apply Hmono].
      destruct (decide (c0 = c)) as [->|Hne].
      - assert (n0 = n) as -> by congruence. destruct (Hk H5) as [Hk'|Hk']; [|by right; right]. right; left. exists c, (taken n1 i o). by rewrite Hsl.
      - right; left. exists c0, n0. by rewrite list_lookup_insert_ne. }
    intros s sb Hs Hi. cbn [y_heap y_broker y_conns] in *.
    destruct Hsh.
    + destruct (acks_flag _ _ _ _ _ H5 _ _ Hs) as (sb0 & E1 & E2 & E3). injection E3 as _ E3 _ _ _. rewrite E3. apply Hold; [done|congruence|]. intros Hin.
      destruct (decide (s ∈ rsub (i_push o))) as [Hr|Hr].
      * right. apply elem_rsub in Hr. destruct i as [m| |m|s'|]; try (by injection H3 as <-; apply elem_of_nil in Hr).
        -- destruct (frame_releases _ _ _ _ _ _ _ _ _ _ Htx H3 Hr) as [(_ & -> & _)|(Hcmd & _)].
           { exfalso. destruct (co_list _ _ _ (wf_conns _ HW _ _ H) _ Hin) as [(tb & Ht & _) _]. apply (wf_next _ HW) in Ht. lia. }
           exists c, (taken n1 (InFrame m) o), (new_event (InFrame m) o), m. split_and!; try done. cbn. apply elem_of_app. right. by left.
        -- exfalso. cbn [conn_iter] in H3. destruct (alloc_id _ _ _). injection H3 as <-. by apply elem_of_nil in Hr.
        -- by destruct (H4 s').
      * left. destruct (acks_tok _ _ _ _ _ H5 s) as (A1 & _). apply cnt_elem. apply cnt_elem in Hin. rewrite (cnt_0 s (rsub (i_push o))) in A1 by done. lia.
    + rewrite H4 in Hs. apply Hold; [done|done|]. rewrite H5. by left.
    + rewrite H6 in Hs. destruct (decide (s = y_next y)) as [->|Hne]; [rewrite lookup_insert in Hs; injection Hs as <-; done|].
      rewrite lookup_insert_ne in Hs by done. apply Hold; [done|done|]. rewrite H7. by left.
    + rewrite H6 in Hs. apply Hold; [done|done|]. rewrite H7. by left.
    + rewrite H6 in Hs. apply Hold; [done|done|]. rewrite H7. by left.
    + rewrite H6 in Hs. destruct (decide (s = s0)) as [->|Hne].
      * rewrite lookup_insert in Hs. injection Hs as <-. apply (Hold s0 sb0); [done|done|]. rewrite H7. by left.
      * rewrite lookup_insert_ne in Hs by done. apply Hold; [done|done|]. rewrite H7. by left.
    + rewrite H6 in Hs. destruct (decide (s = s0)) as [->|Hne].
      * rewrite lookup_insert in Hs. injection Hs as <-. apply (Hold s0 sb0); [done|done|]. rewrite H7. by left.
      * rewrite lookup_insert_ne in Hs by done. apply Hold; [done|done|]. rewrite H7. by left.
    + rewrite H6 in Hs. destruct (decide (s = s0)) as [->|Hne].
      * right; left. exists c, (taken n1 (InSub s0) o). split; [done|]. rewrite Hsl, H7. cbn. apply elem_of_app. right. by left.
      * rewrite lookup_insert_ne in Hs by done. apply Hold; [done|done|]. rewrite H7. cbn. intros Hin. left. apply elem_of_app. by left.
  - intros s sb Hs Hi. cbn [y_heap y_broker y_conns] in *.
    assert (Hlk : <[c := n']> (y_conns y) !! c = Some n') by (apply list_lookup_insert; by eapply lookup_lt_Some).
    assert (exists sb0, y_heap y !! s = Some sb0 /\ s_inlist sb0 = true /\ s_dest sb = s_dest sb0 /\ (s ∈ k_sublist (n_c n) -> s ∈ k_sublist (n_c n'))) as (sb0 & E1 & E2 & E3 & E4).
    { destruct H3; try (by exists sb). destruct (decide (s = s0)) as [->|Hne]; [rewrite lookup_insert in Hs; injection Hs as <-; done|].
      rewrite lookup_insert_ne in Hs by done. exists sb. split_and!; try done. cbn. rewrite H4. intros [?|?]%elem_of_cons; done. }
    rewrite E3. destruct (HL s sb0 E1 E2) as [H4|[(c0 & n0 & H4 & H5)|H4]]; [by left| |by right; right; apply Hmono].
    right; left. destruct (decide (c0 = c)) as [->|Hne].
    + exists c, n'. split; [done|]. assert (n0 = n) as -> by congruence. by apply E4.
    + exists c0, n0. by rewrite list_lookup_insert_ne.
  - intros s sb Hs Hi. cbn [y_heap y_broker y_conns] in *. apply serve_cases in H1.
    enough (exists sb0, y_heap y !! s = Some sb0 /\ s_dest sb = s_dest sb0 /\
      (s ∈ ready b (s_dest sb0) \/ s_inlist sb0 = true /\ (s ∈ ready (y_broker y) (s_dest sb0) -> s ∈ ready b (s_dest sb0)))) as (sb0 & E1 & E2 & E3).
    { rewrite E2. destruct E3 as [E3|[E3 E4]]; [by left|]. destruct (HL s sb0 E1 E3) as [H4|H4]; [left; auto|]. right.
      destruct H4 as [H4|H4]; [by left|right; by apply Hmono]. }
    destruct H1; try match goal with Hb : bis _ _ _ _ |- _ => destruct Hb as (B1 & B2 & B3) end; try (exists sb; split_and!; try done; right; split; [done|]; rewrite ?B2; done).
    + destruct (decide (s = s0)) as [->|Hne].
      * rewrite lookup_insert in Hs. injection Hs as <-. exists sb0. split_and!; try done. left. rewrite B2. unfold fupd. rewrite decide_True by done. apply elem_of_app. right. by left.
      * rewrite lookup_insert_ne in Hs by done. exists sb. split_and!; try done. right. split; [done|]. rewrite B2. unfold fupd. destruct (decide _) as [->|]; [|done]. intros. apply elem_of_app. by left.
    + destruct (decide (s = s0)) as [->|Hne].
      * rewrite lookup_insert in Hs. injection Hs as <-. exists sb0. split_and!; try done. right. split; [done|]. by rewrite B2.
      * rewrite lookup_insert_ne in Hs by done. exists sb. split_and!; try done. right. split; [done|]. by rewrite B2.
    + destruct (decide (s = s0)) as [->|Hne].
      * rewrite lookup_insert in Hs. injection Hs as <-. done.
      * rewrite lookup_insert_ne in Hs by done. exists sb. split_and!; try done. right. split; [done|]. rewrite B2. unfold fupd. destruct (decide _) as [Hd|]; [|done]. rewrite Hd, H3. set_solver.
    + destruct (decide (s = s0)) as [->|Hne].
      * rewrite lookup_insert in Hs. injection Hs as <-. done.
      * rewrite lookup_insert_ne in Hs by done. exists sb. split_and!; try done. right. split; [done|]. rewrite B2. unfold fupd. destruct (decide _) as [Hd|]; [|done]. rewrite Hd, H4. set_solver.
Qed.
Lemma reach_listed cfg y : reach cfg y -> listed y.
Proof.
  revert y. apply reach_ind'; [intros s sb Hs; cbn in Hs; by rewrite lookup_empty in Hs|].
  intros y y' Hr HL Hm. eapply listed_move; try done; [by eapply reach_wf|by eapply reach_tok].
Qed.

(** Classification. *)
Lemma ready_free y d s : wf y -> s ∈ ready (y_broker y) d -> exists sb, y_heap y !! s = Some sb /\ s_dest sb = d /\ 0 < free y s.
Proof.
  intros HW Hs. destruct (wf_ready _ HW _ _ Hs) as [_ (sb & E & E')]. exists sb. split_and!; try done. unfold free, bfree, hdest. rewrite E, E'.
  apply cnt_elem in Hs. lia.
Qed.
Lemma members_free y d s : wf y -> s ∈ members (y_broker y) d -> exists sb, y_heap y !! s = Some sb /\ s_dest sb = d /\ 0 < free y s.
Proof.
  intros HW Hs. destruct (wf_members _ HW _ _ Hs) as [_ (sb & E & E')]. exists sb. split_and!; try done. unfold free, bfree, hdest. rewrite E, E'.
  apply cnt_elem in Hs. lia.
Qed.
Lemma held_frame y c n s : wf y -> tok y -> y_conns y !! c = Some n -> s ∈ n_sub n ++ k_sublist (n_c n) ->
  0 < hold y s /\ exists sb m, y_heap y !! s = Some sb /\ s_frame sb = Some m.
Proof.
  intros HW HT Hn Hs. assert (0 < hold y s) as Hh.
  { unfold hold. pose proof (sum_pos (chold s) _ _ _ Hn) as Hp. unfold chold in Hp at 1. apply elem_of_app in Hs as [Hs|Hs]; apply cnt_elem in Hs; lia. }
  split; [done|]. pose proof (tk_hold _ HT s Hh) as Hf. unfold fr in Hf. destruct (y_heap y !! s) as [sb|]; [|done]. cbn in Hf.
  destruct (s_frame sb) as [m|] eqn:E; [|done]. eauto.
Qed.
Lemma clash y s c n c' n' : wf y -> tok y -> y_conns y !! c = Some n -> s ∈ n_sub n -> y_conns y !! c' = Some n' -> s ∈ k_sublist (n_c n') -> False.
Proof.
  intros HW HT Hn Hs Hn' Hs'. pose proof (tk_one _ HT s) as H1. apply cnt_elem in Hs, Hs'. unfold hold in H1.
  destruct (decide (c = c')) as [->|Hne].
  - assert (n' = n) as -> by congruence. pose proof (sum_pos (chold s) _ _ _ Hn) as Hp. unfold chold in Hp at 1. lia.
  - pose proof (two_places (chold s) _ _ _ _ _ Hn Hn' Hne) as Hp. unfold chold in Hp at 1 2. lia.
Qed.
Lemma sublist_nodup y c n : tok y -> y_conns y !! c = Some n -> NoDup (k_sublist (n_c n)).
Proof.
  intros HT Hn. apply cnt_nodup. intros s. pose proof (tk_one _ HT s). unfold hold in *. pose proof (sum_pos (chold s) _ _ _ Hn) as Hp.
  unfold chold in Hp at 1. lia.
Qed.
Lemma send_queue_ok hp s sb m : hp !! s = Some sb -> s_frame sb = None -> exists r, send_queue_frame hp s m = Fine r.
Proof. intros H1 H2. unfold send_queue_frame. rewrite H1, H2. eauto. Qed.
Lemma free_none y s sb : tok y -> y_heap y !! s = Some sb -> 0 < free y s -> s_frame sb = None.
Proof. intros HT Hs Hf. pose proof (tk_free _ HT s Hf) as E. unfold fr in E. by rewrite Hs in E. Qed.
Lemma queue_send_ok put y d m : wf y -> tok y -> exists r, queue_send put (y_broker y) (y_heap y) d m = Fine r.
Proof.
  intros HW HT. unfold queue_send, sl_get. destruct (ready (y_broker y) d) as [|s l] eqn:E; [eauto|].
  destruct (ready_free y d s HW) as (sb & H1 & H2 & H3); [rewrite E; by left|].
  destruct (send_queue_ok (alter (fun sb0 => set_inlist sb0 false) s (y_heap y)) s (set_inlist sb false) m) as [[hp o] Hr].
  - by rewrite lookup_alter, H1.
  - by apply (free_none y s sb).
  - rewrite Hr. eauto.
Qed.
Lemma topic_send_ok y m l : wf y -> tok y -> (forall s, s ∈ l -> exists sb, y_heap y !! s = Some sb /\ 0 < free y s) -> exists os, topic_send_all (y_heap y) l m = Fine os.
Proof.
  intros HW HT. induction l as [|s l IH]; intros Hl; cbn [topic_send_all]; [eauto|]. destruct (Hl s ltac:(by left)) as (sb & H1 & H2).
  unfold send_topic_frame. rewrite H1, (free_none y s sb) by done. destruct IH as [os ->]; [|eauto]. intros t Ht. apply Hl. by right.
Qed.
Lemma serve_panic y r rs p : wf y -> tok y -> listed y -> y_req y = r :: rs -> serve (y_broker y) (y_heap y) r = Panicked p -> crash_cause y p.
Proof.
  intros HW HT HL Hreq Hs. pose proof (wf_req _ HW) as Hq. rewrite Hreq in Hq. apply Forall_cons in Hq as [Hq _].
  destruct r as [s|s|m|m|c|c]; cbn [serve req_ok] in *; try done.
  - destruct Hq as (c & sb & Hsb & _). rewrite Hsb in Hs. destruct (is_queue (s_dest sb)); [|done].
    assert (0 < free y s) as Hf by (unfold free; rewrite Hreq; cbn [rsub cnt]; rewrite decide_True by done; lia).
    unfold queue_subscribe in Hs. destruct (mq_dequeue (b_store (y_broker y)) (s_dest sb)) as [st [m|]].
    + destruct (send_queue_ok (y_heap y) s sb m Hsb (free_none _ _ _ HT Hsb Hf)) as [[hp o] Hr]. by rewrite Hr in Hs.
    + unfold sl_add in Hs. rewrite Hsb in Hs. destruct (s_inlist sb) eqn:Hi; [|done]. injection Hs as <-. apply (cause_listed y s).
      destruct (HL s sb Hsb Hi) as [H|[(c0 & n0 & H1 & H2)|H]]; [..|done]; exfalso; pose proof (tk_one _ HT s) as H1'.
      * apply cnt_elem in H. unfold free, bfree, hdest in H1'. rewrite Hreq, Hsb in H1'. cbn [rsub cnt] in H1'. rewrite decide_True in H1' by done. lia.
      * destruct (held_frame y c0 n0 s HW HT H1) as [Hh _]; [set_solver|]. lia.
  - destruct Hq as (c & sb & Hsb & _). rewrite Hsb in Hs. by destruct (is_queue (s_dest sb)).
  - destruct (hd_contains _ h_destination) as [d|] eqn:Hd; [|injection Hs as <-; by eapply cause_destination].
    destruct (is_queue d).
    + destruct (queue_send_ok mq_enqueue y d m HW HT) as [r Hr]. unfold queue_enqueue in Hs. congruence.
    + destruct (topic_send_ok y m (members (y_broker y) d) HW HT) as [os Hr]; [|by rewrite Hr in Hs].
      intros s Hin. destruct (members_free _ _ _ HW Hin) as (sb & ? & _ & ?). eauto.
  - destruct Hq as (_ & d & Hd & Hqd). unfold hget_of in Hd. rewrite Hd, Hqd in Hs. destruct (queue_send_ok mq_requeue y d m HW HT) as [r Hr].
    unfold queue_requeue in Hs. congruence.
Qed.
Lemma take_frame n x m n1 : take_input n x = Some (InFrame m, n1) -> n_read n = m :: n_read n1.
Proof.
  destruct x; cbn; [destruct (n_read n) as [|m' l]; [by destruct (n_eof n)|]|destruct (n_write n)|destruct (n_sub n)|destruct (0 <? _)%Z]; try done.
  by intros [= -> <-].
Qed.
Lemma odd_cause y c n m l : y_conns y !! c = Some n -> n_read n = m :: l ->
  cmd_of m = ACK \/ cmd_of m = COMMIT /\ (exists t k a, k_tx (n_c n) !! t = Some k /\ a ∈ k /\ cmd_of a = ACK) ->
  odd_ack (y_heap y) (k_sublist (n_c n)) -> crash_cause y PanicBadAck.
Proof. intros Hn Hr Hm (s & sb & H1 & H2 & H3 & H4 & H5). by apply (cause_ack y c n m l s sb). Qed.
Lemma take_panic cfg y c n x w1 w2 i n1 p : wf y -> tok y -> listed y -> y_conns y !! c = Some n -> take_input n x = Some (i, n1) ->
  conn_iter cfg c w1 w2 (n_c n) (y_heap y) (y_next y) i = Panicked p -> crash_cause y p.
Proof.
  intros HW HT HL Hn Ht Hi. pose proof (wf_conns _ HW _ _ Hn) as Hc.
  assert (Hall : all_held (y_heap y) (k_sublist (n_c n))).
  { intros s Hs. destruct (held_frame y c n s HW HT Hn) as [_ (sb & m & E1 & E2)]; [set_solver|]. unfold fr. rewrite E1. cbn. by rewrite E2. }
  pose proof (sublist_nodup _ _ _ HT Hn) as Hnd.
  destruct i as [m| |m|s|].
  - pose proof (conn_iter_frame cfg c w1 w2 (n_c n) (y_heap y) (y_next y) m (co_tx _ _ _ Hc)) as H. rewrite Hi in H. pose proof (take_frame _ _ _ _ Ht) as Hr.
    inversion H; subst.
    + destruct (replay_panic _ _ _ _ Hnd Hall H5) as (-> & Ho & a & Ha & Hcmd). eapply odd_cause; [done|done| |done]. right. split; [done|]. exists t, l, a. done.
    + destruct (sl_of_panic _ _ _ _ _ Hnd Hall H5) as (-> & Ho & Hcmd). eapply odd_cause; [done|done| |done]. by left.
  - done.
  - cbn [conn_iter] in Hi. by destruct (alloc_id _ _ _).
  - assert (s ∈ n_sub n) as Hs. { destruct (take_input_cases _ _ _ _ Ht) as (_ & _ & _ & _ & _ & I6). destruct I6 as [I6 _]. rewrite I6. by left. }
    pose proof (conn_iter_sub cfg c w1 w2 (n_c n) (y_heap y) (y_next y) s) as H. rewrite Hi in H. inversion H; subst.
    + destruct (held_frame y c n s HW HT Hn) as [_ (sb & m & E1 & E2)]; [set_solver|]. match goal with Hx : forall _ _, _ -> _ -> False |- _ => by destruct (Hx sb m) end.
    + apply (cause_listed y s). match goal with E1 : y_heap y !! s = Some sb, E2 : s_inlist sb = true |- _ => destruct (HL s sb E1 E2) as [G6|[(c0 & n0 & G6 & G7)|G6]] end; [..|done]; exfalso.
      * destruct (ready_free _ _ _ HW G6) as (_ & _ & _ & Hf). destruct (held_frame y c n s HW HT Hn) as [Hh _]; [set_solver|]. pose proof (tk_one _ HT s). lia.
      * by eapply (clash y s c n c0 n0).
  - done.
Qed.
Lemma drain_panic y c n next p : wf y -> tok y -> y_conns y !! c = Some n -> drain_step n (y_heap y) next = Panicked p -> False.
Proof.
  intros HW HT Hn. unfold drain_step. destruct (n_sub n) as [|s l] eqn:E; [done|].
  destruct (held_frame y c n s HW HT Hn) as [_ (sb & m & E1 & E2)]; [rewrite E; set_solver|]. by rewrite E1, E2.
Qed.
Lemma clean_panic y c n pick p : wf y -> tok y -> y_conns y !! c = Some n -> clean_step c n (y_heap y) pick = Some (Panicked p) -> False.
Proof.
  intros HW HT Hn. unfold clean_step. destruct (n_phase n); try done.
  - destruct (decide _); [done|]. by destruct (_ !! pick).
  - unfold sl_get. destruct (k_sublist (n_c n)) as [|s l] eqn:E; [done|].
    destruct (held_frame y c n s HW HT Hn) as [_ (sb & m & E1 & E2)]; [rewrite E; set_solver|]. rewrite lookup_alter, E1. cbn. by rewrite E2.
  - destruct (drain_step n (y_heap y) CTell) eqn:E; [|done]. intros _. by eapply drain_panic.
  - destruct (drain_step n (y_heap y) Dead) eqn:E; [|done]. intros _. by eapply drain_panic.
Qed.
Lemma panic_cause cfg y a p : reach cfg y -> step cfg y a = Some (Panicked p) -> crash_cause y p.
Proof.
  intros Hr Hs. pose proof (reach_wf _ _ Hr) as HW. pose proof (reach_tok _ _ Hr) as HT. pose proof (reach_listed _ _ Hr) as HL.
  destruct a as [|c f|c|c x w1 w2|c|c pick| |]; cbn [step] in Hs.
  - done.
  - by destruct (do_recv y c f).
  - by destruct (do_eof y c).
  - unfold do_take in Hs. destruct (y_conns y !! c) as [n|] eqn:Hn; [|done]. destruct (n_phase n); try done. destruct (idle n); [|done].
    destruct (take_input n x) as [[i n1]|] eqn:Ht; [|done].
    destruct (conn_iter cfg c w1 w2 (n_c n) (y_heap y) (y_next y) i) eqn:Hi; [|done]. injection Hs as ->. by eapply take_panic.
  - by destruct (do_push y c).
  - unfold do_clean in Hs. destruct (y_conns y !! c) as [n|] eqn:Hn; [|done]. destruct (idle n); [|done].
    destruct (clean_step c n (y_heap y) pick) as [[p'|[n' hp']]|] eqn:Hc; try done. exfalso. by eapply clean_panic.
  - unfold do_proc in Hs. destruct (y_pout y); [|done]. destruct (y_req y) as [|r rs] eqn:Hq; [done|].
    destruct (serve (y_broker y) (y_heap y) r) as [p'|[[b hp] outs]] eqn:Hv; [|done]. injection Hs as ->. by eapply serve_panic.
  - by destruct (do_out y).
Qed.

(** Polite clients. *)
Record pol (b : bool) (y : sys) : Prop := mkPol {
  po_read : forall c n m, y_conns y !! c = Some n -> m ∈ n_read n -> polite b (g_frame m);
  po_tx : forall c n t l m, y_conns y !! c = Some n -> k_tx (n_c n) !! t = Some l -> m ∈ l -> polite_send (g_frame m) /\ (b = true -> cmd_of m = SEND);
  po_out : forall c n m, y_conns y !! c = Some n -> REnqueue m ∈ n_out n -> is_Some (hget_of m h_destination);
  po_req : forall m, REnqueue m ∈ y_req y -> is_Some (hget_of m h_destination);
  po_auto : b = false -> forall s sb, y_heap y !! s = Some sb -> s_ack sb = ack_auto;
  po_ack : forall s, ~ acknowledged y s
}.
Lemma no_enqueue rs m : enqueues rs = [] -> REnqueue m ∈ rs -> False.
Proof.
  induction rs as [|r rs IH]; [by intros _ ?%elem_of_nil|]. intros E [<-|H]%elem_of_cons; [done|]. apply IH; [|done]. by destruct r.
Qed.
Lemma replay_from hp sl l hp' sl' rs : replay hp sl l = Fine (hp', sl', rs) ->
  (forall m', REnqueue m' ∈ rs -> exists m, m ∈ l /\ cmd_of m = SEND /\ m' = as_message m) /\
  (forall s, RSubscribe s ∈ rs -> exists m, m ∈ l /\ cmd_of m <> SEND).
Proof.
  revert hp sl hp' sl' rs. induction l as [|m l IH]; intros hp sl hp' sl' rs; cbn [replay].
  { intros [= <- <- <-]. split; intros ? ?%elem_of_nil; done. }
  destruct (apply_one hp sl m) as [p|[[hp1 sl1] rs1]] eqn:Ha; [done|].
  destruct (replay hp1 sl1 l) as [p|[[hp2 sl2] rs2]] eqn:Hr; [done|]. intros [= <- <- <-]. destruct (IH _ _ _ _ _ Hr) as [I1 I2].
  unfold apply_one in Ha. split.
  - intros m' [H|H]%elem_of_app.
    + exists m. destruct (decide (cmd_of m = SEND)).
      * injection Ha as <- <- <-. apply elem_of_list_singleton in H. injection H as ->. split_and!; [by left|done|done].
      * exfalso. destruct (ack_id m); [injection Ha as <- <- <-; by apply elem_of_nil in H|]. apply sl_of_no_send in Ha. by eapply no_enqueue.
    + destruct (I1 _ H) as (m0 & ? & ? & ?). exists m0. split_and!; [by right|done|done].
  - intros s [H|H]%elem_of_app.
    + exists m. destruct (decide (cmd_of m = SEND)); [|split; [by left|done]]. injection Ha as <- <- <-. by apply elem_of_list_singleton in H.
    + destruct (I2 _ H) as (m0 & ? & ?). exists m0. split; [by right|done].
Qed.
Lemma iter_polite b cfg cid w1 w2 c hp nx m o : tx_ok c -> polite b (g_frame m) ->
  (forall t l a, k_tx c !! t = Some l -> a ∈ l -> polite_send (g_frame a) /\ (b = true -> cmd_of a = SEND)) ->
  (b = false -> k_sublist c = [] /\ forall s sb, hp !! s = Some sb -> s_ack sb = ack_auto) ->
  conn_iter cfg cid w1 w2 c hp nx (InFrame m) = Fine o ->
  (forall t l a, k_tx (i_c o) !! t = Some l -> a ∈ l -> polite_send (g_frame a) /\ (b = true -> cmd_of a = SEND)) /\
  (forall a, REnqueue a ∈ i_push o -> is_Some (hget_of a h_destination)) /\
  (b = false -> forall s sb, i_hp o !! s = Some sb -> s_ack sb = ack_auto) /\
  (cmd_of m <> SUBSCRIBE -> forall s, RSubscribe s ∉ i_push o).
Proof.
  intros Htx Hp Hst Hb Hi.
  assert (Hsub : cmd_of m <> SUBSCRIBE -> forall s, RSubscribe s ∉ i_push o).
  { intros Hc s Hs. destruct (frame_releases _ _ _ _ _ _ _ _ _ _ Htx Hi Hs) as [(? & _)|(_ & Hin & Hcase)]; [done|].
    destruct b; [|destruct (Hb eq_refl) as [E _]; rewrite E in Hin; by apply elem_of_nil in Hin].
    destruct Hcase as [(n & Hcmd & _)|(t & l & Hl & Hr)].
    - destruct Hp as [_ [? ?]]. by destruct Hcmd.
    - destruct (replay_from _ _ _ _ _ _ Hr) as [_ Hf]. destruct (Hf _ Hs) as (a & Ha & Hne). destruct (Hst _ _ _ Hl Ha) as [_ E]. by apply Hne, E. }
  split_and!; [| | |done].
  - pose proof (conn_iter_frame cfg cid w1 w2 c hp nx m Htx) as H. rewrite Hi in H.
    inversion H; subst; cbn [i_c]; try (exact Hst); cbn [k_tx set_tx set_sublist set_subs]; intros t0 l0 a Hl Ha.
    + destruct (decide (t0 = t)) as [->|]; [rewrite lookup_insert in Hl; injection Hl as <-; by apply elem_of_nil in Ha|]. rewrite lookup_insert_ne in Hl by done. eauto.
    + apply lookup_delete_Some in Hl as [_ Hl]. eauto.
    + apply lookup_delete_Some in Hl as [_ Hl]. eauto.
    + destruct (decide (t0 = t)) as [->|]; [|rewrite lookup_insert_ne in Hl by done; eauto]. rewrite lookup_insert in Hl. injection Hl as <-.
      apply elem_of_app in Ha as [Ha|Ha]; [eauto|]. apply elem_of_list_singleton in Ha as ->. destruct Hp as [Hp Hp']. split.
      * intros Hs. cbn in Hs. destruct (Hp Hs) as [d Hd]. exists d. cbn. unfold hdr. rewrite !hd_contains_del_other by neq_lits. done.
      * intros ->. cbn [cmd_of with_hdr g_frame f_cmd]. destruct Hp' as [? ?]. match goal with E : _ \/ _ /\ _ |- _ => destruct E as [?|[[?|?] _]]; [done|by exfalso..] end.
  - intros a Ha. pose proof (conn_iter_frame cfg cid w1 w2 c hp nx m Htx) as H. rewrite Hi in H.
    inversion H; subst; cbn [i_push] in Ha; try (by apply elem_of_nil in Ha); try (by apply elem_of_list_singleton in Ha).
    + destruct (replay_from _ _ _ _ _ _ H5) as [Hf _]. destruct (Hf _ Ha) as (m0 & Hin & Hc & ->). destruct (Hst _ _ _ H4 Hin) as [Hps _]. destruct (Hps Hc) as [d Hd].
      exists d. done.
    + apply elem_of_list_singleton in Ha. injection Ha as ->. destruct Hp as [Hp _]. destruct (Hp H2) as [d Hd]. exists d.
      unfold hget_of. cbn. unfold hdr. rewrite hd_contains_del_other by neq_lits. done.
    + exfalso. eapply no_enqueue; [by eapply sl_of_no_send|done].
  - intros -> s sb Hs. destruct (Hb eq_refl) as [Hnil Hauto]. pose proof (conn_iter_shape _ _ _ _ _ _ _ _ _ Htx Hi) as Hsh. inversion Hsh; subst.
    + match goal with Ha : acks _ _ _ _ _ |- _ => destruct (acks_flag _ _ _ _ _ Ha _ _ Hs) as (sb0 & E1 & _ & E3) end. injection E3 as _ _ _ E3 _. rewrite E3. eauto.
    + eauto.
    + match goal with E : i_hp o = _ |- _ => rewrite E in Hs end. destruct (decide (s = nx)) as [->|]; [|rewrite lookup_insert_ne in Hs by done; eauto].
      rewrite lookup_insert in Hs. injection Hs as <-. destruct Hp as [_ Hp].
      match goal with E : cmd_of m = SUBSCRIBE |- _ => pose proof (Hp E) as E' end. change (hd_contains (f_hdr (g_frame m)) h_ack) with (hget_of m ["a"%char; "c"%char; "k"%char]) in E'.
      by destruct E' as [-> | ->].
    + eauto.
Qed.
Lemma reads_new (P : frame -> Prop) cfg y a y' : step cfg y a = Some (Fine y') -> (forall c f, a = ARecv c f -> P f) ->
  (forall c n m, y_conns y !! c = Some n -> m ∈ n_read n -> P (g_frame m)) -> forall c n m, y_conns y' !! c = Some n -> m ∈ n_read n -> P (g_frame m).
Proof.
  intros Hs HP HR.
  assert (Hupd : forall c0 n0 n', y_conns y !! c0 = Some n0 -> (forall m, m ∈ n_read n' -> m ∈ n_read n0 \/ P (g_frame m)) ->
    forall c n m, <[c0 := n']> (y_conns y) !! c = Some n -> m ∈ n_read n -> P (g_frame m)).
  { intros c0 n0 n' Hn0 Hsub c n m Hn Hm. destruct (decide (c0 = c)) as [->|Hne].
    - rewrite list_lookup_insert in Hn by (by eapply lookup_lt_Some). injection Hn as <-. destruct (Hsub m Hm) as [H|H]; [|done]. eauto.
    - rewrite list_lookup_insert_ne in Hn by done. eauto. }
  destruct a as [|c f|c|c x w1 w2|c|c pick| |]; cbn [step] in Hs.
  - injection Hs as <-. cbn [y_conns]. intros c n m Hn Hm. apply lookup_app_Some in Hn as [Hn|[_ Hn]]; [eauto|].
    apply list_lookup_singleton_Some in Hn as [_ <-]. by apply elem_of_nil in Hm.
  - apply fine_Some in Hs. unfold do_recv in Hs. destruct (y_conns y !! c) as [n|] eqn:Hn; [|done]. destruct (n_eof n); [done|]. destruct (decide _); [|done].
    injection Hs as <-. cbn [y_conns]. eapply Hupd; [done|]. cbn [n_read]. intros m [Hm|Hm]%elem_of_app; [by left|]. apply elem_of_list_singleton in Hm as ->. right.
    by eapply HP.
  - apply fine_Some in Hs. unfold do_eof in Hs. destruct (y_conns y !! c) as [n|] eqn:Hn; [|done]. destruct (n_eof n); [done|]. injection Hs as <-.
    unfold set_conn. cbn [y_conns]. eapply Hupd; [done|]. cbn [n_read]. auto.
  - unfold do_take in Hs. destruct (y_conns y !! c) as [n|] eqn:Hn; [|done]. destruct (n_phase n); try done. destruct (idle n); [|done].
    destruct (take_input n x) as [[i n1]|] eqn:Ht; [|done]. destruct (conn_iter cfg c w1 w2 (n_c n) (y_heap y) (y_next y) i); [done|]. injection Hs as <-.
    cbn [y_conns]. eapply Hupd; [done|]. cbn [n_read]. intros m Hm. left.
    destruct x; cbn in Ht; [destruct (n_read n) as [|m' l] eqn:Er; [destruct (n_eof n); [|done]|]|destruct (n_write n); [done|]|destruct (n_sub n); [done|]|destruct (0 <? _)%Z; [|done]];
      injection Ht as <- <-; try done.
    + by rewrite Er in Hm.
    + by right.
  - apply fine_Some in Hs. unfold do_push in Hs. destruct (y_conns y !! c) as [n|] eqn:Hn; [|done]. destruct (n_out n); [done|]. destruct (decide _); [|done].
    injection Hs as <-. cbn [y_conns]. eapply Hupd; [done|]. cbn. auto.
  - assert (move cfg y y') as Hm by (by eapply (step_move cfg y (AClean c pick))). unfold do_clean in Hs. destruct (y_conns y !! c) as [n|] eqn:Hn; [|done].
    destruct (idle n) eqn:Hid; [|done]. destruct (clean_step c n (y_heap y) pick) as [[p|[n' hp']]|] eqn:Hc; try done. injection Hs as <-.
    cbn [y_conns]. eapply Hupd; [done|]. intros m Hin. left. apply clean_cases in Hc. by destruct Hc.
  - unfold do_proc in Hs. destruct (y_pout y); [|done]. destruct (y_req y); [done|]. destruct (serve _ _ _) as [|[[b hp] outs]]; [done|]. injection Hs as <-. done.
  - apply fine_Some in Hs. unfold do_out in Hs. destruct (y_pout y) as [|o os]; [done|]. destruct o as [c s m|c m]; destruct (y_conns y !! c) as [n|] eqn:Hn; try done;
      destruct (decide _); try done; injection Hs as <-; cbn [y_conns]; (eapply Hupd; [done|]); cbn; auto.
Qed.
Lemma pol_move cfg b y y' : wf y -> tok y -> move cfg y y' -> (forall c n m, y_conns y' !! c = Some n -> m ∈ n_read n -> polite b (g_frame m)) -> pol b y -> pol b y'.
Proof.
  intros HW HT Hm HR [P1 P2 P3 P4 P5 P6]. pose proof Hm as Hm'.
  assert (Hcon : forall c0 n0 n' hp nx uid req po bl fi lo, y_conns y !! c0 = Some n0 ->
     y' = mkSys (<[c0 := n']> (y_conns y)) hp nx uid req (y_broker y) po bl fi lo ->
     (forall t l a, k_tx (n_c n') !! t = Some l -> a ∈ l -> polite_send (g_frame a) /\ (b = true -> cmd_of a = SEND)) ->
     (forall m, REnqueue m ∈ n_out n' -> is_Some (hget_of m h_destination)) -> (forall m, REnqueue m ∈ req -> is_Some (hget_of m h_destination)) ->
     (b = false -> forall s sb, hp !! s = Some sb -> s_ack sb = ack_auto) ->
     (forall s e m, e ∈ n_log n' -> v_in e = InFrame m -> cmd_of m <> SUBSCRIBE -> RSubscribe s ∈ v_push e -> e ∈ n_log n0) -> pol b y').
  { intros c0 n0 n' hp nx uid req po bl fi lo Hn0 -> T1 T2 T3 T4 T5. split; cbn [y_conns y_req y_heap]; try done.
    - intros c n t l m Hn. destruct (decide (c0 = c)) as [->|Hne]; [rewrite list_lookup_insert in Hn by (by eapply lookup_lt_Some); injection Hn as <-; eauto|].
      rewrite list_lookup_insert_ne in Hn by done. eauto.
    - intros c n m Hn. destruct (decide (c0 = c)) as [->|Hne]; [rewrite list_lookup_insert in Hn by (by eapply lookup_lt_Some); injection Hn as <-; eauto|].
      rewrite list_lookup_insert_ne in Hn by done. eauto.
    - intros s (c & n & e & m & Hn & He & H1 & H2 & H3). apply (P6 s). cbn [y_conns] in Hn.
      destruct (decide (c0 = c)) as [->|Hne]; [|rewrite list_lookup_insert_ne in Hn by done; by exists c, n, e, m].
      rewrite list_lookup_insert in Hn by (by eapply lookup_lt_Some). injection Hn as <-. exists c, n0, e, m. split_and!; try done. by eapply T5. }
  destruct Hm'.
  - split; cbn [y_conns y_req y_heap]; try done.
    + intros c n t l m Hn Hl. apply lookup_app_Some in Hn as [Hn|[_ Hn]]; [eauto|]. apply list_lookup_singleton_Some in Hn as [_ <-].
      cbn in Hl. by rewrite lookup_empty in Hl.
    + intros c n m Hn Hin. apply lookup_app_Some in Hn as [Hn|[_ Hn]]; [eauto|]. apply list_lookup_singleton_Some in Hn as [_ <-]. by apply elem_of_nil in Hin.
    + intros s (c & n & e & m & Hn & He & H1 & H2 & H3). apply (P6 s). cbn [y_conns] in Hn. apply lookup_app_Some in Hn as [Hn|[_ Hn]]; [by exists c, n, e, m|].
      apply list_lookup_singleton_Some in Hn as [_ <-]. by apply elem_of_nil in He.
  - eapply Hcon; [done|reflexivity|..]; cbn [n_c n_out n_log]; eauto.
  - eapply Hcon; [done|reflexivity|..]; cbn [n_c n_out n_log]; eauto.
  - destruct (take_input_cases _ _ _ _ H2) as (I1 & I2 & I3 & I4 & I5 & I6).
    assert (Hlg : n_log (taken n1 i o) = n_log n ++ [new_event i o]) by (cbn; by rewrite I5).
    assert (Hkey : (forall t l a, k_tx (i_c o) !! t = Some l -> a ∈ l -> polite_send (g_frame a) /\ (b = true -> cmd_of a = SEND)) /\
      (forall a, REnqueue a ∈ i_push o -> is_Some (hget_of a h_destination)) /\
      (b = false -> forall s sb, i_hp o !! s = Some sb -> s_ack sb = ack_auto) /\
      (forall m, i = InFrame m -> cmd_of m <> SUBSCRIBE -> forall s, RSubscribe s ∉ i_push o)).
    { pose proof (co_tx _ _ _ (wf_conns _ HW _ _ H)) as Htx. destruct i as [m| |m|s|].
      - destruct (iter_polite b cfg c w1 w2 (n_c n) (y_heap y) (y_next y) m o) as (K1 & K2 & K3 & K4); try done.
        + eapply P1; [done|]. rewrite (take_frame _ _ _ _ H2). by left.
        + intros. eauto.
        + intros Hb. split; [|by apply P5]. destruct (k_sublist (n_c n)) as [|s l] eqn:E; [done|]. exfalso.
          destruct (co_list _ _ _ (wf_conns _ HW _ _ H) s) as (_ & _ & (sb & E1 & E2)); [rewrite E; by left|]. apply E2. by eapply P5.
        + split_and!; try done. intros m0 [= <-]. done.
      - injection H3 as <-. cbn [i_c i_push i_hp]. split_and!; [eauto|by intros ? ?%elem_of_nil|done|done].
      - cbn [conn_iter] in H3. destruct (alloc_id _ _ _). injection H3 as <-. cbn [i_c i_push i_hp set_last k_tx]. split_and!; [eauto|by intros ? ?%elem_of_nil|done|done].
      - pose proof (conn_iter_sub cfg c w1 w2 (n_c n) (y_heap y) (y_next y) s) as Hc. rewrite H3 in Hc.
        assert (Hins : forall sb sb', y_heap y !! s = Some sb -> s_ack sb' = s_ack sb -> b = false -> forall s0 sb0, <[s := sb']> (y_heap y) !! s0 = Some sb0 -> s_ack sb0 = ack_auto).
        { intros sb sb' Hs E Hb s0 sb0. destruct (decide (s0 = s)) as [->|]; [rewrite lookup_insert; intros [= <-]; rewrite E; eauto|rewrite lookup_insert_ne by done; eauto]. }
        inversion Hc; subst; cbn [i_c i_push i_hp set_last set_sublist k_tx]; split_and!; try done; try (by eauto); try (by eapply Hins; eauto);
          try (by intros ? ?%elem_of_nil); try (by intros ? ?%elem_of_list_singleton).
      - injection H3 as <-. cbn [i_c i_push i_hp]. split_and!; [eauto|by intros ? ?%elem_of_nil|done|done]. }
    destruct Hkey as (K1 & K2 & K3 & K4). eapply Hcon; [done|reflexivity|..]; try done.
    + cbn [taken n_c]. destruct (i_stop o); [|done]. cbn [set_tx k_tx]. intros t l a Hl. by rewrite lookup_empty in Hl.
    + rewrite Hlg. intros s e m [He|He]%elem_of_app; [done|]. apply elem_of_list_singleton in He as ->. cbn [new_event v_in v_push]. intros Hi Hc Hin.
      by destruct (K4 _ Hi Hc s).
  - eapply Hcon; [done|reflexivity|..]; cbn [with_out n_c n_out n_log]; eauto.
    + intros m Hin. eapply P3; [done|]. rewrite H0. by right.
    + intros m [Hin|Hin]%elem_of_app; [eauto|]. apply elem_of_list_singleton in Hin. eapply P3; [done|]. rewrite H0, Hin. by left.
  - eapply Hcon; [done|reflexivity|..]; try done.
    + intros t l a. assert (k_tx (n_c n') = k_tx (n_c n)) as -> by (by destruct H3). eauto.
    + intros m. destruct H3; cbn [with_out with_phase with_write n_out]; eauto; by intros ?%elem_of_list_singleton.
    + intros Hb s sb Hs. destruct H3; eauto. destruct (decide (s = s0)) as [->|]; [rewrite lookup_insert in Hs; injection Hs as <-; cbn; eauto|rewrite lookup_insert_ne in Hs by done; eauto].
    + intros s e m. assert (n_log n' = n_log n) as -> by (by destruct H3). done.
  - split; cbn [y_conns y_req y_heap]; try done.
    + intros m Hin. apply P4. rewrite H0. by right.
    + intros Hb s sb Hs. apply serve_cases in H1. destruct H1; eauto;
        (destruct (decide (s = s0)) as [->|]; [rewrite lookup_insert in Hs; injection Hs as <-; cbn; eauto|rewrite lookup_insert_ne in Hs by done; eauto]).
  - eapply Hcon; [done|reflexivity|..]; cbn [with_sub_ch n_c n_out n_log]; eauto.
  - eapply Hcon; [done|reflexivity|..]; cbn [with_write n_c n_out n_log]; eauto.
Qed.
Lemma reach_if_reach P cfg y : reach_if P cfg y -> reach cfg y.
Proof. induction 1; [constructor|by econstructor]. Qed.
Lemma reach_pol b cfg y : reach_if (polite b) cfg y -> pol b y.
Proof.
  induction 1 as [|y a y' Hr IH Hs HP].
  - split; cbn [sys_init y_conns y_req y_heap]; try done.
    + intros m H. by apply elem_of_nil in H.
    + intros s (c & n & e & m & Hn & _). done.
  - pose proof (reach_if_reach _ _ _ Hr) as Hr'. eapply pol_move; [by eapply reach_wf|by eapply reach_tok|by eapply step_move| |done].
    eapply reads_new; [done|done|]. intros c n m Hn Hm. by eapply (po_read b y IH).
Qed.
Lemma polite_no_panic b cfg y a p : reach_if (polite b) cfg y -> step cfg y a <> Some (Panicked p).
Proof.
  intros Hr Hs. pose proof (reach_pol _ _ _ Hr) as HP. pose proof (reach_if_reach _ _ _ Hr) as Hr'. pose proof (reach_wf _ _ Hr') as HW.
  destruct (panic_cause _ _ _ _ Hr' Hs) as [m rs Hq Hd|c n m l s sb Hn Hrd Hcmd Hin Hsb H1 H2 H3|s Ha].
  - destruct (po_req _ _ HP m) as [d Hd']; [rewrite Hq; by left|]. congruence.
  - destruct b.
    + destruct Hcmd as [Hc|[_ (t & k & a0 & Hk & Ha0 & Hc)]].
      * destruct (po_read _ _ HP c n m Hn) as [_ [? _]]; [rewrite Hrd; by left|]. done.
      * destruct (po_tx _ _ HP c n t k a0 Hn Hk Ha0) as [_ E]. specialize (E eq_refl). rewrite E in Hc. revert Hc. neq_lits.
    + apply H1. by eapply (po_auto _ _ HP).
  - by eapply (po_ack _ _ HP).
Qed.
