(** Proofs about the end of the goroutines of a connection. *)
From Verif Require Import GoBase HeaderModel FrameModel NegotiationModel ClientApiModel ClientModel ClientSpec ClientLemmas StatsModel.
From Verif Require StatsProofs.
From Verif Require Import BrokerModel ServerConnModel ServerConnSpec SystemModel LeakModel LeakSpec.

(* ---------------- server ---------------- *)
Lemma set_lookup {A} (l : list A) c c' n n' (P : A -> Prop) : l !! c = Some n -> (c' = c -> P n') -> P n -> exists m, <[c' := n']> l !! c = Some m /\ P m.
Proof.
  intros Hc H1 H2. destruct (decide (c' = c)) as [->|Hn].
  - exists n'. rewrite list_lookup_insert by (by eapply lookup_lt_Some). auto.
  - exists n. rewrite list_lookup_insert_ne by done. auto.
Qed.
Definition same_reads (n n' : sconn) : Prop := n_phase n' = Dead /\ n_out n' = [] /\ n_read n' = n_read n /\ n_eof n' = n_eof n.
Lemma dead_step cfg y a y' c n : step cfg y a = Some (Fine y') -> y_conns y !! c = Some n -> n_phase n = Dead -> n_out n = [] ->
  exists n', y_conns y' !! c = Some n' /\ n_phase n' = Dead /\ n_out n' = [] /\
    ((n_read n' = n_read n /\ n_eof n' = n_eof n /\ (forall f, a <> ARecv c f) /\ a <> AEof c) \/
     (exists f, a = ARecv c f /\ n_eof n = false /\ n_eof n' = false /\ g_frame <$> n_read n' = (g_frame <$> n_read n) ++ [f] /\ length (n_read n) < cap_read) \/
     (a = AEof c /\ n_eof n = false /\ n_eof n' = true /\ n_read n' = n_read n)).
Proof.
  intros Hs Hc Hd Ho.
  cut ((exists n', y_conns y' !! c = Some n' /\ same_reads n n') /\ (forall f, a <> ARecv c f) /\ a <> AEof c \/
     (exists f n', a = ARecv c f /\ y_conns y' !! c = Some n' /\ n_phase n' = Dead /\ n_out n' = [] /\ n_eof n = false /\ n_eof n' = false /\ g_frame <$> n_read n' = (g_frame <$> n_read n) ++ [f] /\ length (n_read n) < cap_read) \/
     (exists n', a = AEof c /\ y_conns y' !! c = Some n' /\ n_phase n' = Dead /\ n_out n' = [] /\ n_eof n = false /\ n_eof n' = true /\ n_read n' = n_read n)).
  { intros [[(n' & H1 & H2 & H3 & H4 & H5) H6]|[(f & n' & -> & H1 & H2 & H3 & H)|(n' & -> & H1 & H2 & H3 & H)]]; exists n'; split_and!; try done; [by left|right; left; by exists f|right; right; by split]. }
  assert (HS : same_reads n n) by done.
  destruct a as [|c' f|c'|c' x w1 w2|c'|c' pick| |]; cbn in Hs.
  - injection Hs as <-. left. split; [|done]. exists n. split; [|done]. by apply lookup_app_l_Some.
  - unfold do_recv, fine in Hs. destruct (y_conns y !! c') as [n0|] eqn:E; [|done]. destruct (n_eof n0) eqn:Ee; [done|]. destruct (decide _) as [Hl|]; [|done]. injection Hs as <-. destruct (decide (c' = c)) as [->|Hn].
    + right; left. simplify_eq. exists f. eexists. split; [done|]. cbn [y_conns]. rewrite list_lookup_insert by (by eapply lookup_lt_Some). split; [done|]. cbn. rewrite fmap_app. by split_and!.
    + left. split; [|split; [congruence|done]]. exists n. cbn [y_conns]. by rewrite list_lookup_insert_ne by done.
  - unfold do_eof, fine in Hs. destruct (y_conns y !! c') as [n0|] eqn:E; [|done]. destruct (n_eof n0) eqn:Ee; [done|]. injection Hs as <-. destruct (decide (c' = c)) as [->|Hn].
    + right; right. simplify_eq. eexists. split; [done|]. cbn [y_conns set_conn]. rewrite list_lookup_insert by (by eapply lookup_lt_Some). split; [done|]. by split_and!.
    + left. split; [|split; [done|congruence]]. exists n. cbn [y_conns set_conn]. by rewrite list_lookup_insert_ne by done.
  - left. split; [|done]. unfold do_take in Hs. destruct (y_conns y !! c') as [n0|] eqn:E; [|done]. destruct (n_phase n0) eqn:Ep; try done. destruct (idle n0); [|done]. destruct (take_input n0 x) as [[i n1]|]; [|done].
    destruct (conn_iter cfg c' w1 w2 (n_c n0) (y_heap y) (y_next y) i) as [p|o]; [done|]. injection Hs as <-. cbn [y_conns]. apply (set_lookup _ _ _ n); [done|intros ->; congruence|done].
  - left. split; [|done]. unfold do_push, fine in Hs. destruct (y_conns y !! c') as [n0|] eqn:E; [|done]. destruct (n_out n0) eqn:Eo; [done|]. destruct (decide _); [|done]. injection Hs as <-.
    cbn [y_conns]. apply (set_lookup _ _ _ n); [done|intros ->; congruence|done].
  - left. split; [|done]. unfold do_clean in Hs. destruct (y_conns y !! c') as [n0|] eqn:E; [|done]. destruct (idle n0); [|done]. destruct (clean_step c' n0 (y_heap y) pick) as [[p|[n1 hp]]|] eqn:Ec; try done. injection Hs as <-.
    cbn [y_conns]. apply (set_lookup _ _ _ n); [done| |done]. intros ->. simplify_eq. unfold clean_step in Ec. by rewrite Hd in Ec.
  - left. split; [|done]. unfold do_proc in Hs. destruct (y_pout y); [|done]. destruct (y_req y); [done|]. destruct (serve _ _ _) as [p|[[b hp] os]]; [done|]. injection Hs as <-. by exists n.
  - left. split; [|done]. unfold do_out, fine in Hs. destruct (y_pout y) as [|o os]; [done|]. destruct (y_conns y !! _) as [n0|] eqn:E; [|done].
    destruct o as [c' s m|c' m]; (destruct (decide _); [|done]); injection Hs as <-; cbn [y_conns]; (apply (set_lookup _ _ _ n); [done| |done]); intros ->; simplify_eq; done.
Qed.

Definition leaked (h : hsys) (c : nat) : Prop := exists n f, y_conns (h_sys h) !! c = Some n /\ n_eof n = false /\ h_hold h !! c = Some f /\ length (n_read n) = cap_read.
Lemma leaked_step cfg h a h' c : hstep cfg h a = Some h' -> process_over h c -> leaked h c -> process_over h' c /\ leaked h' c /\ kept_frames h' c = kept_frames h c.
Proof.
  intros Hs (n & Hc & Hd & Ho) (n0 & f & Hc0 & He & Hh & Hl). simplify_eq. unfold kept_frames. destruct a as [a|c' f']; cbn [hstep] in Hs.
  - destruct (step cfg (h_sys h) a) as [[p|y]|] eqn:E; [done| |done]. destruct (dead_step _ _ _ _ _ _ E Hc Hd Ho) as (n' & Hc' & Hd' & Ho' & [(R1 & R2 & R3 & R4)|[(f0 & -> & _ & _ & _ & R)|(-> & _)]]); [|lia|by rewrite decide_False in Hs by congruence].
    assert (exists hold, h' = mkH y hold /\ hold !! c = h_hold h !! c) as (hold & -> & Hhold).
    { destruct a; try (by injection Hs as <-; eauto).
      - destruct (decide _); [|done]. injection Hs as <-. eexists. split; [done|]. rewrite lookup_delete_ne; [done|]. intros ->. by eapply R3.
      - destruct (decide _); [|done]. injection Hs as <-. eauto. }
    split; [by exists n'|]. cbn [h_sys h_hold]. rewrite Hc', Hc, Hhold, R1. split; [|done]. exists n', f. cbn [h_sys h_hold]. rewrite Hhold, R1, R2. by split_and!.
  - destruct (y_conns (h_sys h) !! c') as [n1|] eqn:E1; [|done]. destruct (h_hold h !! c') eqn:E2; [done|]. destruct (n_eof n1); [done|]. injection Hs as <-.
    assert (c' <> c) as Hn by congruence. split; [by exists n|]. cbn [h_sys h_hold]. rewrite lookup_insert_ne by done. split; [|done]. exists n, f. cbn [h_sys h_hold]. by rewrite lookup_insert_ne by done.
Qed.
Lemma leaked_run cfg h l h' c : hrun cfg h l = Some h' -> process_over h c -> leaked h c -> process_over h' c /\ leaked h' c /\ kept_frames h' c = kept_frames h c.
Proof.
  revert h. induction l as [|a l IH]; intros h; cbn [hrun]; [by intros [= <-]|]. destruct (hstep cfg h a) as [h1|] eqn:E; [|done]. intros Hr Hp Hl. destruct (leaked_step _ _ _ _ _ E Hp Hl) as (H1 & H2 & H3).
  destruct (IH _ Hr H1 H2) as (K1 & K2 & K3). split_and!; try done. congruence.
Qed.
Lemma leaked_stays cfg h c : process_over h c -> leaked h c -> stays_forever cfg h c.
Proof. intros Hp Hl l h' Hr (n & Hc & He). destruct (leaked_run _ _ _ _ _ Hr Hp Hl) as (_ & (n' & f & Hc' & He' & _) & _). congruence. Qed.
(** Otherwise it is over after two of its own steps. *)
Lemma ends_soon cfg h c : process_over h c -> length (kept_frames h c) <= cap_read -> exists l h', Forall (read_step c) l /\ length l <= 2 /\ hrun cfg h l = Some h' /\ read_over h' c.
Proof.
  intros (n & Hc & Hd & Ho) Hl. unfold kept_frames in Hl. rewrite Hc, app_length, fmap_length in Hl. destruct (n_eof n) eqn:He.
  { exists [], h. split_and!; [constructor|cbn; lia|done|by exists n]. }
  assert (HE : forall y hold n1, y_conns y !! c = Some n1 -> n_eof n1 = false -> hold !! c = None -> exists h', hstep cfg (mkH y hold) (HServer (AEof c)) = Some h' /\ read_over h' c).
  { intros y hold n1 H1 H2 H3. cbn [hstep h_sys h_hold step]. unfold do_eof. rewrite H1, H2. cbn [fine]. rewrite decide_True by done. eexists. split; [done|]. eexists. cbn [h_sys set_conn y_conns]. rewrite list_lookup_insert by (by eapply lookup_lt_Some). done. }
  destruct h as [y hold]. cbn [h_sys h_hold] in *. destruct (hold !! c) as [f|] eqn:Eh.
  - cbn in Hl. set (n1 := mkSconn (n_c n) (n_phase n) (n_read n ++ [mkMsg (y_uid y) f]) (n_eof n) (n_write n) (n_sub n) (n_out n) (n_log n)).
    set (y1 := mkSys (<[c := n1]> (y_conns y)) (y_heap y) (y_next y) (S (y_uid y)) (y_req y) (y_broker y) (y_pout y) (y_blog y) (y_fin y) (y_lost y)).
    assert (HR : hstep cfg (mkH y hold) (HServer (ARecv c f)) = Some (mkH y1 (delete c hold))).
    { cbn [hstep h_sys h_hold step]. unfold do_recv. rewrite Hc, He, decide_True by lia. cbn [fine]. rewrite decide_True by done. unfold y1, n1. by rewrite He. }
    destruct (HE y1 (delete c hold) n1) as (h' & H1 & H2); [cbn [y1 y_conns]; by rewrite list_lookup_insert by (by eapply lookup_lt_Some)|done|apply lookup_delete|].
    exists [HServer (ARecv c f); HServer (AEof c)], h'. split_and!; [|done| |done].
    + apply Forall_cons. split; [left; by exists f|]. apply Forall_cons. split; [by right|constructor].
    + cbn [hrun]. by rewrite HR, H1.
  - destruct (HE y hold n) as (h' & H1 & H2); try done. exists [HServer (AEof c)], h'. split_and!; [apply Forall_cons; split; [by right|constructor]|cbn; lia|cbn [hrun]; by rewrite H1|done].
Qed.
(** What a readLoop keeps grows only by what it reads. *)
Lemma kept_step cfg h a h' c : hstep cfg h a = Some h' -> process_over h c -> process_over h' c /\ length (kept_frames h' c) = length (kept_frames h c) + reads_of c [a].
Proof.
  intros Hs (n & Hc & Hd & Ho). unfold kept_frames, reads_of. rewrite Hc. destruct a as [a|c' f']; cbn [hstep sum_list_with] in *.
  - destruct (step cfg (h_sys h) a) as [[p|y]|] eqn:E; [done| |done]. destruct (dead_step _ _ _ _ _ _ E Hc Hd Ho) as (n' & Hc' & Hd' & Ho' & [(R1 & R2 & R3 & R4)|[(f0 & -> & _ & _ & R & _)|(-> & _ & _ & R)]]).
    + assert (exists hold, h' = mkH y hold /\ hold !! c = h_hold h !! c) as (hold & -> & Hhold).
      { destruct a; try (by injection Hs as <-; eauto).
        - destruct (decide _); [|done]. injection Hs as <-. eexists. split; [done|]. rewrite lookup_delete_ne; [done|]. intros ->. by eapply R3.
        - destruct (decide _); [|done]. injection Hs as <-. eauto. }
      split; [by exists n'|]. cbn [h_sys h_hold]. rewrite Hc', Hhold, R1. lia.
    + destruct (decide _) as [Hh|]; [|done]. injection Hs as <-. split; [by exists n'|]. cbn [h_sys h_hold]. rewrite Hc', R, lookup_delete, Hh. rewrite !app_length. cbn. lia.
    + destruct (decide _) as [Hh|]; [|done]. injection Hs as <-. split; [by exists n'|]. cbn [h_sys h_hold]. rewrite Hc', R, Hh. lia.
  - destruct (y_conns (h_sys h) !! c') as [n1|] eqn:E1; [|done]. destruct (h_hold h !! c') eqn:E2; [done|]. destruct (n_eof n1); [done|]. injection Hs as <-. split; [by exists n|]. cbn [h_sys h_hold]. rewrite Hc.
    destruct (decide (c' = c)) as [->|Hn]; [rewrite lookup_insert, E2|rewrite lookup_insert_ne by done]; rewrite !app_length; cbn; lia.
Qed.
Lemma kept_run cfg h l h' c : hrun cfg h l = Some h' -> process_over h c -> process_over h' c /\ length (kept_frames h' c) = length (kept_frames h c) + reads_of c l.
Proof.
  revert h. induction l as [|a l IH]; intros h; cbn [hrun]; [intros [= <-] ?; split; [done|cbn; lia]|]. destruct (hstep cfg h a) as [h1|] eqn:E; [|done]. intros Hr Hp. destruct (kept_step _ _ _ _ _ E Hp) as (H1 & H2).
  destruct (IH _ Hr H1) as (K1 & K2). split; [done|]. rewrite K2, H2. unfold reads_of. cbn [sum_list_with]. lia.
Qed.
(** readChannel is never over its capacity, and a readLoop that is over holds
    nothing. *)
Definition shrunk (n n' : sconn) : Prop := n_eof n' = n_eof n /\ length (n_read n') <= length (n_read n).
Lemma back_lookup {A} (l : list A) c c' n0 n1 n' (P : A -> A -> Prop) : l !! c' = Some n0 -> P n0 n1 -> (forall m, P m m) -> <[c' := n1]> l !! c = Some n' -> exists n, l !! c = Some n /\ P n n'.
Proof. intros H0 H1 H2 [(<- & <- & _)|[_ H]]%list_lookup_insert_Some; eauto. Qed.
Lemma step_back cfg y a y' c n' : step cfg y a = Some (Fine y') -> y_conns y' !! c = Some n' ->
  (exists n, y_conns y !! c = Some n /\ shrunk n n') \/ n' = sconn_init \/ (exists f, a = ARecv c f /\ n_eof n' = false /\ length (n_read n') <= cap_read) \/ (a = AEof c /\ exists n, y_conns y !! c = Some n /\ n_read n' = n_read n).
Proof.
  assert (HP : forall m, shrunk m m) by (intros m; split; [done|lia]). intros Hs Hc. destruct a as [|c' f|c'|c' x w1 w2|c'|c' pick| |]; cbn in Hs.
  - injection Hs as <-. cbn [y_conns] in Hc. apply lookup_app_Some in Hc as [Hc|[_ Hc]]; [left; eauto|]. right; left. by apply list_lookup_singleton_Some in Hc as [_ <-].
  - unfold do_recv, fine in Hs. destruct (y_conns y !! c') as [n0|] eqn:E; [|done]. destruct (n_eof n0) eqn:Ee; [done|]. destruct (decide _) as [Hl|]; [|done]. injection Hs as <-. cbn [y_conns] in Hc.
    apply list_lookup_insert_Some in Hc as [(<- & <- & _)|[_ Hc]]; [|left; eauto]. right; right; left. exists f. cbn [n_eof n_read]. rewrite app_length. cbn. split_and!; [done|done|lia].
  - unfold do_eof, fine in Hs. destruct (y_conns y !! c') as [n0|] eqn:E; [|done]. destruct (n_eof n0) eqn:Ee; [done|]. injection Hs as <-. cbn [y_conns set_conn] in Hc.
    apply list_lookup_insert_Some in Hc as [(<- & <- & _)|[_ Hc]]; [|left; eauto]. right; right; right. split; [done|]. by exists n0.
  - left. unfold do_take in Hs. destruct (y_conns y !! c') as [n0|] eqn:E; [|done]. destruct (n_phase n0) eqn:Ep; try done. destruct (idle n0); [|done]. destruct (take_input n0 x) as [[i n1]|] eqn:Et; [|done].
    destruct (conn_iter cfg c' w1 w2 (n_c n0) (y_heap y) (y_next y) i) as [p|o]; [done|]. injection Hs as <-. cbn [y_conns] in Hc. eapply back_lookup; [exact E| |exact HP|exact Hc].
    unfold shrunk. cbn [n_eof n_read]. clear -Et. destruct x; cbn in Et.
    + destruct (n_read n0) as [|m l] eqn:El; [destruct (n_eof n0) eqn:Ee; [|done]; injection Et as _ <-; rewrite El; done|]. injection Et as _ <-. cbn. split; [done|lia].
    + destruct (n_write n0); [done|]. injection Et as _ <-. cbn. split; [done|lia].
    + destruct (n_sub n0); [done|]. injection Et as _ <-. cbn. split; [done|lia].
    + destruct (_ <? _)%Z; [|done]. injection Et as _ <-. split; [done|lia].
  - left. unfold do_push, fine in Hs. destruct (y_conns y !! c') as [n0|] eqn:E; [|done]. destruct (n_out n0) eqn:Eo; [done|]. destruct (decide _); [|done]. injection Hs as <-.
    cbn [y_conns] in Hc. eapply back_lookup; [exact E| |exact HP|exact Hc]; split; cbn; [done|lia].
  - left. unfold do_clean in Hs. destruct (y_conns y !! c') as [n0|] eqn:E; [|done]. destruct (idle n0); [|done]. destruct (clean_step c' n0 (y_heap y) pick) as [[p|[n1 hp]]|] eqn:Ec; try done. injection Hs as <-.
    cbn [y_conns] in Hc. eapply back_lookup; [exact E| |exact HP|exact Hc]. assert (n_read n1 = n_read n0 /\ n_eof n1 = n_eof n0) as [H1 H2]; [|unfold shrunk; rewrite H1, H2; split; [done|lia]].
    clear -Ec. unfold clean_step, discard_step, drain_step in Ec. repeat case_match; simplify_eq; done.
  - left. unfold do_proc in Hs. destruct (y_pout y); [|done]. destruct (y_req y); [done|]. destruct (serve _ _ _) as [p|[[b hp] os]]; [done|]. injection Hs as <-. eauto.
  - left. unfold do_out, fine in Hs. destruct (y_pout y) as [|o os]; [done|]. destruct (y_conns y !! _) as [n0|] eqn:E; [|done].
    destruct o as [c' s m|c' m]; (destruct (decide _); [|done]); injection Hs as <-; cbn [y_conns] in Hc; (eapply back_lookup; [exact E| |exact HP|exact Hc]; split; cbn; [done|lia]).
Qed.
Definition hinv (h : hsys) : Prop := (forall c n, y_conns (h_sys h) !! c = Some n -> length (n_read n) <= cap_read /\ (n_eof n = true -> h_hold h !! c = None)).
Lemma hinv_step cfg h a h' : hstep cfg h a = Some h' -> hinv h -> hinv h'.
Proof.
  intros Hs HI c n' Hc. destruct a as [a|c' f']; cbn [hstep] in Hs.
  - destruct (step cfg (h_sys h) a) as [[p|y]|] eqn:E; [done| |done].
    assert (h_sys h' = y /\ (h_hold h !! c = None -> h_hold h' !! c = None) /\ (a = AEof c -> h_hold h !! c = None)) as (Hy & Hh & Ha).
    { destruct a; try (injection Hs as <-; by split_and!).
      - destruct (decide _); [|done]. injection Hs as <-. split_and!; [done| |done]. cbn [h_hold]. intros Hn. apply lookup_delete_None. by right.
      - destruct (decide _); [|done]. injection Hs as <-. split_and!; [done..|]. by intros [= ->]. }
    rewrite Hy in Hc. destruct (step_back _ _ _ _ _ _ E Hc) as [(n & Hn & H1 & H2)|[->|[(f & -> & H1 & H2)|[-> (n & Hn & H1)]]]].
    + destruct (HI _ _ Hn) as [G1 G2]. split; [lia|]. rewrite H1. auto.
    + split; [cbn; unfold cap_read; lia|done].
    + split; [done|]. by rewrite H1.
    + destruct (HI _ _ Hn) as [G1 G2]. rewrite H1. auto.
  - destruct (y_conns (h_sys h) !! c') as [n1|] eqn:E1; [|done]. destruct (h_hold h !! c') eqn:E2; [done|]. destruct (n_eof n1) eqn:Ee; [done|]. injection Hs as <-. cbn [h_sys h_hold] in *. destruct (HI _ _ Hc) as [G1 G2]. split; [done|].
    intros He. rewrite lookup_insert_ne by congruence. auto.
Qed.
Lemma reach_hinv cfg h : hreach cfg h -> hinv h.
Proof. induction 1 as [|h a h' _ IH Hs]; [done|]. by eapply hinv_step. Qed.
Lemma kept_leaked cfg h c : hreach cfg h -> process_over h c -> cap_read < length (kept_frames h c) -> leaked h c.
Proof.
  intros Hr (n & Hc & _) Hl. destruct (reach_hinv _ _ Hr _ _ Hc) as [H1 H2]. unfold kept_frames in Hl. rewrite Hc, app_length, fmap_length in Hl. destruct (h_hold h !! c) as [f|] eqn:Eh; cbn in Hl; [|lia].
  exists n, f. split_and!; try done; [destruct (n_eof n); [by discriminate H2|done]|lia].
Qed.
Lemma kept_bound cfg h c : hreach cfg h -> length (kept_frames h c) <= S cap_read.
Proof.
  intros Hr. unfold kept_frames. rewrite app_length. assert (H : length match h_hold h !! c with Some f => [f] | None => [] end <= 1) by (destruct (h_hold h !! c); cbn; lia).
  destruct (y_conns (h_sys h) !! c) as [n|] eqn:Hc; [|cbn; unfold cap_read; lia]. destruct (reach_hinv _ _ Hr _ _ Hc) as [H1 _]. rewrite fmap_length. lia.
Qed.
Lemma stays_iff cfg h c : hreach cfg h -> process_over h c -> (stays_forever cfg h c <-> length (kept_frames h c) = S cap_read).
Proof.
  intros Hr Hp. split.
  - intros Hs. pose proof (kept_bound _ _ c Hr). destruct (decide (length (kept_frames h c) <= cap_read)) as [Hl|]; [|lia]. destruct (ends_soon cfg _ _ Hp Hl) as (l & h' & _ & _ & H1 & H2). by destruct (Hs _ _ H1).
  - intros Hl. apply leaked_stays; [done|]. eapply kept_leaked; [done..|lia].
Qed.

(* ---------------- client ---------------- *)
Lemma end_step cfg y a y' : cstep cfg y a = Some (COk y') -> c_p y = PEnd -> c_p y' = PEnd /\
  ((c_rch y' = c_rch y /\ c_rclosed y' = c_rclosed y /\ (forall f, a <> XRecv f) /\ a <> XEof) \/
   (exists f, a = XRecv f /\ c_rclosed y = false /\ c_rclosed y' = false /\ c_rch y' = c_rch y ++ [f] /\ length (c_rch y) < k_rcap cfg) \/
   (a = XEof /\ c_rclosed y = false /\ c_rclosed y' = true /\ c_rch y' = c_rch y)).
Proof.
  intros Hs Hp. apply cstep_cmv in Hs. destruct Hs; try congruence.
  all: try (split; [exact Hp|]; left; split_and!; try done; by destruct t).
  - unfold submit. destruct own; (split; [exact Hp|left; by split_and!]).
  - destruct (put_next k (q_chan q)).2; (split; [exact Hp|left; by split_and!]).
  - split; [exact Hp|]. right; left. exists f. by split_and!.
  - split; [exact Hp|]. right; right. by split_and!.
Qed.
Lemma tstep_end cfg t a t' : tstep cfg t a = Some t' -> c_process_over t -> c_process_over t' /\ length (c_kept_frames t') = length (c_kept_frames t) + c_reads [a] /\
  (length (c_rch (t_cl t)) = k_rcap cfg -> is_Some (t_hold t) -> c_rclosed (t_cl t) = false -> c_rclosed (t_cl t') = false /\ c_kept_frames t' = c_kept_frames t /\ c_rch (t_cl t') = c_rch (t_cl t) /\ is_Some (t_hold t')).
Proof.
  unfold c_process_over, c_kept_frames, c_reads. intros Hs Hp. destruct a as [a|f]; cbn [tstep sum_list_with] in *.
  - destruct (cstep cfg (t_cl t) a) as [[p|y]|] eqn:E; [done| |done]. destruct (end_step _ _ _ _ E Hp) as (Hp' & [(R1 & R2 & R3 & R4)|[(f & -> & R1 & R2 & R3 & R4)|(-> & R1 & R2 & R3)]]).
    + assert (t_cl t' = y /\ t_hold t' = t_hold t) as [Hy Hh].
      { destruct a as [| | |f| | | | | | | | | |]; try (by injection Hs as <-); [by destruct (R3 f)|done]. }
      rewrite Hy, Hh, R1, R2. split_and!; try done; lia.
    + destruct (decide _) as [Hh|]; [|done]. injection Hs as <-. cbn [t_cl t_hold]. rewrite R3, Hh, !app_length. cbn. split_and!; [done|lia|]. lia.
    + destruct (decide _) as [Hh|]; [|done]. injection Hs as <-. cbn [t_cl t_hold]. rewrite R3, Hh. split_and!; [done|lia|]. by intros _ [].
  - destruct (t_hold t) eqn:Eh; [done|]. destruct (c_rclosed (t_cl t)) eqn:Er; [done|]. injection Hs as <-. cbn [t_cl t_hold]. rewrite !app_length. cbn. split_and!; [done|lia|]. by intros _ [].
Qed.
Definition c_leaked (cfg : ccfg) (t : tcl) : Prop := length (c_rch (t_cl t)) = k_rcap cfg /\ is_Some (t_hold t) /\ c_rclosed (t_cl t) = false.
Lemma c_leaked_run cfg t l t' : turn cfg t l = Some t' -> c_process_over t -> c_leaked cfg t -> c_process_over t' /\ c_leaked cfg t' /\ c_kept_frames t' = c_kept_frames t.
Proof.
  revert t. induction l as [|a l IH]; intros t; cbn [turn]; [by intros [= <-]|]. destruct (tstep cfg t a) as [t1|] eqn:E; [|done]. intros Hr Hp (L1 & L2 & L3). destruct (tstep_end _ _ _ _ E Hp) as (H1 & _ & H3).
  destruct (H3 L1 L2 L3) as (G1 & G2 & G3 & G4). destruct (IH _ Hr H1) as (K1 & K2 & K3); [split_and!; [congruence|done|done]|]. split_and!; try done; [apply K2..|congruence].
Qed.
Lemma c_kept_run cfg t l t' : turn cfg t l = Some t' -> c_process_over t -> c_process_over t' /\ length (c_kept_frames t') = length (c_kept_frames t) + c_reads l.
Proof.
  revert t. induction l as [|a l IH]; intros t; cbn [turn]; [intros [= <-] ?; split; [done|cbn; lia]|]. destruct (tstep cfg t a) as [t1|] eqn:E; [|done]. intros Hr Hp. destruct (tstep_end _ _ _ _ E Hp) as (H1 & H2 & _).
  destruct (IH _ Hr H1) as (K1 & K2). split; [done|]. rewrite K2, H2. unfold c_reads. cbn [sum_list_with]. lia.
Qed.
Lemma c_ends_soon cfg t : length (c_kept_frames t) <= k_rcap cfg -> exists l t', Forall c_read_step l /\ length l <= 2 /\ turn cfg t l = Some t' /\ c_read_over t'.
Proof.
  unfold c_kept_frames. rewrite app_length. intros Hl. destruct t as [y on ws rs hold]. cbn [t_cl t_hold] in *. destruct (c_rclosed y) eqn:Er.
  { exists [], (mkT y on ws rs hold). split_and!; [constructor|cbn; lia|done|done]. }
  assert (HE : forall y, c_rclosed y = false -> exists t', tstep cfg (mkT y on ws rs None) (TClient XEof) = Some t' /\ c_read_over t').
  { intros y1 H1. cbn [tstep t_cl t_hold cstep]. rewrite H1, decide_True by done. by eexists. }
  destruct hold as [f|].
  - cbn in Hl. assert (HR : tstep cfg (mkT y on ws rs (Some f)) (TClient (XRecv f)) = Some (mkT (with_rch y (c_rch y ++ [f]) false) on ws rs None)).
    { cbn [tstep t_cl t_hold cstep]. rewrite Er, !decide_True by (done || lia). done. }
    destruct (HE (with_rch y (c_rch y ++ [f]) false)) as (t' & H1 & H2); [done|]. exists [TClient (XRecv f); TClient XEof], t'. split_and!; [|done| |done].
    + apply Forall_cons. split; [left; by exists f|]. apply Forall_cons. split; [by right|constructor].
    + cbn [turn]. by rewrite HR, H1.
  - destruct (HE y Er) as (t' & H1 & H2). exists [TClient XEof], t'. split_and!; [apply Forall_cons; split; [by right|constructor]|cbn; lia|cbn [turn]; by rewrite H1|done].
Qed.
Lemma c_reach_hold cfg on t : treach cfg on t -> c_rclosed (t_cl t) = true -> t_hold t = None.
Proof.
  induction 1 as [|t a t' Hr IH Hs]; [done|]. destruct a as [a|f]; cbn [tstep] in Hs.
  - destruct (cstep cfg (t_cl t) a) as [[p|y]|] eqn:E; [done| |done].
    assert (H : a <> XEof -> c_rclosed y = c_rclosed (t_cl t)).
    { intros H2. apply cstep_cmv in E. clear -E H2. destruct E; try done.
    - unfold submit. by destruct own.
    - by destruct (put_next k (q_chan q)).2.
    - cbv zeta. by destruct w.
    - match goal with Ha : ClientLemmas.answers _ _ _ _ _ |- _ => by destruct Ha, k as [id| |? ? []] end.
    - by destruct k as [id| |? ? []]. }
    destruct a; try (injection Hs as <-; cbn [t_cl t_hold]; rewrite H by done; done).
    + destruct (decide _); [|done]. by injection Hs as <-.
    + destruct (decide _); [|done]. by injection Hs as <-.
  - destruct (t_hold t) eqn:Eh; [done|]. destruct (c_rclosed (t_cl t)) eqn:Er; [done|]. injection Hs as <-. cbn [t_cl]. congruence.
Qed.
Lemma c_kept_leaked cfg on t : treach cfg on t -> length (c_kept_frames t) = S (k_rcap cfg) -> c_leaked cfg t.
Proof.
  intros Hr Hl. destruct (StatsProofs.stats_sizes _ _ _ Hr) as [_ Hb]. cbn in Hb. unfold c_kept_frames in Hl. rewrite app_length in Hl. destruct (t_hold t) as [f|] eqn:Eh; cbn in Hl; [|lia]. split_and!; [lia|by rewrite Eh|]. destruct (c_rclosed (t_cl t)) eqn:Er; [|done]. by rewrite (c_reach_hold _ _ _ Hr Er) in Eh.
Qed.
Lemma c_stays_iff cfg on t : treach cfg on t -> c_process_over t -> (c_stays_forever cfg t <-> length (c_kept_frames t) = S (k_rcap cfg)).
Proof.
  intros Hr Hp. destruct (StatsProofs.stats_sizes _ _ _ Hr) as [_ Hb]. cbn in Hb. assert (Hk : length (c_kept_frames t) = length (c_rch (t_cl t)) + match t_hold t with Some _ => 1 | None => 0 end).
  { unfold c_kept_frames. rewrite app_length. by destruct (t_hold t). }
  split.
  - intros Hs. destruct (decide (length (c_kept_frames t) <= k_rcap cfg)) as [Hl|Hn]; [|destruct (t_hold t); lia]. destruct (c_ends_soon cfg _ Hl) as (l & t' & _ & _ & H1 & H2). by destruct (Hs _ _ H1).
  - intros Hl l t' Hrun. assert (c_leaked cfg t) as HL.
    { destruct (t_hold t) as [f|] eqn:Eh; [|lia]. split_and!; [lia|by rewrite Eh|]. destruct (c_rclosed (t_cl t)) eqn:Er; [|done]. by rewrite (c_reach_hold _ _ _ Hr Er) in Eh. }
    destruct (c_leaked_run _ _ _ _ Hrun Hp HL) as (_ & (_ & _ & H) & _). unfold c_read_over. by rewrite H.
Qed.
Lemma c_stays_leaked cfg on t : treach cfg on t -> c_process_over t -> c_stays_forever cfg t -> c_leaked cfg t.
Proof. intros Hr Hp HS. eapply c_kept_leaked; [exact Hr|]. by apply (c_stays_iff _ _ _ Hr Hp). Qed.
