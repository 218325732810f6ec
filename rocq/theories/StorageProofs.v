From Verif Require Import GoBase HeaderModel FrameModel GrammarSpec HeaderProofs NegotiationModel BrokerModel BrokerSpec BrokerProofs ServerConnModel ServerConnSpec
  SystemModel SystemSpec StorageModel StorageSpec.

(** y with other contents of the in-memory storage. *)
Definition with_store (y : sys) (st : store) : sys :=
  mkSys (y_conns y) (y_heap y) (y_next y) (y_uid y) (y_req y) (mkBroker st (b_ready (y_broker y)) (b_topics (y_broker y))) (y_pout y)
    (y_blog y) (y_fin y) (y_lost y).
Lemma same_with_store y st : same_but_store (with_store y st) y.
Proof. by destruct y. Qed.
Lemma same_inv y1 y2 : same_but_store y1 y2 -> y1 = with_store y2 (b_store (y_broker y1)).
Proof. destruct y1 as [????? []], y2 as [????? []]. cbn. intros (?&?&?&?&?&?&?&?&?&?&?); cbn in *; subst. done. Qed.
Lemma same_sym y1 y2 : same_but_store y1 y2 -> same_but_store y2 y1.
Proof. unfold same_but_store. naive_solver. Qed.
Definition map_pres {A B} (f : A -> B) (r : pres A) : pres B := match r with Fine a => Fine (f a) | Panicked p => Panicked p end.

(** Only the processor looks at the storage. *)
Lemma step_store cfg y st a : a <> AProc -> step cfg (with_store y st) a = map_pres (fun y' => with_store y' st) <$> step cfg y a.
Proof.
  destruct y as [conns hp nx uid rq b po blog fin lost].
  intros Ha. destruct a; cbn [step]; try done.
  - unfold do_recv. cbn. destruct (conns !! c); [|done]. destruct (n_eof s); [done|]. by destruct (decide _).
  - unfold do_eof. cbn. destruct (conns !! c); [|done]. by destruct (n_eof s).
  - unfold do_take. cbn [y_conns y_heap y_next with_store]. destruct (conns !! c) as [n|]; [|done]. destruct (n_phase n); try done. destruct (idle n); [|done].
    destruct (take_input n x) as [[i n1]|]; [|done]. by destruct (conn_iter _ _ _ _ _ _ _ _).
  - unfold do_push. cbn. destruct (conns !! c) as [n|]; [|done]. destruct (n_out n); [done|]. by destruct (decide _).
  - unfold do_clean. cbn [y_conns y_heap y_next with_store]. destruct (conns !! c) as [n|]; [|done]. destruct (idle n); [|done].
    destruct (clean_step _ _ _ _) as [[p|[n' hp']]|]; done.
  - unfold do_out. cbn. destruct po as [|[c s m|c m] os]; [done| |]; (destruct (conns !! c) as [n|]; [|done]); by destruct (decide _).
Qed.

(** serve as serve_with on the in-memory storage. *)
Lemma serve_memory b hp r : exists a st', serve b hp r = map_pres (fun '(b', hp', o) => (mkBroker st' (b_ready b') (b_topics b'), hp', o)) (serve_with a b hp r) /\
  match call_of b hp r with
  | None => a = Done /\ st' = b_store b
  | Some k => memory_call (b_store b) k st' a
  end.
Proof.
  destruct r as [s|s|m|m|c|c]; cbn [serve serve_with call_of].
  - destruct (hp !! s) as [sb|]; [|by eexists _, _]. destruct (is_queue (s_dest sb)).
    + unfold queue_subscribe. destruct (mq_dequeue (b_store b) (s_dest sb)) as [st' o] eqn:Ed. exists (Got o), st'. split; [|by constructor].
      destruct o as [m|]; cbn [subscribe_with].
      * by destruct (send_queue_frame hp s m) as [|[]].
      * by destruct (sl_add hp _ s) as [|[]].
    + by exists Done, (b_store b).
  - exists Done, (b_store b). destruct (hp !! s) as [sb|]; [|done]. destruct (is_queue _); [|by destruct b].
    unfold queue_unsubscribe. by destruct (sl_remove hp _ s).
  - destruct (hd_contains _ _) as [d|]; [|by exists Done, (b_store b)]. destruct (is_queue d).
    + unfold queue_enqueue, queue_send, send_with. destruct (ready b d) as [|s l]; cbn [sl_get].
      * exists Done, (mq_enqueue (b_store b) d m). split; [done|constructor].
      * exists Done, (b_store b). split; [|done]. destruct (send_queue_frame _ s m) as [|[]]; [done|]. by destruct b.
    + exists Done, (b_store b). split; [|done]. destruct (topic_send_all _ _ _); [done|]. by destruct b.
  - destruct (hd_contains _ _) as [d|]; [|by exists Done, (b_store b)]. destruct (is_queue d).
    + unfold queue_requeue, queue_send, send_with. destruct (ready b d) as [|s l]; cbn [sl_get].
      * exists Done, (mq_requeue (b_store b) d m). split; [done|constructor].
      * exists Done, (b_store b). split; [|done]. destruct (send_queue_frame _ s m) as [|[]]; [done|]. by destruct b.
    + exists Done, (b_store b). split; [|done]. by destruct b.
  - exists Done, (b_store b). by destruct b.
  - exists Done, (b_store b). by destruct b.
Qed.

Lemma memory_deques : deques memory mq_list.
Proof.
  split; cbn [so_state so_init so_call memory].
  - intros d. unfold mq_list. by rewrite lookup_empty.
  - intros st d m st' a H. inversion H; subst. unfold mq_enqueue, mq_list. split; [done|]. rewrite lookup_insert. split; [done|].
    intros e He. by rewrite lookup_insert_ne.
  - intros st d m st' a H. inversion H; subst. unfold mq_requeue, mq_list. split; [done|]. rewrite lookup_insert. split; [done|].
    intros e He. by rewrite lookup_insert_ne.
  - intros st d st' a H. inversion H as [| | ? ? ? o Hd | |]; subst. unfold mq_dequeue in Hd. unfold mq_list. destruct (st !! d) as [[|m l]|] eqn:E; injection Hd as <- <-.
    + by rewrite E.
    + rewrite lookup_insert. split; [done|]. split; [done|]. intros e He. by rewrite lookup_insert_ne.
    + by rewrite E.
Qed.

(** Two storages that keep the contract, with the same contents, give the
    same answer and have the same contents afterwards. *)
Lemma deques_agree ST1 c1 ST2 c2 st1 st1' st2 st2' k a1 a2 : deques ST1 c1 -> deques ST2 c2 -> k <> CStart -> k <> CStop -> (forall d, c1 st1 d = c2 st2 d) ->
  so_call ST1 st1 k st1' a1 -> so_call ST2 st2 k st2' a2 -> a1 = a2 /\ forall d, c1 st1' d = c2 st2' d.
Proof.
  intros H1 H2 Hs1 Hs2 Hc K1 K2. destruct k as [d m|d m|d| |]; [| | |done..].
  - apply (dq_enqueue _ _ H1) in K1 as (-> & E1 & O1). apply (dq_enqueue _ _ H2) in K2 as (-> & E2 & O2). split; [done|].
    intros e. destruct (decide (e = d)) as [->|He]; [by rewrite E1, E2, Hc|by rewrite O1, O2].
  - apply (dq_requeue _ _ H1) in K1 as (-> & E1 & O1). apply (dq_requeue _ _ H2) in K2 as (-> & E2 & O2). split; [done|].
    intros e. destruct (decide (e = d)) as [->|He]; [by rewrite E1, E2, Hc|by rewrite O1, O2].
  - apply (dq_dequeue _ _ H1) in K1 as (-> & E1 & O1). apply (dq_dequeue _ _ H2) in K2 as (-> & E2 & O2). split; [by rewrite Hc|].
    intros e. destruct (decide (e = d)) as [->|He]; [by rewrite E1, E2, Hc|by rewrite O1, O2].
Qed.

(** serve_with and call_of do not look at b_store. *)
Lemma serve_with_store a b hp r st : serve_with a (mkBroker st (b_ready b) (b_topics b)) hp r =
  map_pres (fun '(b', hp', o) => (mkBroker st (b_ready b') (b_topics b'), hp', o)) (serve_with a b hp r).
Proof.
  destruct r as [s|s|m|m|c|c]; cbn [serve_with serve]; try done.
  - destruct (hp !! s) as [sb|]; [|done]. destruct (is_queue _); [|done]. unfold subscribe_with. destruct a as [|[m|]|]; cbn; try done.
    + by destruct (send_queue_frame hp s m) as [|[]].
    + unfold ready. cbn. by destruct (sl_add hp _ s) as [|[]].
  - destruct (hp !! s) as [sb|]; [|done]. destruct (is_queue _); [|done]. unfold queue_unsubscribe, ready. cbn.
    by destruct (sl_remove _ _ _).
  - destruct (hd_contains _ _) as [d|]; [|done]. destruct (is_queue d).
    + unfold send_with, ready. cbn. destruct (sl_get _ _) as [[[s hp'] l]|]; [|done]. by destruct (send_queue_frame hp' s m) as [|[]].
    + unfold members. cbn. by destruct (topic_send_all _ _ _).
  - destruct (hd_contains _ _) as [d|]; [|done]. destruct (is_queue d); [|done].
    unfold send_with, ready. cbn. destruct (sl_get _ _) as [[[s hp'] l]|]; [|done]. by destruct (send_queue_frame hp' s m) as [|[]].
Qed.
Lemma call_of_store b hp r st : call_of (mkBroker st (b_ready b) (b_topics b)) hp r = call_of b hp r.
Proof. done. Qed.
Lemma call_of_used b hp r k : call_of b hp r = Some k -> k <> CStart /\ k <> CStop.
Proof.
  destruct r as [s|s|m|m|c|c]; cbn; try done.
  - destruct (hp !! s) as [sb|]; [|done]. destruct (is_queue _); [|done]. by intros [= <-].
  - destruct (hd_contains _ _) as [d|]; [|done]. destruct (is_queue d); [|done]. destruct (ready b d); [|done]. by intros [= <-].
  - destruct (hd_contains _ _) as [d|]; [|done]. destruct (is_queue d); [|done]. destruct (ready b d); [|done]. by intros [= <-].
Qed.

Section Twins.
  Context (ST : storage) (contents : so_state ST -> str -> list msg) (HD : deques ST contents) (cfg : scfg).
  Implicit Types (w : gsys ST) (y : sys).

  Lemma twins_init : twins contents (gsys_init ST) sys_init.
  Proof. split; [done|]. intros d. cbn. rewrite (dq_init _ _ HD). unfold waiting, mq_list. cbn. by rewrite lookup_empty. Qed.

  (** The memory server follows. *)
  Lemma twins_step w y a r : twins contents w y -> gstep ST cfg w a r ->
    match r with
    | Panicked p => step cfg y a = Some (Panicked p)
    | Fine w' => exists y', step cfg y a = Some (Fine y') /\ twins contents w' y'
    end.
  Proof.
    intros [Hs Hc] H. pose proof (same_inv _ _ Hs) as Ew. pose proof (same_inv _ _ (same_sym _ _ Hs)) as Ey.
    destruct H as [a y1 Ha H|a p Ha H|r rs st a ks x Hp Hr Hk H|r rs st a ks p Hp Hr Hk H].
    - exists (with_store y1 (b_store (y_broker y))). rewrite Ey, step_store, H by done. split; [done|]. split; [apply same_sym, same_with_store|done].
    - rewrite Ey, step_store, H by done. done.
    - destruct Hs as (E1 & E2 & E3 & E4 & E5 & E6 & E7 & E8 & E9 & E10 & E11). unfold step, do_proc. rewrite <-E6, Hp, <-E5, Hr, <-E2.
      destruct (serve_memory (y_broker y) (y_heap (w_sys w)) r) as (a' & st' & -> & Hm).
      assert (call_of (y_broker y) (y_heap (w_sys w)) r = call_of (y_broker (w_sys w)) (y_heap (w_sys w)) r) as Ek.
      { rewrite <-(call_of_store (y_broker y) _ _ (b_store (y_broker (w_sys w)))), <-E10, <-E11. by destruct (y_broker (w_sys w)). }
      rewrite Ek in Hm.
      assert (a' = a /\ forall d, contents st d = mq_list st' d) as [-> Hc'].
      { destruct Hk as [Hk|k st0 a0 Hk Hk']; rewrite Hk in Hm; [by destruct Hm as [-> ->]|].
        destruct (call_of_used _ _ _ _ Hk) as [Hk1 Hk2].
        destruct (deques_agree _ _ _ _ _ _ _ _ _ _ _ HD memory_deques Hk1 Hk2 Hc Hk' Hm) as [-> ?]. done. }
      pose proof (serve_with_store a (y_broker (w_sys w)) (y_heap (w_sys w)) r (b_store (y_broker y))) as Es. rewrite E10, E11 in Es.
      replace (mkBroker (b_store (y_broker y)) (b_ready (y_broker y)) (b_topics (y_broker y))) with (y_broker y) in Es by by destruct (y_broker y).
      rewrite Es, H. destruct x as [[b hp] outs]. cbn. eexists. split; [reflexivity|]. split; [|done].
      unfold same_but_store. cbn. rewrite E1, E3, E4, E7, E8, E9. done.
    - destruct Hs as (E1 & E2 & E3 & E4 & E5 & E6 & E7 & E8 & E9 & E10 & E11). unfold step, do_proc. rewrite <-E6, Hp, <-E5, Hr, <-E2.
      destruct (serve_memory (y_broker y) (y_heap (w_sys w)) r) as (a' & st' & -> & Hm).
      assert (call_of (y_broker y) (y_heap (w_sys w)) r = call_of (y_broker (w_sys w)) (y_heap (w_sys w)) r) as Ek.
      { rewrite <-(call_of_store (y_broker y) _ _ (b_store (y_broker (w_sys w)))), <-E10, <-E11. by destruct (y_broker (w_sys w)). }
      rewrite Ek in Hm.
      assert (a' = a) as ->.
      { destruct Hk as [Hk|k st0 a0 Hk Hk']; rewrite Hk in Hm; [by destruct Hm as [-> ->]|].
        destruct (call_of_used _ _ _ _ Hk) as [Hk1 Hk2].
        destruct (deques_agree _ _ _ _ _ _ _ _ _ _ _ HD memory_deques Hk1 Hk2 Hc Hk' Hm) as [-> ?]. done. }
      pose proof (serve_with_store a (y_broker (w_sys w)) (y_heap (w_sys w)) r (b_store (y_broker y))) as Es. rewrite E10, E11 in Es.
      replace (mkBroker (b_store (y_broker y)) (b_ready (y_broker y)) (b_topics (y_broker y))) with (y_broker y) in Es by by destruct (y_broker y).
      rewrite Es, H. done.
  Qed.

  (** And the other server follows the memory server. *)
  Lemma twins_back w y a r : returns ST -> twins contents w y -> step cfg y a = Some r ->
    match r with
    | Panicked p => gstep ST cfg w a (Panicked p)
    | Fine y' => exists w', gstep ST cfg w a (Fine w') /\ twins contents w' y'
    end.
  Proof.
    intros HT HW H. assert (a = AProc \/ a <> AProc) as [->|Ha] by (destruct a; auto).
    2:{ pose proof HW as [Hs Hc]. pose proof (same_inv _ _ Hs) as Ew. assert (step cfg (w_sys w) a = Some (map_pres (fun y' => with_store y' (b_store (y_broker (w_sys w)))) r)) as E.
        { by rewrite Ew, step_store, H by done. }
        destruct r as [p|y']; cbn in E; [by apply gs_other_panic|].
        assert (gstep ST cfg w a (Fine (mkGsys (w_st w) (with_store y' (b_store (y_broker (w_sys w)))) (w_calls w)))) as G by by apply gs_other.
        eexists. split; [exact G|]. destruct (twins_step _ _ _ _ HW G) as (y2 & E2 & T2). rewrite H in E2. by injection E2 as <-. }
    pose proof HW as [Hs Hc]. destruct Hs as (E1 & E2 & E3 & E4 & E5 & E6 & E7 & E8 & E9 & E10 & E11).
    assert (exists rq rs, y_pout (w_sys w) = [] /\ y_req (w_sys w) = rq :: rs) as (rq & rs & Hp & Hr).
    { unfold step, do_proc in H. rewrite <-E6, <-E5 in H. destruct (y_pout (w_sys w)); [|done]. destruct (y_req (w_sys w)); [done|]. eauto. }
    assert (exists st a ks, asks ST w rq st a ks) as (st & a & ks & Hk).
    { destruct (call_of (y_broker (w_sys w)) (y_heap (w_sys w)) rq) as [k|] eqn:Ek.
      - destruct (HT (w_st w) k) as (st & a & K). eexists _, _, _. by eapply ask_call.
      - eexists _, _, _. by apply ask_none. }
    destruct (serve_with a (y_broker (w_sys w)) (y_heap (w_sys w)) rq) as [p|x] eqn:Es.
    - assert (gstep ST cfg w AProc (Panicked p)) as G by by eapply gs_proc_panic. assert (step cfg y AProc = Some (Panicked p)) as E by exact (twins_step _ _ _ _ HW G). rewrite H in E. by injection E as ->.
    - assert (gstep ST cfg w AProc (Fine (mkGsys st (proc_with (w_sys w) rs rq x) (w_calls w ++ ks)))) as G by by eapply gs_proc.
      destruct (twins_step _ _ _ _ HW G) as (y2 & Ey & T2). rewrite H in Ey. injection Ey as ->. eauto.
  Qed.

  Lemma twins_reach w : greach ST cfg w -> exists y, reach cfg y /\ twins contents w y.
  Proof.
    induction 1 as [|w a w' Hw (y & Hy & HT) H]; [exists sys_init; split; [constructor|apply twins_init]|].
    destruct (twins_step _ _ _ _ HT H) as (y' & Ha & HT'). exists y'. split; [by econstructor|done].
  Qed.
  Lemma twins_greach y : returns ST -> reach cfg y -> exists w, greach ST cfg w /\ twins contents w y.
  Proof.
    intros HR. induction 1 as [|y a y' Hy (w & Hw & HT) H]; [eexists; split; [constructor|apply twins_init]|].
    destruct (twins_back _ _ _ _ HR HT H) as (w' & Ha & HT'). exists w'. split; [by econstructor|done].
  Qed.
End Twins.
