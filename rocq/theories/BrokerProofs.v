From Coq Require Import ZifyBool ZifyNat ZifyN.
From Verif Require Import GoBase HeaderModel FrameModel GrammarSpec HeaderProofs BrokerModel BrokerSpec.

Lemma remove_first_Some s l l' : remove_first s l = Some l' -> exists l1 l2, l = l1 ++ s :: l2 /\ l' = l1 ++ l2 /\ s ∉ l1.
Proof.
  revert l'. induction l as [|x l IH]; intros l'; cbn; [done|]. destruct (decide (x = s)) as [->|Hne].
  - intros [= <-]. exists [], l. split_and!; [done|done|apply not_elem_of_nil].
  - destruct (remove_first s l) as [r|]; [|done]. intros [= <-]. destruct (IH _ eq_refl) as (l1 & l2 & -> & -> & Hn).
    exists (x :: l1), l2. split_and!; [done|done|]. by apply not_elem_of_cons.
Qed.
Lemma remove_first_None s l : remove_first s l = None -> s ∉ l.
Proof.
  induction l as [|x l IH]; cbn; [intros _; apply not_elem_of_nil|]. destruct (decide (x = s)) as [->|Hne]; [done|].
  destruct (remove_first s l) as [r|]; [done|]. intros _. apply not_elem_of_cons. split; [congruence|by apply IH].
Qed.
(** The subscriptions on d's ready list belong to d. *)
Definition ready_ok (dest_of : nat -> str) (b : broker) : Prop :=
  forall d s, s ∈ ready b d -> dest_of s = d /\ is_queue d = true.

Lemma mq_list_enqueue st q m q' : mq_list (mq_enqueue st q m) q' = if decide (q' = q) then mq_list st q ++ [m] else mq_list st q'.
Proof.
  unfold mq_enqueue. case_decide as H; [subst|]; unfold mq_list at 1.
  - by rewrite lookup_insert.
  - by rewrite lookup_insert_ne.
Qed.
Lemma mq_list_requeue st q m q' : mq_list (mq_requeue st q m) q' = if decide (q' = q) then m :: mq_list st q else mq_list st q'.
Proof.
  unfold mq_requeue. case_decide as H; [subst|]; unfold mq_list at 1.
  - by rewrite lookup_insert.
  - by rewrite lookup_insert_ne.
Qed.
Lemma mq_dequeue_spec st q st' o : mq_dequeue st q = (st', o) ->
  (forall q', q' <> q -> mq_list st' q' = mq_list st q') /\
  match o with None => mq_list st q = [] /\ st' = st | Some m => mq_list st q = m :: mq_list st' q end.
Proof.
  unfold mq_dequeue, mq_list. destruct (st !! q) as [[|m l]|] eqn:E; intros [= <- <-]; try done.
  split; [intros q' Hq'; by rewrite lookup_insert_ne|]. by rewrite lookup_insert.
Qed.

Lemma send_queue_frame_spec conn_of dest_of id_of hp s m hp' o :
  agrees conn_of dest_of id_of hp -> send_queue_frame hp s m = Fine (hp', o) ->
  agrees conn_of dest_of id_of hp' /\ o = OutSub (conn_of s) s (with_sub m (id_of s)).
Proof.
  intros Ha. unfold send_queue_frame. destruct (hp !! s) as [sb|] eqn:E; [|done].
  destruct (s_frame sb); [done|]. intros [= <- <-]. destruct (Ha _ _ E) as (Hcn & Hd & Hi). split.
  - intros s' sb'. destruct (decide (s' = s)) as [->|Hne].
    + rewrite lookup_insert. intros [= <-]. done.
    + rewrite lookup_insert_ne by done. apply Ha.
  - by rewrite Hi, Hcn.
Qed.
Lemma agrees_alter conn_of dest_of id_of hp s : agrees conn_of dest_of id_of hp ->
  agrees conn_of dest_of id_of (alter (fun sb => set_inlist sb false) s hp).
Proof.
  intros Ha s' sb'. destruct (decide (s' = s)) as [->|Hne].
  - rewrite lookup_alter. destruct (hp !! s) as [sb|] eqn:E; [|done]. intros [= <-]. by apply (Ha s sb).
  - rewrite lookup_alter_ne by done. apply Ha.
Qed.

Lemma ready_mk (st : store) (rd t : gmap str (list nat)) (d d' : str) (l : list nat) :
  ready (mkBroker st (<[d := l]> rd) t) d' = if decide (d' = d) then l else ready (mkBroker st rd t) d'.
Proof.
  unfold ready; cbn. case_decide as H; [subst; by rewrite lookup_insert|by rewrite lookup_insert_ne].
Qed.
Lemma members_mk (st : store) (rd t : gmap str (list nat)) (d d' : str) (l : list nat) :
  members (mkBroker st rd (<[d := l]> t)) d' = if decide (d' = d) then l else members (mkBroker st rd t) d'.
Proof.
  unfold members; cbn. case_decide as H; [subst; by rewrite lookup_insert|by rewrite lookup_insert_ne].
Qed.

(** A topic fan-out: one frame per member, in order. *)
Lemma topic_send_all_spec conn_of id_of dest_of hp l m os : agrees conn_of dest_of id_of hp -> topic_send_all hp l m = Fine os ->
  Forall2 (fun s o => o = OutTopic (conn_of s) (with_sub m (id_of s))) l os.
Proof.
  intros Ha. revert os. induction l as [|s l IH]; intros os; cbn; [intros [= <-]; constructor|].
  unfold send_topic_frame. destruct (hp !! s) as [sb|] eqn:E; [|done]. destruct (s_frame sb); [done|].
  destruct (topic_send_all hp l m) as [|os'] eqn:E'; [done|]. intros [= <-]. constructor; [|by apply IH].
  by destruct (Ha _ _ E) as (-> & _ & ->).
Qed.

(** Everything [serve] does, destination by destination. *)
Lemma serve_spec conn_of dest_of id_of b hp r b' hp' outs :
  agrees conn_of dest_of id_of hp -> ready_ok dest_of b -> serve b hp r = Fine (b', hp', outs) ->
  agrees conn_of dest_of id_of hp' /\ ready_ok dest_of b' /\
  (forall d, concerns dest_of d r = false ->
     waiting b' d = waiting b d /\ ready b' d = ready b d /\ members b' d = members b d /\
     omap (out_handed dest_of d) outs = []) /\
  (forall d, concerns dest_of d r = true -> is_queue d = true ->
     qstep id_of (waiting b d, ready b d) r (omap (out_handed dest_of d) outs) (waiting b' d, ready b' d) /\
     members b' d = members b d) /\
  (forall d, concerns dest_of d r = true -> is_queue d = false ->
     waiting b' d = waiting b d /\ ready b' d = ready b d /\
     match r with
     | RSubscribe s => members b' d = members b d ++ [s] /\ outs = []
     | RUnsubscribe s => members b' d = default (members b d) (remove_first s (members b d)) /\ outs = []
     | REnqueue m => members b' d = members b d /\
         Forall2 (fun s o => o = OutTopic (conn_of s) (with_sub m (id_of s))) (members b d) outs
     | _ => members b' d = members b d /\ outs = []
     end).
Proof.
  intros Ha Hrd. destruct r as [s|s|m|m|c|c]; cbn [serve].
  - (* subscribe *)
    destruct (hp !! s) as [sb|] eqn:E; [|done]. destruct (Ha _ _ E) as (Hcn & Hd & Hi). rewrite Hd.
    destruct (is_queue (dest_of s)) eqn:Hq.
    + unfold queue_subscribe. destruct (mq_dequeue (b_store b) (dest_of s)) as [st [m|]] eqn:Hdq;
        destruct (mq_dequeue_spec _ _ _ _ Hdq) as [Hoth Hm].
      * destruct (send_queue_frame hp s m) as [|[hp1 o]] eqn:Hs; [done|]. intros [= <- <- <-].
        destruct (send_queue_frame_spec _ _ _ _ _ _ _ _ Ha Hs) as [Ha' ->].
        split; [done|]. split; [done|]. split; [|split].
        -- intros d. cbn. rewrite bool_decide_eq_false. intros Hne.
           rewrite bool_decide_eq_false_2 by done. split; [by apply Hoth|done].
        -- intros d. cbn. rewrite bool_decide_eq_true. intros <- _. rewrite bool_decide_eq_true_2 by done.
           split; [|done]. unfold waiting at 1. cbn. rewrite Hm. constructor.
        -- intros d. cbn. rewrite bool_decide_eq_true. intros <-. congruence.
      * destruct (sl_add hp (ready b (dest_of s)) s) as [|[hp1 l]] eqn:Hs; [done|]. intros [= <- <- <-].
        unfold sl_add in Hs. rewrite E in Hs. destruct (s_inlist sb); [done|]. injection Hs as <- <-.
        destruct Hm as [Hm ->].
        split.
        { intros s' sb'. destruct (decide (s' = s)) as [->|Hne].
          - rewrite lookup_insert. intros [= <-]. done.
          - rewrite lookup_insert_ne by done. apply Ha. }
        split.
        { intros d s'. rewrite ready_mk. case_decide as Hdd; [|apply Hrd].
          rewrite elem_of_app, elem_of_list_singleton. intros [Hin| ->]; subst; [by apply Hrd|done]. }
        split; [|split].
        -- intros d. cbn. rewrite bool_decide_eq_false. intros Hne. rewrite ready_mk, decide_False by done. done.
        -- intros d. cbn. rewrite bool_decide_eq_true. intros <- _. rewrite ready_mk, decide_True by done.
           split; [|done]. unfold waiting; cbn. rewrite Hm. constructor.
        -- intros d. cbn. rewrite bool_decide_eq_true. intros <-. congruence.
    + intros [= <- <- <-]. split; [done|]. split; [done|]. split; [|split].
      * intros d. cbn. rewrite bool_decide_eq_false. intros Hne. unfold topic_subscribe.
        rewrite members_mk, decide_False by done. done.
      * intros d. cbn. rewrite bool_decide_eq_true. intros <-. congruence.
      * intros d. cbn. rewrite bool_decide_eq_true. intros <- _. unfold topic_subscribe.
        rewrite members_mk, decide_True by done. done.
  - (* unsubscribe *)
    destruct (hp !! s) as [sb|] eqn:E; [|done]. destruct (Ha _ _ E) as (Hcn & Hd & Hi). rewrite Hd.
    destruct (is_queue (dest_of s)) eqn:Hq.
    + unfold queue_unsubscribe, sl_remove.
      destruct (remove_first s (ready b (dest_of s))) as [l|] eqn:Hr; intros [= <- <- <-].
      * assert (Hsub : forall x, x ∈ l -> x ∈ ready b (dest_of s)).
        { clear -Hr. revert l Hr. induction (ready b (dest_of s)) as [|y r IH]; intros l; cbn; [done|].
          case_decide; [intros [= <-]; by right|]. destruct (remove_first s r); [|done]. intros [= <-] x.
          rewrite !elem_of_cons. intros [->|Hx]; [by left|right; by eapply IH]. }
        split; [by apply agrees_alter|]. split.
        { intros d s'. rewrite ready_mk. case_decide as Hdd; [subst d; intros Hin; by apply Hrd, Hsub|apply Hrd]. }
        split; [|split].
        -- intros d. cbn. rewrite bool_decide_eq_false. intros Hne. rewrite ready_mk, decide_False by done. done.
        -- intros d. cbn. rewrite bool_decide_eq_true. intros <- _. rewrite ready_mk, decide_True by done.
           split; [|done]. apply remove_first_Some in Hr as (l1 & l2 & -> & -> & Hn). by constructor.
        -- intros d. cbn. rewrite bool_decide_eq_true. intros <-. congruence.
      * split; [done|]. split.
        { intros d s'. rewrite ready_mk. case_decide as Hdd; [subst d|]; apply Hrd. }
        split; [|split].
        -- intros d. cbn. rewrite bool_decide_eq_false. intros Hne. rewrite ready_mk, decide_False by done. done.
        -- intros d. cbn. rewrite bool_decide_eq_true. intros <- _. rewrite ready_mk, decide_True by done.
           split; [|done]. apply remove_first_None in Hr. by constructor.
        -- intros d. cbn. rewrite bool_decide_eq_true. intros <-. congruence.
    + intros [= <- <- <-]. split; [done|]. split; [done|]. split; [|split].
      * intros d. cbn. rewrite bool_decide_eq_false. intros Hne. unfold topic_unsubscribe.
        rewrite members_mk, decide_False by done. done.
      * intros d. cbn. rewrite bool_decide_eq_true. intros <-. congruence.
      * intros d. cbn. rewrite bool_decide_eq_true. intros <- _. unfold topic_unsubscribe.
        rewrite members_mk, decide_True by done. done.
  - (* enqueue *)
    destruct (hd_contains (f_hdr (g_frame m)) h_destination) as [dd|] eqn:Hdest; [|done].
    assert (Hc : forall d, sent_to m d = bool_decide (dd = d)).
    { intros d. unfold sent_to. change (lit "destination") with h_destination. rewrite Hdest.
      destruct (decide (dd = d)) as [->|Hne]; [by rewrite !bool_decide_eq_true_2|].
      rewrite !bool_decide_eq_false_2; congruence. }
    destruct (is_queue dd) eqn:Hq.
    + unfold queue_enqueue, queue_send. destruct (ready b dd) as [|s l] eqn:Hready; cbn [sl_get].
      * intros [= <- <- <-]. split; [done|]. split; [done|]. split; [|split].
        -- intros d. cbn. rewrite Hc, bool_decide_eq_false. intros Hne. unfold waiting; cbn.
           rewrite mq_list_enqueue, decide_False by done. done.
        -- intros d. cbn. rewrite Hc, bool_decide_eq_true. intros <- _. unfold waiting; cbn.
           rewrite mq_list_enqueue, decide_True by done. split; [|done].
           unfold ready at 2; cbn. fold (ready b dd). rewrite Hready. constructor.
        -- intros d. cbn. rewrite Hc, bool_decide_eq_true. intros <-. congruence.
      * destruct (send_queue_frame _ s m) as [|[hp1 o]] eqn:Hs; [done|]. intros [= <- <- <-].
        destruct (send_queue_frame_spec _ _ _ _ _ _ _ _ (agrees_alter _ _ _ _ _ Ha) Hs) as [Ha' ->].
        destruct (Hrd dd s) as [Hds _]; [rewrite Hready; by left|].
        split; [done|]. split.
        { intros d s'. rewrite ready_mk. case_decide as Hdd; [|apply Hrd].
          subst d. intros Hin. apply Hrd. rewrite Hready. by right. }
        split; [|split].
        -- intros d. cbn. rewrite Hc, bool_decide_eq_false. intros Hne. rewrite ready_mk, decide_False by done.
           rewrite bool_decide_eq_false_2 by congruence. done.
        -- intros d. cbn. rewrite Hc, bool_decide_eq_true. intros <- _. rewrite ready_mk, decide_True by done.
           rewrite bool_decide_eq_true_2 by done. split; [|done]. rewrite Hready. constructor.
        -- intros d. cbn. rewrite Hc, bool_decide_eq_true. intros <-. congruence.
    + destruct (topic_send_all hp (members b dd) m) as [|os] eqn:Hs; [done|]. intros [= <- <- <-].
      pose proof (topic_send_all_spec _ _ _ _ _ _ _ Ha Hs) as Hall.
      assert (Hnone : forall d, omap (out_handed dest_of d) os = []).
      { intros d. clear -Hall. induction Hall as [|s o l os -> _ IH]; [done|]. by cbn. }
      split; [done|]. split; [done|]. split; [|split].
      * intros d _. by rewrite Hnone.
      * intros d. cbn. rewrite Hc, bool_decide_eq_true. intros <-. congruence.
      * intros d. cbn. rewrite Hc, bool_decide_eq_true. intros <- _. done.
  - (* requeue *)
    destruct (hd_contains (f_hdr (g_frame m)) h_destination) as [dd|] eqn:Hdest; [|done].
    assert (Hc : forall d, sent_to m d = bool_decide (dd = d)).
    { intros d. unfold sent_to. change (lit "destination") with h_destination. rewrite Hdest.
      destruct (decide (dd = d)) as [->|Hne]; [by rewrite !bool_decide_eq_true_2|].
      rewrite !bool_decide_eq_false_2; congruence. }
    destruct (is_queue dd) eqn:Hq.
    + unfold queue_requeue, queue_send. destruct (ready b dd) as [|s l] eqn:Hready; cbn [sl_get].
      * intros [= <- <- <-]. split; [done|]. split; [done|]. split; [|split].
        -- intros d. cbn. rewrite Hc, bool_decide_eq_false. intros Hne. unfold waiting; cbn.
           rewrite mq_list_requeue, decide_False by done. done.
        -- intros d. cbn. rewrite Hc, bool_decide_eq_true. intros <- _. unfold waiting; cbn.
           rewrite mq_list_requeue, decide_True by done. split; [|done].
           unfold ready at 2; cbn. fold (ready b dd). rewrite Hready. constructor.
        -- intros d. cbn. rewrite Hc, bool_decide_eq_true. intros <-. congruence.
      * destruct (send_queue_frame _ s m) as [|[hp1 o]] eqn:Hs; [done|]. intros [= <- <- <-].
        destruct (send_queue_frame_spec _ _ _ _ _ _ _ _ (agrees_alter _ _ _ _ _ Ha) Hs) as [Ha' ->].
        destruct (Hrd dd s) as [Hds _]; [rewrite Hready; by left|].
        split; [done|]. split.
        { intros d s'. rewrite ready_mk. case_decide as Hdd; [|apply Hrd].
          subst d. intros Hin. apply Hrd. rewrite Hready. by right. }
        split; [|split].
        -- intros d. cbn. rewrite Hc, bool_decide_eq_false. intros Hne. rewrite ready_mk, decide_False by done.
           rewrite bool_decide_eq_false_2 by congruence. done.
        -- intros d. cbn. rewrite Hc, bool_decide_eq_true. intros <- _. rewrite ready_mk, decide_True by done.
           rewrite bool_decide_eq_true_2 by done. split; [|done]. rewrite Hready. constructor.
        -- intros d. cbn. rewrite Hc, bool_decide_eq_true. intros <-. congruence.
    + intros [= <- <- <-]. split; [done|]. split; [done|]. split; [|split].
      * done.
      * intros d. cbn. rewrite Hc, bool_decide_eq_true. intros <-. congruence.
      * done.
  - intros [= <- <- <-]. split_and!; done.
  - intros [= <- <- <-]. split_and!; done.
Qed.

Lemma handed_snoc dest_of d log e : handed dest_of d (log ++ [e]) = handed dest_of d log ++ omap (out_handed dest_of d) (snd e).
Proof. unfold handed. rewrite fmap_app, concat_app. cbn. by rewrite app_nil_r. Qed.
Lemma arrivals_snoc d log r o : arrivals d (log ++ [(r, o)]) =
  arrivals d log ++ match r with REnqueue m => if sent_to m d then [m] else [] | _ => [] end.
Proof. unfold arrivals. rewrite omap_app. cbn. destruct r; try done. by destruct (sent_to m d). Qed.
Lemma returned_snoc d log r o : returned d (log ++ [(r, o)]) =
  returned d log ++ match r with RRequeue m => if sent_to m d then [m] else [] | _ => [] end.
Proof. unfold returned. rewrite omap_app. cbn. destruct r; try done. by destruct (sent_to m d). Qed.
Lemma readied_snoc dest_of d log r o : readied dest_of d (log ++ [(r, o)]) =
  readied dest_of d log ++ match r with RSubscribe s => if bool_decide (dest_of s = d) then [s] else [] | _ => [] end.
Proof. unfold readied. rewrite omap_app. cbn. destruct r; try done. by destruct (bool_decide (dest_of s = d)). Qed.
Lemma unsubscribed_snoc log r o : unsubscribed (log ++ [(r, o)]) =
  unsubscribed log ++ match r with RUnsubscribe s => [s] | _ => [] end.
Proof. unfold unsubscribed. rewrite omap_app. cbn. by destruct r. Qed.

Lemma bexec_ready_ok conn_of dest_of id_of log b : bexec conn_of dest_of id_of log b -> ready_ok dest_of b.
Proof.
  induction 1 as [|log b hp r b' hp' outs _ IH Ha Hs].
  - intros d s Hin. unfold ready in Hin. cbn in Hin. rewrite lookup_empty in Hin. by apply elem_of_nil in Hin.
  - by destruct (serve_spec _ _ _ _ _ _ _ _ _ Ha IH Hs) as (_ & ? & _).
Qed.

Lemma with_sub_copy id m : copy_for id m (with_sub m id).
Proof. by unfold copy_for. Qed.

(** FIFO, work conservation and conservation for one queue. *)
Lemma queue_fifo conn_of dest_of id_of log b d : bexec conn_of dest_of id_of log b -> is_queue d = true ->
  (waiting b d = [] \/ ready b d = []) /\
  (returned d log = [] -> exists given, arrivals d log = given ++ waiting b d /\
     Forall2 (fun m sm => copy_for (id_of (fst sm)) m (snd sm)) given (handed dest_of d log)) /\
  (unsubscribed log = [] -> readied dest_of d log = (fst <$> handed dest_of d log) ++ ready b d) /\
  ((fst <$> handed dest_of d log) ++ ready b d) `sublist_of` readied dest_of d log /\
  (g_uid <$> arrivals d log ++ returned d log) ≡ₚ (g_uid ∘ snd <$> handed dest_of d log) ++ (g_uid <$> waiting b d).
Proof.
  intros He Hq. induction He as [|log b hp r b' hp' outs He IH Ha Hs].
  - unfold ready, waiting, mq_list. cbn. rewrite !lookup_empty. split; [by left|].
    split; [intros _; exists []; split; [done|constructor]|]. done.
  - destruct IH as (Hwc & Hfifo & Hsubs & Hsl & Hperm).
    destruct (serve_spec _ _ _ _ _ _ _ _ _ Ha (bexec_ready_ok _ _ _ _ _ He) Hs) as (_ & _ & Hno & Hyes & _).
    rewrite handed_snoc, arrivals_snoc, returned_snoc, readied_snoc, unsubscribed_snoc. cbn [snd].
    destruct (concerns dest_of d r) eqn:Hc.
    + destruct (Hyes _ Hc Hq) as [Hstep _]. clear Hno Hyes Hs.
      remember (waiting b d, ready b d) as q1. remember (waiting b' d, ready b' d) as q2.
      remember (omap (out_handed dest_of d) outs) as hd.
      destruct Hstep as [rd s|m w rd s|w l1 s l2 Hr|w rd s Hr|w m|w s rd m|w m|w s rd m];
        injection Heqq1 as Hw Hrd; injection Heqq2 as Hw' Hrd'; rewrite <-Hw, <-Hrd in *; rewrite <-Hw', <-Hrd';
        cbn in Hc; rewrite ?Hc; rewrite ?app_nil_r in *; cbn [fmap list_fmap] in *; rewrite ?app_nil_r in *.
      * (* subscribe, nothing waiting *)
        split; [by left|]. split; [done|]. split; [intros Hu; rewrite (Hsubs Hu); by rewrite app_assoc|].
        split; [rewrite app_assoc; by apply sublist_app|]. rewrite ?app_nil_r in *. done.
      * (* subscribe, message waiting *)
        destruct Hwc as [?|Hrd0]; [done|]. rewrite Hrd0 in *. rewrite app_nil_r in *.
        split; [by right|]. split.
        { intros Hret. destruct (Hfifo Hret) as (given & Hg & HF). exists (given ++ [m]).
          split; [rewrite Hg; by rewrite <-app_assoc|]. apply Forall2_app; [done|].
          constructor; [cbn; apply with_sub_copy|constructor]. }
        split; [intros Hu; rewrite (Hsubs Hu); by rewrite fmap_app|].
        split; [rewrite fmap_app; by apply sublist_app|].
        rewrite Hperm. cbn. rewrite fmap_app, <-app_assoc. done.
      * split; [destruct Hwc as [|Hrd0]; [by left|by destruct l1]|].
        split; [done|]. split; [intros Hu; by apply app_eq_nil in Hu as [_ ?]|].
        split; [|done]. etrans; [|exact Hsl]. apply sublist_app; [done|]. apply sublist_app; [done|]. by constructor.
      * split; [done|]. split; [done|]. split; [intros Hu; by apply app_eq_nil in Hu as [_ ?]|]. done.
      * split; [by right|]. split.
        { intros Hret. destruct (Hfifo Hret) as (given & Hg & HF). exists given.
          split; [rewrite Hg; by rewrite <-app_assoc|done]. }
        split; [done|]. split; [done|].
        rewrite !fmap_app. rewrite !fmap_app in Hperm. cbn.
        rewrite app_assoc, <-Hperm. rewrite <-!app_assoc. apply Permutation_app_head. by rewrite Permutation_app_comm.
      * destruct Hwc as [Hw0|?]; [|done]. rewrite Hw0 in *.
        split; [by left|]. split.
        { intros Hret. destruct (Hfifo Hret) as (given & Hg & HF). exists (given ++ [m]).
          rewrite app_nil_r in *. split; [by rewrite Hg|]. apply Forall2_app; [done|].
          constructor; [cbn; apply with_sub_copy|constructor]. }
        split; [intros Hu; rewrite (Hsubs Hu); by rewrite fmap_app, <-app_assoc|].
        split; [rewrite fmap_app, <-app_assoc; done|].
        rewrite !fmap_app in *. cbn in *. rewrite app_nil_r in *. rewrite <-Hperm.
        rewrite <-!app_assoc. apply Permutation_app_head. by rewrite Permutation_app_comm.
      * split; [by right|]. split; [intros Hu; by apply app_eq_nil in Hu as [_ ?]|].
        split; [done|]. split; [done|].
        rewrite !fmap_app in *. cbn. rewrite app_assoc, Hperm. rewrite <-app_assoc. apply Permutation_app_head.
        by rewrite Permutation_app_comm.
      * destruct Hwc as [Hw0|?]; [|done]. rewrite Hw0 in *.
        split; [by left|]. split; [intros Hu; by apply app_eq_nil in Hu as [_ ?]|].
        split; [intros Hu; rewrite (Hsubs Hu); by rewrite fmap_app, <-app_assoc|].
        split; [rewrite fmap_app, <-app_assoc; done|].
        rewrite !fmap_app in *. cbn in *. rewrite app_nil_r in *. rewrite app_assoc, Hperm. done.
    + destruct (Hno _ Hc) as (-> & -> & _ & ->). rewrite !app_nil_r.
      assert (Hunsub : unsubscribed log ++ match r with RUnsubscribe s => [s] | _ => [] end = [] -> unsubscribed log = []).
      { intros H. by apply app_eq_nil in H as [? _]. }
      destruct r as [s|s|m|m|c|c]; cbn in Hc; rewrite ?Hc, ?app_nil_r in *; split_and!; auto; by intros Hx%Hunsub; auto.
Qed.

(** Topics. *)
Lemma present_snoc dest_of d log r o :
  present dest_of d (log ++ [(r, o)]) =
  match r with
  | RSubscribe s => present dest_of d log ++ (if decide (dest_of s = d) then [s] else [])
  | RUnsubscribe s => filter (fun x => x <> s) (present dest_of d log)
  | _ => present dest_of d log
  end.
Proof.
  induction log as [|[r0 o0] log IH].
  - destruct r as [s|s|m|m|c|c]; cbn; try done.
    destruct (decide (dest_of s = d)) as [Hd|Hd].
    + rewrite decide_True; [done|]. split; [done|]. apply not_elem_of_nil.
    + rewrite decide_False; [done|tauto].
  - cbn [app]. destruct r0 as [s0|s0|m0|m0|c0|c0]; cbn [present]; try exact IH.
    rewrite unsubscribed_snoc. rewrite IH. destruct r as [s|s|m|m|c|c]; rewrite ?app_nil_r; try done.
    + by destruct (decide (dest_of s0 = d /\ s0 ∉ unsubscribed log)).
    + destruct (decide (dest_of s0 = d /\ s0 ∉ unsubscribed log)) as [[H1 H2]|Hn].
      * destruct (decide (s0 = s)) as [->|Hne].
        -- rewrite decide_False; [by rewrite filter_cons_False by tauto|]. rewrite elem_of_app, elem_of_list_singleton. tauto.
        -- rewrite decide_True; [by rewrite filter_cons_True by done|]. rewrite elem_of_app, elem_of_list_singleton. tauto.
      * rewrite decide_False; [done|]. rewrite elem_of_app. tauto.
Qed.
Lemma present_readied dest_of d log : present dest_of d log `sublist_of` readied dest_of d log.
Proof.
  unfold readied. induction log as [|[r o] log IH]; [done|]. destruct r as [s|s|m|m|c|c]; cbn; try done.
  destruct (decide (dest_of s = d /\ s ∉ unsubscribed log)) as [[H1 _]|_].
  - rewrite bool_decide_eq_true_2 by done. by constructor.
  - destruct (bool_decide (dest_of s = d)); [by constructor|done].
Qed.

Lemma sublist_nodup {A} (l k : list A) : l `sublist_of` k -> NoDup k -> NoDup l.
Proof.
  induction 1 as [|x l k Hs IH|x l k Hs IH]; [done| |]; rewrite NoDup_cons; intros [H1 H2].
  - apply NoDup_cons. split; [|by apply IH]. intros Hx. apply H1. eapply elem_of_submseteq; [exact Hx|by apply sublist_submseteq].
  - by apply IH.
Qed.
Lemma present_dest dest_of d log s : s ∈ present dest_of d log -> dest_of s = d.
Proof.
  induction log as [|[r o] log IH]; [by intros ?%elem_of_nil|]. destruct r as [s0|s0|m|m|c|c]; cbn [present]; try done.
  destruct (decide (dest_of s0 = d /\ s0 ∉ unsubscribed log)) as [[H1 _]|_]; [|done].
  intros [->|H]%elem_of_cons; [done|by apply IH].
Qed.
Lemma filter_all {A} (P : A -> Prop) `{!forall x, Decision (P x)} l : Forall P l -> filter P l = l.
Proof. induction 1 as [|x l Hx Hl IH]; [done|]. rewrite filter_cons_True by done. by rewrite IH. Qed.

Lemma remove_first_filter s l : NoDup l -> default l (remove_first s l) = filter (fun x => x <> s) l.
Proof.
  induction l as [|x l IH]; [done|]. rewrite NoDup_cons. intros [Hx Hnd]. cbn [remove_first].
  destruct (decide (x = s)) as [->|Hne].
  - rewrite filter_cons_False by tauto. cbn. clear IH. induction l as [|y l IH]; [done|].
    apply not_elem_of_cons in Hx as [? ?]. rewrite filter_cons_True by done. f_equal. apply IH; [done|by inversion Hnd].
  - rewrite filter_cons_True by done. rewrite <-IH by done. by destruct (remove_first s l).
Qed.

Lemma readied_prefix_nodup dest_of d log r o : NoDup (readied dest_of d (log ++ [(r, o)])) -> NoDup (readied dest_of d log).
Proof. rewrite readied_snoc. intros H. by apply NoDup_app in H as [? _]. Qed.

Lemma topic_members conn_of dest_of id_of log b d : bexec conn_of dest_of id_of log b -> is_queue d = false ->
  NoDup (readied dest_of d log) -> members b d = present dest_of d log.
Proof.
  intros He Hq. induction He as [|log b hp r b' hp' outs He IH Ha Hs]; intros Hnd.
  - unfold members; cbn. by rewrite lookup_empty.
  - pose proof (readied_prefix_nodup _ _ _ _ _ Hnd) as Hnd0. specialize (IH Hnd0).
    destruct (serve_spec _ _ _ _ _ _ _ _ _ Ha (bexec_ready_ok _ _ _ _ _ He) Hs) as (_ & _ & Hno & _ & Hyes).
    rewrite present_snoc. destruct (concerns dest_of d r) eqn:Hc.
    + destruct (Hyes _ Hc Hq) as (_ & _ & Hm). destruct r as [s|s|m|m|c|c]; cbn in Hc.
      * apply bool_decide_eq_true in Hc. rewrite decide_True by done. by destruct Hm as [-> _]; rewrite IH.
      * destruct Hm as [-> _]. rewrite IH. apply remove_first_filter. eapply sublist_nodup; [apply present_readied|done].
      * by destruct Hm as [-> _].
      * by destruct Hm as [-> _].
      * done.
      * done.
    + destruct (Hno _ Hc) as (_ & _ & -> & _). rewrite IH.
      destruct r as [s|s|m|m|c|c]; cbn in Hc; try done.
      * apply bool_decide_eq_false in Hc. rewrite decide_False by done. by rewrite app_nil_r.
      * apply bool_decide_eq_false in Hc. symmetry. apply filter_all. apply Forall_forall. intros x Hx%present_dest ->. done.
Qed.

(** Where things go. *)
Definition dest_is (m : msg) (d : str) : Prop := hd_contains (f_hdr (g_frame m)) h_destination = Some d.
Definition waiting_ok (b : broker) : Prop := forall d m, m ∈ waiting b d -> dest_is m d.
Definition members_ok (dest_of : nat -> str) (b : broker) : Prop :=
  forall d s, s ∈ members b d -> dest_of s = d /\ is_queue d = false.

Lemma dest_with_sub m id d : dest_is (with_sub m id) d <-> dest_is m d.
Proof. unfold dest_is. cbn [with_sub g_frame f_hdr]. rewrite hd_contains_set_other; [done|]. apply (bool_decide_unpack _); vm_compute; exact I. Qed.

Definition out_ok (conn_of : nat -> nat) (dest_of id_of : nat -> str) (r : request) (o : pout) : Prop :=
  match o with
  | OutSub c s m => c = conn_of s /\ is_queue (dest_of s) = true /\ dest_is m (dest_of s)
  | OutTopic c m => exists m0 s, r = REnqueue m0 /\ c = conn_of s /\ is_queue (dest_of s) = false /\ dest_is m0 (dest_of s) /\
      m = with_sub m0 (id_of s)
  end.

Lemma remove_first_elem s l x : x ∈ default l (remove_first s l) -> x ∈ l.
Proof.
  induction l as [|y l IH]; [done|]. cbn. case_decide; [cbn; rewrite elem_of_cons; tauto|].
  destruct (remove_first s l) as [l'|]; cbn in *; rewrite !elem_of_cons; tauto.
Qed.

Lemma serve_outs conn_of dest_of id_of b hp r b' hp' outs :
  agrees conn_of dest_of id_of hp -> ready_ok dest_of b -> waiting_ok b -> members_ok dest_of b ->
  serve b hp r = Fine (b', hp', outs) ->
  waiting_ok b' /\ members_ok dest_of b' /\ Forall (out_ok conn_of dest_of id_of r) outs.
Proof.
  intros Ha Hrd Hw Hm. destruct r as [s|s|m|m|c|c]; cbn [serve].
  - destruct (hp !! s) as [sb|] eqn:E; [|done]. destruct (Ha _ _ E) as (Hcn & Hd & Hi). rewrite Hd.
    destruct (is_queue (dest_of s)) eqn:Hq.
    + unfold queue_subscribe. destruct (mq_dequeue (b_store b) (dest_of s)) as [st [m|]] eqn:Hdq;
        destruct (mq_dequeue_spec _ _ _ _ Hdq) as [Hoth Hmm].
      * destruct (send_queue_frame hp s m) as [|[hp1 o]] eqn:Hs; [done|]. intros [= <- <- <-].
        destruct (send_queue_frame_spec _ _ _ _ _ _ _ _ Ha Hs) as [Ha' ->].
        split; [|split; [done|]].
        -- intros d m' Hin. unfold waiting in Hin; cbn in Hin. destruct (decide (d = dest_of s)) as [->|Hne].
           ++ apply Hw. unfold waiting. rewrite Hmm. by right.
           ++ rewrite Hoth in Hin by done. by apply Hw.
        -- constructor; [|constructor]. split; [done|]. split; [done|]. apply dest_with_sub. apply Hw. unfold waiting. rewrite Hmm. by left.
      * destruct (sl_add hp (ready b (dest_of s)) s) as [|[hp1 l]]; [done|]. intros [= <- <- <-].
        destruct Hmm as [_ ->]. split; [done|]. split; [done|constructor].
    + intros [= <- <- <-]. split; [done|]. split; [|constructor]. intros d s'. unfold topic_subscribe.
      rewrite members_mk. destruct (decide (d = dest_of s)) as [->|Hne]; [|apply Hm].
      rewrite elem_of_app, elem_of_list_singleton. intros [H| ->]; [by apply Hm|done].
  - destruct (hp !! s) as [sb|] eqn:E; [|done]. destruct (Ha _ _ E) as (Hcn & Hd & Hi). rewrite Hd.
    destruct (is_queue (dest_of s)) eqn:Hq.
    + unfold queue_unsubscribe. destruct (sl_remove hp (ready b (dest_of s)) s) as [hp1 l]. intros [= <- <- <-].
      split; [done|]. split; [done|constructor].
    + intros [= <- <- <-]. split; [done|]. split; [|constructor]. intros d s'. unfold topic_unsubscribe.
      rewrite members_mk. destruct (decide (d = dest_of s)) as [->|Hne]; [|apply Hm].
      intros Hin. apply Hm. apply (remove_first_elem s). by destruct (remove_first s (members b (dest_of s))).
  - destruct (hd_contains (f_hdr (g_frame m)) h_destination) as [dd|] eqn:Hdest; [|done].
    destruct (is_queue dd) eqn:Hq.
    + unfold queue_enqueue, queue_send. destruct (ready b dd) as [|s l] eqn:Hready; cbn [sl_get].
      * intros [= <- <- <-]. split; [|split; [done|constructor]]. intros d m'. unfold waiting; cbn. rewrite mq_list_enqueue.
        destruct (decide (d = dd)) as [->|Hne]; [|apply Hw]. rewrite elem_of_app, elem_of_list_singleton.
        intros [H| ->]; [by apply Hw|done].
      * destruct (send_queue_frame _ s m) as [|[hp1 o]] eqn:Hs; [done|]. intros [= <- <- <-].
        destruct (send_queue_frame_spec _ _ _ _ _ _ _ _ (agrees_alter _ _ _ _ s Ha) Hs) as [Ha' ->].
        split; [done|]. split; [done|]. destruct (Hrd dd s) as [Hds _]; [rewrite Hready; by left|].
        constructor; [|constructor]. cbn. rewrite Hds. split; [done|]. split; [done|]. by apply dest_with_sub.
    + destruct (topic_send_all hp (members b dd) m) as [|os] eqn:Hs; [done|]. intros [= <- <- <-].
      pose proof (topic_send_all_spec _ _ _ _ _ _ _ Ha Hs) as Hall. split; [done|]. split; [done|].
      assert (Hin : Forall (fun s => dest_of s = dd) (members b dd)). { apply Forall_forall. intros s H. by apply Hm. }
      revert Hin. clear -Hall Hq Hdest. induction Hall as [|s o l os -> _ IH]; [constructor|].
      intros [Hs Hl]%Forall_cons. constructor; [|by apply IH]. exists m, s. rewrite Hs. by split_and!.
  - destruct (hd_contains (f_hdr (g_frame m)) h_destination) as [dd|] eqn:Hdest; [|done].
    destruct (is_queue dd) eqn:Hq.
    + unfold queue_requeue, queue_send. destruct (ready b dd) as [|s l] eqn:Hready; cbn [sl_get].
      * intros [= <- <- <-]. split; [|split; [done|constructor]]. intros d m'. unfold waiting; cbn. rewrite mq_list_requeue.
        destruct (decide (d = dd)) as [->|Hne]; [|apply Hw]. rewrite elem_of_cons.
        intros [->|H]; [done|by apply Hw].
      * destruct (send_queue_frame _ s m) as [|[hp1 o]] eqn:Hs; [done|]. intros [= <- <- <-].
        destruct (send_queue_frame_spec _ _ _ _ _ _ _ _ (agrees_alter _ _ _ _ s Ha) Hs) as [Ha' ->].
        split; [done|]. split; [done|]. destruct (Hrd dd s) as [Hds _]; [rewrite Hready; by left|].
        constructor; [|constructor]. cbn. rewrite Hds. split; [done|]. split; [done|]. by apply dest_with_sub.
    + intros [= <- <- <-]. split; [done|]. split; [done|constructor].
  - intros [= <- <- <-]. split; [done|]. split; [done|constructor].
  - intros [= <- <- <-]. split; [done|]. split; [done|constructor].
Qed.

Lemma bexec_places conn_of dest_of id_of log b : bexec conn_of dest_of id_of log b ->
  waiting_ok b /\ members_ok dest_of b /\ Forall (fun e => Forall (out_ok conn_of dest_of id_of (fst e)) (snd e)) log.
Proof.
  induction 1 as [|log b hp r b' hp' outs He (IH1 & IH2 & IH3) Ha Hs].
  - split; [|split; [|constructor]].
    + intros d m. unfold waiting, mq_list; cbn. rewrite lookup_empty. by intros ?%elem_of_nil.
    + intros d m. unfold members; cbn. rewrite lookup_empty. by intros ?%elem_of_nil.
  - destruct (serve_outs _ _ _ _ _ _ _ _ _ Ha (bexec_ready_ok _ _ _ _ _ He) IH1 IH2 Hs) as (? & ? & ?).
    split; [done|]. split; [done|]. apply Forall_app. split; [done|]. by constructor.
Qed.

Lemma is_queue_prefix d : is_queue d = true <-> exists rest, d = lit "/queue" ++ rest.
Proof.
  unfold is_queue. rewrite bool_decide_eq_true. change (lit "/queue") with queue_prefix. split.
  - intros H. exists (drop (length queue_prefix) d). rewrite <-H at 1. by rewrite take_drop.
  - intros [rest ->]. by rewrite take_app.
Qed.

Lemma bexec_last conn_of dest_of id_of log r outs b' : bexec conn_of dest_of id_of (log ++ [(r, outs)]) b' ->
  exists b hp hp', bexec conn_of dest_of id_of log b /\ agrees conn_of dest_of id_of hp /\ serve b hp r = Fine (b', hp', outs).
Proof.
  intros H. inversion H as [Heq|log0 b hp r0 b0 hp' outs0 He Ha Hs Heq]; [by destruct log|].
  apply app_inj_tail in Heq as [-> [= -> ->]]. by exists b, hp, hp'.
Qed.

Lemma topic_exact conn_of dest_of id_of log m outs b' d :
  bexec conn_of dest_of id_of (log ++ [(REnqueue m, outs)]) b' -> is_queue d = false -> sent_to m d = true ->
  NoDup (readied dest_of d log) ->
  outs = (fun s => OutTopic (conn_of s) (with_sub m (id_of s))) <$> present dest_of d log.
Proof.
  intros H Hq Hd Hnd. apply bexec_last in H as (b & hp & hp' & He & Ha & Hs).
  destruct (serve_spec _ _ _ _ _ _ _ _ _ Ha (bexec_ready_ok _ _ _ _ _ He) Hs) as (_ & _ & _ & _ & Hyes).
  destruct (Hyes d Hd Hq) as (_ & _ & _ & HF). rewrite (topic_members _ _ _ _ _ _ He Hq Hnd) in HF.
  revert HF. generalize (present dest_of d log). clear. intros l HF. induction HF as [|s o l os -> _ IH]; [done|]. cbn. by f_equal.
Qed.

Lemma isolated conn_of dest_of id_of log b hp r b' hp' outs d :
  bexec conn_of dest_of id_of log b -> agrees conn_of dest_of id_of hp -> serve b hp r = Fine (b', hp', outs) ->
  concerns dest_of d r = false ->
  waiting b' d = waiting b d /\ ready b' d = ready b d /\ members b' d = members b d.
Proof.
  intros He Ha Hs Hc. destruct (serve_spec _ _ _ _ _ _ _ _ _ Ha (bexec_ready_ok _ _ _ _ _ He) Hs) as (_ & _ & Hno & _).
  by destruct (Hno d Hc) as (? & ? & ? & _).
Qed.

(** Listen. *)
Lemma listen_sleep_backoff n : listen_sleep (backoff n) = backoff (S n).
Proof.
  unfold listen_sleep, backoff, ms_ns. rewrite Nat2N.inj_succ, N.pow_succ_r by lia.
  assert (0 < 2 ^ N.of_nat n)%N by (apply N.neq_0_lt_0, N.pow_nonzero; lia).
  set (p := (2 ^ N.of_nat n)%N) in *. clearbody p. destruct (N.eqb_spec (N.min (5000000 * p) 5000000000) 0) as [?|_]; [lia|].
  destruct (N.ltb_spec (5000 * 1000000) (N.min (5000000 * p) 5000000000 * 2)); lia.
Qed.
Lemma listen_sleep_0 : listen_sleep 0 = backoff 0.
Proof. by vm_compute. Qed.

Lemma on_queue_cons {A} (q q' : str) (a : A) l : on_queue q ((q', a) :: l) = if bool_decide (q' = q) then a :: on_queue q l else on_queue q l.
Proof. unfold on_queue. cbn. by destruct (bool_decide (q' = q)). Qed.
Lemma storage_deques st ops st' rs q : storage_run st ops = (st', rs) ->
  deque_run (mq_list st q) (on_queue q ops) = (mq_list st' q, on_queue q rs).
Proof.
  revert st st' rs. induction ops as [|[q' o] ops IH]; intros st st' rs; [by intros [= <- <-]|].
  rewrite on_queue_cons. destruct o as [m|m|]; cbn [storage_run].
  - intros H%IH. rewrite mq_list_enqueue in H. destruct (decide (q = q')) as [->|Hne].
    + rewrite bool_decide_eq_true_2 by done. done.
    + by rewrite bool_decide_eq_false_2 by done.
  - intros H%IH. rewrite mq_list_requeue in H. destruct (decide (q = q')) as [->|Hne].
    + rewrite bool_decide_eq_true_2 by done. done.
    + by rewrite bool_decide_eq_false_2 by done.
  - destruct (mq_dequeue st q') as [st1 o1] eqn:Hd. destruct (storage_run st1 ops) as [st2 rs2] eqn:Hr. intros [= <- <-].
    apply IH in Hr. destruct (mq_dequeue_spec _ _ _ _ Hd) as [Hoth Hm]. rewrite on_queue_cons.
    destruct (decide (q' = q)) as [->|Hne].
    + rewrite !bool_decide_eq_true_2 by done. cbn [deque_run]. destruct o1 as [m|].
      * rewrite Hm. by rewrite Hr.
      * destruct Hm as [Hm ->]. rewrite Hm in *. by rewrite Hr.
    + rewrite !bool_decide_eq_false_2 by done. by rewrite <-Hoth by done.
Qed.

Lemma listen_bound t l d : (t <= 5000000000)%N -> (t = 0 \/ 5000000 <= t)%N -> LSleep d ∈ listen t l -> (5000000 <= d <= 5000000000)%N.
Proof.
  assert (Hb : forall t, (t <= 5000000000)%N -> (t = 0 \/ 5000000 <= t)%N -> (5000000 <= listen_sleep t <= 5000000000)%N).
  { intros t' H1 H2. unfold listen_sleep, ms_ns. destruct (N.eqb_spec t' 0); [vm_compute; by split|].
    destruct (N.ltb_spec (5000 * 1000000) (t' * 2)); lia. }
  revert t. induction l as [|a l IH]; intros t H1 H2; cbn [listen]; [by intros ?%elem_of_nil|].
  specialize (Hb t H1 H2). destruct a.
  - rewrite elem_of_cons. intros [?|H]; [done|]. apply (IH 0%N); [lia|by left|done].
  - rewrite elem_of_cons. intros [[= ->]|H]; [done|]. apply (IH (listen_sleep t)); [lia|lia|done].
  - intros ?%elem_of_list_singleton. done.
Qed.
Lemma listen_fails t k x post : listen t (replicate k AccTemporary ++ x :: post) !! k =
  Some match x with AccOk => LServe | AccTemporary => LSleep (listen_sleep (Nat.iter k listen_sleep t)) | AccPermanent => LReturn end.
Proof.
  revert t. induction k as [|k IH]; intros t; [by destruct x|]. cbn [replicate app listen lookup list_lookup].
  rewrite IH. by rewrite <-Nat.iter_succ_r.
Qed.
Lemma listen_app t pre l : AccPermanent ∉ pre -> exists t' acts, length acts = length pre /\
  listen t (pre ++ l) = acts ++ listen t' l /\ (pre = [] -> t' = t) /\ (last pre = Some AccOk -> t' = 0%N).
Proof.
  revert t. induction pre as [|a pre IH]; intros t; [intros _; by exists t, []|]. rewrite not_elem_of_cons. intros [Ha Hp].
  destruct a; [| |done]; cbn [app listen].
  - destruct (IH 0%N Hp) as (t' & acts & Hl & He & Hn & Hlast). exists t', (LServe :: acts).
    split; [by cbn; rewrite Hl|]. split; [by rewrite He|]. split; [done|]. destruct pre; [by rewrite Hn|]. done.
  - destruct (IH (listen_sleep t) Hp) as (t' & acts & Hl & He & Hn & Hlast). exists t', (LSleep (listen_sleep t) :: acts).
    split; [by cbn; rewrite Hl|]. split; [by rewrite He|]. split; [done|]. destruct pre; [done|]. done.
Qed.
Lemma listen_spec pre k x post : AccPermanent ∉ pre -> (pre = [] \/ last pre = Some AccOk) ->
  listen 0 (pre ++ replicate k AccTemporary ++ x :: post) !! (length pre + k) =
  Some match x with AccOk => LServe | AccTemporary => LSleep (backoff k) | AccPermanent => LReturn end.
Proof.
  intros Hp Hl. destruct (listen_app 0 pre (replicate k AccTemporary ++ x :: post) Hp) as (t' & acts & Hlen & He & H1 & H2).
  rewrite He. rewrite <-Hlen. rewrite lookup_app_r by lia. replace (length acts + k - length acts) with k by lia.
  assert (t' = 0%N) as -> by (destruct Hl; auto). rewrite listen_fails. destruct x; try done. do 2 f_equal.
  clear. induction k as [|k IH]; [apply listen_sleep_0|]. rewrite (Nat.iter_succ k listen_sleep 0%N), IH. apply listen_sleep_backoff.
Qed.
Lemma listen_return pre post : AccPermanent ∉ pre -> listen 0 (pre ++ AccPermanent :: post) = listen 0 pre ++ [LReturn].
Proof.
  generalize 0%N. induction pre as [|a pre IH]; intros t; [done|]. rewrite not_elem_of_cons. intros [Ha Hp].
  destruct a; [| |done]; cbn [app listen]; by rewrite IH.
Qed.

Lemma queue_step conn_of dest_of id_of log b hp r b' hp' outs d :
  bexec conn_of dest_of id_of log b -> agrees conn_of dest_of id_of hp -> serve b hp r = Fine (b', hp', outs) ->
  concerns dest_of d r = true -> is_queue d = true ->
  qstep id_of (waiting b d, ready b d) r (omap (out_handed dest_of d) outs) (waiting b' d, ready b' d).
Proof.
  intros He Ha Hs Hc Hq. destruct (serve_spec _ _ _ _ _ _ _ _ _ Ha (bexec_ready_ok _ _ _ _ _ He) Hs) as (_ & _ & _ & Hyes & _).
  by destruct (Hyes d Hc Hq).
Qed.

(** Running requests with the connections taking their frames in between. *)
Fixpoint brun (b : broker) (hp : sheap) (rs : list request) : pres (broker * list bev) :=
  match rs with
  | [] => Fine (b, [])
  | r :: rs' =>
      match serve b hp r with
      | Panicked p => Panicked p
      | Fine (b', hp', outs) =>
          match brun b' ((fun sb => set_frame sb None) <$> hp') rs' with
          | Panicked p => Panicked p
          | Fine (b'', log) => Fine (b'', (r, outs) :: log)
          end
      end
  end.
Lemma brun_bexec conn_of dest_of id_of log b hp rs b' log' :
  bexec conn_of dest_of id_of log b -> agrees conn_of dest_of id_of hp -> brun b hp rs = Fine (b', log') ->
  bexec conn_of dest_of id_of (log ++ log') b'.
Proof.
  revert log b hp log'. induction rs as [|r rs IH]; intros log b hp log' He Ha; cbn.
  - intros [= <- <-]. by rewrite app_nil_r.
  - destruct (serve b hp r) as [|[[b1 hp1] outs]] eqn:Hs; [done|].
    destruct (brun b1 _ rs) as [|[b2 log2]] eqn:Hb; [done|]. intros [= <- <-].
    replace (log ++ (r, outs) :: log2) with ((log ++ [(r, outs)]) ++ log2) by by rewrite <-app_assoc.
    eapply IH; [by econstructor| |exact Hb].
    destruct (serve_spec _ _ _ _ _ _ _ _ _ Ha (bexec_ready_ok _ _ _ _ _ He) Hs) as (Ha' & _).
    intros s sb. rewrite lookup_fmap. destruct (hp1 !! s) as [sb1|] eqn:E; [|done]. intros [= <-]. by apply (Ha' s sb1).
Qed.
