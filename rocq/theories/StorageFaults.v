From Verif Require Import GoBase HeaderModel FrameModel GrammarSpec HeaderProofs NegotiationModel BrokerModel BrokerSpec BrokerProofs ServerConnModel ServerConnSpec
  SystemModel SystemLemmas SystemSpec SystemProofs SystemTokens SystemMessages StorageModel StorageSpec StorageProofs.

Lemma step_blog cfg y a y' : a <> AProc -> step cfg y a = Some (Fine y') -> y_blog y' = y_blog y.
Proof.
  intros Ha. destruct a; cbn [step]; try done.
  - by intros [= <-].
  - unfold do_recv. destruct (y_conns y !! c); [|done]. destruct (n_eof s); [done|]. destruct (decide _); [|done]. by intros [= <-].
  - unfold do_eof. destruct (y_conns y !! c); [|done]. destruct (n_eof s); [done|]. by intros [= <-].
  - unfold do_take. destruct (y_conns y !! c) as [n|]; [|done]. destruct (n_phase n); try done. destruct (idle n); [|done].
    destruct (take_input n x) as [[i n1]|]; [|done]. destruct (conn_iter _ _ _ _ _ _ _ _); [done|]. by intros [= <-].
  - unfold do_push. destruct (y_conns y !! c) as [n|]; [|done]. destruct (n_out n); [done|]. destruct (decide _); [|done]. by intros [= <-].
  - unfold do_clean. destruct (y_conns y !! c) as [n|]; [|done]. destruct (idle n); [|done].
    destruct (clean_step _ _ _ _) as [[p|[n' hp']]|]; [done| |done]. by intros [= <-].
  - unfold do_out. destruct (y_pout y) as [|[c s m|c m] os]; [done| |]; (destruct (y_conns y !! c) as [n|]; [|done]); (destruct (decide _); [|done]); by intros [= <-].
Qed.
Lemma with_sub_dest m i d : to_dest d (with_sub m i) <-> to_dest d m.
Proof.
  unfold to_dest. change (lit "destination") with h_destination. rewrite <-(payload_dest (with_sub m i)), <-(payload_dest m), payload_with_sub. done.
Qed.
Lemma sent_to_dest m d : sent_to m d = bool_decide (to_dest d m).
Proof. done. Qed.
Lemma arrivals_app d l1 l2 : arrivals d (l1 ++ l2) = arrivals d l1 ++ arrivals d l2.
Proof. apply omap_app. Qed.
Lemma returned_app d l1 l2 : BrokerSpec.returned d (l1 ++ l2) = BrokerSpec.returned d l1 ++ BrokerSpec.returned d l2.
Proof. apply omap_app. Qed.
Lemma given_app d l1 l2 : given d (l1 ++ l2) = given d l1 ++ given d l2.
Proof. unfold given. rewrite fmap_app, concat_app. unfold pmsgs. by rewrite omap_app, filter_app. Qed.
Lemma refused_app d l1 l2 : refused d (l1 ++ l2) = refused d l1 ++ refused d l2.
Proof. apply omap_app. Qed.
Lemma sent_queue hp s m hp' o : send_queue_frame hp s m = Fine (hp', o) -> exists c i, o = OutSub c s (with_sub m i).
Proof. unfold send_queue_frame. destruct (hp !! s) as [sb|]; [|done]. destruct (s_frame sb); [done|]. intros [= <- <-]. eauto. Qed.
Lemma given_one d r c s m i x : pc x (given d [(r, [OutSub c s (with_sub m i)])]) = if decide (to_dest d m) then pc x [m] else 0.
Proof.
  change (given d [(r, [OutSub c s (with_sub m i)])]) with (filter (to_dest d) [with_sub m i]). rewrite filter_cons. destruct (decide (to_dest d m)) as [H|H].
  - rewrite decide_True by by apply with_sub_dest. rewrite filter_nil. apply pc_one, payload_with_sub.
  - rewrite decide_False by by rewrite with_sub_dest. done.
Qed.
Lemma given_topic d r os : (forall c s m, OutSub c s m ∉ os) -> given d [(r, os)] = [].
Proof.
  intros H. unfold given. cbn. rewrite app_nil_r. induction os as [|o os IH]; [done|]. destruct o as [c s m|c m].
  - by destruct (H c s m); left.
  - cbn. apply IH. intros c' s' m' Hin. by apply (H c' s' m'); right.
Qed.
Lemma topic_sends hp l m os c s m' : topic_send_all hp l m = Fine os -> OutSub c s m' ∉ os.
Proof.
  revert os. induction l as [|t l IH]; intros os; cbn; [intros [= <-]; by apply not_elem_of_nil|].
  destruct (send_topic_frame hp t m) as [|o] eqn:Eo; [done|]. destruct (topic_send_all hp l m) as [|os']; [done|]. intros [= <-].
  rewrite elem_of_cons. intros [<-|Hin]; [|by eapply IH]. unfold send_topic_frame in Eo. destruct (hp !! t) as [sb|]; [|done]. by destruct (s_frame sb).
Qed.
Lemma arr1 d m os x : pc x (arrivals d [(REnqueue m, os)]) = if decide (to_dest d m) then pc x [m] else 0.
Proof. cbn. rewrite sent_to_dest. case_bool_decide; by case_decide. Qed.
Lemma ret1 d m os x : pc x (BrokerSpec.returned d [(RRequeue m, os)]) = if decide (to_dest d m) then pc x [m] else 0.
Proof. cbn. rewrite sent_to_dest. case_bool_decide; by case_decide. Qed.

Section Faults.
  Context (ST : storage) (contents : so_state ST -> str -> list msg) (HF : fallible ST contents) (cfg : scfg).

  Definition own (st : so_state ST) : Prop := forall d m, m ∈ contents st d -> to_dest d m.

  Definition balance (w : gsys ST) : Prop := forall d x, is_queue d = true ->
    pc x (arrivals d (y_blog (w_sys w))) + pc x (BrokerSpec.returned d (y_blog (w_sys w))) =
    pc x (given d (y_blog (w_sys w))) + pc x (contents (w_st w) d) + pc x (refused d (w_calls w)).

  Lemma put_case st k st' a d m (front : bool) : own st -> k = (if front then CRequeue d m else CEnqueue d m) -> to_dest d m -> so_call ST st k st' a ->
    own st' /\ forall e x, pc x (contents st' e) + pc x (refused e [(k, a)]) = pc x (contents st e) + if decide (to_dest e m) then pc x [m] else 0.
  Proof.
    intros Ho -> Hd K.
    assert (forall e, to_dest e m -> e = d) as Hu.
    { intros e He. unfold to_dest in *. congruence. }
    destruct (decide (a = Failed)) as [->|Ha].
    - pose proof (fa_error _ _ HF _ _ _ K) as E. split.
      + intros e m' Hm. rewrite E in Hm. by apply Ho.
      + intros e x. rewrite E. f_equal. destruct front; cbn; (destruct (decide (d = e)) as [->|Hne]; [by rewrite decide_True|]);
          rewrite decide_False; try done; intros He; by apply Hne; symmetry; apply Hu.
    - assert (contents st' d ≡ₚ m :: contents st d /\ a = Done /\ forall e, e <> d -> contents st' e = contents st e) as (Ep & -> & Eo).
      { destruct front.
        - destruct (fa_requeue _ _ HF _ _ _ _ _ K Ha) as (-> & -> & ?). done.
        - destruct (fa_enqueue _ _ HF _ _ _ _ _ K Ha) as (-> & -> & ?). split; [|done]. by rewrite Permutation_app_comm. }
      assert (forall x, pc x (contents st' d) = pc x [m] + pc x (contents st d)) as Ex.
      { intros x. destruct front.
        - destruct (fa_requeue _ _ HF _ _ _ _ _ K Ha) as (_ & -> & ?). by rewrite pc_cons.
        - destruct (fa_enqueue _ _ HF _ _ _ _ _ K Ha) as (_ & -> & ?). rewrite pc_app. lia. }
      split.
      + intros e m' Hm. destruct (decide (e = d)) as [->|Hne]; [|rewrite Eo in Hm by done; by apply Ho].
        rewrite Ep in Hm. apply elem_of_cons in Hm as [->|Hm]; [done|by apply Ho].
      + intros e x. assert (pc x (refused e [(if front then CRequeue d m else CEnqueue d m, Done)]) = 0) as -> by by destruct front.
        destruct (decide (e = d)) as [->|Hne].
        * rewrite decide_True by done. rewrite Ex. lia.
        * rewrite decide_False by (by intros He; apply Hne, Hu). by rewrite Eo.
  Qed.
  Lemma dequeue_case st d st' a : own st -> so_call ST st (CDequeue d) st' a ->
    own st' /\ match a with
    | Got (Some m) => to_dest d m /\ forall e x, pc x (contents st' e) + (if decide (to_dest e m) then pc x [m] else 0) = pc x (contents st e)
    | _ => forall e x, pc x (contents st' e) = pc x (contents st e)
    end.
  Proof.
    intros Ho K. destruct (decide (a = Failed)) as [->|Ha].
    { pose proof (fa_error _ _ HF _ _ _ K) as E. split; [|intros; by rewrite E]. intros e m' Hm. rewrite E in Hm. by apply Ho. }
    destruct (fa_dequeue _ _ HF _ _ _ _ K Ha) as (-> & Et & Eo). split.
    - intros e m' Hm. destruct (decide (e = d)) as [->|Hne]; [|rewrite Eo in Hm by done; by apply Ho].
      rewrite Et in Hm. apply Ho. destruct (contents st d); [by apply elem_of_nil in Hm|by right].
    - destruct (contents st d) as [|m l] eqn:Ec; cbn.
      + intros e x. destruct (decide (e = d)) as [->|Hne]; [by rewrite Et, Ec|by rewrite Eo].
      + assert (to_dest d m) as Hm by (apply Ho; rewrite Ec; by left). split; [done|]. intros e x. destruct (decide (e = d)) as [->|Hne].
        * rewrite decide_True by done. rewrite Et, Ec, (pc_cons x m l). cbn. lia.
        * rewrite decide_False, Eo by (done || (intros He; apply Hne; unfold to_dest in *; congruence)). lia.
  Qed.

  Lemma proc_balance w r st a ks b hp outs d x : own (w_st w) -> asks ST w r st a ks ->
    serve_with a (y_broker (w_sys w)) (y_heap (w_sys w)) r = Fine (b, hp, outs) -> is_queue d = true ->
    own st /\
    pc x (arrivals d [(r, outs)]) + pc x (BrokerSpec.returned d [(r, outs)]) + pc x (contents (w_st w) d) =
    pc x (given d [(r, outs)]) + pc x (contents st d) + pc x (refused d ks).
  Proof.
    intros Ho Hk Hs Hq. destruct r as [s|s|m|m|c|c]; cbn [serve_with] in Hs.
    - change (pc x (arrivals d [(RSubscribe s, outs)])) with 0. change (pc x (BrokerSpec.returned d [(RSubscribe s, outs)])) with 0.
      assert (forall c, call_of (y_broker (w_sys w)) (y_heap (w_sys w)) (RSubscribe s) = c -> match y_heap (w_sys w) !! s with
        | Some sb => c = if is_queue (s_dest sb) then Some (CDequeue (s_dest sb)) else None | None => c = None end) as Hc.
      { intros c <-. cbn. by destruct (_ !! s). }
      destruct (y_heap (w_sys w) !! s) as [sb|]; [|done].
      destruct Hk as [Hk|k st a Hk K]; apply Hc in Hk; destruct (is_queue (s_dest sb)); try done.
      + injection Hs as <- <- <-. split; [done|]. rewrite given_topic by (intros; by apply not_elem_of_nil). done.
      + injection Hk as ->. destruct (dequeue_case _ _ _ _ Ho K) as [Ho' Hd]. split; [done|].
        change (pc x (refused d [(CDequeue (s_dest sb), a)])) with 0. unfold subscribe_with in Hs. destruct a as [|[m|]|].
        * injection Hs as <- <- <-. rewrite given_topic, Hd by (intros; by apply not_elem_of_nil). done.
        * destruct (send_queue_frame _ s m) as [|[hp' o]] eqn:Es; [done|]. injection Hs as <- <- <-. destruct (sent_queue _ _ _ _ _ Es) as (c & i & ->).
          rewrite given_one. destruct Hd as [_ Hd]. rewrite <-(Hd d x). lia.
        * destruct (sl_add _ _ s) as [|[hp' l]]; [done|]. injection Hs as <- <- <-. rewrite given_topic, Hd by (intros; by apply not_elem_of_nil). done.
        * injection Hs as <- <- <-. rewrite given_topic, Hd by (intros; by apply not_elem_of_nil). done.
    - assert (outs = []) as ->.
      { cbn in Hs. destruct (_ !! s) as [sb|]; [|done]. destruct (is_queue _); [|by injection Hs as <- <- <-].
        unfold queue_unsubscribe in Hs. destruct (sl_remove _ _ _). by injection Hs as <- <- <-. }
      destruct Hk as [Hk|k st a Hk K]; [|done]. split; [done|]. rewrite given_topic by (intros; by apply not_elem_of_nil). done.
    - rewrite arr1. change (pc x (BrokerSpec.returned d [(REnqueue m, outs)])) with 0.
      assert (forall c, call_of (y_broker (w_sys w)) (y_heap (w_sys w)) (REnqueue m) = c -> match hd_contains (f_hdr (g_frame m)) h_destination with
        | Some e => c = if is_queue e then match ready (y_broker (w_sys w)) e with [] => Some (CEnqueue e m) | _ => None end else None | None => c = None end) as Hc.
      { intros c <-. cbn. by destruct (hd_contains _ _). }
      destruct (hd_contains (f_hdr (g_frame m)) h_destination) as [e|] eqn:Ed; [|done]. assert (to_dest e m) as Hd by exact Ed.
      assert (is_queue e = false -> ~ to_dest d m) as Hn.
      { intros He Hd'. unfold to_dest in *. congruence. }
      destruct (is_queue e) eqn:He.
      2:{ destruct (topic_send_all _ _ _) as [|os] eqn:Et; [done|]. injection Hs as <- <- <-. destruct Hk as [Hk|k st a Hk K]; [|by apply Hc in Hk].
          split; [done|]. rewrite decide_False, given_topic by (by auto || (intros; by eapply topic_sends)). done. }
      unfold send_with in Hs. destruct (ready (y_broker (w_sys w)) e) as [|s l]; cbn [sl_get] in Hs.
      + injection Hs as <- <- <-. destruct Hk as [Hk|k st a Hk K]; apply Hc in Hk; [done|]. injection Hk as ->.
        destruct (put_case _ _ _ _ e m false Ho eq_refl Hd K) as [Ho' Hp]. split; [done|]. rewrite given_topic by (intros; by apply not_elem_of_nil).
        rewrite pc_nil. pose proof (Hp d x). lia.
      + destruct (send_queue_frame _ s m) as [|[hp' o]] eqn:Es; [done|]. injection Hs as <- <- <-. destruct (sent_queue _ _ _ _ _ Es) as (c & i & ->).
        destruct Hk as [Hk|k st a Hk K]; [|by apply Hc in Hk]. split; [done|]. rewrite given_one. change (pc x (refused d [])) with 0. lia.
    - rewrite ret1. change (pc x (arrivals d [(RRequeue m, outs)])) with 0.
      assert (forall c, call_of (y_broker (w_sys w)) (y_heap (w_sys w)) (RRequeue m) = c -> match hd_contains (f_hdr (g_frame m)) h_destination with
        | Some e => c = if is_queue e then match ready (y_broker (w_sys w)) e with [] => Some (CRequeue e m) | _ => None end else None | None => c = None end) as Hc.
      { intros c <-. cbn. by destruct (hd_contains _ _). }
      destruct (hd_contains (f_hdr (g_frame m)) h_destination) as [e|] eqn:Ed; [|done]. assert (to_dest e m) as Hd by exact Ed.
      assert (is_queue e = false -> ~ to_dest d m) as Hn.
      { intros He Hd'. unfold to_dest in *. congruence. }
      destruct (is_queue e) eqn:He.
      2:{ injection Hs as <- <- <-. destruct Hk as [Hk|k st a Hk K]; [|by apply Hc in Hk].
          split; [done|]. rewrite decide_False, given_topic by (by auto || (intros; by apply not_elem_of_nil)). done. }
      unfold send_with in Hs. destruct (ready (y_broker (w_sys w)) e) as [|s l]; cbn [sl_get] in Hs.
      + injection Hs as <- <- <-. destruct Hk as [Hk|k st a Hk K]; apply Hc in Hk; [done|]. injection Hk as ->.
        destruct (put_case _ _ _ _ e m true Ho eq_refl Hd K) as [Ho' Hp]. split; [done|]. rewrite given_topic by (intros; by apply not_elem_of_nil).
        rewrite pc_nil. pose proof (Hp d x). lia.
      + destruct (send_queue_frame _ s m) as [|[hp' o]] eqn:Es; [done|]. injection Hs as <- <- <-. destruct (sent_queue _ _ _ _ _ Es) as (c & i & ->).
        destruct Hk as [Hk|k st a Hk K]; [|by apply Hc in Hk]. split; [done|]. rewrite given_one. change (pc x (refused d [])) with 0. lia.
    - injection Hs as <- <- <-. destruct Hk as [Hk|k st a Hk K]; [|done]. done.
    - injection Hs as <- <- <-. destruct Hk as [Hk|k st a Hk K]; [|done]. done.
  Qed.

  Lemma own_proc w r st a ks b hp outs : own (w_st w) -> asks ST w r st a ks ->
    serve_with a (y_broker (w_sys w)) (y_heap (w_sys w)) r = Fine (b, hp, outs) -> own st.
  Proof. intros Ho Hk Hs. by destruct (proc_balance w r st a ks b hp outs queue_prefix (mkMsg 0 (mkFrame [] [] [])) Ho Hk Hs). Qed.

  Lemma balanced w : greach ST cfg w -> own (w_st w) /\ balance w.
  Proof.
    induction 1 as [|w a w' Hw [Ho Hb] H].
    - split; [intros d m; cbn; rewrite (fa_init _ _ HF); intros Hm; by apply elem_of_nil in Hm|]. intros d x _. cbn. by rewrite (fa_init _ _ HF).
    - inversion H as [a0 y Ha Hs| |r rs st a0 ks x Hp Hr Hk Hs|]; subst; cbn [w_st w_sys w_calls].
      + split; [done|]. intros d x Hq. cbn [w_st w_sys w_calls]. rewrite (step_blog _ _ _ _ Ha Hs). by apply Hb.
      + destruct x as [[b hp] outs]. split; [by eapply own_proc|]. intros d x Hq. cbn [w_st w_sys w_calls y_blog proc_with].
        destruct (proc_balance w r st a0 ks b hp outs d x Ho Hk Hs Hq) as [_ E]. specialize (Hb d x Hq).
        rewrite arrivals_app, returned_app, given_app, refused_app, !pc_app. lia.
  Qed.
  Lemma faults_conserve w d : greach ST cfg w -> is_queue d = true ->
    payload <$> (arrivals d (y_blog (w_sys w)) ++ BrokerSpec.returned d (y_blog (w_sys w))) ≡ₚ
    payload <$> (given d (y_blog (w_sys w)) ++ contents (w_st w) d ++ refused d (w_calls w)).
  Proof.
    intros Hw Hq. apply cnt_perm. intros x. change (pc x (arrivals d (y_blog (w_sys w)) ++ BrokerSpec.returned d (y_blog (w_sys w))) =
      pc x (given d (y_blog (w_sys w)) ++ contents (w_st w) d ++ refused d (w_calls w))). rewrite !pc_app. destruct (balanced w Hw) as [_ Hb]. rewrite (Hb d x Hq). lia.
  Qed.

  (** The calls the server makes. *)
  Lemma calls_made w k a : greach ST cfg w -> (k, a) ∈ w_calls w ->
    match k with
    | CEnqueue d m | CRequeue d m => is_queue d = true /\ to_dest d m
    | CDequeue d => is_queue d = true
    | CStart | CStop => False
    end.
  Proof.
    induction 1 as [|w act w' Hw IH H]; [by intros ?%elem_of_nil|].
    inversion H as [a0 y Ha Hs| |r rs st a0 ks x Hp Hr Hk Hs|]; subst; cbn; [done|]. rewrite elem_of_app. intros [Hin|Hin]; [by apply IH|].
    destruct Hk as [Hk|k0 st a0 Hk K]; [by apply elem_of_nil in Hin|]. apply elem_of_list_singleton in Hin as [= -> ->].
    destruct r as [s|s|m|m|c|c]; cbn in Hk; try done.
    - destruct (_ !! s) as [sb|]; [|done]. destruct (is_queue (s_dest sb)) eqn:E; [|done]. by injection Hk as <-.
    - destruct (hd_contains _ _) as [d|] eqn:Ed; [|done]. destruct (is_queue d) eqn:E; [|done]. destruct (ready _ d); [|done]. by injection Hk as <-.
    - destruct (hd_contains _ _) as [d|] eqn:Ed; [|done]. destruct (is_queue d) eqn:E; [|done]. destruct (ready _ d); [|done]. by injection Hk as <-.
  Qed.
End Faults.
