(** Case analyses of the steps of a connection and of the processor, used by
    the invariants of the whole server. *)
From Verif Require Import GoBase HeaderModel FrameModel GrammarSpec HeaderProofs NegotiationModel NegotiationSpec NegotiationLemmas
  BrokerModel BrokerSpec BrokerProofs ServerConnModel ServerConnSpec ServerConnProofs SystemModel.

(* ------------------------------------------------------------------ *)
(** Effect of handling stored or direct SEND/ACK/NACK frames on the objects,
    the outstanding list and the requests. *)
Inductive acks : sheap -> list nat -> sheap -> list nat -> list request -> Prop :=
| ak_nil hp l : acks hp l hp l []
| ak_send hp l hp' l' rs m : cmd_of m = MESSAGE -> acks hp l hp' l' rs -> acks hp l hp' l' (REnqueue m :: rs)
| ak_ack hp l1 s l2 sb hp' l' rs : hp !! s = Some sb -> acks (<[s := set_frame sb None]> hp) (l1 ++ l2) hp' l' rs ->
    acks hp (l1 ++ s :: l2) hp' l' (RSubscribe s :: rs)
| ak_nack hp l1 s l2 sb m hp' l' rs : hp !! s = Some sb -> s_frame sb = Some m -> acks (<[s := set_frame sb None]> hp) (l1 ++ l2) hp' l' rs ->
    acks hp (l1 ++ s :: l2) hp' l' (RRequeue m :: RSubscribe s :: rs).

Lemma acks_trans hp l hp1 l1 rs1 hp2 l2 rs2 : acks hp l hp1 l1 rs1 -> acks hp1 l1 hp2 l2 rs2 -> acks hp l hp2 l2 (rs1 ++ rs2).
Proof. induction 1; intros H2; cbn; [done| | |]; econstructor; eauto. Qed.

Lemma sl_ack_acks hp l n hp' rest rs pre : sl_ack hp l n = Fine (hp', rest, rs) -> acks hp (pre ++ l) hp' (pre ++ rest) rs.
Proof.
  revert hp hp' rest rs pre. induction l as [|s l IH]; intros hp hp' rest rs pre; cbn; [intros [= <- <- <-]; constructor|].
  destruct (hp !! s) as [sb|] eqn:Hs; [|done]. destruct (is_acked_by sb n) as [[]|]; [| |done].
  - destruct (sl_ack _ l n) as [p|[[h r] rs0]] eqn:E; [done|]. intros [= <- <- <-]. eapply ak_ack; [done|]. by apply IH.
  - destruct (sl_ack _ l n) as [p|[[h r] rs0]] eqn:E; [done|]. intros [= <- <- <-].
    apply (IH _ _ _ _ (pre ++ [s])) in E. by rewrite <-!app_assoc in E.
Qed.
Lemma sl_nack_acks hp l n hp' rest rs pre : sl_nack hp l n = Fine (hp', rest, rs) -> acks hp (pre ++ l) hp' (pre ++ rest) rs.
Proof.
  revert hp hp' rest rs pre. induction l as [|s l IH]; intros hp hp' rest rs pre; cbn; [intros [= <- <- <-]; constructor|].
  destruct (hp !! s) as [sb|] eqn:Hs; [|done]. destruct (is_nacked_by sb n).
  - destruct (s_frame sb) eqn:Hm; [|done]. destruct (sl_nack _ l n) as [p|[[h r] rs0]] eqn:E; [done|]. intros [= <- <- <-].
    eapply ak_nack; [done|done|]. by apply IH.
  - destruct (sl_nack _ l n) as [p|[[h r] rs0]] eqn:E; [done|]. intros [= <- <- <-].
    apply (IH _ _ _ _ (pre ++ [s])) in E. by rewrite <-!app_assoc in E.
Qed.
Lemma sl_of_acks cmd hp l n hp' rest rs : sl_of cmd hp l n = Fine (hp', rest, rs) -> acks hp l hp' rest rs.
Proof. unfold sl_of. destruct (decide (cmd = ACK)); [apply (sl_ack_acks _ _ _ _ _ _ [])|apply (sl_nack_acks _ _ _ _ _ _ [])]. Qed.
Lemma replay_acks l hp sl hp' sl' rs : replay hp sl l = Fine (hp', sl', rs) -> acks hp sl hp' sl' rs.
Proof.
  revert hp sl hp' sl' rs. induction l as [|m l IH]; intros hp sl hp' sl' rs; cbn [replay]; [intros [= <- <- <-]; constructor|].
  destruct (apply_one hp sl m) as [p|[[hp1 sl1] rs1]] eqn:Ha; [done|].
  destruct (replay hp1 sl1 l) as [p|[[hp2 sl2] rs2]] eqn:Hr; [done|]. intros [= <- <- <-].
  eapply acks_trans; [|by apply IH]. unfold apply_one in Ha. destruct (decide (cmd_of m = SEND)); [|destruct (ack_id m)].
  - injection Ha as <- <- <-. constructor; [done|constructor].
  - injection Ha as <- <- <-. constructor.
  - by eapply sl_of_acks.
Qed.

(** One iteration. *)
Inductive shape (cid : nat) (c : cst) (hp : sheap) (nx : nat) : cin -> iout -> Prop :=
| sh_acks i o : (forall s, i <> InSub s) -> acks hp (k_sublist c) (i_hp o) (k_sublist (i_c o)) (i_push o) -> k_subs (i_c o) = k_subs c ->
    i_next o = nx -> (i_stop o = true -> i_push o = []) -> (i_push o <> [] -> k_connected c = true) -> shape cid c hp nx i o
| sh_conn m o : i_hp o = hp -> k_sublist (i_c o) = k_sublist c -> k_subs (i_c o) = k_subs c -> i_next o = nx -> i_push o = [RConnected cid] ->
    i_stop o = false -> shape cid c hp nx (InFrame m) o
| sh_new m o id dest ack : k_connected c = true -> k_subs c !! id = None -> i_hp o = <[nx := new_sub cid dest id ack]> hp -> k_sublist (i_c o) = k_sublist c ->
    k_subs (i_c o) = <[id := nx]> (k_subs c) -> i_next o = S nx -> i_push o = [RSubscribe nx] -> i_stop o = false ->
    hget_of m (lit "destination") = Some dest -> hget_of m (lit "id") = Some id -> ack = default ack_auto (hget_of m (lit "ack")) ->
    cmd_of m = SUBSCRIBE ->
    shape cid c hp nx (InFrame m) o
| sh_unsub m o id s : k_connected c = true -> k_subs c !! id = Some s -> i_hp o = hp -> k_sublist (i_c o) = k_sublist c ->
    k_subs (i_c o) = delete id (k_subs c) -> i_next o = nx -> i_push o = [RUnsubscribe s] -> i_stop o = false -> shape cid c hp nx (InFrame m) o
| sh_gone s sb m o : hp !! s = Some sb -> s_frame sb = Some m -> i_hp o = hp -> i_c o = c -> i_next o = nx -> i_push o = [RRequeue m] ->
    i_stop o = false -> i_wr o = [] -> shape cid c hp nx (InSub s) o
| sh_failed s sb m o n m' : hp !! s = Some sb -> s_frame sb = Some m -> i_hp o = <[s := set_frame sb (Some m')]> hp -> i_c o = set_last c n ->
    alloc_id (k_last c) (Some (s_ack sb)) m = (n, m') ->
    i_next o = nx -> i_push o = [] -> i_stop o = true -> i_wr o = [(Some m', false)] -> is_Some (k_subs c !! s_id sb) ->
    shape cid c hp nx (InSub s) o
| sh_auto s sb m o n m' : hp !! s = Some sb -> s_frame sb = Some m -> i_hp o = <[s := set_frame sb None]> hp -> i_c o = set_last c n ->
    alloc_id (k_last c) (Some (s_ack sb)) m = (n, m') -> s_ack sb = ack_auto ->
    i_next o = nx -> i_push o = [RSubscribe s] -> i_stop o = false -> i_wr o = [(Some m', true)] -> is_Some (k_subs c !! s_id sb) ->
    shape cid c hp nx (InSub s) o
| sh_keep s sb m o n m' : hp !! s = Some sb -> s_frame sb = Some m -> i_hp o = <[s := set_inlist (set_frame sb (Some m')) true]> hp ->
    i_c o = set_sublist (set_last c n) (k_sublist c ++ [s]) ->
    alloc_id (k_last c) (Some (s_ack sb)) m = (n, m') -> s_ack sb <> ack_auto -> s_inlist sb = false ->
    i_next o = nx -> i_push o = [] -> i_stop o = false -> i_wr o = [(Some m', true)] -> is_Some (k_subs c !! s_id sb) ->
    shape cid c hp nx (InSub s) o.

Lemma conn_iter_shape cfg cid w1 w2 c hp nx i o : tx_ok c -> conn_iter cfg cid w1 w2 c hp nx i = Fine o -> shape cid c hp nx i o.
Proof.
  intros Htx Hi. destruct i as [m| |m|s|].
  - pose proof (conn_iter_frame cfg cid w1 w2 c hp nx m Htx) as H. rewrite Hi in H.
    inversion H; subst.
    1,2,4,5,6,8: (apply sh_acks; cbn; try done; constructor).
    + apply sh_conn; done.
    + apply sh_acks; cbn; try done. by eapply replay_acks.
    + apply sh_acks; cbn; try done. constructor; [done|constructor].
    + apply sh_acks; cbn; try done. by eapply sl_of_acks.
    + eapply (sh_new cid c hp nx m _ id dest); done.
    + eapply (sh_unsub cid c hp nx m _ id s); done.
  - cbn in Hi. injection Hi as <-. apply sh_acks; cbn; try done. constructor.
  - cbn in Hi. destruct (alloc_id (k_last c) None m). injection Hi as <-. apply sh_acks; cbn; try done. constructor.
  - pose proof (conn_iter_sub cfg cid w1 w2 c hp nx s) as H. rewrite Hi in H. inversion H; subst.
    + by eapply sh_gone.
    + by eapply sh_failed.
    + by eapply sh_auto.
    + by eapply sh_keep.
  - cbn in Hi. injection Hi as <-. apply sh_acks; cbn; try done. constructor.
Qed.

(* ------------------------------------------------------------------ *)
(** The processor. *)
Definition fupd {A} (d : str) (x : A) (f : str -> A) : str -> A := fun d' => if decide (d' = d) then x else f d'.
Definition bis (b : broker) (W : str -> list msg) (R M : str -> list nat) : Prop :=
  (forall d, waiting b d = W d) /\ (forall d, ready b d = R d) /\ (forall d, members b d = M d).

Inductive serve_case (b : broker) (hp : sheap) : request -> broker -> sheap -> list pout -> Prop :=
| sv_wait s sb b' : hp !! s = Some sb -> is_queue (s_dest sb) = true -> waiting b (s_dest sb) = [] -> s_inlist sb = false ->
    bis b' (waiting b) (fupd (s_dest sb) (ready b (s_dest sb) ++ [s]) (ready b)) (members b) ->
    serve_case b hp (RSubscribe s) b' (<[s := set_inlist sb true]> hp) []
| sv_get s sb b' m w : hp !! s = Some sb -> is_queue (s_dest sb) = true -> waiting b (s_dest sb) = m :: w -> s_frame sb = None ->
    bis b' (fupd (s_dest sb) w (waiting b)) (ready b) (members b) ->
    serve_case b hp (RSubscribe s) b' (<[s := set_frame sb (Some (with_sub m (s_id sb)))]> hp) [OutSub (s_conn sb) s (with_sub m (s_id sb))]
| sv_join s sb b' : hp !! s = Some sb -> is_queue (s_dest sb) = false ->
    bis b' (waiting b) (ready b) (fupd (s_dest sb) (members b (s_dest sb) ++ [s]) (members b)) ->
    serve_case b hp (RSubscribe s) b' hp []
| sv_unready s sb b' l1 l2 : hp !! s = Some sb -> is_queue (s_dest sb) = true -> ready b (s_dest sb) = l1 ++ s :: l2 ->
    bis b' (waiting b) (fupd (s_dest sb) (l1 ++ l2) (ready b)) (members b) ->
    serve_case b hp (RUnsubscribe s) b' (<[s := set_inlist sb false]> hp) []
| sv_unready_none s sb b' : hp !! s = Some sb -> is_queue (s_dest sb) = true -> s ∉ ready b (s_dest sb) ->
    bis b' (waiting b) (ready b) (members b) ->
    serve_case b hp (RUnsubscribe s) b' hp []
| sv_leave s sb b' l1 l2 : hp !! s = Some sb -> is_queue (s_dest sb) = false -> members b (s_dest sb) = l1 ++ s :: l2 ->
    bis b' (waiting b) (ready b) (fupd (s_dest sb) (l1 ++ l2) (members b)) ->
    serve_case b hp (RUnsubscribe s) b' hp []
| sv_leave_none s sb b' : hp !! s = Some sb -> is_queue (s_dest sb) = false -> s ∉ members b (s_dest sb) ->
    bis b' (waiting b) (ready b) (members b) ->
    serve_case b hp (RUnsubscribe s) b' hp []
| sv_enqueue m d b' : hget_of m h_destination = Some d -> is_queue d = true -> ready b d = [] ->
    bis b' (fupd d (waiting b d ++ [m]) (waiting b)) (ready b) (members b) ->
    serve_case b hp (REnqueue m) b' hp []
| sv_requeue m d b' : hget_of m h_destination = Some d -> is_queue d = true -> ready b d = [] ->
    bis b' (fupd d (m :: waiting b d) (waiting b)) (ready b) (members b) ->
    serve_case b hp (RRequeue m) b' hp []
| sv_hand r m d b' s l sb : r = REnqueue m \/ r = RRequeue m -> hget_of m h_destination = Some d -> is_queue d = true -> ready b d = s :: l ->
    hp !! s = Some sb -> s_frame sb = None ->
    bis b' (waiting b) (fupd d l (ready b)) (members b) ->
    serve_case b hp r b' (<[s := set_frame (set_inlist sb false) (Some (with_sub m (s_id sb)))]> hp) [OutSub (s_conn sb) s (with_sub m (s_id sb))]
| sv_topic m d outs : hget_of m h_destination = Some d -> is_queue d = false ->
    Forall2 (fun s o => exists sb, hp !! s = Some sb /\ s_frame sb = None /\ o = OutTopic (s_conn sb) (with_sub m (s_id sb))) (members b d) outs ->
    serve_case b hp (REnqueue m) b hp outs
| sv_drop m d : hget_of m h_destination = Some d -> is_queue d = false -> serve_case b hp (RRequeue m) b hp []
| sv_none r : (exists c, r = RConnected c \/ r = RDisconnected c) -> serve_case b hp r b hp [].

Lemma topic_all hp l m os : topic_send_all hp l m = Fine os ->
  Forall2 (fun s o => exists sb, hp !! s = Some sb /\ s_frame sb = None /\ o = OutTopic (s_conn sb) (with_sub m (s_id sb))) l os.
Proof.
  revert os. induction l as [|s l IH]; intros os; cbn; [intros [= <-]; constructor|].
  unfold send_topic_frame. destruct (hp !! s) as [sb|] eqn:Hs; [|done]. destruct (s_frame sb) eqn:Hf; [done|].
  destruct (topic_send_all hp l m) eqn:E; [done|]. intros [= <-]. constructor; [eauto|by apply IH].
Qed.
Lemma bis_ready st rd t (d : str) l : bis (mkBroker st (<[d := l]> rd) t) (mq_list st) (fupd d l (ready (mkBroker st rd t))) (members (mkBroker st rd t)).
Proof.
  split_and!; try done. intros d'. rewrite ready_mk. unfold fupd. by destruct (decide (d' = d)).
Qed.

Lemma insert_alter_same {A} (hp : gmap nat A) s f (x : A) : <[s := x]> (alter f s hp) = <[s := x]> hp.
Proof.
  apply map_eq. intros t. destruct (decide (t = s)) as [->|Hne]; [by rewrite !lookup_insert|].
  by rewrite !lookup_insert_ne, lookup_alter_ne.
Qed.
Lemma queue_send_cases put b hp r d m b' hp' outs : r = REnqueue m \/ r = RRequeue m -> hget_of m h_destination = Some d -> is_queue d = true ->
  queue_send put b hp d m = Fine (b', hp', outs) ->
  (ready b d = [] /\ b' = mkBroker (put (b_store b) d m) (b_ready b) (b_topics b) /\ hp' = hp /\ outs = []) \/ serve_case b hp r b' hp' outs.
Proof.
  intros Hr Hd Hq. unfold queue_send, sl_get. destruct (ready b d) as [|s l] eqn:Hrd; [intros [= <- <- <-]; by left|].
  unfold send_queue_frame. rewrite lookup_alter. destruct (hp !! s) as [sb|] eqn:Hs; [|done]. cbn. destruct (s_frame sb) eqn:Hf; [done|].
  rewrite insert_alter_same. intros [= <- <- <-]. right. eapply (sv_hand b hp r m d _ s l sb); try done. destruct b as [st rd t]. apply bis_ready.
Qed.

Lemma serve_cases b hp r b' hp' outs : serve b hp r = Fine (b', hp', outs) -> serve_case b hp r b' hp' outs.
Proof.
  destruct r as [s|s|m|m|c|c]; cbn [serve].
  - destruct (hp !! s) as [sb|] eqn:Hs; [|done]. destruct (is_queue (s_dest sb)) eqn:Hq.
    + unfold queue_subscribe. destruct (mq_dequeue (b_store b) (s_dest sb)) as [st [m|]] eqn:Hdq;
        destruct (mq_dequeue_spec _ _ _ _ Hdq) as [Hoth Hm].
      * unfold send_queue_frame. rewrite Hs. destruct (s_frame sb) eqn:Hf; [done|]. intros [= <- <- <-].
        eapply (sv_get b hp s sb _ m (mq_list st (s_dest sb))); try done. split_and!; try done. intros d. unfold fupd, waiting. cbn.
        destruct (decide (d = s_dest sb)) as [->|Hne]; [done|]. by apply Hoth.
      * destruct Hm as [Hm ->]. unfold sl_add. rewrite Hs. destruct (s_inlist sb) eqn:Hl; [done|]. intros [= <- <- <-].
        eapply sv_wait; try done. destruct b as [st0 rd t]. apply bis_ready.
    + intros [= <- <- <-]. eapply sv_join; try done. unfold topic_subscribe. split_and!; try done.
      intros d. rewrite members_mk. unfold fupd. by destruct (decide (d = s_dest sb)).
  - destruct (hp !! s) as [sb|] eqn:Hs; [|done]. destruct (is_queue (s_dest sb)) eqn:Hq.
    + unfold queue_unsubscribe, sl_remove. destruct (remove_first s (ready b (s_dest sb))) as [l|] eqn:Hr; intros [= <- <- <-].
      * apply remove_first_Some in Hr as (l1 & l2 & H1 & -> & _).
        assert (alter (fun sb0 => set_inlist sb0 false) s hp = <[s := set_inlist sb false]> hp) as ->.
        { apply map_eq. intros x. destruct (decide (x = s)) as [->|Hne]; [by rewrite lookup_alter, lookup_insert, Hs|].
          by rewrite lookup_alter_ne, lookup_insert_ne. }
        eapply sv_unready; try done. destruct b as [st0 rd t]. apply bis_ready.
      * apply remove_first_None in Hr. eapply sv_unready_none; try done. split_and!; try done. intros d. rewrite ready_mk.
        destruct (decide (d = s_dest sb)) as [->|]; done.
    + unfold topic_unsubscribe. destruct (remove_first s (members b (s_dest sb))) as [l|] eqn:Hr; intros [= <- <- <-].
      * apply remove_first_Some in Hr as (l1 & l2 & H1 & -> & _). eapply sv_leave; try done. split_and!; try done.
        intros d. rewrite members_mk. unfold fupd. by destruct (decide (d = s_dest sb)).
      * apply remove_first_None in Hr. eapply sv_leave_none; try done. split_and!; try done. intros d. rewrite members_mk.
        destruct (decide (d = s_dest sb)) as [->|]; done.
  - destruct (hd_contains (f_hdr (g_frame m)) h_destination) as [d|] eqn:Hd; [|done]. destruct (is_queue d) eqn:Hq.
    + intros H. apply (queue_send_cases _ _ _ (REnqueue m)) in H as [(Hrd & -> & -> & ->)|H]; [|done|auto|done|done].
      eapply sv_enqueue; try done. split_and!; try done. intros d'. unfold waiting. cbn. apply mq_list_enqueue.
    + destruct (topic_send_all hp (members b d) m) as [p|os] eqn:E; [done|]. intros [= <- <- <-]. eapply sv_topic; try done. by apply topic_all.
  - destruct (hd_contains (f_hdr (g_frame m)) h_destination) as [d|] eqn:Hd; [|done]. destruct (is_queue d) eqn:Hq.
    + intros H. apply (queue_send_cases _ _ _ (RRequeue m)) in H as [(Hrd & -> & -> & ->)|H]; [|done|auto|done|done].
      eapply sv_requeue; try done. split_and!; try done. intros d'. unfold waiting. cbn. apply mq_list_requeue.
    + intros [= <- <- <-]. by eapply sv_drop.
  - intros [= <- <- <-]. apply sv_none. eauto.
  - intros [= <- <- <-]. apply sv_none. eauto.
Qed.

(* ------------------------------------------------------------------ *)
(** Actions by cases. *)
Definition taken (n1 : sconn) (i : cin) (o : iout) : sconn :=
  mkSconn (if i_stop o then set_tx (i_c o) ∅ else i_c o) (if i_stop o then CDiscard1 else Running) (n_read n1) (n_eof n1) (n_write n1) (n_sub n1)
    (i_push o) (n_log n1 ++ [mkCev i (i_wr o) (i_push o) (i_stop o)]).

(** What a cleanup step does: nothing but its phase or writeChannel, or one
    request. *)
Inductive clean_case (cid : nat) (n : sconn) (hp : sheap) : sconn -> sheap -> Prop :=
| cc_discard l p m : n_write n = m :: l -> p = n_phase n -> clean_case cid n hp (with_write n l) hp
| cc_skip p p' : n_phase n = p -> (p = CDiscard1 /\ p' = CUnsub /\ n_write n = [] \/ p = CUnsub /\ p' = CRequeue /\ k_subs (n_c n) = ∅ \/
      p = CRequeue /\ p' = CDiscard2 /\ k_sublist (n_c n) = [] \/
      p = CDiscard2 /\ p' = CDrain1 /\ n_write n = [] \/ p = CDrain1 /\ p' = CTell /\ n_sub n = [] \/
      p = CDiscard3 /\ p' = CDrain2 /\ n_write n = [] \/ p = CDrain2 /\ p' = Dead /\ n_sub n = []) ->
    clean_case cid n hp (with_phase n p') hp
| cc_unsub id s : n_phase n = CUnsub -> k_subs (n_c n) !! id = Some s ->
    clean_case cid n hp (with_out (with_c n (set_subs (n_c n) (delete id (k_subs (n_c n))))) [RUnsubscribe s]) hp
| cc_requeue s l sb m : n_phase n = CRequeue -> k_sublist (n_c n) = s :: l -> hp !! s = Some sb -> s_frame sb = Some m ->
    clean_case cid n hp (with_out (with_c n (set_sublist (n_c n) l)) [RRequeue m]) (<[s := set_inlist sb false]> hp)
| cc_drain s l sb m : n_phase n = CDrain1 \/ n_phase n = CDrain2 -> n_sub n = s :: l -> hp !! s = Some sb -> s_frame sb = Some m ->
    clean_case cid n hp (with_out (with_sub_ch n l) [RRequeue m]) hp
| cc_tell : n_phase n = CTell -> clean_case cid n hp (with_out (with_phase n CDiscard3) [RDisconnected cid]) hp.

Inductive move (cfg : scfg) (y : sys) : sys -> Prop :=
| mv_accept : move cfg y (mkSys (y_conns y ++ [sconn_init]) (y_heap y) (y_next y) (y_uid y) (y_req y) (y_broker y) (y_pout y) (y_blog y) (y_fin y) (y_lost y))
| mv_recv c n f : y_conns y !! c = Some n -> n_eof n = false ->
    move cfg y (mkSys (<[c := mkSconn (n_c n) (n_phase n) (n_read n ++ [mkMsg (y_uid y) f]) (n_eof n) (n_write n) (n_sub n) (n_out n) (n_log n)]> (y_conns y))
                (y_heap y) (y_next y) (S (y_uid y)) (y_req y) (y_broker y) (y_pout y) (y_blog y) (y_fin y) (y_lost y))
| mv_eof c n : y_conns y !! c = Some n ->
    move cfg y (set_conn y c (mkSconn (n_c n) (n_phase n) (n_read n) true (n_write n) (n_sub n) (n_out n) (n_log n)))
| mv_take c n x w1 w2 i n1 o : y_conns y !! c = Some n -> n_phase n = Running -> n_out n = [] -> take_input n x = Some (i, n1) ->
    conn_iter cfg c w1 w2 (n_c n) (y_heap y) (y_next y) i = Fine o ->
    move cfg y (mkSys (<[c := taken n1 i o]> (y_conns y)) (i_hp o) (i_next o) (y_uid y) (y_req y) (y_broker y) (y_pout y) (y_blog y)
                      (y_fin y ++ finals (y_heap y) (i_push o)) (y_lost y ++ losses (y_heap y) i (i_stop o)))
| mv_push c n r rs : y_conns y !! c = Some n -> n_out n = r :: rs -> length (y_req y) < cap_req ->
    move cfg y (mkSys (<[c := with_out n rs]> (y_conns y)) (y_heap y) (y_next y) (y_uid y) (y_req y ++ [r]) (y_broker y) (y_pout y) (y_blog y) (y_fin y) (y_lost y))
| mv_clean c n n' hp' : y_conns y !! c = Some n -> n_out n = [] -> n_phase n <> Running -> n_phase n <> Dead -> clean_case c n (y_heap y) n' hp' ->
    move cfg y (mkSys (<[c := n']> (y_conns y)) hp' (y_next y) (y_uid y) (y_req y) (y_broker y) (y_pout y) (y_blog y) (y_fin y) (y_lost y))
| mv_proc r rs b hp outs : y_pout y = [] -> y_req y = r :: rs -> serve (y_broker y) (y_heap y) r = Fine (b, hp, outs) ->
    move cfg y (mkSys (y_conns y) hp (y_next y) (y_uid y) rs b outs (y_blog y ++ [(r, outs)]) (y_fin y) (y_lost y))
| mv_out_sub c s m os n : y_pout y = OutSub c s m :: os -> y_conns y !! c = Some n -> length (n_sub n) < cap_write ->
    move cfg y (mkSys (<[c := with_sub_ch n (n_sub n ++ [s])]> (y_conns y)) (y_heap y) (y_next y) (y_uid y) (y_req y) (y_broker y) os (y_blog y) (y_fin y) (y_lost y))
| mv_out_topic c m os n : y_pout y = OutTopic c m :: os -> y_conns y !! c = Some n -> length (n_write n) < cap_write ->
    move cfg y (mkSys (<[c := with_write n (n_write n ++ [m])]> (y_conns y)) (y_heap y) (y_next y) (y_uid y) (y_req y) (y_broker y) os (y_blog y) (y_fin y) (y_lost y)).

Lemma drain_cases cid n hp next n' : n_phase n = CDrain1 /\ next = CTell \/ n_phase n = CDrain2 /\ next = Dead ->
  drain_step n hp next = Fine n' -> clean_case cid n hp n' hp.
Proof.
  intros Hp. unfold drain_step. destruct (n_sub n) as [|s l] eqn:Hs.
  - intros [= <-]. eapply cc_skip; [done|]. intuition.
  - destruct (hp !! s) as [sb|] eqn:E; [|done]. destruct (s_frame sb) as [m|] eqn:Hm; [|done]. intros [= <-].
    eapply cc_drain; try done. intuition.
Qed.
Lemma discard_cases cid n hp next : n_phase n = CDiscard1 /\ next = CUnsub \/ n_phase n = CDiscard2 /\ next = CDrain1 \/ n_phase n = CDiscard3 /\ next = CDrain2 ->
  clean_case cid n hp (discard_step n next) hp.
Proof.
  intros Hp. unfold discard_step. destruct (n_write n) as [|m l] eqn:Hw; [|by eapply cc_discard]. eapply cc_skip; [done|]. intuition.
Qed.
Lemma clean_cases cid n hp pick n' hp' : clean_step cid n hp pick = Some (Fine (n', hp')) -> clean_case cid n hp n' hp'.
Proof.
  unfold clean_step. destruct (n_phase n) eqn:Hp; try done.
  - intros [= <- <-]. apply discard_cases. auto.
  - destruct (decide (k_subs (n_c n) = ∅)) as [He|He].
    + intros [= <- <-]. eapply cc_skip; [done|]. intuition.
    + destruct (k_subs (n_c n) !! pick) as [s|] eqn:Hk; [|done]. intros [= <- <-]. by eapply cc_unsub.
  - unfold sl_get. destruct (k_sublist (n_c n)) as [|s l] eqn:Hl.
    + intros [= <- <-]. eapply cc_skip; [done|]. intuition.
    + rewrite lookup_alter. destruct (hp !! s) as [sb|] eqn:Hs; cbn; [|done]. destruct (s_frame sb) as [m|] eqn:Hm; [|done]. intros [= <- <-].
      assert (alter (fun sb0 => set_inlist sb0 false) s hp = <[s := set_inlist sb false]> hp) as ->.
      { apply map_eq. intros x. destruct (decide (x = s)) as [->|Hne]; [by rewrite lookup_alter, lookup_insert, Hs|].
        by rewrite lookup_alter_ne, lookup_insert_ne. }
      by eapply cc_requeue.
  - intros [= <- <-]. apply discard_cases. auto.
  - destruct (drain_step n hp CTell) as [p|n0] eqn:E; [done|]. intros [= <- <-]. eapply drain_cases; [|done]. auto.
  - intros [= <- <-]. by apply cc_tell.
  - intros [= <- <-]. apply discard_cases. auto.
  - destruct (drain_step n hp Dead) as [p|n0] eqn:E; [done|]. intros [= <- <-]. eapply drain_cases; [|done]. auto.
Qed.

Lemma fine_Some {A} (o : option A) y : fine o = Some (Fine y) -> o = Some y.
Proof. destruct o; cbn; congruence. Qed.
Lemma idle_true n : idle n = true <-> n_out n = [].
Proof. unfold idle. by destruct (n_out n). Qed.
Lemma step_move cfg y a y' : step cfg y a = Some (Fine y') -> move cfg y y'.
Proof.
  destruct a as [|c f|c|c x w1 w2|c|c pick| |]; cbn [step].
  - intros [= <-]. apply mv_accept.
  - intros H%fine_Some. unfold do_recv in H. destruct (y_conns y !! c) as [n|] eqn:Hn; [|done]. destruct (n_eof n) eqn:He; [done|].
    destruct (decide _); [|done]. injection H as <-. rewrite <-He. by apply mv_recv.
  - intros H%fine_Some. unfold do_eof in H. destruct (y_conns y !! c) as [n|] eqn:Hn; [|done]. destruct (n_eof n) eqn:He; [done|].
    injection H as <-. by apply mv_eof.
  - unfold do_take. destruct (y_conns y !! c) as [n|] eqn:Hn; [|done]. destruct (n_phase n) eqn:Hp; try done.
    destruct (idle n) eqn:Hi; [|done]. apply idle_true in Hi. destruct (take_input n x) as [[i n1]|] eqn:Ht; [|done].
    destruct (conn_iter cfg c w1 w2 (n_c n) (y_heap y) (y_next y) i) as [p|o] eqn:Ho; [done|]. intros [= <-].
    by eapply mv_take.
  - intros H%fine_Some. unfold do_push in H. destruct (y_conns y !! c) as [n|] eqn:Hn; [|done]. destruct (n_out n) as [|r rs] eqn:He; [done|].
    destruct (decide _); [|done]. injection H as <-. by apply mv_push.
  - unfold do_clean. destruct (y_conns y !! c) as [n|] eqn:Hn; [|done]. destruct (idle n) eqn:Hi; [|done]. apply idle_true in Hi.
    destruct (clean_step c n (y_heap y) pick) as [[p|[n' hp']]|] eqn:E; [done| |done]. intros [= <-]. eapply mv_clean; try done.
    + intros Hp. unfold clean_step in E. by rewrite Hp in E.
    + intros Hp. unfold clean_step in E. by rewrite Hp in E.
    + by eapply clean_cases.
  - unfold do_proc. destruct (y_pout y) eqn:Ho; [|done]. destruct (y_req y) as [|r rs] eqn:Hr; [done|].
    destruct (serve (y_broker y) (y_heap y) r) as [p|[[b hp] outs]] eqn:E; [done|]. intros [= <-]. by apply mv_proc.
  - intros H%fine_Some. unfold do_out in H. destruct (y_pout y) as [|o os] eqn:Ho; [done|].
    destruct o as [c s m|c m]; (destruct (y_conns y !! c) as [n|] eqn:Hn; [|done]); (destruct (decide _); [|done]); injection H as <-.
    + by eapply mv_out_sub.
    + by eapply mv_out_topic.
Qed.
Lemma reach_ind' cfg (P : sys -> Prop) : P sys_init -> (forall y y', reach cfg y -> P y -> move cfg y y' -> P y') -> forall y, reach cfg y -> P y.
Proof. intros H0 HS y H. induction H; [done|]. eapply HS; [done|done|]. by eapply step_move. Qed.
