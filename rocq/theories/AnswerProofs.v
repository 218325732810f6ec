From stdpp Require Import gmap.
From Verif Require Import GoBase HeaderModel FrameModel GrammarSpec HeaderProofs NegotiationModel NegotiationSpec NegotiationProofs NegotiationLemmas
  BrokerModel ServerConnModel ServerConnSpec ServerConnProofs SystemModel RefusalSpec RefusalProofs AnswerSpec.

Definition frames_of (l : list msg) : list frame := g_frame <$> l.
Definition abs (c : cst) : proto := mkProto (k_connected c) (frames_of <$> k_tx c) (dom (k_subs c)).
Definition wframes (l : list wr) : list frame := omap (fun x : wr => g_frame <$> fst x) l.

Lemma wframes_app a b : wframes (a ++ b) = wframes a ++ wframes b.
Proof. apply omap_app. Qed.
Lemma wframes_receipt w m : wframes (receipt_wr w m) = receipt_for (g_frame m).
Proof. unfold receipt_wr, receipt_for, hdr. change (lit "receipt") with h_receipt. by destruct (hd_contains (f_hdr (g_frame m)) h_receipt). Qed.
Lemma no_receipt_frame m : g_frame (no_receipt m) = without (lit "receipt") (g_frame m).
Proof. done. Qed.
Lemma error_frame_for e m : g_frame (error_frame e m) = error_for e (g_frame m).
Proof. done. Qed.
Lemma abs_tx c t : p_tx (abs c) !! t = frames_of <$> k_tx c !! t.
Proof. cbn. by rewrite lookup_fmap. Qed.
Lemma abs_sub c id : bool_decide (id ∈ p_subs (abs c)) = match k_subs c !! id with Some _ => true | None => false end.
Proof.
  cbn. destruct (k_subs c !! id) as [s|] eqn:E.
  - apply bool_decide_eq_true_2, elem_of_dom. by eexists.
  - apply bool_decide_eq_false_2. rewrite elem_of_dom. intros [? ?]. congruence.
Qed.
Lemma replay_publish l : forall hp sl hp' sl' rs, Forall stored_ok l -> replay hp sl l = Fine (hp', sl', rs) -> g_frame <$> enqueues rs = to_publish (g_frame <$> l).
Proof.
  induction l as [|m l IH]; intros hp sl hp' sl' rs Hl; cbn [replay]; [by intros [= <- <- <-]|].
  apply Forall_cons in Hl as [Hm Hl]. destruct (apply_one hp sl m) as [?|[[h1 s1] r1]] eqn:E1; [done|].
  destruct (replay h1 s1 l) as [?|[[h2 s2] r2]] eqn:E2; [done|]. intros [= <- <- <-].
  rewrite enqueues_app, fmap_app, (IH _ _ _ _ _ Hl E2). cbn [fmap list_fmap]. unfold to_publish at 2. cbn [omap list_omap].
  change (f_cmd (g_frame m)) with (cmd_of m). change (lit "SEND") with SEND. unfold apply_one in E1. destruct (decide (cmd_of m = SEND)).
  - by injection E1 as <- <- <-.
  - destruct (ack_id m); [by injection E1 as <- <- <-|]. apply sl_of_no_send in E1. by rewrite E1.
Qed.
Lemma abs_add_tx c t l : abs (set_tx c (<[t := l]> (k_tx c))) = with_tx (abs c) (<[t := frames_of l]> (p_tx (abs c))).
Proof. unfold abs, with_tx. cbn. by rewrite fmap_insert. Qed.
Lemma abs_del_tx c t : abs (set_tx c (delete t (k_tx c))) = with_tx (abs c) (delete t (p_tx (abs c))).
Proof. unfold abs, with_tx. cbn. by rewrite fmap_delete. Qed.
Lemma fine_app a b : receipts_fine (a ++ b) -> receipts_fine a.
Proof. intros H x w Hx. apply H. apply elem_of_app. by left. Qed.
Lemma send_receipt_fine w m rest : receipts_fine (receipt_wr w m ++ rest) -> send_receipt w m = (no_receipt m, receipt_wr w m, true).
Proof. intros Hf%fine_app. by destruct (fine_or_failed w m) as [[H _]|[H _]]. Qed.

(** The outcome of an iteration. *)
Definition outcome (o : iout) : reaction := (abs (i_c o), wframes (i_wr o), g_frame <$> enqueues (i_push o), i_stop o).
Definition finish (w2 : bool) (o : hout) : iout :=
  match o_err o with
  | None => mkIout (o_c o) (o_hp o) (o_next o) (o_wr o) (o_push o) false
  | Some e => mkIout (o_c o) (o_hp o) (o_next o) (o_wr o ++ [(Some (error_frame e (o_msg o)), w2)]) (o_push o) true
  end.
Lemma fine_finish w2 o : receipts_fine (i_wr (finish w2 o)) -> receipts_fine (o_wr o).
Proof. unfold finish. destruct (o_err o); cbn; [apply fine_app|done]. Qed.
Lemma out_reject w2 c hp nx m e : outcome (finish w2 (mkHout c hp nx [] [] m (Some e))) = refuse (abs c) (g_frame m) e.
Proof. done. Qed.
Lemma out_late w w2 c hp nx m e : outcome (finish w2 (mkHout c hp nx (receipt_wr w m) [] (no_receipt m) (Some e))) = refuse_late (abs c) (g_frame m) e.
Proof. unfold outcome, finish, refuse_late. cbn [o_err i_c i_wr i_push i_stop o_c o_wr o_push o_msg]. by rewrite wframes_app, wframes_receipt. Qed.
Lemma out_accept w w2 c hp nx m rs pub : g_frame <$> enqueues rs = pub ->
  outcome (finish w2 (mkHout c hp nx (receipt_wr w m) rs (no_receipt m) None)) = accept (abs c) (g_frame m) pub.
Proof. intros <-. unfold outcome, finish, accept. cbn [o_err i_c i_wr i_push i_stop o_c o_wr o_push o_msg]. by rewrite wframes_receipt. Qed.

Lemma later_case c m hp nx w w2 (go : pres hout) o pub :
  (match hd_contains (hdr (no_receipt m)) h_transaction with
   | Some t => match tx_add c t (no_receipt m) with
               | Some c' => done_ c' hp nx (receipt_wr w m) (no_receipt m)
               | None => fail c hp nx (receipt_wr w m) (no_receipt m) e_txUnknown
               end
   | None => go
   end) = Fine o ->
  (hd_contains (hdr m) h_transaction = None -> go = Fine o -> outcome (finish w2 o) = accept (abs c) (g_frame m) pub) ->
  to_publish [without (lit "receipt") (g_frame m)] = pub ->
  now_or_later (abs c) (g_frame m) = outcome (finish w2 o).
Proof.
  rewrite hdr_no_receipt_tx. unfold now_or_later. change (lit "transaction") with h_transaction. change (f_hdr (g_frame m)) with (hdr m).
  destruct (hd_contains (hdr m) h_transaction) as [t|] eqn:Ht.
  - intros H _ _. rewrite abs_tx. unfold tx_add in H. destruct (k_tx c !! t) as [l|] eqn:El; cbn [fmap option_fmap option_map].
    + injection H as <-. unfold done_. erewrite out_accept by reflexivity. rewrite abs_add_tx. unfold frames_of. by rewrite fmap_app.
    + injection H as <-. by rewrite out_late.
  - intros H HG <-. by rewrite HG.
Qed.

Lemma state_func_reacts cfg cid w w2 c hp nx m o : tx_ok c -> state_func cfg cid w c hp nx m = Fine o ->
  receipts_fine (o_wr o) -> react cfg (abs c) (g_frame m) = outcome (finish w2 o).
Proof.
  intros Htx. unfold state_func, react, state_plain, need_tx. change (f_cmd (g_frame m)) with (cmd_of m).
  change (lit "CONNECT") with CONNECT. change (lit "STOMP") with STOMP. change (lit "COMMIT") with COMMIT. change (lit "DISCONNECT") with DISCONNECT.
  change (lit "BEGIN") with BEGIN. change (lit "ABORT") with ABORT. change (lit "SEND") with SEND. change (lit "SUBSCRIBE") with SUBSCRIBE.
  change (lit "UNSUBSCRIBE") with UNSUBSCRIBE. change (lit "ACK") with ACK. change (lit "NACK") with NACK. change (lit "MESSAGE") with MESSAGE.
  change (lit "RECEIPT") with RECEIPT. change (lit "ERROR") with ERROR. change (lit "transaction") with h_transaction. change (lit "id") with h_id.
  change (lit "destination") with h_destination. change (lit "ack") with h_ack. change (lit "message-id") with h_message_id.
  change (f_hdr (g_frame m)) with (hdr m).
  rewrite <-!bool_decide_or. change (p_session (abs c)) with (k_connected c).
  destruct (k_connected c) eqn:Hc; cbn [andb negb].
  2:{ destruct (decide (cmd_of m = CONNECT \/ cmd_of m = STOMP)) as [E|E].
      - rewrite bool_decide_eq_true_2 by done. unfold h_connect. destruct (handle_connect cfg (g_frame m)) as [e|r]; intros [= <-] _; [done|].
        unfold outcome, abs. cbn. by rewrite ?Hc.
      - rewrite bool_decide_eq_false_2 by done. intros [= <-] _. done. }
  destruct (decide (cmd_of m = COMMIT)) as [Hcm|Hcm].
  { rewrite (bool_decide_eq_true_2 (cmd_of m = COMMIT)) by done. unfold h_commit.
    destruct (hd_contains (hdr m) h_transaction) as [t|] eqn:Ht; [|by intros [= <-]].
    destruct (fine_or_failed w m) as [[-> Hf]|[Hf ->]]; cbn [negb]; [|intros [= <-]; cbn; intros; done].
    rewrite abs_tx. destruct (k_tx c !! t) as [l|] eqn:Hl; cbn [fmap option_fmap option_map].
    2:{ intros [= <-] _. by rewrite out_late. }
    pose proof (commit_loop_eq cfg cid w t l c hp nx (Htx _ _ Hl) Hc) as H.
    destruct (replay hp (k_sublist c) l) as [p|[[hp' sl] rs]] eqn:Er; [by rewrite H|]. destruct H as [m0 ->]. intros [= <-] _.
    cbn [o_c o_hp o_next o_wr o_push o_err]. rewrite app_nil_r.
    erewrite out_accept by (eapply replay_publish; [by eapply Htx|exact Er]).
    change (abs (set_tx (set_sublist c sl) (delete t (k_tx c)))) with (abs (set_tx c (delete t (k_tx c)))).
    by rewrite (abs_del_tx c t). }
  rewrite (bool_decide_eq_false_2 (cmd_of m = COMMIT)) by done.
  destruct (decide (cmd_of m = CONNECT \/ cmd_of m = STOMP)) as [E|E].
  { rewrite bool_decide_eq_true_2 by done. by intros [= <-]. }
  rewrite (bool_decide_eq_false_2 (_ \/ _)) by done. clear E.
  destruct (decide (cmd_of m = DISCONNECT)) as [E|E].
  { rewrite bool_decide_eq_true_2 by done. unfold h_disconnect. destruct (send_receipt_eq w m) as (ok & -> & _). intros [= <-] _. by erewrite out_accept by reflexivity. }
  rewrite (bool_decide_eq_false_2 (cmd_of m = DISCONNECT)) by done. clear E.
  destruct (decide (cmd_of m = BEGIN)) as [E|E].
  { rewrite bool_decide_eq_true_2 by done. unfold h_begin. destruct (hd_contains (hdr m) h_transaction) as [t|] eqn:Ht; [|by intros [= <-]].
    destruct (fine_or_failed w m) as [[-> Hf]|[Hf ->]]; cbn [negb]; [|intros [= <-]; cbn; intros; done].
    rewrite abs_tx. destruct (k_tx c !! t) as [l|] eqn:Hl; cbn [fmap option_fmap option_map]; intros [= <-] _; [by rewrite out_late|].
    erewrite out_accept by reflexivity. by rewrite abs_add_tx. }
  rewrite (bool_decide_eq_false_2 (cmd_of m = BEGIN)) by done. clear E.
  destruct (decide (cmd_of m = ABORT)) as [E|E].
  { rewrite bool_decide_eq_true_2 by done. unfold h_abort. destruct (hd_contains (hdr m) h_transaction) as [t|] eqn:Ht; [|by intros [= <-]].
    destruct (fine_or_failed w m) as [[-> Hf]|[Hf ->]]; cbn [negb]; [|intros [= <-]; cbn; intros; done].
    rewrite abs_tx. destruct (k_tx c !! t) as [l|] eqn:Hl; cbn [fmap option_fmap option_map]; intros [= <-] _; [|by rewrite out_late].
    erewrite out_accept by reflexivity. by rewrite abs_del_tx. }
  rewrite (bool_decide_eq_false_2 (cmd_of m = ABORT)) by done. clear E.
  destruct (decide (cmd_of m = SEND)) as [E|E].
  { rewrite bool_decide_eq_true_2 by done. unfold h_send.
    destruct (fine_or_failed w m) as [[-> Hf]|[Hf ->]]; cbn [negb]; [|intros [= <-]; cbn; intros; done].
    intros H _. eapply later_case; [exact H| |reflexivity]. intros _ [= <-]. apply out_accept.
    unfold to_publish. cbn [omap list_omap]. change (f_cmd (without _ (g_frame m))) with (cmd_of m). by rewrite decide_True by exact E. }
  rewrite (bool_decide_eq_false_2 (cmd_of m = SEND)) by done.
  destruct (decide (cmd_of m = SUBSCRIBE)) as [E'|E'].
  { rewrite bool_decide_eq_true_2 by done. unfold h_subscribe. destruct (hd_contains (hdr m) h_id) as [id|]; [|by intros [= <-]].
    destruct (hd_contains (hdr m) h_destination); [|by intros [= <-]]. rewrite abs_sub. destruct (k_subs c !! id) eqn:Ek; intros [= <-] _; [done|].
    unfold outcome, abs. cbn. by rewrite Hc, dom_insert_L. }
  rewrite (bool_decide_eq_false_2 (cmd_of m = SUBSCRIBE)) by done. clear E'.
  destruct (decide (cmd_of m = UNSUBSCRIBE)) as [E'|E'].
  { rewrite bool_decide_eq_true_2 by done. unfold h_unsubscribe. destruct (hd_contains (hdr m) h_id) as [id|]; [|by intros [= <-]].
    rewrite abs_sub. destruct (k_subs c !! id) eqn:Ek; intros [= <-] _; [|done].
    unfold outcome, abs. cbn. by rewrite Hc, dom_delete_L. }
  rewrite (bool_decide_eq_false_2 (cmd_of m = UNSUBSCRIBE)) by done. clear E'.
  assert (HA : forall sl, (forall hp l n hp' rest rs, sl hp l n = Fine (hp', rest, rs) -> enqueues rs = []) -> h_acknack sl w c hp nx m = Fine o -> receipts_fine (o_wr o) ->
    match match hd_contains (hdr m) h_ack with Some v => Some v | None => hd_contains (hdr m) h_message_id end with
    | None => refuse (abs c) (g_frame m) (lit "missing header: message-id")
    | Some v => match parse_uint 64 v with None => refuse (abs c) (g_frame m) (lit "strconv.ParseUint") | Some _ => now_or_later (abs c) (g_frame m) end
    end = outcome (finish w2 o)).
  { intros sl Hsl. unfold h_acknack, ack_id.
    destruct (match hd_contains (hdr m) h_ack with Some v => Some v | None => hd_contains (hdr m) h_message_id end) as [v|]; [|by intros [= <-]].
    destruct (parse_uint 64 v) as [n|]; [|by intros [= <-]].
    destruct (fine_or_failed w m) as [[-> Hf]|[Hf ->]]; cbn [negb]; [|intros [= <-]; cbn; intros; done].
    intros H _. eapply later_case; [exact H| |].
    - intros _. destruct (sl hp (k_sublist c) n) as [p|[[hp' rest] rs]] eqn:Es; [done|]. intros [= <-].
      erewrite out_accept by reflexivity. rewrite (Hsl _ _ _ _ _ _ Es). done.
    - unfold to_publish. cbn [omap list_omap]. change (f_cmd (without _ (g_frame m))) with (cmd_of m). by rewrite decide_False by exact E. }
  destruct (decide (cmd_of m = ACK)) as [E'|E'].
  { rewrite bool_decide_eq_true_2 by (by left). apply HA. intros *. apply sl_ack_no_send. }
  destruct (decide (cmd_of m = NACK)) as [E''|E''].
  { rewrite bool_decide_eq_true_2 by (by right). apply HA. intros *. apply sl_nack_no_send. }
  rewrite (bool_decide_eq_false_2 (cmd_of m = ACK \/ _)) by tauto.
  destruct (decide (cmd_of m = MESSAGE \/ cmd_of m = RECEIPT \/ cmd_of m = ERROR)) as [F|F].
  - rewrite bool_decide_eq_true_2 by tauto. by intros [= <-].
  - rewrite bool_decide_eq_false_2 by tauto. by intros [= <-].
Qed.
Lemma frame_reacts cfg cid w1 w2 c hp nx m o : tx_ok c -> conn_iter cfg cid w1 w2 c hp nx (InFrame m) = Fine o ->
  receipts_fine (i_wr o) -> react cfg (abs c) (g_frame m) = outcome o.
Proof.
  cbn [conn_iter]. intros Htx. destruct (state_func cfg cid w1 c hp nx m) as [p|h] eqn:E; [done|]. intros H Hf.
  assert (o = finish w2 h) as -> by (unfold finish; destruct (o_err h); by injection H as <-).
  eapply state_func_reacts; [done|exact E|]. by eapply fine_finish.
Qed.

(** Whole histories. *)
Definition r_flag (r : reaction) : bool := snd r.
Lemma converse_app cfg l1 : forall p l2, converse cfg p (l1 ++ l2) =
  match converse cfg p l1 with
  | (p1, a, b, true) => (p1, a, b, true)
  | (p1, a, b, false) => let '(p2, a', b', e) := converse cfg p1 l2 in (p2, a ++ a', b ++ b', e)
  end.
Proof.
  induction l1 as [|f l1 IH]; intros p l2; cbn [converse app].
  - by destruct (converse cfg p l2) as [[[p2 a'] b'] e].
  - destruct (react cfg p f) as [[[p0 a0] b0] e0]. destruct e0; [done|]. rewrite IH.
    destruct (converse cfg p0 l1) as [[[p1 a1] b1] e1]. destruct e1; [done|].
    destruct (converse cfg p1 l2) as [[[p2 a2] b2] e2]. by rewrite !app_assoc.
Qed.
Lemma converse_one cfg p f : converse cfg p [f] = react cfg p f.
Proof. cbn [converse]. destruct (react cfg p f) as [[[p0 a0] b0] e0]. destruct e0; [done|]. by rewrite !app_nil_r. Qed.

Definition answers_in (l : list wr) : list frame :=
  omap (fun x : wr => match fst x with Some m => if decide (cmd_of m = lit "MESSAGE") then None else Some (g_frame m) | None => None end) l.
Lemma answered_snoc log e : answered (log ++ [e]) = answered log ++ answers_in (v_wr e).
Proof. unfold answered. rewrite wire_snoc. apply omap_app. Qed.
Lemma published_snoc log e : published (log ++ [e]) = published log ++ (g_frame <$> enqueues (v_push e)).
Proof. unfold published. rewrite fmap_app, concat_app, enqueues_app, fmap_app. cbn. by rewrite app_nil_r. Qed.
Lemma said_snoc log e : said (log ++ [e]) = said log ++ match client_frame e with Some m => [g_frame m] | None => [] end.
Proof. unfold said. rewrite omap_app. cbn. by destruct (client_frame e). Qed.
Lemma receipts_written_snoc log e : receipts_written (log ++ [e]) -> receipts_written log /\ receipts_fine (v_wr e).
Proof.
  unfold receipts_written, receipts_fine. rewrite wire_snoc. intros H. split; intros x b Hx; apply H; apply elem_of_app; [by left|by right].
Qed.
Lemma answers_in_frame cfg cid w1 w2 c hp nx m o : tx_ok c -> conn_iter cfg cid w1 w2 c hp nx (InFrame m) = Fine o -> answers_in (i_wr o) = wframes (i_wr o).
Proof.
  intros Htx Hi. pose proof (conn_iter_frame cfg cid w1 w2 c hp nx m Htx) as H. rewrite Hi in H.
  assert (HR : forall w, answers_in (receipt_wr w m) = wframes (receipt_wr w m)).
  { intros w. unfold receipt_wr. by destruct (hd_contains (hdr m) h_receipt). }
  assert (HA : forall a b, answers_in (a ++ b) = answers_in a ++ answers_in b) by (intros; apply omap_app).
  inversion H; subst; cbn [i_wr]; rewrite ?HA, ?wframes_app, ?HR; try done.
  all: try (by f_equal).
  match goal with Hh : handle_connect _ _ = inr _ |- _ => apply connected_cmd in Hh end.
  unfold answers_in. cbn [omap list_omap fst]. rewrite decide_False; [done|]. unfold cmd_of. cbn [g_frame]. by rewrite H3.
Qed.
Lemma other_quiet cfg cid w1 w2 c hp nx i o : (forall m, i <> InFrame m) -> from_broker hp i -> conn_iter cfg cid w1 w2 c hp nx i = Fine o ->
  abs (i_c o) = abs c /\ answers_in (i_wr o) = [] /\ enqueues (i_push o) = [].
Proof.
  intros Hni Hf Hi. destruct i as [m| |m|s|]; [by destruct (Hni m)| | | |].
  - cbn in Hi. by injection Hi as <-.
  - cbn in Hi, Hf. destruct (alloc_id (k_last c) None m) as [n m'] eqn:Ha. injection Hi as <-. apply alloc_id_cmd in Ha as [Ha _].
    split; [done|]. split; [|done]. unfold answers_in. cbn [omap list_omap fst i_wr]. rewrite decide_True; [done|]. rewrite Ha. done.
  - cbn in Hf. pose proof (conn_iter_sub cfg cid w1 w2 c hp nx s) as H. rewrite Hi in H.
    inversion H; subst; cbn [i_wr i_c i_push]; (split; [done|]); (split; [|done]); try done;
      match goal with Hq : alloc_id _ _ _ = _ |- _ => apply alloc_id_cmd in Hq as [Hq _];
        unfold answers_in; cbn [omap list_omap fst]; (rewrite decide_True; [done|]); rewrite Hq; by eapply Hf end.
  - cbn in Hi. by injection Hi as <-.
Qed.

Definition flag_of (st : bool) (log : list cev) (b : bool) : Prop := (b = true <-> refused_at_end log) /\ (b = true -> st = true).
Lemma history_reacts cfg cid id_of ack_of log c st : cexec cfg cid id_of ack_of log c st -> receipts_written log ->
  exists b, converse cfg proto_init (said log) = (abs c, answered log, published log, b) /\ flag_of st log b /\
    forall l f r, said log = l ++ f :: r -> r_flag (converse cfg proto_init l) = false.
Proof.
  induction 1 as [|log c hp nx w1 w2 i o He IH Hk Hf Hi Hk']; intros Hr.
  - exists false. split; [unfold abs; cbn; by rewrite fmap_empty, dom_empty_L|]. split; [|intros l f r Hl; cbn in Hl; by destruct l]. split; [|done]. split; [done|]. intros (pre & e & m & H & _). by destruct pre.
  - apply receipts_written_snoc in Hr as [Hr Hfi]. destruct (IH Hr) as (b & Hc & [Hb1 Hb2] & Hp).
    destruct b; [by specialize (Hb2 eq_refl)|]. cbn [v_wr] in Hfi. rewrite answered_snoc, published_snoc, said_snoc. cbn [v_wr v_push].
    assert (HE : refused_at_end (log ++ [mkCev i (i_wr o) (i_push o) (i_stop o)]) <-> (exists m, i = InFrame m) /\ i_stop o = true).
    { split.
      - intros (pre & e & m & [-> [= <-]]%app_inj_tail & H1 & H2). cbn in H1, H2. split; [by exists m|done].
      - intros [[m ->] ?]. eexists _, _, m. by split. }
    destruct (classic_in i) as [[m ->]|Hni].
    + cbn [client_frame v_in]. exists (i_stop o). rewrite converse_app, Hc, converse_one.
      pose proof (cexec_tx_ok _ _ _ _ _ _ _ He) as Htx.
      rewrite (frame_reacts _ _ _ _ _ _ _ _ _ Htx Hi Hfi). unfold outcome. rewrite (answers_in_frame _ _ _ _ _ _ _ _ _ Htx Hi).
      split; [done|]. split.
      * split; [|done]. rewrite HE. split; [intros ->; split; [by exists m|done]|by intros [_ ?]].
      * intros l f r Hl. destruct (decide (r = [])) as [->|Hne].
        -- apply app_inj_tail in Hl as [<- _]. by rewrite Hc.
        -- destruct (exists_last Hne) as (r' & z & ->). rewrite (app_comm_cons r' [z] f), app_assoc in Hl. apply app_inj_tail in Hl as [Hl _]. by eapply Hp.
    + destruct (other_quiet _ _ _ _ _ _ _ _ _ Hni Hf Hi) as (Ha & Hw & Hq).
      assert (client_frame (mkCev i (i_wr o) (i_push o) (i_stop o)) = None) as -> by (destruct i; try done; by destruct (Hni m)).
      exists false. rewrite Hw, Hq, Ha. cbn [fmap list_fmap]. rewrite !app_nil_r. split; [done|]. split; [|exact Hp].
      split; [|done]. rewrite HE. split; [done|]. intros [[m ->] _]. by destruct (Hni m).
Qed.
Lemma abs_subs c id : id ∈ p_subs (abs c) <-> is_Some (k_subs c !! id).
Proof. cbn. by rewrite elem_of_dom. Qed.

Lemma two_histories cfg cid1 cid2 i1 a1 i2 a2 log1 log2 c1 c2 st1 st2 :
  cexec cfg cid1 i1 a1 log1 c1 st1 -> cexec cfg cid2 i2 a2 log2 c2 st2 -> receipts_written log1 -> receipts_written log2 ->
  said log1 `prefix_of` said log2 ->
  answered log1 `prefix_of` answered log2 /\ published log1 `prefix_of` published log2 /\
  (refused_at_end log1 -> said log2 = said log1) /\
  (said log1 = said log2 -> answered log1 = answered log2 /\ published log1 = published log2 /\ (refused_at_end log1 <-> refused_at_end log2) /\
     forall id, is_Some (live id log1) <-> is_Some (live id log2)).
Proof.
  intros H1 H2 Hr1 Hr2 [l Hl]. destruct (history_reacts _ _ _ _ _ _ _ H1 Hr1) as (b1 & E1 & [F1 _] & _).
  destruct (history_reacts _ _ _ _ _ _ _ H2 Hr2) as (b2 & E2 & [F2 _] & P2).
  pose proof E2 as E3. rewrite Hl, converse_app, E1 in E3.
  split; [|split; [|split]].
  - destruct b1; [by injection E3 as _ _ _ -> _ _|]. destruct (converse cfg (abs c1) l) as [[[p a] b] e]. injection E3 as _ <- _ _. by eexists.
  - destruct b1; [by injection E3 as _ _ _ _ -> _|]. destruct (converse cfg (abs c1) l) as [[[p a] b] e]. injection E3 as _ _ <- _. by eexists.
  - intros Hb%F1. subst b1. destruct l as [|f l]; [by rewrite Hl, app_nil_r|]. specialize (P2 _ _ _ Hl). by rewrite E1 in P2.
  - intros Hq. rewrite <-Hq, E1 in E2. injection E2 as _ _ Ed Ea Ep <-. split; [done|]. split; [done|]. split; [by rewrite <-F1, <-F2|].
    intros id. rewrite <-(subs_live _ _ _ _ _ _ _ H1), <-(subs_live _ _ _ _ _ _ _ H2). rewrite <-!elem_of_dom. by rewrite Ed.
Qed.
