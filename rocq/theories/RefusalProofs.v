(** The server refuses a frame exactly for the reasons of RefusalSpec. *)
From Verif Require Import GoBase HeaderModel FrameModel GrammarSpec HeaderProofs NegotiationModel NegotiationSpec NegotiationProofs NegotiationLemmas
  BrokerModel ServerConnModel ServerConnSpec ServerConnProofs RefusalSpec.

(** The decision in terms of the connection's state. *)
Definition tx_verdict (c : cst) (m : msg) : option str :=
  match hd_contains (hdr m) h_transaction with
  | None => None
  | Some t => match k_tx c !! t with Some _ => None | None => Some e_txUnknown end
  end.
Definition verdict (cfg : scfg) (c : cst) (m : msg) : option str :=
  if negb (k_connected c) then
    if decide (cmd_of m = CONNECT \/ cmd_of m = STOMP) then match handle_connect cfg (g_frame m) with inl e => Some e | inr _ => None end
    else Some e_notConnected
  else if decide (cmd_of m = COMMIT) then
    match hd_contains (hdr m) h_transaction with None => Some (e_missingHeader h_transaction) | Some _ => tx_verdict c m end
  else if decide (cmd_of m = CONNECT \/ cmd_of m = STOMP) then Some e_unexpectedCommand
  else if decide (cmd_of m = DISCONNECT) then None
  else if decide (cmd_of m = BEGIN) then
    match hd_contains (hdr m) h_transaction with None => Some (e_missingHeader h_transaction)
    | Some t => match k_tx c !! t with Some _ => Some e_txAlreadyInProgress | None => None end end
  else if decide (cmd_of m = ABORT) then
    match hd_contains (hdr m) h_transaction with None => Some (e_missingHeader h_transaction) | Some _ => tx_verdict c m end
  else if decide (cmd_of m = SEND) then tx_verdict c m
  else if decide (cmd_of m = SUBSCRIBE) then
    match hd_contains (hdr m) h_id with None => Some (e_missingHeader h_id)
    | Some id => match hd_contains (hdr m) h_destination with None => Some (e_missingHeader h_destination)
      | Some _ => match k_subs c !! id with Some _ => Some e_subscriptionExists | None => None end end end
  else if decide (cmd_of m = UNSUBSCRIBE) then
    match hd_contains (hdr m) h_id with None => Some (e_missingHeader h_id)
    | Some id => match k_subs c !! id with Some _ => None | None => Some e_subscriptionNotFound end end
  else if decide (cmd_of m = ACK) then match ack_id m with inl e => Some e | inr _ => tx_verdict c m end
  else if decide (cmd_of m = NACK) then match ack_id m with inl e => Some e | inr _ => tx_verdict c m end
  else if decide (cmd_of m = MESSAGE \/ cmd_of m = RECEIPT \/ cmd_of m = ERROR) then Some e_unexpectedCommand
  else Some e_unknownCommand.

Definition receipts_fine (ws : list wr) : Prop := forall x b, (Some x, b) ∈ ws -> cmd_of x = RECEIPT -> b = true.
Lemma fine_or_failed w m :
  (send_receipt w m = (no_receipt m, receipt_wr w m, true) /\ receipts_fine (receipt_wr w m)) \/
  (~ receipts_fine (receipt_wr w m) /\ send_receipt w m = (no_receipt m, receipt_wr w m, false)).
Proof.
  unfold send_receipt, receipt_wr, no_receipt in *. destruct (hd_contains (hdr m) h_receipt) as [r|] eqn:E.
  - destruct w; [left|right].
    + split; [done|]. intros x b [= -> ->]%elem_of_list_singleton _. done.
    + split; [|done]. intros H. by specialize (H _ _ ltac:(left) eq_refl).
  - left. rewrite hd_del_absent, with_hdr_id by done. split; [done|]. by intros x b ?%elem_of_nil.
Qed.
Lemma fine_nil : receipts_fine [].
Proof. by intros x b ?%elem_of_nil. Qed.

Lemma state_func_verdict cfg cid w c hp nx m o : tx_ok c -> state_func cfg cid w c hp nx m = Fine o ->
  receipts_fine (o_wr o) -> o_err o = verdict cfg c m.
Proof.
  intros Htx. unfold state_func, verdict, state_plain. change (f_cmd (g_frame m)) with (cmd_of m).
  destruct (k_connected c) eqn:Hc; cbn [andb negb].
  2:{ destruct (decide (_ \/ _)); [|by intros [= <-]]. unfold h_connect. by destruct (handle_connect cfg (g_frame m)); intros [= <-]. }
  destruct (decide (cmd_of m = COMMIT)) as [Hcm|Hcm].
  { rewrite bool_decide_eq_true_2 by done. unfold h_commit, tx_verdict.
    destruct (hd_contains (hdr m) h_transaction) as [t|] eqn:Ht; [|by intros [= <-]].
    destruct (fine_or_failed w m) as [[-> Hf]|[Hf ->]]; cbn [negb]; [|intros [= <-]; cbn; intros; done].
    destruct (k_tx c !! t) as [l|] eqn:Hl; [|by intros [= <-]].
    pose proof (commit_loop_eq cfg cid w t l c hp nx (Htx _ _ Hl) Hc) as H.
    destruct (replay hp (k_sublist c) l) as [p|[[hp' sl] rs]]; [by rewrite H|]. destruct H as [m0 ->]. by intros [= <-]. }
  rewrite bool_decide_eq_false_2 by done.
  destruct (decide (cmd_of m = CONNECT \/ cmd_of m = STOMP)); [by intros [= <-]|].
  destruct (decide (cmd_of m = DISCONNECT)).
  { unfold h_disconnect. destruct (send_receipt w m) as [[m' ws] ok]. by intros [= <-]. }
  destruct (decide (cmd_of m = BEGIN)).
  { unfold h_begin. destruct (hd_contains (hdr m) h_transaction) as [t|] eqn:Ht; [|by intros [= <-]].
    destruct (fine_or_failed w m) as [[-> Hf]|[Hf ->]]; cbn [negb]; [|intros [= <-]; cbn; intros; done].
    by destruct (k_tx c !! t); intros [= <-]. }
  destruct (decide (cmd_of m = ABORT)).
  { unfold h_abort, tx_verdict. destruct (hd_contains (hdr m) h_transaction) as [t|] eqn:Ht; [|by intros [= <-]].
    destruct (fine_or_failed w m) as [[-> Hf]|[Hf ->]]; cbn [negb]; [|intros [= <-]; cbn; intros; done].
    by destruct (k_tx c !! t); intros [= <-]. }
  destruct (decide (cmd_of m = SEND)).
  { unfold h_send, tx_verdict.
    destruct (fine_or_failed w m) as [[-> Hf]|[Hf ->]]; cbn [negb]; [|intros [= <-]; cbn; intros; done].
    rewrite hdr_no_receipt_tx. destruct (hd_contains (hdr m) h_transaction) as [t|] eqn:Ht; [|by intros [= <-]].
    unfold tx_add. by destruct (k_tx c !! t); intros [= <-]. }
  destruct (decide (cmd_of m = SUBSCRIBE)).
  { unfold h_subscribe. destruct (hd_contains (hdr m) h_id) as [id|]; [|by intros [= <-]].
    destruct (hd_contains (hdr m) h_destination); [|by intros [= <-]]. by destruct (k_subs c !! id); intros [= <-]. }
  destruct (decide (cmd_of m = UNSUBSCRIBE)).
  { unfold h_unsubscribe. destruct (hd_contains (hdr m) h_id) as [id|]; [|by intros [= <-]]. by destruct (k_subs c !! id); intros [= <-]. }
  assert (HA : forall sl, h_acknack sl w c hp nx m = Fine o -> receipts_fine (o_wr o) ->
    o_err o = match ack_id m with inl e => Some e | inr _ => tx_verdict c m end).
  { intros sl. unfold h_acknack, tx_verdict. destruct (ack_id m) as [e|k]; [by intros [= <-]|].
    destruct (fine_or_failed w m) as [[-> Hf]|[Hf ->]]; cbn [negb]; [|intros [= <-]; cbn; intros; done].
    rewrite hdr_no_receipt_tx. destruct (hd_contains (hdr m) h_transaction) as [t|].
    - unfold tx_add. by destruct (k_tx c !! t); intros [= <-].
    - destruct (sl hp (k_sublist c) k) as [p|[[hp' rest] rs]]; [done|]. by intros [= <-]. }
  destruct (decide (cmd_of m = ACK)); [apply HA|]. destruct (decide (cmd_of m = NACK)); [apply HA|].
  destruct (decide (_ \/ _)); by intros [= <-].
Qed.

(** A RECEIPT that cannot be written ends the session (except for DISCONNECT). *)
Lemma state_func_failed cfg cid w c hp nx m o : tx_ok c -> state_func cfg cid w c hp nx m = Fine o ->
  o_err o = None -> cmd_of m <> DISCONNECT -> receipts_fine (o_wr o).
Proof.
  intros Htx. unfold state_func, state_plain. change (f_cmd (g_frame m)) with (cmd_of m).
  destruct (k_connected c) eqn:Hc; cbn [andb negb].
  2:{ destruct (decide (_ \/ _)); [|by intros [= <-]]. unfold h_connect. destruct (handle_connect cfg (g_frame m)) as [e|r] eqn:Hh; [by intros [= <-]|].
      intros [= <-] _ _. cbn. apply handle_connect_iff in Hh as (_ & _ & _ & cx & cy & mn & cx' & cy' & _ & _ & _ & _ & _ & ->).
      intros x b [= -> ->]%elem_of_list_singleton. by intros [=]. }
  destruct (bool_decide (cmd_of m = COMMIT)) eqn:Hcm.
  { unfold h_commit.
    destruct (hd_contains (hdr m) h_transaction) as [t|] eqn:Ht; [|by intros [= <-]].
    destruct (fine_or_failed w m) as [[-> Hf]|[Hf ->]]; cbn [negb]; [|by intros [= <-]].
    destruct (k_tx c !! t) as [l|] eqn:Hl; [|by intros [= <-]].
    pose proof (commit_loop_eq cfg cid w t l c hp nx (Htx _ _ Hl) Hc) as H.
    destruct (replay hp (k_sublist c) l) as [p|[[hp' sl] rs]]; [by rewrite H|]. destruct H as [m0 ->]. intros [= <-] _ _. cbn. by rewrite app_nil_r. }
  destruct (decide (cmd_of m = CONNECT \/ cmd_of m = STOMP)); [by intros [= <-]|].
  destruct (decide (cmd_of m = DISCONNECT)); [by intros|].
  destruct (decide (cmd_of m = BEGIN)).
  { unfold h_begin. destruct (hd_contains (hdr m) h_transaction) as [t|] eqn:Ht; [|by intros [= <-]].
    destruct (fine_or_failed w m) as [[-> Hf]|[Hf ->]]; cbn [negb]; [|by intros [= <-]].
    by destruct (k_tx c !! t); intros [= <-]. }
  destruct (decide (cmd_of m = ABORT)).
  { unfold h_abort. destruct (hd_contains (hdr m) h_transaction) as [t|] eqn:Ht; [|by intros [= <-]].
    destruct (fine_or_failed w m) as [[-> Hf]|[Hf ->]]; cbn [negb]; [|by intros [= <-]].
    by destruct (k_tx c !! t); intros [= <-]. }
  destruct (decide (cmd_of m = SEND)).
  { unfold h_send.
    destruct (fine_or_failed w m) as [[-> Hf]|[Hf ->]]; cbn [negb]; [|by intros [= <-]].
    rewrite hdr_no_receipt_tx. destruct (hd_contains (hdr m) h_transaction) as [t|] eqn:Ht; [|by intros [= <-]].
    unfold tx_add. by destruct (k_tx c !! t); intros [= <-]. }
  destruct (decide (cmd_of m = SUBSCRIBE)).
  { unfold h_subscribe. destruct (hd_contains (hdr m) h_id) as [id|]; [|by intros [= <-]].
    destruct (hd_contains (hdr m) h_destination); [|by intros [= <-]].
    destruct (k_subs c !! id); intros [= <-] _ _; apply fine_nil. }
  destruct (decide (cmd_of m = UNSUBSCRIBE)).
  { unfold h_unsubscribe. destruct (hd_contains (hdr m) h_id) as [id|]; [|by intros [= <-]].
    destruct (k_subs c !! id); intros [= <-] _ _; apply fine_nil. }
  assert (HA : forall sl, h_acknack sl w c hp nx m = Fine o -> o_err o = None -> cmd_of m <> DISCONNECT -> receipts_fine (o_wr o)).
  { intros sl. unfold h_acknack. destruct (ack_id m) as [e|k]; [by intros [= <-]|].
    destruct (fine_or_failed w m) as [[-> Hf]|[Hf ->]]; cbn [negb]; [|by intros [= <-]].
    rewrite hdr_no_receipt_tx. destruct (hd_contains (hdr m) h_transaction) as [t|].
    - unfold tx_add. by destruct (k_tx c !! t); intros [= <-].
    - destruct (sl hp (k_sublist c) k) as [p|[[hp' rest] rs]]; [done|]. by intros [= <-]. }
  destruct (decide (cmd_of m = ACK)); [apply HA|]. destruct (decide (cmd_of m = NACK)); [apply HA|].
  destruct (decide (_ \/ _)); by intros [= <-].
Qed.

(** The reasons of the negotiation. *)
Lemma connect_refused_iff cfg f txt : f_cmd f = CONNECT \/ f_cmd f = STOMP ->
  connect_refused cfg f txt <-> handle_connect cfg f = inl txt.
Proof.
  intros Hcmd. split.
  - intros H. unfold handle_connect.
    assert (HC : no_entry (f_hdr f) (lit "receipt") -> hd_contains (f_hdr f) h_receipt = None) by apply hd_contains_None.
    destruct H as [r Hr|Hn Ha|Hn Ha Hc Hv|Hn Ha Hc Hv|av Hn Ha Hv Hh|av Hn Ha Hv Hh|v Hn Ha Hv Hh].
    + apply hd_contains_Some in Hr. change (lit "receipt") with h_receipt in Hr. by rewrite Hr.
    + rewrite (HC Hn). rewrite accepted_credentials_iff in Ha. by destruct (cfg_authenticate _ _ _).
    + rewrite (HC Hn). rewrite accepted_credentials_iff in Ha. rewrite Ha. cbn [negb].
      assert (determine_version f = inr (lit "1.0")) as -> by (apply determine_version_iff; auto). done.
    + rewrite (HC Hn). rewrite accepted_credentials_iff in Ha. rewrite Ha. cbn [negb].
      unfold determine_version. apply hd_contains_None in Hv. change (lit "accept-version") with h_accept_version in Hv. rewrite Hv.
      rewrite Hc. done.
    + rewrite (HC Hn). rewrite accepted_credentials_iff in Ha. rewrite Ha. cbn [negb].
      destruct (determine_version f) as [e|v] eqn:E.
      * unfold determine_version in E. destruct (decide _) as [Hx|_]; [naive_solver|].
        apply hd_contains_Some in Hv. change (lit "accept-version") with h_accept_version in Hv. rewrite Hv in E.
        destruct (fold_left _ _ _); [done|]. by injection E as <-.
      * exfalso. apply determine_version_iff in E as [(_ & av' & Hav & Hx)|(_ & Hx & _)].
        -- rewrite (first_entry_fun _ _ _ _ Hav Hv) in Hx. by eapply Hh.
        -- apply hd_contains_None in Hx. apply hd_contains_Some in Hv. assert (None = Some av) by exact (eq_trans (eq_sym Hx) Hv). done.
    + rewrite (HC Hn). rewrite accepted_credentials_iff in Ha. rewrite Ha. cbn [negb].
      assert (determine_version f = inr (lit "1.0")) as -> by (apply determine_version_iff; left; eauto). done.
    + rewrite (HC Hn). rewrite accepted_credentials_iff in Ha. rewrite Ha. cbn [negb].
      destruct Hv as (Hc & Hav & Hv). assert (determine_version f = inr v) as -> by (apply determine_version_iff; left; eauto).
      rewrite decide_False by (destruct Hv as [-> | ->]; neq_lits).
      destruct (get_heart_beat f) as [e|[cx cy]] eqn:E.
      * unfold get_heart_beat in E. destruct (decide _) as [Hx|_]; [naive_solver|].
        destruct (hd_contains (f_hdr f) h_heart_beat); [|done]. destruct (hb_regexp _ _); [|by injection E as <-].
        destruct (split_on _ _) as [|? [|? ?]]; [by injection E as <-|by injection E as <-|done].
      * exfalso. apply (Hh cx cy). by apply get_heart_beat_iff.
  - unfold handle_connect. destruct (hd_contains (f_hdr f) h_receipt) as [r|] eqn:Hr.
    { intros [= <-]. eapply cr_receipt. by apply hd_contains_Some. }
    apply hd_contains_None in Hr. pose proof (accepted_credentials_iff cfg f) as Ha.
    destruct (cfg_authenticate _ _ _); cbn [negb].
    2:{ intros [= <-]. apply cr_credentials; [done|]. by intros ?%Ha. }
    assert (accepted_credentials cfg f) as Hacc by by apply Ha. clear Ha.
    destruct (determine_version f) as [e|v] eqn:Hv.
    + intros [= <-]. unfold determine_version in Hv. destruct (decide _) as [Hx|_]; [naive_solver|].
      destruct (hd_contains (f_hdr f) h_accept_version) as [av|] eqn:Hav.
      * destruct (fold_left _ _ _) eqn:Hfold; [done|]. injection Hv as <-. eapply cr_unknown; [done|done|by apply hd_contains_Some|].
        intros v Hhv. assert (determine_version f = inr v) as E.
        { apply determine_version_iff. left. split; [done|]. exists av. split; [|done]. by apply hd_contains_Some. }
        unfold determine_version in E. destruct (decide _) as [Hx|_]; [done|]. by rewrite Hav, Hfold in E.
      * destruct (decide (f_cmd f = CONNECT)) as [Hx|Hx]; [done|]. injection Hv as <-. destruct Hcmd as [?|Hs]; [done|].
        apply cr_missing; try done. by apply hd_contains_None.
    + destruct (decide (v = V10)) as [->|Hne].
      * intros [= <-]. apply determine_version_iff in Hv as [(_ & av & Hav & Hhv)|(Hc & Hn & _)].
        -- by eapply cr_old.
        -- by apply cr_silent.
      * destruct (get_heart_beat f) as [e|[cx cy]] eqn:E; [|done]. intros [= <-].
        assert (Hreq : forall cx cy, ~ requested f cx cy).
        { intros cx cy Hreq. apply get_heart_beat_iff in Hreq; [congruence|done]. }
        replace e with (lit "invalid format for heart-beat").
        { eapply (cr_heart_beat _ _ v); try done. apply determine_version_iff in Hv as [[Hc (av & H1 & H2)]|(_ & _ & ->)]; [|done].
          split; [done|]. split; [eauto|]. apply highest_cases in H2 as [->|?]; done. }
        unfold get_heart_beat in E. destruct (decide _) as [Hx|_]; [naive_solver|].
        destruct (hd_contains (f_hdr f) h_heart_beat); [|done]. destruct (hb_regexp _ _); [|by injection E as <-].
        destruct (split_on _ _) as [|? [|? ?]]; [by injection E as <-|by injection E as <-|done].
Qed.

Lemma established_iff cfg cid id_of ack_of log c st : cexec cfg cid id_of ack_of log c st -> established log <-> k_connected c = true.
Proof.
  intros H. induction H as [|log c hp nx w1 w2 i o H IH Hk Hf Hi Hk'].
  - split; [|done]. intros (e & m & ?%elem_of_nil & _). done.
  - assert (established (log ++ [mkCev i (i_wr o) (i_push o) (i_stop o)]) <->
            established log \/ (i_stop o = false /\ exists m, i = InFrame m)) as ->.
    { unfold established. split.
      - intros (e & m & [He|He%elem_of_list_singleton]%elem_of_app & Ha); [left; eauto|]. right. subst e.
        unfold accepted in Ha. cbn in Ha. destruct (i_stop o); [done|]. split; [done|]. unfold client_frame in Ha. cbn in Ha.
        destruct i; try done. by eexists.
      - intros [(e & m & He & Ha)|(Hs & m & ->)].
        + exists e, m. split; [by apply elem_of_app; left|done].
        + eexists _, m. split; [apply elem_of_app; right; by apply elem_of_list_singleton|]. unfold accepted. cbn. by rewrite Hs. }
    rewrite IH. destruct (classic_in i) as [[m ->]|Hni].
    + pose proof (conn_iter_frame cfg cid w1 w2 c hp nx m (cexec_tx_ok _ _ _ _ _ _ _ H)) as Hc. rewrite Hi in Hc.
      inversion Hc; subst; cbn; naive_solver.
    + assert (k_connected (i_c o) = k_connected c) as ->; [|naive_solver].
      destruct i as [m| |m|s|]; [by edestruct Hni| | | |].
      * by injection Hi as <-.
      * cbn in Hi. destruct (alloc_id _ _ _). by injection Hi as <-.
      * pose proof (conn_iter_sub cfg cid w1 w2 c hp nx s) as Hc. rewrite Hi in Hc. by inversion Hc.
      * cbn in Hi. by injection Hi as <-.
Qed.

Lemma ack_id_text m : ack_id m = match ack_text m with
  | None => inl (e_missingHeader h_message_id)
  | Some v => match parse_uint 64 v with Some n => inr n | None => inl e_number end end.
Proof. done. Qed.
Lemma names_text m n : names m n <-> exists v, ack_text m = Some v /\ parse_uint 64 v = Some n.
Proof.
  unfold names, ack_text. split.
  - intros (v & Hp & [Ha|[Ha Hm]]); exists v; by rewrite ?Ha.
  - intros (v & Ha & Hp). exists v. split; [done|]. destruct (hget_of m (lit "ack")); [left; congruence|by right].
Qed.

Ltac mem := repeat match goal with H : _ \/ _ |- _ => destruct H | H : _ /\ _ |- _ => destruct H | H : False |- _ => destruct H end; auto.
(** The verdict on a frame of a connected client, per command. *)
Lemma verdict_connected cfg c m : k_connected c = true ->
  (cmd_of m ∈ [CONNECT; STOMP; MESSAGE; RECEIPT; ERROR] -> verdict cfg c m = Some e_unexpectedCommand) /\
  (cmd_of m = DISCONNECT -> verdict cfg c m = None) /\
  (cmd_of m = BEGIN -> verdict cfg c m = match hd_contains (hdr m) h_transaction with None => Some (e_missingHeader h_transaction)
    | Some t => match k_tx c !! t with Some _ => Some e_txAlreadyInProgress | None => None end end) /\
  (cmd_of m ∈ [COMMIT; ABORT] -> verdict cfg c m = match hd_contains (hdr m) h_transaction with None => Some (e_missingHeader h_transaction)
    | Some _ => tx_verdict c m end) /\
  (cmd_of m = SEND -> verdict cfg c m = tx_verdict c m) /\
  (cmd_of m = SUBSCRIBE -> verdict cfg c m = match hd_contains (hdr m) h_id with None => Some (e_missingHeader h_id)
    | Some id => match hd_contains (hdr m) h_destination with None => Some (e_missingHeader h_destination)
      | Some _ => match k_subs c !! id with Some _ => Some e_subscriptionExists | None => None end end end) /\
  (cmd_of m = UNSUBSCRIBE -> verdict cfg c m = match hd_contains (hdr m) h_id with None => Some (e_missingHeader h_id)
    | Some id => match k_subs c !! id with Some _ => None | None => Some e_subscriptionNotFound end end) /\
  (cmd_of m ∈ [ACK; NACK] -> verdict cfg c m = match ack_id m with inl e => Some e | inr _ => tx_verdict c m end) /\
  (cmd_of m ∉ [CONNECT; STOMP; MESSAGE; RECEIPT; ERROR; DISCONNECT; BEGIN; COMMIT; ABORT; SEND; SUBSCRIBE; UNSUBSCRIBE; ACK; NACK] ->
     verdict cfg c m = Some e_unknownCommand).
Proof.
  intros Hk. unfold verdict. rewrite Hk. cbn [negb].
  split_and!; try (intros H; rewrite !elem_of_cons, elem_of_nil in H; repeat (destruct H as [H|H]); try done; rewrite H; done);
    try (intros ->; done).
  intros H. rewrite !not_elem_of_cons in H. destruct H as (? & ? & ? & ? & ? & ? & ? & ? & ? & ? & ? & ? & ? & ? & _).
  rewrite !decide_False by (try assumption; intros Hor; repeat (destruct Hor as [Hor|Hor]; [by auto|]); by auto). done.
Qed.

Lemma refused_verdict cfg cid id_of ack_of log c m txt : cexec cfg cid id_of ack_of log c false ->
  refused cfg log m txt <-> verdict cfg c m = Some txt.
Proof.
  intros He. pose proof (established_iff _ _ _ _ _ _ _ He) as Hest.
  pose proof (fun t => tx_collected _ _ _ _ _ _ _ He t) as Htx. pose proof (subs_live _ _ _ _ _ _ _ He) as Hsub.
  destruct (k_connected c) eqn:Hk.
  - assert (established log) as Hy by by apply Hest. clear Hest.
    destruct (verdict_connected cfg c m Hk) as (V1 & V2 & V3 & V4 & V5 & V6 & V7 & V8 & V9).
    change (hd_contains (hdr m) h_transaction) with (hget_of m (lit "transaction")) in *.
    change (hd_contains (hdr m) h_id) with (hget_of m (lit "id")) in *.
    change (hd_contains (hdr m) h_destination) with (hget_of m (lit "destination")) in *.
    assert (HT : forall t, hget_of m (lit "transaction") = Some t ->
      tx_verdict c m = match collected t log with None => Some e_txUnknown | Some _ => None end).
    { intros t Ht. unfold tx_verdict. change (hd_contains (hdr m) h_transaction) with (hget_of m (lit "transaction")).
      rewrite Ht, Htx. by destruct (collected t log). }
    assert (HT0 : hget_of m (lit "transaction") = None -> tx_verdict c m = None).
    { intros Ht. unfold tx_verdict. change (hd_contains (hdr m) h_transaction) with (hget_of m (lit "transaction")). by rewrite Ht. }
    split.
    + intros [txt' Hn Hc Hr|Hn Hc|_ Hc|_ Hc|_ Hc Ht|t l _ Hc Ht Hl|t _ Hc Ht Hl|_ Hc Ha|v _ Hc Ha Hp|t n _ Hc Ha Ht Hl|_ Hc Hi
        |id _ Hc Hi Hd|id d s _ Hc Hi Hd Hs|id _ Hc Hi Hs]; try done.
      * by rewrite V1.
      * by rewrite V9.
      * rewrite elem_of_cons in Hc. destruct Hc as [Hc|Hc]; [rewrite (V3 Hc)|rewrite (V4 Hc)]; by rewrite Ht.
      * rewrite (V3 Hc), Ht, Htx, Hl. done.
      * assert (cmd_of m ∈ [COMMIT; ABORT] \/ cmd_of m = SEND) as [Hc'|Hc'].
        { rewrite !elem_of_cons in Hc. rewrite !elem_of_cons. destruct Hc as [Hc|[Hc|[Hc|Hc]]]; auto. }
        -- by rewrite (V4 Hc'), Ht, (HT _ Ht), Hl.
        -- by rewrite (V5 Hc'), (HT _ Ht), Hl.
      * by rewrite (V8 Hc), ack_id_text, Ha.
      * by rewrite (V8 Hc), ack_id_text, Ha, Hp.
      * apply names_text in Ha as (v & Ha & Hp). by rewrite (V8 Hc), ack_id_text, Ha, Hp, (HT _ Ht), Hl.
      * rewrite !elem_of_cons in Hc. destruct Hc as [Hc|[Hc|Hc]]; [rewrite (V6 Hc)|rewrite (V7 Hc)|by apply elem_of_nil in Hc]; by rewrite Hi.
      * by rewrite (V6 Hc), Hi, Hd.
      * by rewrite (V6 Hc), Hi, Hd, Hsub, Hs.
      * by rewrite (V7 Hc), Hi, Hsub, Hs.
    + intros H.
      destruct (decide (cmd_of m ∈ [CONNECT; STOMP; MESSAGE; RECEIPT; ERROR])) as [Hc|N1].
      { rewrite (V1 Hc) in H. injection H as <-. by apply rf_unexpected. }
      destruct (decide (cmd_of m = DISCONNECT)) as [Hc|N2]; [by rewrite (V2 Hc) in H|].
      destruct (decide (cmd_of m = BEGIN)) as [Hc|N3].
      { rewrite (V3 Hc) in H. destruct (hget_of m (lit "transaction")) as [t|] eqn:Ht.
        - rewrite Htx in H. destruct (collected t log) as [l|] eqn:Hl; [|done]. injection H as <-. by eapply rf_open.
        - injection H as <-. apply rf_no_transaction; [done| |done]. rewrite Hc. left. }
      destruct (decide (cmd_of m ∈ [COMMIT; ABORT])) as [Hc|N4].
      { rewrite (V4 Hc) in H. rewrite !elem_of_cons, elem_of_nil in Hc. destruct (hget_of m (lit "transaction")) as [t|] eqn:Ht.
        - rewrite (HT _ eq_refl) in H. destruct (collected t log) as [l|] eqn:Hl; [done|]. injection H as <-.
          eapply rf_not_open; [done| |done|done]. rewrite !elem_of_cons. mem.
        - injection H as <-. apply rf_no_transaction; [done| |done]. rewrite !elem_of_cons. mem. }
      destruct (decide (cmd_of m = SEND)) as [Hc|N5].
      { rewrite (V5 Hc) in H. destruct (hget_of m (lit "transaction")) as [t|] eqn:Ht; [|by rewrite (HT0 eq_refl) in H].
        rewrite (HT _ eq_refl) in H. destruct (collected t log) as [l|] eqn:Hl; [done|]. injection H as <-.
        eapply rf_not_open; [done| |done|done]. rewrite !elem_of_cons. mem. }
      destruct (decide (cmd_of m = SUBSCRIBE)) as [Hc|N6].
      { rewrite (V6 Hc) in H. destruct (hget_of m (lit "id")) as [id|] eqn:Hi.
        - destruct (hget_of m (lit "destination")) as [d|] eqn:Hd; [|injection H as <-; by eapply rf_no_destination].
          rewrite Hsub in H. destruct (live id log) as [s|] eqn:Hs; [|done]. injection H as <-. by eapply rf_taken.
        - injection H as <-. apply rf_no_id; [done| |done]. rewrite Hc. left. }
      destruct (decide (cmd_of m = UNSUBSCRIBE)) as [Hc|N7].
      { rewrite (V7 Hc) in H. destruct (hget_of m (lit "id")) as [id|] eqn:Hi.
        - rewrite Hsub in H. destruct (live id log) as [s|] eqn:Hs; [done|]. injection H as <-. by eapply rf_not_taken.
        - injection H as <-. apply rf_no_id; [done| |done]. rewrite Hc. right. left. }
      destruct (decide (cmd_of m ∈ [ACK; NACK])) as [Hc|N8].
      { rewrite (V8 Hc), ack_id_text in H. destruct (ack_text m) as [v|] eqn:Ha; [|injection H as <-; by apply rf_no_message].
        destruct (parse_uint 64 v) as [n|] eqn:Hp; [|injection H as <-; by eapply rf_number].
        destruct (hget_of m (lit "transaction")) as [t|] eqn:Ht; [|by rewrite (HT0 eq_refl) in H].
        rewrite (HT _ eq_refl) in H. destruct (collected t log) as [l|] eqn:Hl; [done|]. injection H as <-.
        eapply (rf_ack_not_open _ _ _ t n); try done. apply names_text. eauto. }
      assert (Hc : cmd_of m ∉ [CONNECT; STOMP; MESSAGE; RECEIPT; ERROR; DISCONNECT; BEGIN; COMMIT; ABORT; SEND; SUBSCRIBE; UNSUBSCRIBE; ACK; NACK]).
      { rewrite !not_elem_of_cons in N1. rewrite !not_elem_of_cons in N4. rewrite !not_elem_of_cons in N8. rewrite !not_elem_of_cons. destruct N1 as (? & ? & ? & ? & ? & _), N4 as (? & ? & _), N8 as (? & ? & _).
        split_and!; try assumption. apply not_elem_of_nil. }
      rewrite (V9 Hc) in H. injection H as <-. by apply rf_unknown.
  - assert (~ established log) as Hn by (intros ?%Hest; done). clear Hest.
    unfold verdict. rewrite Hk. cbn [negb]. split.
    + intros [txt' _ Hc Hr|_ Hc|Hy Hc|Hy Hc|Hy Hc Ht|t l Hy Hc Ht Hl|t Hy Hc Ht Hl|Hy Hc Ha|v Hy Hc Ha Hp|t n Hy Hc Ha Ht Hl|Hy Hc Hi
        |id Hy Hc Hi Hd|id d s Hy Hc Hi Hd Hs|id Hy Hc Hi Hs]; try done.
      * rewrite !elem_of_cons, elem_of_nil in Hc. assert (cmd_of m = CONNECT \/ cmd_of m = STOMP) as Hc' by mem.
        rewrite decide_True by done. apply connect_refused_iff in Hr; [|done]. by rewrite Hr.
      * rewrite decide_False; [done|]. rewrite !not_elem_of_cons in Hc. destruct Hc as (? & ? & _). intros [?|?]; auto.
    + destruct (decide (cmd_of m = CONNECT \/ cmd_of m = STOMP)) as [Hc|Hc].
      * destruct (handle_connect cfg (g_frame m)) as [e|r] eqn:Hh; [|done]. intros [= <-]. apply rf_connect; [done| |].
        -- rewrite !elem_of_cons. mem.
        -- by apply connect_refused_iff.
      * intros [= <-]. apply rf_first; [done|]. rewrite !not_elem_of_cons. split_and!; [by intros ?; apply Hc; left|by intros ?; apply Hc; right|]. apply not_elem_of_nil.
Qed.

(** The last write of an iteration with its reason. *)
Lemma refused_exact cfg cid id_of ack_of pre e post c st m : cexec cfg cid id_of ack_of (pre ++ e :: post) c st -> v_in e = InFrame m ->
  receipts_fine (v_wr e) ->
  (v_stop e = true <-> exists txt, refused cfg pre m txt) /\
  (forall txt, refused cfg pre m txt -> exists before err w, v_wr e = before ++ [(Some err, w)] /\
     cmd_of err = ERROR /\ hget_of err (lit "message") = Some txt).
Proof.
  intros H Hin Hf. apply cexec_event in H as (c0 & hp & nx & w1 & w2 & o & He & _ & _ & Hi & _ & Hev & _ & _).
  rewrite Hin in Hi. rewrite Hev in Hf |- *. cbn [v_wr v_stop] in *.
  assert (Hv : forall txt, refused cfg pre m txt <-> verdict cfg c0 m = Some txt) by (intros txt; by eapply refused_verdict).
  pose proof (cexec_tx_ok _ _ _ _ _ _ _ He) as Htx.
  cbn [conn_iter] in Hi. destruct (state_func cfg cid w1 c0 hp nx m) as [p|h] eqn:Hs; [done|].
  pose proof (state_func_verdict _ _ _ _ _ _ _ _ Htx Hs) as Hver.
  destruct (o_err h) as [x|] eqn:Hx; injection Hi as <-; cbn [i_wr i_stop] in *.
  - assert (receipts_fine (o_wr h)) as Hfh by (intros y b Hy; apply Hf; apply elem_of_app; by left). specialize (Hver Hfh).
    split.
    + split; [|done]. intros _. exists x. by apply Hv.
    + intros txt Ht%Hv. rewrite <-Hver in Ht. injection Ht as <-. eexists _, _, _. by split_and!.
  - specialize (Hver Hf). split.
    + split; [done|]. intros [txt Ht%Hv]. congruence.
    + intros txt Ht%Hv. congruence.
Qed.
Lemma failed_receipt cfg cid id_of ack_of pre e post c st m rc : cexec cfg cid id_of ack_of (pre ++ e :: post) c st -> v_in e = InFrame m ->
  (Some rc, false) ∈ v_wr e -> cmd_of rc = RECEIPT -> cmd_of m <> DISCONNECT -> v_stop e = true.
Proof.
  intros H Hin Hw Hrc Hd. apply cexec_event in H as (c0 & hp & nx & w1 & w2 & o & He & _ & _ & Hi & _ & Hev & _ & _).
  rewrite Hin in Hi. rewrite Hev in Hw |- *. cbn [v_wr v_stop] in *.
  pose proof (cexec_tx_ok _ _ _ _ _ _ _ He) as Htx.
  cbn [conn_iter] in Hi. destruct (state_func cfg cid w1 c0 hp nx m) as [p|h] eqn:Hs; [done|].
  destruct (o_err h) as [x|] eqn:Hx; injection Hi as <-; cbn [i_wr i_stop] in *; [done|].
  exfalso. pose proof (state_func_failed _ _ _ _ _ _ _ _ Htx Hs Hx Hd _ _ Hw Hrc). done.
Qed.
Lemma refused_unique cfg cid id_of ack_of log c m t1 t2 : cexec cfg cid id_of ack_of log c false ->
  refused cfg log m t1 -> refused cfg log m t2 -> t1 = t2.
Proof. intros He H1 H2. apply (refused_verdict _ _ _ _ _ _ _ _ He) in H1, H2. congruence. Qed.

(** What an iteration does with what the broker hands over. *)
Lemma same_alloc n a m n' m' : f_cmd (g_frame m) = MESSAGE -> alloc_id n a m = (n', m') -> same_message m m'.
Proof.
  intros Hc Ha. destruct (alloc_id_cmd _ _ _ _ _ Ha) as [H1 H2]. destruct (alloc_id_message _ _ _ _ _ Hc Ha) as (_ & _ & _ & _ & Hb & Hh).
  split_and!; [done|done|done|]. intros k Hk. rewrite !not_elem_of_cons in Hk. destruct Hk as (? & ? & ? & _). by apply Hh.
Qed.
Lemma delivery_exact cfg cid id_of ack_of log c hp nx w1 w2 s sb m o : cexec cfg cid id_of ack_of log c false ->
  hp !! s = Some sb -> s_frame sb = Some m -> cmd_of m = MESSAGE ->
  conn_iter cfg cid w1 w2 c hp nx (InSub s) = Fine o ->
  match live (s_id sb) log with
  | None => i_wr o = [] /\ i_push o = [RRequeue m] /\ i_stop o = false
  | Some _ => exists m', same_message m m' /\ i_wr o = [(Some m', w1)] /\ i_stop o = negb w1 /\
      if w1 then
        if decide (s_ack sb = lit "auto") then i_push o = [RSubscribe s] /\ s_frame <$> i_hp o !! s = Some None
        else i_push o = [] /\ s_frame <$> i_hp o !! s = Some (Some m')
      else i_push o = [] /\ s_frame <$> i_hp o !! s = Some (Some m')
  end.
Proof.
  intros He Hs Hm Hc Hi. pose proof (conn_iter_sub cfg cid w1 w2 c hp nx s) as H. rewrite Hi in H.
  rewrite <-(subs_live _ _ _ _ _ _ _ He).
  inversion H as [|sb0 m0 E1 E2 E3|sb0 m0 s' n m' Ew E1 E2 E3 Ea|sb0 m0 s' n m' Ew E1 E2 E3 Ek Ea|sb0 m0 s' n m' Ew E1 E2 E3 Ek Ea El|]; subst;
    rewrite Hs in E1; injection E1 as <-; rewrite Hm in E2; injection E2 as <-; rewrite E3; cbn [i_wr i_push i_stop i_hp negb];
    [done|..]; exists m'; rewrite lookup_insert; (split; [by eapply same_alloc|]); (split; [done|]); (split; [done|]); try done.
  - rewrite decide_True by done. done.
  - rewrite decide_False by done. done.
Qed.
Lemma topic_exact cfg cid w1 w2 c hp nx m o : cmd_of m = MESSAGE -> conn_iter cfg cid w1 w2 c hp nx (InTopic m) = Fine o ->
  exists m', same_message m m' /\ i_wr o = [(Some m', w1)] /\ i_push o = [] /\ i_stop o = negb w1 /\ i_hp o = hp.
Proof.
  intros Hc. cbn [conn_iter]. destruct (alloc_id (k_last c) None m) as [n m'] eqn:Ha. intros [= <-]. exists m'.
  pose proof (same_alloc _ _ _ _ _ Hc Ha) as Hs. split_and!; try done. cbn [i_stop].
  destruct Hs as (Hm & _). rewrite bool_decide_eq_false_2; [by destruct w1|]. change (f_cmd (g_frame m')) with (cmd_of m'). rewrite Hm, Hc. neq_lits.
Qed.
Lemma subscribe_object cfg cid id_of ack_of log c hp nx w1 w2 m o : cexec cfg cid id_of ack_of log c false ->
  conn_iter cfg cid w1 w2 c hp nx (InFrame m) = Fine o -> cmd_of m = SUBSCRIBE -> i_stop o = false ->
  exists id d, hget_of m (lit "id") = Some id /\ hget_of m (lit "destination") = Some d /\
    i_push o = [RSubscribe nx] /\ i_wr o = [] /\
    i_hp o = <[nx := mkSub cid d id (default (lit "auto") (hget_of m (lit "ack"))) 0 false None]> hp.
Proof.
  intros He Hi Hcmd Hst. pose proof (conn_iter_frame cfg cid w1 w2 c hp nx m (cexec_tx_ok _ _ _ _ _ _ _ He)) as H. rewrite Hi in H.
  inversion H; subst; cbn [i_stop i_push i_hp i_wr] in *; try done; clash Hcmd.
  by eexists _, _.
Qed.
