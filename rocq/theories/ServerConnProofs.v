From Verif Require Import GoBase HeaderModel FrameModel GrammarSpec HeaderProofs NegotiationModel NegotiationSpec NegotiationLemmas
  BrokerModel ServerConnModel ServerConnSpec.

Ltac neq_lits := apply (bool_decide_unpack _); vm_compute; exact I.

Global Arguments h_connect : simpl never.
Global Arguments state_plain : simpl never.
Global Arguments answers : simpl never.
Global Arguments frames_with : simpl never.
Global Arguments alloc_id : simpl never.

(** Closes goals where a frame has two commands. *)
Ltac clash H :=
  try (match goal with Hx : cmd_of _ = _ |- _ => rewrite H in Hx; discriminate Hx end);
  try (match goal with Hx : _ \/ (_ \/ _) /\ _ |- _ => destruct Hx as [Hx|[[Hx|Hx] _]]; rewrite H in Hx; discriminate Hx end);
  try (match goal with Hx : _ \/ _ |- _ => destruct Hx as [Hx|Hx]; rewrite H in Hx; discriminate Hx end).

(** The reply to a receipt header. *)
Definition receipt_wr (w : bool) (m : msg) : list wr :=
  match hd_contains (hdr m) h_receipt with
  | Some r => [(Some (mkMsg (g_uid m) (mkFrame RECEIPT [(h_receipt_id, r)] [])), w)]
  | None => []
  end.
Definition no_receipt (m : msg) : msg := with_hdr m (hd_del (hdr m) h_receipt).

Lemma hd_del_absent h k : hd_contains h k = None -> hd_del h k = h.
Proof. intros H. apply hd_del_none. by apply hd_contains_None. Qed.
Lemma with_hdr_id m : with_hdr m (hdr m) = m.
Proof. destruct m as [u [? ? ?]]. done. Qed.
Lemma send_receipt_eq w m : exists ok, send_receipt w m = (no_receipt m, receipt_wr w m, ok) /\ (w = true -> ok = true) /\
  (ok = false -> w = false /\ is_Some (hd_contains (hdr m) h_receipt)).
Proof.
  unfold send_receipt, receipt_wr, no_receipt. destruct (hd_contains (hdr m) h_receipt) as [r|] eqn:E.
  - exists w. split_and!; [done|done|]. intros ->. eauto.
  - exists true. rewrite hd_del_absent, with_hdr_id by done. done.
Qed.

(** Frames kept for a COMMIT. *)
Definition stored_ok (m : msg) : Prop :=
  hd_contains (hdr m) h_receipt = None /\ hd_contains (hdr m) h_transaction = None /\
  (cmd_of m = SEND \/ (cmd_of m = ACK \/ cmd_of m = NACK) /\ exists n, ack_id m = inr n).
Definition tx_ok (c : cst) : Prop := forall t l, k_tx c !! t = Some l -> Forall stored_ok l.

Definition sl_of (cmd : str) := if decide (cmd = ACK) then sl_ack else sl_nack.

(** What [state_plain] does to a connected client's frame, by cases. *)
Inductive plain_case (cfg : scfg) (cid : nat) (w : bool) (c : cst) (hp : sheap) (nx : nat) (m : msg) : pres hout -> Prop :=
| pc_reject e : plain_case cfg cid w c hp nx m (Fine (mkHout c hp nx [] [] m (Some e)))
| pc_reject_late e : answers (cmd_of m) = true ->
    plain_case cfg cid w c hp nx m (Fine (mkHout c hp nx (receipt_wr w m) [] (no_receipt m) (Some e)))
| pc_disconnect : cmd_of m = DISCONNECT ->
    plain_case cfg cid w c hp nx m (Fine (mkHout c hp nx (receipt_wr w m) [] (no_receipt m) None))
| pc_begin t : cmd_of m = BEGIN -> hd_contains (hdr m) h_transaction = Some t -> k_tx c !! t = None ->
    plain_case cfg cid w c hp nx m (Fine (mkHout (set_tx c (<[t := []]> (k_tx c))) hp nx (receipt_wr w m) [] (no_receipt m) None))
| pc_abort t l : cmd_of m = ABORT -> hd_contains (hdr m) h_transaction = Some t -> k_tx c !! t = Some l ->
    plain_case cfg cid w c hp nx m (Fine (mkHout (set_tx c (delete t (k_tx c))) hp nx (receipt_wr w m) [] (no_receipt m) None))
| pc_store t l m' : hd_contains (hdr m) h_transaction = Some t -> k_tx c !! t = Some l -> in_tx m = true ->
    m' = with_hdr m (hd_del (hd_del (hdr m) h_receipt) h_transaction) ->
    (cmd_of m = SEND \/ (cmd_of m = ACK \/ cmd_of m = NACK) /\ exists n, ack_id m = inr n) ->
    plain_case cfg cid w c hp nx m
      (Fine (mkHout (set_tx c (<[t := l ++ [m']]> (k_tx c))) hp nx (receipt_wr w m) [] (no_receipt m) None))
| pc_send : cmd_of m = SEND -> hd_contains (hdr m) h_transaction = None ->
    plain_case cfg cid w c hp nx m (Fine (mkHout c hp nx (receipt_wr w m) [REnqueue (as_message (no_receipt m))] (no_receipt m) None))
| pc_acknack n hp' rest rs : cmd_of m = ACK \/ cmd_of m = NACK -> hd_contains (hdr m) h_transaction = None -> ack_id m = inr n ->
    sl_of (cmd_of m) hp (k_sublist c) n = Fine (hp', rest, rs) ->
    plain_case cfg cid w c hp nx m (Fine (mkHout (set_sublist c rest) hp' nx (receipt_wr w m) rs (no_receipt m) None))
| pc_panic n p : cmd_of m = ACK \/ cmd_of m = NACK -> hd_contains (hdr m) h_transaction = None -> ack_id m = inr n ->
    sl_of (cmd_of m) hp (k_sublist c) n = Panicked p ->
    plain_case cfg cid w c hp nx m (Panicked p)
| pc_subscribe id dest : cmd_of m = SUBSCRIBE -> hd_contains (hdr m) h_id = Some id -> hd_contains (hdr m) h_destination = Some dest ->
    k_subs c !! id = None ->
    plain_case cfg cid w c hp nx m
      (Fine (mkHout (set_subs c (<[id := nx]> (k_subs c)))
         (<[nx := new_sub cid dest id (default ack_auto (hd_contains (hdr m) h_ack))]> hp) (S nx) [] [RSubscribe nx] m None))
| pc_unsubscribe id s : cmd_of m = UNSUBSCRIBE -> hd_contains (hdr m) h_id = Some id -> k_subs c !! id = Some s ->
    plain_case cfg cid w c hp nx m (Fine (mkHout (set_subs c (delete id (k_subs c))) hp nx [] [RUnsubscribe s] m None)).

Lemma hdr_no_receipt m k : k <> h_receipt -> hd_contains (hdr (no_receipt m)) k = hd_contains (hdr m) k.
Proof. intros H. unfold no_receipt. cbn. by apply hd_contains_del_other. Qed.
Lemma hdr_no_receipt_tx m : hd_contains (hdr (no_receipt m)) h_transaction = hd_contains (hdr m) h_transaction.
Proof. apply hdr_no_receipt. neq_lits. Qed.

Lemma h_acknack_case cfg cid w c hp nx m : cmd_of m = ACK \/ cmd_of m = NACK ->
  plain_case cfg cid w c hp nx m (h_acknack (sl_of (cmd_of m)) w c hp nx m).
Proof.
  intros Hcmd. assert (Hans : answers (cmd_of m) = true) by (destruct Hcmd as [-> | ->]; by vm_compute).
  assert (Htx : in_tx m = true) by (unfold in_tx; destruct Hcmd as [-> | ->]; by vm_compute).
  unfold h_acknack. destruct (ack_id m) as [e|n] eqn:Hid; [apply pc_reject|].
  destruct (send_receipt_eq w m) as (ok & -> & _ & _). destruct ok; cbn [negb]; [|by apply pc_reject_late].
  rewrite hdr_no_receipt_tx. destruct (hd_contains (hdr m) h_transaction) as [t|] eqn:Ht.
  - unfold tx_add. destruct (k_tx c !! t) as [l|] eqn:Hl; [|by apply pc_reject_late].
    eapply pc_store; eauto.
  - destruct (sl_of (cmd_of m) hp (k_sublist c) n) as [p|[[hp' rest] rs]] eqn:Hsl.
    + by eapply pc_panic.
    + by eapply pc_acknack.
Qed.

Lemma state_plain_case cfg cid w c hp nx m : k_connected c = true -> plain_case cfg cid w c hp nx m (state_plain cfg cid w c hp nx m).
Proof.
  intros Hc. unfold state_plain. rewrite Hc. cbn [negb]. change (f_cmd (g_frame m)) with (cmd_of m).
  assert (Hans : forall x, cmd_of m = x -> x ∈ [SEND; ACK; NACK; BEGIN; COMMIT; ABORT; DISCONNECT] -> answers (cmd_of m) = true).
  { intros x -> Hx. by apply bool_decide_eq_true_2. }
  destruct (decide (cmd_of m = CONNECT \/ cmd_of m = STOMP)); [apply pc_reject|].
  destruct (decide (cmd_of m = DISCONNECT)) as [Hcmd|_].
  { unfold h_disconnect. destruct (send_receipt_eq w m) as (ok & -> & _ & _). by apply pc_disconnect. }
  destruct (decide (cmd_of m = BEGIN)) as [Hcmd|_].
  { assert (answers (cmd_of m) = true) by (by rewrite Hcmd; vm_compute).
    unfold h_begin. destruct (hd_contains (hdr m) h_transaction) as [t|] eqn:Ht; [|apply pc_reject].
    destruct (send_receipt_eq w m) as (ok & -> & _ & _). destruct ok; cbn [negb]; [|by apply pc_reject_late].
    destruct (k_tx c !! t) eqn:Hl; [by apply pc_reject_late|]. by apply pc_begin. }
  destruct (decide (cmd_of m = ABORT)) as [Hcmd|_].
  { assert (answers (cmd_of m) = true) by (by rewrite Hcmd; vm_compute).
    unfold h_abort. destruct (hd_contains (hdr m) h_transaction) as [t|] eqn:Ht; [|apply pc_reject].
    destruct (send_receipt_eq w m) as (ok & -> & _ & _). destruct ok; cbn [negb]; [|by apply pc_reject_late].
    destruct (k_tx c !! t) eqn:Hl; [by eapply pc_abort|by apply pc_reject_late]. }
  destruct (decide (cmd_of m = SEND)) as [Hcmd|_].
  { assert (answers (cmd_of m) = true) by (by rewrite Hcmd; vm_compute).
    unfold h_send. destruct (send_receipt_eq w m) as (ok & -> & _ & _). destruct ok; cbn [negb]; [|by apply pc_reject_late].
    rewrite hdr_no_receipt_tx. destruct (hd_contains (hdr m) h_transaction) as [t|] eqn:Ht; [|by apply pc_send].
    unfold tx_add. destruct (k_tx c !! t) as [l|] eqn:Hl; [|by apply pc_reject_late].
    eapply pc_store; eauto. unfold in_tx. rewrite Hcmd. by vm_compute. }
  destruct (decide (cmd_of m = SUBSCRIBE)) as [Hcmd|_].
  { unfold h_subscribe. destruct (hd_contains (hdr m) h_id) as [id|] eqn:Hid; [|apply pc_reject].
    destruct (hd_contains (hdr m) h_destination) as [d|] eqn:Hd; [|apply pc_reject].
    destruct (k_subs c !! id) eqn:Hs; [apply pc_reject|]. by apply pc_subscribe. }
  destruct (decide (cmd_of m = UNSUBSCRIBE)) as [Hcmd|_].
  { unfold h_unsubscribe. destruct (hd_contains (hdr m) h_id) as [id|] eqn:Hid; [|apply pc_reject].
    destruct (k_subs c !! id) eqn:Hs; [|apply pc_reject]. by apply pc_unsubscribe. }
  destruct (decide (cmd_of m = ACK)) as [Hcmd|Hna].
  { pose proof (h_acknack_case cfg cid w c hp nx m (or_introl Hcmd)) as H. unfold sl_of in H. by rewrite decide_True in H. }
  destruct (decide (cmd_of m = NACK)) as [Hcmd|_].
  { pose proof (h_acknack_case cfg cid w c hp nx m (or_intror Hcmd)) as H. unfold sl_of in H. by rewrite decide_False in H. }
  destruct (decide (_ \/ _)); apply pc_reject.
Qed.

(** Stored frames applied in order: objects, outstanding list, requests. *)
Definition apply_one (hp : sheap) (sl : list nat) (m : msg) : pres (sheap * list nat * list request) :=
  if decide (cmd_of m = SEND) then Fine (hp, sl, [REnqueue (as_message m)])
  else match ack_id m with
       | inl _ => Fine (hp, sl, [])
       | inr n => sl_of (cmd_of m) hp sl n
       end.
Fixpoint replay (hp : sheap) (sl : list nat) (l : list msg) : pres (sheap * list nat * list request) :=
  match l with
  | [] => Fine (hp, sl, [])
  | m :: l' =>
      match apply_one hp sl m with
      | Panicked p => Panicked p
      | Fine (hp1, sl1, rs1) =>
          match replay hp1 sl1 l' with
          | Panicked p => Panicked p
          | Fine (hp2, sl2, rs2) => Fine (hp2, sl2, rs1 ++ rs2)
          end
      end
  end.

Lemma stored_plain cfg cid w c hp nx m : stored_ok m -> k_connected c = true ->
  state_plain cfg cid w c hp nx m =
  match apply_one hp (k_sublist c) m with
  | Panicked p => Panicked p
  | Fine (hp1, sl1, rs1) => Fine (mkHout (set_sublist c sl1) hp1 nx [] rs1 m None)
  end.
Proof.
  intros (Hr & Ht & Hcmd) Hc. unfold state_plain, apply_one. rewrite Hc. cbn [negb]. change (f_cmd (g_frame m)) with (cmd_of m).
  assert (Hsr : send_receipt w m = (m, [], true)). { unfold send_receipt. by rewrite Hr. }
  destruct Hcmd as [Hcmd|[[Hcmd|Hcmd] [n Hn]]]; rewrite Hcmd.
  - etrans; [exact (eq_refl (h_send w c hp nx m))|]. unfold h_send. rewrite Hsr. cbn [negb]. rewrite Ht.
    destruct c; done.
  - etrans; [exact (eq_refl (h_acknack sl_ack w c hp nx m))|]. unfold h_acknack. rewrite Hn, Hsr. cbn [negb]. rewrite Ht.
    change (sl_of ACK) with sl_ack. rewrite decide_False by neq_lits. by destruct (sl_ack hp (k_sublist c) n) as [p|[[hp' rest] rs]].
  - etrans; [exact (eq_refl (h_acknack sl_nack w c hp nx m))|]. unfold h_acknack. rewrite Hn, Hsr. cbn [negb]. rewrite Ht.
    change (sl_of NACK) with sl_nack. rewrite decide_False by neq_lits. by destruct (sl_nack hp (k_sublist c) n) as [p|[[hp' rest] rs]].
Qed.

Lemma commit_loop_eq cfg cid w t l c hp nx : Forall stored_ok l -> k_connected c = true ->
  match replay hp (k_sublist c) l with
  | Panicked p => commit_loop cfg cid w t l c hp nx = Panicked p
  | Fine (hp', sl, rs) => exists m0,
      commit_loop cfg cid w t l c hp nx = Fine (mkHout (set_tx (set_sublist c sl) (delete t (k_tx c))) hp' nx [] rs m0 None)
  end.
Proof.
  intros Hl. revert c hp. induction Hl as [|m l Hm Hl IH]; intros c hp Hc; cbn [replay commit_loop].
  - eexists. destruct c; reflexivity.
  - rewrite (stored_plain cfg cid w (set_tx c (<[t:=l]> (k_tx c))) hp nx m Hm Hc). cbn [k_sublist set_tx].
    destruct (apply_one hp (k_sublist c) m) as [p|[[hp1 sl1] rs1]]; [done|]. cbn [o_err o_c o_hp o_next o_wr o_push].
    specialize (IH (set_sublist (set_tx c (<[t:=l]> (k_tx c))) sl1) hp1 Hc). cbn [k_sublist set_sublist] in IH.
    destruct (replay hp1 sl1 l) as [p|[[hp2 sl2] rs2]].
    + by rewrite IH.
    + destruct IH as [m0 ->]. exists m0. cbn. by rewrite delete_insert_delete.
Qed.

(** COMMIT. *)
Lemma h_commit_case cfg cid w c hp nx m : k_connected c = true -> tx_ok c ->
  match h_commit cfg cid w c hp nx m with
  | Panicked p => exists t l, hd_contains (hdr m) h_transaction = Some t /\ k_tx c !! t = Some l /\
      replay hp (k_sublist c) l = Panicked p
  | Fine o =>
      (exists e, o = mkHout c hp nx [] [] m (Some e)) \/
      (exists e, o = mkHout c hp nx (receipt_wr w m) [] (no_receipt m) (Some e)) \/
      (exists t l hp' sl rs, hd_contains (hdr m) h_transaction = Some t /\ k_tx c !! t = Some l /\
         replay hp (k_sublist c) l = Fine (hp', sl, rs) /\
         o = mkHout (set_tx (set_sublist c sl) (delete t (k_tx c))) hp' nx (receipt_wr w m) rs (no_receipt m) None)
  end.
Proof.
  intros Hc Htx. unfold h_commit. destruct (hd_contains (hdr m) h_transaction) as [t|] eqn:Ht; [|left; by eexists].
  destruct (send_receipt_eq w m) as (ok & -> & _ & _). destruct ok; cbn [negb]; [|right; left; by eexists].
  destruct (k_tx c !! t) as [l|] eqn:Hl; [|right; left; by eexists].
  pose proof (commit_loop_eq cfg cid w t l c hp nx (Htx _ _ Hl) Hc) as H.
  destruct (replay hp (k_sublist c) l) as [p|[[hp' sl] rs]] eqn:Hr.
  - rewrite H. by exists t, l.
  - destruct H as [m0 ->]. right; right. exists t, l, hp', sl, rs. cbn. by rewrite app_nil_r.
Qed.

(** Everything an iteration on a client frame can do. *)
Inductive frame_case (cfg : scfg) (cid : nat) (w1 w2 : bool) (c : cst) (hp : sheap) (nx : nat) (m : msg) : pres iout -> Prop :=
| fc_reject e : frame_case cfg cid w1 w2 c hp nx m (Fine (mkIout c hp nx [(Some (error_frame e m), w2)] [] true))
| fc_reject_late e : k_connected c = true -> answers (cmd_of m) = true ->
    frame_case cfg cid w1 w2 c hp nx m
      (Fine (mkIout c hp nx (receipt_wr w1 m ++ [(Some (error_frame e (no_receipt m)), w2)]) [] true))
| fc_connect r : k_connected c = false -> cmd_of m = CONNECT \/ cmd_of m = STOMP -> handle_connect cfg (g_frame m) = inr r ->
    frame_case cfg cid w1 w2 c hp nx m
      (Fine (mkIout (mkCst true (sc_version r) (sc_write r) (k_tx c) (k_last c) (k_sublist c) (k_subs c)) hp nx
         [(Some (mkMsg (g_uid m) (sc_response r)), w1)] [RConnected cid] false))
| fc_disconnect : k_connected c = true -> cmd_of m = DISCONNECT ->
    frame_case cfg cid w1 w2 c hp nx m (Fine (mkIout c hp nx (receipt_wr w1 m) [] false))
| fc_begin t : k_connected c = true -> cmd_of m = BEGIN -> hd_contains (hdr m) h_transaction = Some t -> k_tx c !! t = None ->
    frame_case cfg cid w1 w2 c hp nx m (Fine (mkIout (set_tx c (<[t := []]> (k_tx c))) hp nx (receipt_wr w1 m) [] false))
| fc_abort t l : k_connected c = true -> cmd_of m = ABORT -> hd_contains (hdr m) h_transaction = Some t -> k_tx c !! t = Some l ->
    frame_case cfg cid w1 w2 c hp nx m (Fine (mkIout (set_tx c (delete t (k_tx c))) hp nx (receipt_wr w1 m) [] false))
| fc_commit t l hp' sl rs : k_connected c = true -> cmd_of m = COMMIT -> hd_contains (hdr m) h_transaction = Some t ->
    k_tx c !! t = Some l -> replay hp (k_sublist c) l = Fine (hp', sl, rs) ->
    frame_case cfg cid w1 w2 c hp nx m
      (Fine (mkIout (set_tx (set_sublist c sl) (delete t (k_tx c))) hp' nx (receipt_wr w1 m) rs false))
| fc_commit_panic t l p : k_connected c = true -> cmd_of m = COMMIT -> hd_contains (hdr m) h_transaction = Some t ->
    k_tx c !! t = Some l -> replay hp (k_sublist c) l = Panicked p ->
    frame_case cfg cid w1 w2 c hp nx m (Panicked p)
| fc_store t l m' : k_connected c = true -> hd_contains (hdr m) h_transaction = Some t -> k_tx c !! t = Some l -> in_tx m = true ->
    m' = with_hdr m (hd_del (hd_del (hdr m) h_receipt) h_transaction) ->
    (cmd_of m = SEND \/ (cmd_of m = ACK \/ cmd_of m = NACK) /\ exists n, ack_id m = inr n) ->
    frame_case cfg cid w1 w2 c hp nx m
      (Fine (mkIout (set_tx c (<[t := l ++ [m']]> (k_tx c))) hp nx (receipt_wr w1 m) [] false))
| fc_send : k_connected c = true -> cmd_of m = SEND -> hd_contains (hdr m) h_transaction = None ->
    frame_case cfg cid w1 w2 c hp nx m (Fine (mkIout c hp nx (receipt_wr w1 m) [REnqueue (as_message (no_receipt m))] false))
| fc_acknack n hp' rest rs : k_connected c = true -> cmd_of m = ACK \/ cmd_of m = NACK -> hd_contains (hdr m) h_transaction = None ->
    ack_id m = inr n -> sl_of (cmd_of m) hp (k_sublist c) n = Fine (hp', rest, rs) ->
    frame_case cfg cid w1 w2 c hp nx m (Fine (mkIout (set_sublist c rest) hp' nx (receipt_wr w1 m) rs false))
| fc_panic n p : k_connected c = true -> cmd_of m = ACK \/ cmd_of m = NACK -> hd_contains (hdr m) h_transaction = None -> ack_id m = inr n ->
    sl_of (cmd_of m) hp (k_sublist c) n = Panicked p ->
    frame_case cfg cid w1 w2 c hp nx m (Panicked p)
| fc_subscribe id dest : k_connected c = true -> cmd_of m = SUBSCRIBE -> hd_contains (hdr m) h_id = Some id ->
    hd_contains (hdr m) h_destination = Some dest -> k_subs c !! id = None ->
    frame_case cfg cid w1 w2 c hp nx m
      (Fine (mkIout (set_subs c (<[id := nx]> (k_subs c)))
         (<[nx := new_sub cid dest id (default ack_auto (hd_contains (hdr m) h_ack))]> hp) (S nx) [] [RSubscribe nx] false))
| fc_unsubscribe id s : k_connected c = true -> cmd_of m = UNSUBSCRIBE -> hd_contains (hdr m) h_id = Some id -> k_subs c !! id = Some s ->
    frame_case cfg cid w1 w2 c hp nx m (Fine (mkIout (set_subs c (delete id (k_subs c))) hp nx [] [RUnsubscribe s] false)).

Lemma conn_iter_frame cfg cid w1 w2 c hp nx m : tx_ok c ->
  frame_case cfg cid w1 w2 c hp nx m (conn_iter cfg cid w1 w2 c hp nx (InFrame m)).
Proof.
  intros Htx. cbn [conn_iter]. unfold state_func. destruct (k_connected c) eqn:Hc; cbn [andb].
  - change (f_cmd (g_frame m)) with (cmd_of m). destruct (bool_decide (cmd_of m = COMMIT)) eqn:Hcmd.
    + apply bool_decide_eq_true in Hcmd. pose proof (h_commit_case cfg cid w1 c hp nx m Hc Htx) as H.
      destruct (h_commit cfg cid w1 c hp nx m) as [p|o].
      * destruct H as (t & l & ? & ? & ?). by eapply fc_commit_panic.
      * destruct H as [[e ->]|[[e ->]|(t & l & hp' & sl & rs & ? & ? & ? & ->)]]; cbn.
        -- apply fc_reject.
        -- apply fc_reject_late; [done|]. rewrite Hcmd. by vm_compute.
        -- by eapply fc_commit.
    + destruct (state_plain_case cfg cid w1 c hp nx m Hc); cbn.
      * apply fc_reject.
      * by apply fc_reject_late.
      * by apply fc_disconnect.
      * by apply fc_begin.
      * by eapply fc_abort.
      * by eapply fc_store.
      * by apply fc_send.
      * by eapply fc_acknack.
      * by eapply fc_panic.
      * by apply fc_subscribe.
      * by apply fc_unsubscribe.
  - unfold state_plain. rewrite Hc. cbn [negb]. change (f_cmd (g_frame m)) with (cmd_of m).
    destruct (decide (cmd_of m = CONNECT \/ cmd_of m = STOMP)) as [Hcmd|_]; [|cbn; apply fc_reject].
    unfold h_connect. destruct (handle_connect cfg (g_frame m)) as [e|r] eqn:Hh; cbn; [apply fc_reject|].
    by apply fc_connect.
Qed.

(** The invariant of the transaction store. *)
Lemma ack_id_del m k : k <> h_ack -> k <> h_message_id -> ack_id (with_hdr m (hd_del (hdr m) k)) = ack_id m.
Proof. intros H1 H2. unfold ack_id. cbn [hdr with_hdr g_frame f_hdr]. rewrite !hd_contains_del_other by done. done. Qed.

Lemma stored_stripped m : (cmd_of m = SEND \/ (cmd_of m = ACK \/ cmd_of m = NACK) /\ exists n, ack_id m = inr n) ->
  stored_ok (with_hdr m (hd_del (hd_del (hdr m) h_receipt) h_transaction)).
Proof.
  intros Hcmd. split_and!.
  - cbn [hdr with_hdr g_frame f_hdr]. rewrite hd_contains_del_other by neq_lits. apply hd_contains_del_same.
  - apply hd_contains_del_same.
  - destruct Hcmd as [?|[? [n Hn]]]; [by left|right]. split; [done|]. exists n. rewrite <-Hn.
    rewrite <-(ack_id_del m h_receipt) by neq_lits.
    by rewrite <-(ack_id_del (with_hdr m (hd_del (hdr m) h_receipt)) h_transaction) by neq_lits.
Qed.

(** Everything an iteration on a queue delivery can do. *)
Inductive sub_case (w1 : bool) (c : cst) (hp : sheap) (nx : nat) (s : nat) : pres iout -> Prop :=
| sc_nil : (forall sb m, hp !! s = Some sb -> s_frame sb = Some m -> False) -> sub_case w1 c hp nx s (Panicked PanicNil)
| sc_gone sb m : hp !! s = Some sb -> s_frame sb = Some m -> k_subs c !! s_id sb = None ->
    sub_case w1 c hp nx s (Fine (mkIout c hp nx [] [RRequeue m] false))
| sc_failed sb m s' n m' : w1 = false -> hp !! s = Some sb -> s_frame sb = Some m -> k_subs c !! s_id sb = Some s' ->
    alloc_id (k_last c) (Some (s_ack sb)) m = (n, m') ->
    sub_case w1 c hp nx s (Fine (mkIout (set_last c n) (<[s := set_frame sb (Some m')]> hp) nx [(Some m', false)] [] true))
| sc_auto sb m s' n m' : w1 = true -> hp !! s = Some sb -> s_frame sb = Some m -> k_subs c !! s_id sb = Some s' -> s_ack sb = ack_auto ->
    alloc_id (k_last c) (Some (s_ack sb)) m = (n, m') ->
    sub_case w1 c hp nx s (Fine (mkIout (set_last c n) (<[s := set_frame sb None]> hp) nx [(Some m', true)] [RSubscribe s] false))
| sc_keep sb m s' n m' : w1 = true -> hp !! s = Some sb -> s_frame sb = Some m -> k_subs c !! s_id sb = Some s' -> s_ack sb <> ack_auto ->
    alloc_id (k_last c) (Some (s_ack sb)) m = (n, m') -> s_inlist sb = false ->
    sub_case w1 c hp nx s
      (Fine (mkIout (set_sublist (set_last c n) (k_sublist c ++ [s])) (<[s := set_inlist (set_frame sb (Some m')) true]> hp) nx
         [(Some m', true)] [] false))
| sc_listed sb m s' : w1 = true -> hp !! s = Some sb -> s_frame sb = Some m -> k_subs c !! s_id sb = Some s' -> s_ack sb <> ack_auto ->
    s_inlist sb = true -> sub_case w1 c hp nx s (Panicked PanicAlreadyInList).
Lemma conn_iter_sub cfg cid w1 w2 c hp nx s : sub_case w1 c hp nx s (conn_iter cfg cid w1 w2 c hp nx (InSub s)).
Proof.
  cbn [conn_iter]. destruct (hp !! s) as [sb|] eqn:Hs; [|apply sc_nil; congruence].
  destruct (s_frame sb) as [m|] eqn:Hm; [|apply sc_nil; congruence].
  destruct (k_subs c !! s_id sb) as [s'|] eqn:Hk; [|by eapply sc_gone].
  destruct (alloc_id (k_last c) (Some (s_ack sb)) m) as [n m'] eqn:Ha.
  destruct w1; cbn [negb]; [|by eapply sc_failed].
  destruct (decide (s_ack sb = ack_auto)) as [He|He].
  - replace (set_frame (set_frame sb (Some m')) None) with (set_frame sb None) by done. by eapply sc_auto.
  - unfold sl_add. rewrite lookup_insert. cbn [s_inlist set_frame]. destruct (s_inlist sb) eqn:Hl; [by eapply sc_listed|].
    rewrite insert_insert. by eapply sc_keep.
Qed.

Lemma iter_tx_ok cfg cid w1 w2 c hp nx i o : tx_ok c -> conn_iter cfg cid w1 w2 c hp nx i = Fine o -> tx_ok (i_c o).
Proof.
  intros Htx Hi. destruct i as [m| |m|s|].
  - pose proof (conn_iter_frame cfg cid w1 w2 c hp nx m Htx) as H. rewrite Hi in H.
    inversion H; subst; try done; intros t' l'; cbn.
    + destruct (decide (t' = t)) as [->|Hne]; [rewrite lookup_insert; intros [= <-]; constructor|].
      rewrite lookup_insert_ne by done. apply Htx.
    + intros [_ Hl]%lookup_delete_Some. by apply (Htx t').
    + intros [_ Hl]%lookup_delete_Some. by apply (Htx t').
    + destruct (decide (t' = t)) as [->|Hne].
      * rewrite lookup_insert. intros [= <-]. apply Forall_app. split; [by eapply Htx|]. constructor; [|done].
        by apply stored_stripped.
      * rewrite lookup_insert_ne by done. apply Htx.
  - cbn in Hi. by injection Hi as <-.
  - cbn in Hi. destruct (alloc_id (k_last c) None m). by injection Hi as <-.
  - pose proof (conn_iter_sub cfg cid w1 w2 c hp nx s) as H. rewrite Hi in H. by inversion H; subst.
  - cbn in Hi. by injection Hi as <-.
Qed.

Lemma cexec_tx_ok cfg cid id_of ack_of log c st : cexec cfg cid id_of ack_of log c st -> tx_ok c.
Proof.
  induction 1 as [|log c hp nx w1 w2 i o _ IH _ _ Hi _]; [intros t l; cbn; by rewrite lookup_empty|].
  by eapply iter_tx_ok.
Qed.

(* ------------------------------------------------------------------ *)
(** Taking histories apart. *)
Lemma cexec_last cfg cid id_of ack_of log e c st : cexec cfg cid id_of ack_of (log ++ [e]) c st ->
  exists c0 hp nx w1 w2 o, cexec cfg cid id_of ack_of log c0 false /\ keeps id_of ack_of hp /\ from_broker hp (v_in e) /\
    conn_iter cfg cid w1 w2 c0 hp nx (v_in e) = Fine o /\ keeps id_of ack_of (i_hp o) /\
    e = mkCev (v_in e) (i_wr o) (i_push o) (i_stop o) /\ c = i_c o /\ st = i_stop o.
Proof.
  intros H. inversion H as [Heq|log0 c0 hp nx w1 w2 i o He Hk Hf Hi Hk' Heq]; [by destruct log|].
  apply app_inj_tail in Heq as [-> <-]. subst. exists c0, hp, nx, w1, w2, o. done.
Qed.
Lemma cexec_event cfg cid id_of ack_of pre e post c st : cexec cfg cid id_of ack_of (pre ++ e :: post) c st ->
  exists c0 hp nx w1 w2 o, cexec cfg cid id_of ack_of pre c0 false /\ keeps id_of ack_of hp /\ from_broker hp (v_in e) /\
    conn_iter cfg cid w1 w2 c0 hp nx (v_in e) = Fine o /\ keeps id_of ack_of (i_hp o) /\
    e = mkCev (v_in e) (i_wr o) (i_push o) (i_stop o) /\
    cexec cfg cid id_of ack_of (pre ++ [e]) (i_c o) (i_stop o) /\ (post = [] \/ v_stop e = false).
Proof.
  revert c st. induction post as [|e' post IH] using rev_ind; intros c st H.
  - pose proof H as H0. apply cexec_last in H as (c0 & hp & nx & w1 & w2 & o & ? & ? & ? & ? & ? & ? & -> & ->).
    exists c0, hp, nx, w1, w2, o. split_and!; auto.
  - replace (pre ++ e :: post ++ [e']) with ((pre ++ e :: post) ++ [e']) in H by by rewrite <-app_assoc.
    apply cexec_last in H as (c1 & hp1 & nx1 & w11 & w12 & o1 & H & _).
    pose proof (IH _ _ H) as (c0 & hp & nx & w1 & w2 & o & ? & ? & ? & ? & ? & He & Hc & Hpost).
    exists c0, hp, nx, w1, w2, o. split_and!; auto. right. rewrite He. cbn.
    destruct Hpost as [->|Hs]; [|by rewrite He in Hs].
    by apply cexec_last in H as (? & ? & ? & ? & ? & ? & _ & _ & _ & _ & _ & ? & _ & ?); congruence.
Qed.

(** C32 *)
Lemma session_of_connect cfg f r : handle_connect cfg f = inr r -> accepted_credentials cfg f /\ exists v, session_version f v.
Proof. intros H. apply handle_connect_spec in H as (_ & H1 & H2 & _). eauto. Qed.

Lemma connected_had_session cfg cid id_of ack_of log c st : cexec cfg cid id_of ack_of log c st -> k_connected c = true ->
  exists e m, e ∈ log /\ accepted e = Some m /\ session_ok cfg m.
Proof.
  induction 1 as [|log c hp nx w1 w2 i o He IH Hk Hf Hi Hk']; [done|].
  intros Hc. destruct (k_connected c) eqn:Hc0.
  { destruct (IH eq_refl) as (e & m & Hin & ? & ?). exists e, m. split_and!; [|done|done]. apply elem_of_app. by left. }
  pose proof (cexec_tx_ok _ _ _ _ _ _ _ He) as Htx. destruct i as [m| |m|s|].
  - pose proof (conn_iter_frame cfg cid w1 w2 c hp nx m Htx) as H. rewrite Hi in H.
    inversion H; subst; cbn in Hc; try congruence.
    exists (mkCev (InFrame m) [(Some (mkMsg (g_uid m) (sc_response r)), w1)] [RConnected cid] false), m.
    split_and!; [apply elem_of_app; right; by apply elem_of_list_singleton|done|]. by eapply session_of_connect.
  - cbn in Hi. injection Hi as <-. cbn in Hc. congruence.
  - cbn in Hi. destruct (alloc_id (k_last c) None m). injection Hi as <-. cbn in Hc. congruence.
  - pose proof (conn_iter_sub cfg cid w1 w2 c hp nx s) as H. rewrite Hi in H. inversion H; subst; cbn in Hc; congruence.
  - cbn in Hi. injection Hi as <-. cbn in Hc. congruence.
Qed.

Lemma nothing_before_connect cfg cid id_of ack_of pre e post c st m r :
  cexec cfg cid id_of ack_of (pre ++ e :: post) c st -> v_in e = InFrame m -> r ∈ v_push e ->
  (r = RConnected cid /\ session_ok cfg m) \/ exists e' m', e' ∈ pre /\ accepted e' = Some m' /\ session_ok cfg m'.
Proof.
  intros H Hin Hr. apply cexec_event in H as (c0 & hp & nx & w1 & w2 & o & He & _ & _ & Hi & _ & Hev & _).
  rewrite Hin in Hi. pose proof (cexec_tx_ok _ _ _ _ _ _ _ He) as Htx.
  pose proof (conn_iter_frame cfg cid w1 w2 c0 hp nx m Htx) as Hc. rewrite Hi in Hc.
  rewrite Hev in Hr. cbn in Hr.
  inversion Hc; subst; cbn in Hr; try (by apply elem_of_nil in Hr); try (right; by eapply connected_had_session).
  left. apply elem_of_list_singleton in Hr as ->. split; [done|]. by eapply session_of_connect.
Qed.

(** C33, C34 *)
Lemma frames_with_app cmd a b : frames_with cmd (a ++ b) = frames_with cmd a ++ frames_with cmd b.
Proof. unfold frames_with. by rewrite omap_app. Qed.
Lemma wire_snoc log e : wire (log ++ [e]) = wire log ++ v_wr e.
Proof. unfold wire. rewrite fmap_app, concat_app. cbn. by rewrite app_nil_r. Qed.
Lemma frames_with_one cmd m w : frames_with cmd [(Some m, w)] = if bool_decide (cmd_of m = cmd) then [m] else [].
Proof. unfold frames_with. cbn. by destruct (bool_decide (cmd_of m = cmd)). Qed.
Lemma frames_with_receipt_wr cmd w m : cmd <> RECEIPT -> frames_with cmd (receipt_wr w m) = [].
Proof.
  intros H. unfold receipt_wr. destruct (hd_contains (hdr m) h_receipt); [|done]. rewrite frames_with_one.
  rewrite bool_decide_eq_false_2; [done|]. cbn. done.
Qed.
Lemma connected_cmd cfg f r : handle_connect cfg f = inr r -> f_cmd (sc_response r) = CONNECTED.
Proof. intros H. apply handle_connect_spec in H as (_ & _ & _ & ? & ? & ? & ? & ? & _ & _ & _ & _ & _ & ->). done. Qed.
Lemma alloc_id_cmd n a m n' m' : alloc_id n a m = (n', m') -> cmd_of m' = cmd_of m /\ g_uid m' = g_uid m.
Proof. unfold alloc_id. destruct (decide _); intros [= <- <-]; done. Qed.

(** What a client frame makes the connection write. *)
Lemma frame_writes cfg cid w1 w2 c hp nx m o : tx_ok c -> conn_iter cfg cid w1 w2 c hp nx (InFrame m) = Fine o ->
  if i_stop o then
    i_push o = [] /\ i_hp o = hp /\ i_next o = nx /\ i_c o = c /\
    exists e, i_wr o = [(Some (error_frame e m), w2)] \/
              (k_connected c = true /\ answers (cmd_of m) = true /\
               i_wr o = receipt_wr w1 m ++ [(Some (error_frame e (no_receipt m)), w2)])
  else
    (k_connected c = true /\ i_wr o = if answers (cmd_of m) then receipt_wr w1 m else []) \/
    (k_connected c = false /\ exists r, handle_connect cfg (g_frame m) = inr r /\
       (cmd_of m = CONNECT \/ cmd_of m = STOMP) /\ i_wr o = [(Some (mkMsg (g_uid m) (sc_response r)), w1)]).
Proof.
  intros Htx Hi. pose proof (conn_iter_frame cfg cid w1 w2 c hp nx m Htx) as H. rewrite Hi in H.
  assert (Hans : forall cmd, cmd_of m = cmd -> answers cmd = true -> answers (cmd_of m) = true) by by intros ? ->.
  inversion H; subst; cbn.
  - split_and!; try done. eexists; by left.
  - split_and!; try done. eexists; right. done.
  - right. split; [done|]. eexists. done.
  - left. split; [done|]. by rewrite (Hans DISCONNECT).
  - left. split; [done|]. by rewrite (Hans BEGIN).
  - left. split; [done|]. by rewrite (Hans ABORT).
  - left. split; [done|]. by rewrite (Hans COMMIT).
  - left. split; [done|]. match goal with Hx : cmd_of m = SEND \/ _ |- _ => destruct Hx as [?|[[?|?] _]] end; [by rewrite (Hans SEND)|by rewrite (Hans ACK)|by rewrite (Hans NACK)].
  - left. split; [done|]. by rewrite (Hans SEND).
  - left. split; [done|]. match goal with Hx : cmd_of m = ACK \/ _ |- _ => destruct Hx as [?|?] end; [by rewrite (Hans ACK)|by rewrite (Hans NACK)].
  - left. split; [done|]. match goal with Hx : cmd_of m = SUBSCRIBE |- _ => rewrite Hx end. by vm_compute.
  - left. split; [done|]. match goal with Hx : cmd_of m = UNSUBSCRIBE |- _ => rewrite Hx end. by vm_compute.
Qed.

Lemma error_frame_receipt e m : hget_of (error_frame e m) (lit "receipt-id") = hget_of m (lit "receipt").
Proof.
  unfold hget_of, error_frame. cbn [g_frame f_hdr]. change (lit "receipt-id") with h_receipt_id. change (lit "receipt") with h_receipt.
  change (hd_contains ((h_message, e) :: ?l) h_receipt_id) with (hd_contains l h_receipt_id).
  unfold hdr.
  destruct (hd_contains (f_hdr (g_frame m)) h_receipt); [|done]. cbn [hd_contains]. by rewrite decide_True.
Qed.
Lemma no_receipt_receipt m : hget_of (no_receipt m) (lit "receipt") = None.
Proof. apply hd_contains_del_same. Qed.

Lemma rejection cfg cid id_of ack_of pre e post c st m :
  cexec cfg cid id_of ack_of (pre ++ e :: post) c st -> v_in e = InFrame m ->
  if v_stop e then
    post = [] /\ v_push e = [] /\ exists before err w, v_wr e = before ++ [(Some err, w)] /\ cmd_of err = ERROR /\ g_uid err = g_uid m /\
      ((before = [] /\ hget_of err (lit "receipt-id") = hget_of m (lit "receipt")) \/
       (exists rc r w', before = [(Some rc, w')] /\ cmd_of rc = RECEIPT /\ g_uid rc = g_uid m /\ hget_of m (lit "receipt") = Some r /\
          hget_of rc (lit "receipt-id") = Some r /\ hget_of err (lit "receipt-id") = None))
  else frames_with ERROR (v_wr e) = [].
Proof.
  intros H Hin. apply cexec_event in H as (c0 & hp & nx & w1 & w2 & o & He & _ & _ & Hi & _ & Hev & _ & Hpost).
  rewrite Hin in Hi. pose proof (cexec_tx_ok _ _ _ _ _ _ _ He) as Htx.
  pose proof (frame_writes _ _ _ _ _ _ _ _ _ Htx Hi) as Hw. rewrite Hev in Hpost |- *. cbn [v_wr v_stop v_push] in Hpost |- *.
  destruct (i_stop o).
  - destruct Hpost as [->|?]; [|done]. destruct Hw as (Hp & _ & _ & _ & e0 & Hw). split_and!; [done|done|].
    destruct Hw as [->|(_ & Hans & ->)].
    + exists [], (error_frame e0 m), w2. split_and!; try done. left. split; [done|]. apply error_frame_receipt.
    + unfold receipt_wr. destruct (hd_contains (hdr m) h_receipt) as [r|] eqn:Hr.
      * eexists _, (error_frame e0 (no_receipt m)), w2. split_and!; try done. right. eexists _, r, w1. split_and!; try done.
        rewrite error_frame_receipt. apply no_receipt_receipt.
      * exists [], (error_frame e0 (no_receipt m)), w2. split_and!; try done. left. split; [done|]. rewrite error_frame_receipt.
        rewrite no_receipt_receipt. by rewrite <-Hr.
  - destruct Hw as [[_ ->]|(_ & r & Hr & _ & ->)].
    + destruct (answers (cmd_of m)); [|done]. apply frames_with_receipt_wr. neq_lits.
    + rewrite frames_with_one. unfold cmd_of. cbn [g_frame]. rewrite (connected_cmd _ _ _ Hr). done.
Qed.

Lemma classic_in (i : cin) : (exists m, i = InFrame m) \/ (forall m, i <> InFrame m).
Proof. destruct i; try (by right); left; eauto. Qed.

(** Events other than client frames write MESSAGE frames and heart-beats only. *)
Lemma other_writes cfg cid w1 w2 c hp nx i o cmd : (forall m, i <> InFrame m) -> from_broker hp i -> cmd <> MESSAGE ->
  conn_iter cfg cid w1 w2 c hp nx i = Fine o -> frames_with cmd (i_wr o) = [].
Proof.
  intros Hni Hf Hcmd Hi. destruct i as [m| |m|s|]; [by destruct (Hni m)| | | |].
  - cbn in Hi. by injection Hi as <-.
  - cbn in Hi, Hf. destruct (alloc_id (k_last c) None m) as [n m'] eqn:Ha. injection Hi as <-. cbn [i_wr]. apply alloc_id_cmd in Ha as [Ha _].
    rewrite frames_with_one, bool_decide_eq_false_2; [done|]. rewrite Ha. unfold cmd_of. by rewrite Hf.
  - cbn in Hf. pose proof (conn_iter_sub cfg cid w1 w2 c hp nx s) as H. rewrite Hi in H.
    inversion H; subst; cbn [i_wr]; try done;
      match goal with Ha : alloc_id _ _ _ = _ |- _ => apply alloc_id_cmd in Ha as [Ha _] end;
      match goal with Hs : hp !! s = Some ?x, Hm : s_frame ?x = Some _ |- _ => specialize (Hf _ _ Hs Hm) end;
      (rewrite frames_with_one, bool_decide_eq_false_2; [done|]); match goal with Ha : cmd_of _ = cmd_of _ |- _ => rewrite Ha end; unfold cmd_of; by rewrite Hf.
  - cbn in Hi. by injection Hi as <-.
Qed.

Lemma errors_end cfg cid id_of ack_of log c : cexec cfg cid id_of ack_of log c false -> frames_with ERROR (wire log) = [].
Proof.
  remember false as st. intros H. revert Heqst. induction H as [|log c hp nx w1 w2 i o He IH Hk Hf Hi Hk']; [done|].
  intros Hst. rewrite wire_snoc, frames_with_app, IH by done. cbn [v_wr app].
  destruct (classic_in i) as [[m ->]|Hni].
  - pose proof (frame_writes _ _ _ _ _ _ _ _ _ (cexec_tx_ok _ _ _ _ _ _ _ He) Hi) as Hw. rewrite Hst in Hw.
    destruct Hw as [[_ ->]|(_ & r & Hr & _ & ->)].
    + destruct (answers (cmd_of m)); [|done]. apply frames_with_receipt_wr. neq_lits.
    + rewrite frames_with_one. unfold cmd_of. cbn [g_frame]. rewrite (connected_cmd _ _ _ Hr). done.
  - apply (other_writes _ _ _ _ _ _ _ _ _ ERROR Hni Hf) in Hi; [done|neq_lits].
Qed.

(** Receipts, in order. *)
Definition receipt_id_of (m : msg) : option str := hget_of m (lit "receipt-id").
Lemma frames_with_receipt w m : frames_with RECEIPT (receipt_wr w m) =
  match hd_contains (hdr m) h_receipt with Some r => [mkMsg (g_uid m) (mkFrame RECEIPT [(h_receipt_id, r)] [])] | None => [] end.
Proof. unfold receipt_wr. by destruct (hd_contains (hdr m) h_receipt). Qed.
Lemma receipts_exact cfg cid id_of ack_of log c : cexec cfg cid id_of ack_of log c false ->
  (fun rc => (g_uid rc, receipt_id_of rc)) <$> frames_with RECEIPT (wire log) =
  omap (fun e => match asked e with Some r => (fun m => (g_uid m, Some r)) <$> accepted e | None => None end) log.
Proof.
  remember false as st. intros H. revert Heqst. induction H as [|log c hp nx w1 w2 i o He IH Hk Hf Hi Hk']; [done|].
  intros Hst. rewrite wire_snoc, frames_with_app, fmap_app, omap_app, IH by done. f_equal. cbn [v_wr].
  destruct (classic_in i) as [[m ->]|Hni].
  - pose proof (frame_writes _ _ _ _ _ _ _ _ _ (cexec_tx_ok _ _ _ _ _ _ _ He) Hi) as Hw. rewrite Hst in Hw |- *.
    cbn [omap list_omap]. unfold asked, accepted, client_frame. cbn [v_stop v_in].
    destruct Hw as [[_ ->]|(_ & r & Hr & Hcmd & ->)].
    + destruct (answers (cmd_of m)); [|done]. rewrite frames_with_receipt. unfold hget_of.
      change (lit "receipt") with h_receipt. change (f_hdr (g_frame m)) with (hdr m).
      destruct (hd_contains (hdr m) h_receipt) as [r|]; [|done]. done.
    + rewrite frames_with_one, bool_decide_eq_false_2 by (unfold cmd_of; cbn [g_frame]; rewrite (connected_cmd _ _ _ Hr); neq_lits).
      destruct Hcmd as [-> | ->]; done.
  - rewrite (other_writes cfg cid w1 w2 c hp nx i o RECEIPT Hni Hf); [|neq_lits|exact Hi].
    cbn [omap list_omap]. unfold asked, accepted, client_frame. cbn [v_stop v_in]. rewrite Hst.
    destruct i; try done. by destruct (Hni m).
Qed.

(** Message ids. *)
Lemma alloc_id_message n a m n' m' : f_cmd (g_frame m) = MESSAGE -> alloc_id n a m = (n', m') ->
  n' = ((n + 1) mod 2 ^ 64)%N /\ hget_of m' (lit "message-id") = Some (format_uint n') /\ hget_of m' (lit "id") = Some (format_uint n') /\
  hget_of m' (lit "ack") = (if decide (a = None \/ a = Some ack_auto) then None else Some (format_uint n')) /\
  f_body (g_frame m') = f_body (g_frame m) /\
  (forall k, k <> h_message_id -> k <> h_id -> k <> h_ack -> hget_of m' k = hget_of m k).
Proof.
  intros Hc. unfold alloc_id. rewrite decide_True by (by left). intros [= <- <-]. unfold hget_of. cbn [with_hdr g_frame f_hdr f_body].
  change (lit "message-id") with h_message_id. change (lit "id") with h_id. change (lit "ack") with h_ack.
  set (n' := ((n + 1) mod 2 ^ 64)%N). split; [done|].
  destruct (decide (a = None \/ a = Some ack_auto)).
  - split_and!; try done.
    + rewrite hd_contains_del_other, hd_contains_set_other by neq_lits. apply hd_contains_set_same.
    + rewrite hd_contains_del_other by neq_lits. apply hd_contains_set_same.
    + apply hd_contains_del_same.
    + intros k H1 H2 H3. rewrite hd_contains_del_other, !hd_contains_set_other by done. done.
  - split_and!; try done.
    + rewrite !hd_contains_set_other by neq_lits. apply hd_contains_set_same.
    + rewrite hd_contains_set_other by neq_lits. apply hd_contains_set_same.
    + apply hd_contains_set_same.
    + intros k H1 H2 H3. rewrite !hd_contains_set_other by done. done.
Qed.

(** One iteration either writes no MESSAGE and keeps the counter, or one MESSAGE
    with the next id. *)
Lemma iter_message cfg cid w1 w2 c hp nx i o : tx_ok c -> from_broker hp i -> conn_iter cfg cid w1 w2 c hp nx i = Fine o ->
  (frames_with MESSAGE (i_wr o) = [] /\ k_last (i_c o) = k_last c) \/
  (exists m a m' w, ((i = InTopic m /\ a = None) \/ (exists s sb, i = InSub s /\ hp !! s = Some sb /\ s_frame sb = Some m /\ a = Some (s_ack sb))) /\
     f_cmd (g_frame m) = MESSAGE /\ i_wr o = [(Some m', w)] /\ alloc_id (k_last c) a m = (k_last (i_c o), m')).
Proof.
  intros Htx Hf Hi. destruct i as [m| |m|s|].
  - left. pose proof (frame_writes _ _ _ _ _ _ _ _ _ Htx Hi) as Hw.
    pose proof (conn_iter_frame cfg cid w1 w2 c hp nx m Htx) as H. rewrite Hi in H. split.
    + destruct (i_stop o).
      * destruct Hw as (_ & _ & _ & _ & e0 & [->|(_ & _ & ->)]); [by rewrite frames_with_one|].
        rewrite frames_with_app, frames_with_receipt_wr by neq_lits. by rewrite frames_with_one.
      * destruct Hw as [[_ ->]|(_ & r & Hr & _ & ->)].
        -- destruct (answers (cmd_of m)); [|done]. apply frames_with_receipt_wr. neq_lits.
        -- rewrite frames_with_one, bool_decide_eq_false_2 by (unfold cmd_of; cbn [g_frame]; rewrite (connected_cmd _ _ _ Hr); neq_lits). done.
    + by inversion H; subst.
  - left. cbn in Hi. by injection Hi as <-.
  - right. cbn [conn_iter] in Hi. destruct (alloc_id (k_last c) None m) as [n m'] eqn:Ha. injection Hi as <-.
    exists m, None, m', w1. split_and!; try done. by left.
  - cbn in Hf. pose proof (conn_iter_sub cfg cid w1 w2 c hp nx s) as H. rewrite Hi in H. inversion H; subst; cbn [i_wr i_c].
    + by left.
    + right. exists m, (Some (s_ack sb)), m', false. split_and!; try done; [|by eapply Hf]. right. by exists s, sb.
    + right. exists m, (Some (s_ack sb)), m', true. split_and!; try done; [|by eapply Hf]. right. by exists s, sb.
    + right. exists m, (Some (s_ack sb)), m', true. split_and!; try done; [|by eapply Hf]. right. by exists s, sb.
  - left. cbn in Hi. injection Hi as <-. done.
Qed.

Lemma message_ids cfg cid id_of ack_of log c st : cexec cfg cid id_of ack_of log c st ->
  k_last c = (N.of_nat (length (frames_with MESSAGE (wire log))) mod 2 ^ 64)%N /\
  forall i m, frames_with MESSAGE (wire log) !! i = Some m ->
    hget_of m (lit "message-id") = Some (format_uint (N.of_nat (S i) mod 2 ^ 64)) /\
    hget_of m (lit "id") = Some (format_uint (N.of_nat (S i) mod 2 ^ 64)).
Proof.
  induction 1 as [|log c hp nx w1 w2 i o He [IH1 IH2] Hk Hf Hi Hk']; [done|].
  rewrite wire_snoc, frames_with_app. cbn [v_wr].
  destruct (iter_message _ _ _ _ _ _ _ _ _ (cexec_tx_ok _ _ _ _ _ _ _ He) Hf Hi) as [[-> ->]|(m & a & m' & w & _ & Hc & Hw & Ha)].
  - rewrite app_nil_r. done.
  - rewrite Hw, frames_with_one. destruct (alloc_id_cmd _ _ _ _ _ Ha) as [Hc' _].
    rewrite bool_decide_eq_true_2 by (rewrite Hc'; exact Hc).
    destruct (alloc_id_message _ _ _ _ _ Hc Ha) as (Hn & Hid & Hid' & _).
    assert (Hlast : k_last (i_c o) = (N.of_nat (S (length (frames_with MESSAGE (wire log)))) mod 2 ^ 64)%N).
    { rewrite Hn, IH1. rewrite N.add_mod_idemp_l by done. f_equal. lia. }
    split.
    + rewrite Hlast, app_length. cbn [length]. by rewrite Nat.add_1_r.
    + intros j mj. destruct (decide (j < length (frames_with MESSAGE (wire log)))) as [Hj|Hj].
      * rewrite lookup_app_l by done. apply IH2.
      * rewrite lookup_app_r by lia. intros Hj'. assert (j - length (frames_with MESSAGE (wire log)) = 0) as Hz.
        { apply lookup_lt_Some in Hj'. cbn [length] in Hj'. lia. }
        rewrite Hz in Hj'. injection Hj' as <-. assert (j = length (frames_with MESSAGE (wire log))) as -> by lia.
        rewrite <-Hlast. done.
Qed.

Lemma ack_headers cfg cid id_of ack_of pre e post c st m w : cexec cfg cid id_of ack_of (pre ++ e :: post) c st ->
  (Some m, w) ∈ v_wr e -> cmd_of m = MESSAGE ->
  match v_in e with
  | InTopic _ => hget_of m (lit "ack") = None
  | InSub s => hget_of m (lit "ack") = if decide (ack_of s = lit "auto") then None else hget_of m (lit "message-id")
  | _ => False
  end.
Proof.
  intros H Hin Hcmd. apply cexec_event in H as (c0 & hp & nx & w1 & w2 & o & He & Hk & Hf & Hi & _ & Hev & _).
  pose proof (iter_message _ _ _ _ _ _ _ _ _ (cexec_tx_ok _ _ _ _ _ _ _ He) Hf Hi) as Hm. rewrite Hev in Hin. cbn [v_wr] in Hin.
  destruct Hm as [[Hnone _]|(m0 & a & m' & w' & Hsrc & Hc & Hw & Ha)].
  - exfalso. assert (m ∈ frames_with MESSAGE (i_wr o)) as Hx; [|rewrite Hnone in Hx; by apply elem_of_nil in Hx].
    unfold frames_with. apply elem_of_list_omap. exists (Some m, w). split; [done|]. cbn. by rewrite bool_decide_eq_true_2.
  - rewrite Hw in Hin. apply elem_of_list_singleton in Hin as [= -> ->].
    destruct (alloc_id_message _ _ _ _ _ Hc Ha) as (_ & Hid & _ & Hack & _).
    destruct Hsrc as [[-> ->]|(s & sb & -> & Hs & _ & ->)].
    + rewrite Hack. by rewrite decide_True by by left.
    + rewrite Hack, Hid. destruct (Hk _ _ Hs) as (_ & Hmode & _). rewrite Hmode.
      destruct (decide (ack_of s = lit "auto")) as [->|Hne]; [by rewrite decide_True by by right|].
      rewrite decide_False; [done|]. intros [?|[= ?]]; [done|]. by apply Hne.
Qed.

(* ------------------------------------------------------------------ *)
(** C35 *)
Lemma collected_snoc t log e : collected t (log ++ [e]) = tx_event t (collected t log) e.
Proof. unfold collected. by rewrite fold_left_app. Qed.
Lemma stripped_eq m : with_hdr m (hd_del (hd_del (hdr m) h_receipt) h_transaction) = stripped m.
Proof. done. Qed.

(** Nothing but client frames changes the transactions. *)
Lemma other_tx cfg cid w1 w2 c hp nx i o : (forall m, i <> InFrame m) -> conn_iter cfg cid w1 w2 c hp nx i = Fine o -> k_tx (i_c o) = k_tx c.
Proof.
  intros Hni Hi. destruct i as [m| |m|s|]; [by destruct (Hni m)| | | |].
  - cbn in Hi. by injection Hi as <-.
  - cbn in Hi. destruct (alloc_id (k_last c) None m). by injection Hi as <-.
  - pose proof (conn_iter_sub cfg cid w1 w2 c hp nx s) as H. rewrite Hi in H. by inversion H; subst.
  - cbn in Hi. by injection Hi as <-.
Qed.

Lemma tx_collected cfg cid id_of ack_of log c st : cexec cfg cid id_of ack_of log c st ->
  forall t, k_tx c !! t = (fun l : list msg => stripped <$> l) <$> collected t log.
Proof.
  induction 1 as [|log c hp nx w1 w2 i o He IH Hk Hf Hi Hk']; [intros t; cbn; by rewrite lookup_empty|].
  intros t. rewrite collected_snoc. unfold tx_event, accepted, client_frame. cbn [v_stop v_in].
  destruct (classic_in i) as [[m ->]|Hni].
  2:{ rewrite (other_tx _ _ _ _ _ _ _ _ _ Hni Hi), IH. destruct (i_stop o); [done|]. destruct i; try done. by destruct (Hni m). }
  pose proof (conn_iter_frame cfg cid w1 w2 c hp nx m (cexec_tx_ok _ _ _ _ _ _ _ He)) as H. rewrite Hi in H.
  unfold hget_of. change (lit "transaction") with h_transaction. change (f_hdr (g_frame m)) with (hdr m).
  inversion H; subst; cbn [i_c i_stop]; change (f_hdr (g_frame m)) with (hdr m).
  - apply IH.
  - apply IH.
  - cbn [k_tx]. rewrite IH. destruct (decide (hd_contains (hdr m) h_transaction = Some t)); [|done].
    match goal with Hx : _ \/ _ |- _ => unfold in_tx; destruct Hx as [-> | ->]; done end.
  - rewrite IH. destruct (decide (hd_contains (hdr m) h_transaction = Some t)); [|done].
    match goal with Hx : cmd_of m = DISCONNECT |- _ => unfold in_tx; rewrite Hx; done end.
  - cbn [k_tx set_tx]. match goal with Hx : hd_contains (hdr m) h_transaction = Some ?t |- _ => rewrite Hx; rename t into t0 end.
    match goal with Hx : cmd_of m = BEGIN |- _ => rewrite Hx end.
    destruct (decide (Some t0 = Some t)) as [[= ->]|Hne]; [by rewrite lookup_insert|]. rewrite lookup_insert_ne by congruence. apply IH.
  - cbn [k_tx set_tx]. match goal with Hx : hd_contains (hdr m) h_transaction = Some ?t |- _ => rewrite Hx; rename t into t0 end.
    match goal with Hx : cmd_of m = ABORT |- _ => rewrite Hx end.
    destruct (decide (Some t0 = Some t)) as [[= ->]|Hne]; [by rewrite lookup_delete|]. rewrite lookup_delete_ne by congruence. apply IH.
  - cbn [k_tx set_tx]. match goal with Hx : hd_contains (hdr m) h_transaction = Some ?t |- _ => rewrite Hx; rename t into t0 end.
    match goal with Hx : cmd_of m = COMMIT |- _ => rewrite Hx end.
    destruct (decide (Some t0 = Some t)) as [[= ->]|Hne]; [by rewrite lookup_delete|]. rewrite lookup_delete_ne by congruence. apply IH.
  - cbn [k_tx set_tx]. match goal with Hx : hd_contains (hdr m) h_transaction = Some ?t |- _ => rewrite Hx; rename t into t0 end.
    match goal with Hx : in_tx m = true |- _ => rewrite Hx end.
    destruct (decide (Some t0 = Some t)) as [[= ->]|Hne]; [|rewrite lookup_insert_ne by congruence; apply IH].
    rewrite lookup_insert, stripped_eq.
    rewrite decide_False, decide_False by
      (match goal with Hx : cmd_of m = SEND \/ _ |- _ => destruct Hx as [->|[[-> | ->] _]] end; neq_lits).
    match goal with Hx : k_tx c !! t = Some _ |- _ => rewrite IH in Hx; destruct (collected t log) as [l0|]; [|done]; injection Hx as <- end.
    cbn. by rewrite fmap_app.
  - rewrite IH. match goal with Hx : hd_contains (hdr m) h_transaction = None |- _ => by rewrite Hx end.
  - cbn [k_tx set_sublist]. rewrite IH. match goal with Hx : hd_contains (hdr m) h_transaction = None |- _ => by rewrite Hx end.
  - cbn [k_tx set_subs]. rewrite IH. destruct (decide (hd_contains (hdr m) h_transaction = Some t)); [|done].
    match goal with Hx : cmd_of m = _ |- _ => unfold in_tx; rewrite Hx; done end.
  - cbn [k_tx set_subs]. rewrite IH. destruct (decide (hd_contains (hdr m) h_transaction = Some t)); [|done].
    match goal with Hx : cmd_of m = _ |- _ => unfold in_tx; rewrite Hx; done end.
Qed.

(** Requests made when stored frames are replayed. *)
Lemma sl_ack_no_send hp l n hp' rest rs : sl_ack hp l n = Fine (hp', rest, rs) -> enqueues rs = [].
Proof.
  revert hp hp' rest rs. induction l as [|s l IH]; intros hp hp' rest rs; cbn; [by intros [= <- <- <-]|].
  destruct (hp !! s) as [sb|]; [|done]. destruct (is_acked_by sb n) as [[]|]; [| |done].
  - destruct (sl_ack _ l n) as [p|[[h r] rs0]] eqn:E; [done|]. intros [= <- <- <-]. cbn. by eapply IH.
  - destruct (sl_ack _ l n) as [p|[[h r] rs0]] eqn:E; [done|]. intros [= <- <- <-]. by eapply IH.
Qed.
Lemma sl_nack_no_send hp l n hp' rest rs : sl_nack hp l n = Fine (hp', rest, rs) -> enqueues rs = [].
Proof.
  revert hp hp' rest rs. induction l as [|s l IH]; intros hp hp' rest rs; cbn; [by intros [= <- <- <-]|].
  destruct (hp !! s) as [sb|]; [|done]. destruct (is_nacked_by sb n).
  - destruct (s_frame sb); [|done]. destruct (sl_nack _ l n) as [p|[[h r] rs0]] eqn:E; [done|]. intros [= <- <- <-]. cbn. by eapply IH.
  - destruct (sl_nack _ l n) as [p|[[h r] rs0]] eqn:E; [done|]. intros [= <- <- <-]. by eapply IH.
Qed.
Lemma sl_of_no_send cmd hp l n hp' rest rs : sl_of cmd hp l n = Fine (hp', rest, rs) -> enqueues rs = [].
Proof. unfold sl_of. destruct (decide (cmd = ACK)); [apply sl_ack_no_send|apply sl_nack_no_send]. Qed.

Lemma enqueues_app a b : enqueues (a ++ b) = enqueues a ++ enqueues b.
Proof. apply omap_app. Qed.
Lemma replay_sends hp sl l hp' sl' rs : replay hp sl (stripped <$> l) = Fine (hp', sl', rs) -> enqueues rs = sends l.
Proof.
  revert hp sl hp' sl' rs. induction l as [|m l IH]; intros hp sl hp' sl' rs; cbn [fmap list_fmap replay]; [by intros [= <- <- <-]|].
  destruct (apply_one hp sl (stripped m)) as [p|[[hp1 sl1] rs1]] eqn:Ha; [done|].
  change (stripped <$> l) with (list_fmap _ _ stripped l).
  destruct (replay hp1 sl1 (list_fmap _ _ stripped l)) as [p|[[hp2 sl2] rs2]] eqn:Hr; [done|]. intros [= <- <- <-].
  rewrite enqueues_app, (IH _ _ _ _ _ Hr). unfold sends at 2. cbn [omap list_omap].
  unfold apply_one in Ha. change (cmd_of (stripped m)) with (cmd_of m) in Ha.
  destruct (decide (cmd_of m = SEND)) as [Hcmd|Hcmd].
  - injection Ha as <- <- <-. done.
  - replace (enqueues rs1) with (@nil msg); [done|]. symmetry.
    destruct (ack_id (stripped m)); [by injection Ha as <- <- <-|]. by eapply sl_of_no_send.
Qed.

Lemma enqueue_due cfg cid id_of ack_of pre e post c st :
  cexec cfg cid id_of ack_of (pre ++ e :: post) c st -> enqueues (v_push e) = due pre e.
Proof.
  intros H. apply cexec_event in H as (c0 & hp & nx & w1 & w2 & o & He & _ & _ & Hi & _ & Hev & _).
  rewrite Hev. cbn [v_push]. unfold due, accepted, client_frame. cbn [v_stop v_in].
  destruct (classic_in (v_in e)) as [[m Hm]|Hni].
  - rewrite Hm in *.
    pose proof (conn_iter_frame cfg cid w1 w2 c0 hp nx m (cexec_tx_ok _ _ _ _ _ _ _ He)) as H. rewrite Hi in H.
    unfold hget_of. change (lit "transaction") with h_transaction. change (f_hdr (g_frame m)) with (hdr m).
    inversion H; subst; cbn [i_push i_stop]; change (f_hdr (g_frame m)) with (hdr m).
    + done.
    + done.
    + unfold sends. cbn [omap list_omap].
      destruct (hd_contains (hdr m) h_transaction); match goal with Hx : _ \/ _ |- _ => destruct Hx as [-> | ->]; done end.
    + unfold sends. cbn [omap list_omap].
      destruct (hd_contains (hdr m) h_transaction); match goal with Hx : cmd_of m = DISCONNECT |- _ => rewrite Hx; done end.
    + match goal with Hx : hd_contains (hdr m) h_transaction = _ |- _ => rewrite Hx end. match goal with Hx : cmd_of m = _ |- _ => rewrite Hx end. done.
    + match goal with Hx : hd_contains (hdr m) h_transaction = _ |- _ => rewrite Hx end. match goal with Hx : cmd_of m = _ |- _ => rewrite Hx end. done.
    + match goal with Hx : hd_contains (hdr m) h_transaction = _ |- _ => rewrite Hx end.
      rewrite decide_True by done.
      match goal with Hx : k_tx c0 !! ?t = Some _ |- _ => rewrite (tx_collected _ _ _ _ _ _ _ He t) in Hx;
        destruct (collected t pre) as [l0|]; [|done]; injection Hx as <- end.
      cbn [fmap option_fmap option_map default]. by eapply replay_sends.
    + match goal with Hx : hd_contains (hdr m) h_transaction = _ |- _ => rewrite Hx end.
      rewrite decide_False; [done|]. match goal with Hx : cmd_of m = SEND \/ _ |- _ => destruct Hx as [->|[[-> | ->] _]] end; neq_lits.
    + match goal with Hx : hd_contains (hdr m) h_transaction = _ |- _ => rewrite Hx; rename Hx into Htn end.
      unfold sends. cbn [omap list_omap]. rewrite decide_True by done. unfold delivered, as_message, no_receipt.
      cbn [with_hdr hdr g_frame f_hdr g_uid f_body enqueues omap list_omap].
      change (lit "transaction") with h_transaction. change (lit "receipt") with h_receipt. change (f_hdr (g_frame m)) with (hdr m).
      rewrite (hd_del_absent (hd_del (hdr m) h_receipt) h_transaction); [done|]. rewrite hd_contains_del_other by neq_lits. done.
    + match goal with Hx : hd_contains (hdr m) h_transaction = _ |- _ => rewrite Hx end.
      unfold sends. cbn [omap list_omap]. rewrite decide_False; [by eapply sl_of_no_send|].
      match goal with Hx : _ \/ _ |- _ => destruct Hx as [-> | ->] end; neq_lits.
    + unfold sends. cbn [omap list_omap].
      destruct (hd_contains (hdr m) h_transaction); match goal with Hx : cmd_of m = _ |- _ => rewrite Hx; done end.
    + unfold sends. cbn [omap list_omap].
      destruct (hd_contains (hdr m) h_transaction); match goal with Hx : cmd_of m = _ |- _ => rewrite Hx; done end.
  - replace (if i_stop o then None else match v_in e with InFrame m => Some m | _ => None end) with (@None msg).
    2:{ destruct (i_stop o); [done|]. destruct (v_in e); try done. by destruct (Hni m). }
    destruct (v_in e) as [m| |m|s|]; [by destruct (Hni m)| | | |].
    + cbn in Hi. by injection Hi as <-.
    + cbn in Hi. destruct (alloc_id (k_last c0) None m). by injection Hi as <-.
    + pose proof (conn_iter_sub cfg cid w1 w2 c0 hp nx s) as H. rewrite Hi in H. by inversion H; subst.
    + cbn in Hi. by injection Hi as <-.
Qed.

(** Frames inside a transaction ask nothing of the broker and change no
    subscription object. *)
Lemma tx_frames_wait cfg cid id_of ack_of log c hp nx w1 w2 m o t : cexec cfg cid id_of ack_of log c false ->
  conn_iter cfg cid w1 w2 c hp nx (InFrame m) = Fine o ->
  hget_of m (lit "transaction") = Some t -> cmd_of m <> COMMIT -> cmd_of m <> SUBSCRIBE -> cmd_of m <> UNSUBSCRIBE ->
  k_connected c = true ->
  i_push o = [] /\ i_hp o = hp /\ k_sublist (i_c o) = k_sublist c.
Proof.
  intros He Hi Ht H1 H2 H3 Hc. unfold hget_of in Ht. change (f_hdr (g_frame m)) with (hdr m) in Ht. change (lit "transaction") with h_transaction in Ht.
  pose proof (conn_iter_frame cfg cid w1 w2 c hp nx m (cexec_tx_ok _ _ _ _ _ _ _ He)) as H. rewrite Hi in H.
  inversion H; subst; try done; congruence.
Qed.

(** COMMIT does what its frames would have done one by one, and nothing makes
    it stop half way. *)
Lemma stored_iter cfg cid w1 w2 c hp nx m : stored_ok m -> k_connected c = true ->
  conn_iter cfg cid w1 w2 c hp nx (InFrame m) =
  match apply_one hp (k_sublist c) m with
  | Panicked p => Panicked p
  | Fine (hp1, sl1, rs1) => Fine (mkIout (set_sublist c sl1) hp1 nx [] rs1 false)
  end.
Proof.
  intros Hs Hc. cbn [conn_iter]. unfold state_func. rewrite Hc. cbn [andb]. rewrite bool_decide_eq_false_2.
  - rewrite (stored_plain cfg cid w1 c hp nx m Hs Hc). by destruct (apply_one hp (k_sublist c) m) as [p|[[? ?] ?]].
  - destruct Hs as (_ & _ & Hs). change (f_cmd (g_frame m)) with (cmd_of m). destruct Hs as [->|[[-> | ->] _]]; neq_lits.
Qed.
Lemma one_by_one_replay cfg cid c hp nx l : Forall stored_ok l -> k_connected c = true ->
  one_by_one cfg cid c hp nx l =
  match replay hp (k_sublist c) l with
  | Panicked p => Panicked p
  | Fine (hp', sl, rs) => Fine (Some (set_sublist c sl, hp', nx, rs))
  end.
Proof.
  intros Hl. revert c hp. induction Hl as [|m l Hm Hl IH]; intros c hp Hc; cbn [one_by_one replay]; [by destruct c|].
  rewrite (stored_iter cfg cid true true c hp nx m Hm Hc). destruct (apply_one hp (k_sublist c) m) as [p|[[hp1 sl1] rs1]]; [done|].
  cbn [i_stop i_c i_hp i_next i_push]. rewrite IH by done. cbn [k_sublist set_sublist].
  by destruct (replay hp1 sl1 l) as [p|[[hp2 sl2] rs2]].
Qed.
Lemma commit_exact cfg cid id_of ack_of log c hp nx w2 m t l : cexec cfg cid id_of ack_of log c false ->
  k_connected c = true -> cmd_of m = COMMIT -> hget_of m (lit "transaction") = Some t -> collected t log = Some l ->
  match one_by_one cfg cid c hp nx (stripped <$> l) with
  | Panicked p => conn_iter cfg cid true w2 c hp nx (InFrame m) = Panicked p
  | Fine None => False
  | Fine (Some (c', hp', nx', rs)) => exists ws,
      conn_iter cfg cid true w2 c hp nx (InFrame m) = Fine (mkIout (set_tx c' (delete t (k_tx c'))) hp' nx' ws rs false)
  end.
Proof.
  intros He Hc Hcmd Ht Hl. unfold hget_of in Ht. change (f_hdr (g_frame m)) with (hdr m) in Ht. change (lit "transaction") with h_transaction in Ht.
  pose proof (tx_collected _ _ _ _ _ _ _ He t) as Htx. rewrite Hl in Htx. cbn in Htx.
  pose proof (cexec_tx_ok _ _ _ _ _ _ _ He _ _ Htx) as Hok. change (list_fmap msg msg stripped l) with (stripped <$> l) in *.
  rewrite one_by_one_replay by done. cbn [conn_iter]. unfold state_func. rewrite Hc. cbn [andb].
  rewrite bool_decide_eq_true_2 by done. unfold h_commit. rewrite Ht.
  destruct (send_receipt_eq true m) as (ok & -> & Hok1 & _). rewrite (Hok1 eq_refl). cbn [negb]. rewrite Htx.
  pose proof (commit_loop_eq cfg cid true t (stripped <$> l) c hp nx Hok Hc) as H.
  destruct (replay hp (k_sublist c) (stripped <$> l)) as [p|[[hp' sl] rs]].
  - by rewrite H.
  - destruct H as [m0 ->]. eexists. reflexivity.
Qed.

Lemma tx_unknown cfg cid id_of ack_of log c hp nx w1 w2 m o t : cexec cfg cid id_of ack_of log c false ->
  conn_iter cfg cid w1 w2 c hp nx (InFrame m) = Fine o -> hget_of m (lit "transaction") = Some t -> collected t log = None ->
  cmd_of m ∈ [SEND; ACK; NACK; COMMIT; ABORT] -> i_stop o = true.
Proof.
  intros He Hi Ht Hl Hcmd. unfold hget_of in Ht. change (f_hdr (g_frame m)) with (hdr m) in Ht. change (lit "transaction") with h_transaction in Ht.
  pose proof (tx_collected _ _ _ _ _ _ _ He t) as Htx. rewrite Hl in Htx. cbn in Htx.
  pose proof (conn_iter_frame cfg cid w1 w2 c hp nx m (cexec_tx_ok _ _ _ _ _ _ _ He)) as H. rewrite Hi in H.
  assert (Hex : cmd_of m <> DISCONNECT /\ cmd_of m <> BEGIN /\ cmd_of m <> CONNECT /\ cmd_of m <> STOMP /\ cmd_of m <> SUBSCRIBE /\ cmd_of m <> UNSUBSCRIBE).
  { rewrite !elem_of_cons, elem_of_nil in Hcmd. destruct Hcmd as [->|[->|[->|[->|[->|[]]]]]]; split_and!; neq_lits. }
  destruct Hex as (? & ? & ? & ? & ? & ?).
  inversion H; subst; cbn; try done; try congruence.
  match goal with Hx : _ \/ _ |- _ => destruct Hx; congruence end.
Qed.
Lemma tx_duplicate cfg cid id_of ack_of log c hp nx w1 w2 m o t l : cexec cfg cid id_of ack_of log c false ->
  conn_iter cfg cid w1 w2 c hp nx (InFrame m) = Fine o -> hget_of m (lit "transaction") = Some t -> collected t log = Some l ->
  cmd_of m = BEGIN -> i_stop o = true.
Proof.
  intros He Hi Ht Hl Hcmd. unfold hget_of in Ht. change (f_hdr (g_frame m)) with (hdr m) in Ht. change (lit "transaction") with h_transaction in Ht.
  pose proof (tx_collected _ _ _ _ _ _ _ He t) as Htx. rewrite Hl in Htx. cbn in Htx.
  pose proof (conn_iter_frame cfg cid w1 w2 c hp nx m (cexec_tx_ok _ _ _ _ _ _ _ He)) as H. rewrite Hi in H.
  inversion H; subst; cbn; try done; try congruence; clash Hcmd.
Qed.

(* ------------------------------------------------------------------ *)
(** C53 *)
Lemma live_snoc id log e : live id (log ++ [e]) = sub_event id (live id log) e.
Proof. unfold live. by rewrite fold_left_app. Qed.
Lemma other_subs cfg cid w1 w2 c hp nx i o : (forall m, i <> InFrame m) -> conn_iter cfg cid w1 w2 c hp nx i = Fine o -> k_subs (i_c o) = k_subs c.
Proof.
  intros Hni Hi. destruct i as [m| |m|s|]; [by destruct (Hni m)| | | |].
  - cbn in Hi. by injection Hi as <-.
  - cbn in Hi. destruct (alloc_id (k_last c) None m). by injection Hi as <-.
  - pose proof (conn_iter_sub cfg cid w1 w2 c hp nx s) as H. rewrite Hi in H. by inversion H; subst.
  - cbn in Hi. by injection Hi as <-.
Qed.
Lemma subs_live cfg cid id_of ack_of log c st : cexec cfg cid id_of ack_of log c st -> forall id, k_subs c !! id = live id log.
Proof.
  induction 1 as [|log c hp nx w1 w2 i o He IH Hk Hf Hi Hk']; [intros t; cbn; by rewrite lookup_empty|].
  intros id. rewrite live_snoc. unfold sub_event, accepted, client_frame. cbn [v_stop v_in v_push].
  destruct (classic_in i) as [[m ->]|Hni].
  2:{ rewrite (other_subs _ _ _ _ _ _ _ _ _ Hni Hi), IH. destruct (i_stop o); [done|]. destruct i; try done. by destruct (Hni m). }
  pose proof (conn_iter_frame cfg cid w1 w2 c hp nx m (cexec_tx_ok _ _ _ _ _ _ _ He)) as H. rewrite Hi in H.
  unfold hget_of. change (lit "id") with h_id. change (f_hdr (g_frame m)) with (hdr m).
  destruct (decide (cmd_of m = SUBSCRIBE)) as [Hs|Hs].
  { inversion H; subst; cbn [i_c i_stop i_push]; change (f_hdr (g_frame m)) with (hdr m); try apply IH;
      clash Hs.
    cbn [k_subs set_subs]. match goal with Hx : hd_contains (hdr m) h_id = Some ?x |- _ => rewrite Hx; rename x into id0 end.
    destruct (decide (Some id0 = Some id)) as [[= ->]|Hne]; [by rewrite lookup_insert, decide_True|]. rewrite lookup_insert_ne by congruence. apply IH. }
  destruct (decide (cmd_of m = UNSUBSCRIBE)) as [Hu|Hu].
  { inversion H; subst; cbn [i_c i_stop i_push]; change (f_hdr (g_frame m)) with (hdr m); try apply IH;
      clash Hu.
    cbn [k_subs set_subs]. match goal with Hx : hd_contains (hdr m) h_id = Some ?x |- _ => rewrite Hx; rename x into id0 end.
    destruct (decide (Some id0 = Some id)) as [[= ->]|Hne]; [by rewrite lookup_delete, decide_False, decide_True|]. rewrite lookup_delete_ne by congruence. apply IH. }
  assert (k_subs (i_c o) = k_subs c) as Hsame by (by inversion H; subst).
  rewrite Hsame, IH. destruct (i_stop o); [done|]. destruct (decide (hd_contains (f_hdr (g_frame m)) h_id = Some id)); [|done].
  by rewrite !decide_False.
Qed.

Lemma subscribe_exact cfg cid id_of ack_of pre e post c st m : cexec cfg cid id_of ack_of (pre ++ e :: post) c st ->
  v_in e = InFrame m -> cmd_of m = SUBSCRIBE ->
  if v_stop e then v_push e = []
  else exists id s, hget_of m (lit "id") = Some id /\ live id pre = None /\ v_push e = [RSubscribe s] /\ live id (pre ++ [e]) = Some s /\
         is_Some (hget_of m (lit "destination")).
Proof.
  intros H Hin Hcmd. apply cexec_event in H as (c0 & hp & nx & w1 & w2 & o & He & _ & _ & Hi & _ & Hev & He' & _).
  rewrite Hin in Hi. pose proof (conn_iter_frame cfg cid w1 w2 c0 hp nx m (cexec_tx_ok _ _ _ _ _ _ _ He)) as H. rewrite Hi in H.
  pose proof (subs_live _ _ _ _ _ _ _ He) as Hl0. pose proof (subs_live _ _ _ _ _ _ _ He') as Hl1.
  destruct e as [vi vw vp vs]. cbn [v_in v_stop v_push v_wr] in *. injection Hev as -> -> ->.
  inversion H; subst; cbn [i_stop i_push i_c] in *; try done;
      clash Hcmd.
  match goal with Hx : hd_contains (hdr m) h_id = Some ?x |- _ => exists x, nx; rename x into id0 end. split_and!; try done.
  - by rewrite <-Hl0.
  - rewrite <-Hl1. cbn. by rewrite lookup_insert.
Qed.
Lemma unsubscribe_exact cfg cid id_of ack_of pre e post c st m : cexec cfg cid id_of ack_of (pre ++ e :: post) c st ->
  v_in e = InFrame m -> cmd_of m = UNSUBSCRIBE ->
  if v_stop e then v_push e = []
  else exists id s, hget_of m (lit "id") = Some id /\ live id pre = Some s /\ v_push e = [RUnsubscribe s] /\ live id (pre ++ [e]) = None /\
         forall id', id' <> id -> live id' (pre ++ [e]) = live id' pre.
Proof.
  intros H Hin Hcmd. apply cexec_event in H as (c0 & hp & nx & w1 & w2 & o & He & _ & _ & Hi & _ & Hev & He' & _).
  rewrite Hin in Hi. pose proof (conn_iter_frame cfg cid w1 w2 c0 hp nx m (cexec_tx_ok _ _ _ _ _ _ _ He)) as H. rewrite Hi in H.
  pose proof (subs_live _ _ _ _ _ _ _ He) as Hl0. pose proof (subs_live _ _ _ _ _ _ _ He') as Hl1.
  destruct e as [vi vw vp vs]. cbn [v_in v_stop v_push v_wr] in *. injection Hev as -> -> ->.
  inversion H; subst; cbn [i_stop i_push i_c] in *; try done;
      clash Hcmd.
  match goal with Hx : hd_contains (hdr m) h_id = Some ?x, Hy : k_subs c0 !! ?x = Some ?s |- _ => exists x, s; rename x into id0 end. split_and!; try done.
  - by rewrite <-Hl0.
  - rewrite <-Hl1. cbn. by rewrite lookup_delete.
  - intros id' Hne. rewrite <-Hl1, <-Hl0. cbn. by rewrite lookup_delete_ne.
Qed.
(** A taken id is refused, and so is an unknown one. *)
Lemma subscribe_taken cfg cid id_of ack_of log c hp nx w1 w2 m o id s : cexec cfg cid id_of ack_of log c false ->
  conn_iter cfg cid w1 w2 c hp nx (InFrame m) = Fine o -> cmd_of m = SUBSCRIBE -> hget_of m (lit "id") = Some id -> live id log = Some s ->
  i_stop o = true.
Proof.
  intros He Hi Hcmd Hid Hl. rewrite <-(subs_live _ _ _ _ _ _ _ He) in Hl. unfold hget_of in Hid. change (lit "id") with h_id in Hid. change (f_hdr (g_frame m)) with (hdr m) in Hid.
  pose proof (conn_iter_frame cfg cid w1 w2 c hp nx m (cexec_tx_ok _ _ _ _ _ _ _ He)) as H. rewrite Hi in H.
  inversion H; subst; cbn [i_stop i_push i_c] in *; try done;
      clash Hcmd.
  congruence.
Qed.
Lemma unsubscribe_unknown cfg cid id_of ack_of log c hp nx w1 w2 m o id : cexec cfg cid id_of ack_of log c false ->
  conn_iter cfg cid w1 w2 c hp nx (InFrame m) = Fine o -> cmd_of m = UNSUBSCRIBE -> hget_of m (lit "id") = Some id -> live id log = None ->
  i_stop o = true.
Proof.
  intros He Hi Hcmd Hid Hl. rewrite <-(subs_live _ _ _ _ _ _ _ He) in Hl. unfold hget_of in Hid. change (lit "id") with h_id in Hid. change (f_hdr (g_frame m)) with (hdr m) in Hid.
  pose proof (conn_iter_frame cfg cid w1 w2 c hp nx m (cexec_tx_ok _ _ _ _ _ _ _ He)) as H. rewrite Hi in H.
  inversion H; subst; cbn [i_stop i_push i_c] in *; try done;
      clash Hcmd.
  congruence.
Qed.

(** C49, local part: a message for an id that is not live is never written and
    goes back. *)
Lemma dead_id_requeues cfg cid id_of ack_of pre e post c st s : cexec cfg cid id_of ack_of (pre ++ e :: post) c st ->
  v_in e = InSub s -> live (id_of s) pre = None ->
  v_wr e = [] /\ v_stop e = false /\ exists m, v_push e = [RRequeue m].
Proof.
  intros H Hin Hl. apply cexec_event in H as (c0 & hp & nx & w1 & w2 & o & He & Hk & _ & Hi & _ & Hev & _).
  rewrite Hin in Hi. rewrite Hev. cbn [v_wr v_stop v_push]. pose proof (conn_iter_sub cfg cid w1 w2 c0 hp nx s) as H. rewrite Hi in H.
  rewrite <-(subs_live _ _ _ _ _ _ _ He) in Hl.
  inversion H; subst; cbn; [eauto| | |];
    match goal with Hs : hp !! s = Some ?sb, Hx : k_subs c0 !! s_id ?sb = Some _ |- _ => destruct (Hk _ _ Hs) as (Hid & _); rewrite Hid in Hx; congruence end.
Qed.

(** C50, the part that holds. *)
Lemma disconnect_exact cfg cid id_of ack_of pre e post c st m : cexec cfg cid id_of ack_of (pre ++ e :: post) c st ->
  v_in e = InFrame m -> cmd_of m = DISCONNECT -> v_stop e = false ->
  v_push e = [] /\ frames_with RECEIPT (v_wr e) = match hget_of m (lit "receipt") with
    | Some r => [mkMsg (g_uid m) (mkFrame RECEIPT [(lit "receipt-id", r)] [])] | None => [] end /\
  length (v_wr e) = length (frames_with RECEIPT (v_wr e)).
Proof.
  intros H Hin Hcmd. apply cexec_event in H as (c0 & hp & nx & w1 & w2 & o & He & Hk & _ & Hi & _ & Hev & _).
  rewrite Hin in Hi. pose proof (conn_iter_frame cfg cid w1 w2 c0 hp nx m (cexec_tx_ok _ _ _ _ _ _ _ He)) as H. rewrite Hi in H.
  rewrite Hev. cbn [v_stop v_push v_wr].
  inversion H; subst; cbn [i_stop i_push i_c i_wr] in *; try done;
      clash Hcmd.
  intros _. rewrite frames_with_receipt. unfold hget_of, receipt_wr. change (lit "receipt") with h_receipt. change (f_hdr (g_frame m)) with (hdr m).
  by destruct (hd_contains (hdr m) h_receipt).
Qed.

(* ------------------------------------------------------------------ *)
(** C41 *)
Definition acked (ack_of : nat -> str) (n : N) (s : nat) : bool :=
  bool_decide (ack_of s = ack_auto \/ ack_of s = ack_client \/ (ack_of s = ack_individual /\ n = 0%N)).
Lemma keeps_set_frame id_of ack_of hp s sb m : keeps id_of ack_of hp -> hp !! s = Some sb -> keeps id_of ack_of (<[s := set_frame sb m]> hp).
Proof.
  intros Hk Hs s' sb'. destruct (decide (s = s')) as [->|Hne].
  - rewrite lookup_insert. intros [= <-]. cbn. by apply Hk.
  - rewrite lookup_insert_ne by done. apply Hk.
Qed.
Lemma filter_ext_in {A} (P Q : A -> Prop) `{!forall x, Decision (P x)} `{!forall x, Decision (Q x)} (l : list A) :
  (forall x, x ∈ l -> (P x <-> Q x)) -> filter P l = filter Q l.
Proof.
  induction l as [|a l IH]; intros Hpq; [done|]. rewrite !filter_cons. rewrite IH by (intros; apply Hpq; by right).
  assert (P a <-> Q a) as Ha by (apply Hpq; by left). destruct (decide (P a)), (decide (Q a)); try done; tauto.
Qed.
Lemma released_spec l s : released l s = true <-> RSubscribe s ∈ l.
Proof.
  unfold released. rewrite existsb_exists. split.
  - intros (r & Hin & Hr). apply elem_of_list_In in Hin. destruct r; try done. apply Nat.eqb_eq in Hr as ->. done.
  - intros Hin. exists (RSubscribe s). split; [by apply elem_of_list_In|]. apply Nat.eqb_refl.
Qed.
Lemma released_app a b s : released (a ++ b) s = released a s || released b s.
Proof. apply existsb_app. Qed.

Lemma sl_ack_exact id_of ack_of hp l n hp' rest rs : keeps id_of ack_of hp -> sl_ack hp l n = Fine (hp', rest, rs) ->
  rs = RSubscribe <$> filter (fun s => acked ack_of n s = true) l /\ rest = filter (fun s => acked ack_of n s = false) l /\ keeps id_of ack_of hp'.
Proof.
  revert hp hp' rest rs. induction l as [|s l IH]; intros hp hp' rest rs Hk; cbn [sl_ack]; [by intros [= <- <- <-]|].
  destruct (hp !! s) as [sb|] eqn:Hs; [|done]. destruct (Hk _ _ Hs) as (Hid & Hack & Hm).
  assert (Hacked : forall b, is_acked_by sb n = Some b -> b = acked ack_of n s).
  { intros b. unfold is_acked_by, acked. rewrite Hack, Hm. destruct (decide (ack_of s = ack_auto)) as [He|He].
    - intros [= <-]. symmetry. apply bool_decide_eq_true_2. by left.
    - destruct (decide (ack_of s = ack_client)) as [He'|He'].
      + intros [= <-]. rewrite bool_decide_eq_true_2 by (right; by left). apply N.leb_le. lia.
      + destruct (decide (ack_of s = ack_individual)) as [He''|He'']; [|done]. intros [= <-].
        destruct (N.eqb_spec n 0) as [->|Hn]; symmetry; [apply bool_decide_eq_true_2; auto|].
        apply bool_decide_eq_false_2. intros [?|[?|[? ?]]]; done. }
  destruct (is_acked_by sb n) as [[]|] eqn:Ha; [| |done]; specialize (Hacked _ eq_refl).
  - destruct (sl_ack _ l n) as [p|[[h r] rs0]] eqn:E; [done|]. intros [= <- <- <-].
    destruct (IH _ _ _ _ (keeps_set_frame _ _ _ _ _ None Hk Hs) E) as (-> & -> & Hk').
    rewrite filter_cons_True by done. rewrite filter_cons_False by by rewrite <-Hacked. done.
  - destruct (sl_ack _ l n) as [p|[[h r] rs0]] eqn:E; [done|]. intros [= <- <- <-].
    destruct (IH _ _ _ _ Hk E) as (-> & -> & Hk'). rewrite filter_cons_False by by rewrite <-Hacked.
    rewrite filter_cons_True by done. done.
Qed.
Lemma sl_nack_exact id_of ack_of hp l n hp' rest rs : keeps id_of ack_of hp -> sl_nack hp l n = Fine (hp', rest, rs) ->
  keeps id_of ack_of hp' /\
  if (n =? 0)%N then rest = [] /\ (forall s, s ∈ l -> RSubscribe s ∈ rs) else rest = l /\ rs = [] /\ hp' = hp.
Proof.
  revert hp hp' rest rs. induction l as [|s l IH]; intros hp hp' rest rs Hk; cbn [sl_nack].
  { intros [= <- <- <-]. split; [done|]. destruct (n =? 0)%N; [|done]. split; [done|]. intros s H. by apply elem_of_nil in H. }
  destruct (hp !! s) as [sb|] eqn:Hs; [|done]. destruct (Hk _ _ Hs) as (Hid & Hack & Hm). unfold is_nacked_by. rewrite Hm.
  destruct (n =? 0)%N.
  - destruct (s_frame sb) as [m|]; [|done]. destruct (sl_nack _ l n) as [p|[[h r] rs0]] eqn:E; [done|]. intros [= <- <- <-].
    destruct (IH _ _ _ _ (keeps_set_frame _ _ _ _ _ None Hk Hs) E) as (Hk' & -> & Hin).
    split_and!; [done|done|]. intros x [->|Hx]%elem_of_cons; [right; left|]. right; right. by apply Hin.
  - destruct (sl_nack _ l n) as [p|[[h r] rs0]] eqn:E; [done|]. intros [= <- <- <-].
    by destruct (IH _ _ _ _ Hk E) as (Hk' & -> & -> & ->).
Qed.

Lemma sl_of_released id_of ack_of cmd hp l n hp' rest rs : keeps id_of ack_of hp -> sl_of cmd hp l n = Fine (hp', rest, rs) ->
  rest = filter (fun s => released rs s = false) l /\ keeps id_of ack_of hp'.
Proof.
  intros Hk. unfold sl_of. destruct (decide (cmd = ACK)); intros H.
  - apply (sl_ack_exact id_of ack_of) in H as (-> & -> & ?); [|done]. split; [|done]. apply filter_ext_in. intros x Hx.
    rewrite <-!not_true_iff_false, released_spec, elem_of_list_fmap. apply not_iff_compat. split.
    + intros Ha. exists x. split; [done|]. apply elem_of_list_filter. done.
    + intros (y & [= <-] & Hy). by apply elem_of_list_filter in Hy as [? _].
  - apply (sl_nack_exact id_of ack_of) in H as (Hk' & H); [|done]. split; [|done]. destruct (n =? 0)%N.
    + destruct H as [-> Hin]. symmetry. clear -Hin. induction l as [|a l IH]; [done|].
      rewrite filter_cons_False; [apply IH; intros; apply Hin; by right|].
      rewrite not_false_iff_true. apply released_spec. apply Hin. by left.
    + destruct H as (-> & -> & ->). symmetry. clear. induction l as [|a l IH]; [done|]. rewrite filter_cons_True by done. by rewrite IH.
Qed.
Lemma replay_released id_of ack_of l hp sl hp' sl' rs : keeps id_of ack_of hp -> replay hp sl l = Fine (hp', sl', rs) ->
  sl' = filter (fun s => released rs s = false) sl /\ keeps id_of ack_of hp'.
Proof.
  revert hp sl hp' sl' rs. induction l as [|m l IH]; intros hp sl hp' sl' rs Hk; cbn [replay].
  { intros [= <- <- <-]. split; [|done]. symmetry. clear. induction sl as [|a l IH]; [done|]. rewrite filter_cons_True by done. by rewrite IH. }
  destruct (apply_one hp sl m) as [p|[[hp1 sl1] rs1]] eqn:Ha; [done|].
  assert (sl1 = filter (fun s => released rs1 s = false) sl /\ keeps id_of ack_of hp1) as [-> Hk1].
  { unfold apply_one in Ha. destruct (decide (cmd_of m = SEND)); [|destruct (ack_id m)].
    - injection Ha as <- <- <-. split; [|done]. symmetry. clear. induction sl as [|a l IH]; [done|]. rewrite filter_cons_True by done. by rewrite IH.
    - injection Ha as <- <- <-. split; [|done]. symmetry. clear. induction sl as [|a l IH]; [done|]. rewrite filter_cons_True by done. by rewrite IH.
    - by destruct (sl_of_released _ _ _ _ _ _ _ _ _ Hk Ha). }
  destruct (replay hp1 _ l) as [p|[[hp2 sl2] rs2]] eqn:Hr; [done|]. intros [= <- <- <-].
  apply IH in Hr as [-> Hk2]; [|done]. split; [|done]. rewrite list_filter_filter. apply filter_ext_in. intros x _.
  rewrite released_app, orb_false_iff. tauto.
Qed.

Lemma sublist_outstanding cfg cid id_of ack_of log c st : cexec cfg cid id_of ack_of log c st -> k_sublist c = outstanding ack_of log.
Proof.
  induction 1 as [|log c hp nx w1 w2 i o He IH Hk Hf Hi Hk']; [done|].
  unfold outstanding. rewrite fold_left_app. fold (outstanding ack_of log). rewrite <-IH. cbn [fold_left]. unfold out_event, accepted, client_frame. cbn [v_in v_stop v_wr v_push].
  destruct i as [m| |m|s|].
  - pose proof (conn_iter_frame cfg cid w1 w2 c hp nx m (cexec_tx_ok _ _ _ _ _ _ _ He)) as H. rewrite Hi in H.
    destruct (decide (cmd_of m ∈ [ACK; NACK; COMMIT])) as [Hcmd|Hcmd].
    + assert (Hn : forall x, cmd_of m = x -> x ∈ [ACK; NACK; COMMIT]) by by intros x <-.
      assert (Hid : filter (fun s => released [] s = false) (k_sublist c) = k_sublist c).
      { clear. induction (k_sublist c) as [|a l IH]; [done|]. rewrite filter_cons_True by done. by rewrite IH. }
      inversion H; subst; cbn [i_c i_stop i_push k_sublist set_tx set_sublist set_subs] in *; try done;
        try (match goal with Hx : cmd_of m = _ |- _ => apply Hn in Hx; by vm_compute in Hx end).
      * match goal with Hx : replay _ _ _ = _ |- _ => by destruct (replay_released _ _ _ _ _ _ _ _ Hk Hx) end.
      * match goal with Hx : sl_of _ _ _ _ = _ |- _ => by destruct (sl_of_released _ _ _ _ _ _ _ _ _ Hk Hx) end.
      * match goal with Hx : cmd_of m = _ |- _ => rewrite Hx, !elem_of_cons, elem_of_nil in Hcmd end.
        destruct Hcmd as [Hc|[Hc|[Hc|[]]]]; discriminate Hc.
    + replace (k_sublist (i_c o)) with (k_sublist c); [by destruct (i_stop o)|].
      assert (Hn : cmd_of m <> ACK /\ cmd_of m <> NACK /\ cmd_of m <> COMMIT).
      { split_and!; intros Hx; apply Hcmd; rewrite Hx; by apply (bool_decide_unpack _). }
      destruct Hn as (? & ? & ?). inversion H; subst; try done. match goal with Hx : cmd_of m = ACK \/ _ |- _ => by destruct Hx end.
  - cbn in Hi. by injection Hi as <-.
  - cbn in Hi. destruct (alloc_id (k_last c) None m). by injection Hi as <-.
  - pose proof (conn_iter_sub cfg cid w1 w2 c hp nx s) as H. rewrite Hi in H.
    change (lit "auto") with ack_auto.
    inversion H; subst; cbn [i_c i_stop i_wr set_sublist set_last k_sublist].
    + rewrite decide_False; [done|]. intros (_ & ? & _). done.
    + rewrite decide_False; [done|]. intros (_ & _ & ?). done.
    + rewrite decide_False; [done|]. intros (Hx & _). apply Hx. by match goal with Hs : hp !! s = Some _ |- _ => destruct (Hk _ _ Hs) as (_ & <- & _) end.
    + rewrite decide_True; [done|]. split_and!; try done. by match goal with Hs : hp !! s = Some _ |- _ => destruct (Hk _ _ Hs) as (_ & <- & _) end.
  - cbn in Hi. by injection Hi as <-.
Qed.

Lemma ack_id_names m n : ack_id m = inr n -> names m n.
Proof.
  unfold ack_id, names, hget_of. change (f_hdr (g_frame m)) with (hdr m). change (lit "ack") with h_ack. change (lit "message-id") with h_message_id.
  destruct (hd_contains (hdr m) h_ack) as [v|] eqn:Ha.
  - destruct (parse_uint 64 v) eqn:Hp; [|done]. intros [= <-]. exists v. auto.
  - destruct (hd_contains (hdr m) h_message_id) as [v|] eqn:Hm; [|done]. destruct (parse_uint 64 v) eqn:Hp; [|done]. intros [= <-]. exists v. auto.
Qed.

Lemma acknack_exact cfg cid id_of ack_of pre e post c st m : cexec cfg cid id_of ack_of (pre ++ e :: post) c st ->
  accepted e = Some m -> cmd_of m = ACK \/ cmd_of m = NACK -> hget_of m (lit "transaction") = None ->
  exists n, names m n /\
    if decide (cmd_of m = ACK) then v_push e = RSubscribe <$> filter (fun s => acked ack_of n s = true) (outstanding ack_of pre)
    else n <> 0%N -> v_push e = [].
Proof.
  intros H Hacc Hcmd Ht. apply cexec_event in H as (c0 & hp & nx & w1 & w2 & o & He & Hk & _ & Hi & _ & Hev & He' & _).
  assert (Hin : v_in e = InFrame m /\ v_stop e = false).
  { unfold accepted, client_frame in Hacc. destruct (v_stop e); [done|]. destruct (v_in e); try done. by injection Hacc as ->. }
  destruct Hin as [Hin Hst].
  rewrite Hin in Hi. pose proof (conn_iter_frame cfg cid w1 w2 c0 hp nx m (cexec_tx_ok _ _ _ _ _ _ _ He)) as H. rewrite Hi in H.
  rewrite Hev in Hst |- *. cbn [v_stop v_push] in *.
  unfold hget_of in Ht. change (lit "transaction") with h_transaction in Ht. change (f_hdr (g_frame m)) with (hdr m) in Ht.
  destruct Hcmd as [Hcmd|Hcmd].
  - inversion H; subst; cbn [i_stop i_push] in *; try done; try congruence; clash Hcmd.
    match goal with Hx : ack_id m = inr ?x |- _ => exists x; split; [by apply ack_id_names|] end.
    rewrite decide_True by done. match goal with Hx : sl_of _ _ _ _ = _ |- _ => unfold sl_of in Hx; rewrite decide_True in Hx by done;
      apply (sl_ack_exact id_of ack_of) in Hx as (-> & _); [|done] end.
    by rewrite (sublist_outstanding _ _ _ _ _ _ _ He).
  - inversion H; subst; cbn [i_stop i_push] in *; try done; try congruence; clash Hcmd.
    match goal with Hx : ack_id m = inr ?x |- _ => exists x; split; [by apply ack_id_names|] end.
    assert (cmd_of m <> ACK) as Hna by (rewrite Hcmd; neq_lits).
    rewrite decide_False by done. match goal with Hx : sl_of _ _ _ _ = _ |- _ => unfold sl_of in Hx; rewrite decide_False in Hx by done;
      apply (sl_nack_exact id_of ack_of) in Hx as (_ & Hx); [|done] end.
    intros Hn. match goal with Hx : context [(?n =? 0)%N] |- _ => destruct (N.eqb_spec n 0); [done|]; by destruct Hx as (_ & ? & _) end.
Qed.
