(** C32-C35, C41, C43, C49, C50, C53: one server connection in any environment.
    [cexec] (ServerConnSpec) ranges over every history of the processing loop:
    any client input, any broker input, any failing writes. *)
From Verif Require Import GoBase HeaderModel FrameModel GrammarSpec HeaderProofs NegotiationModel NegotiationSpec NegotiationLemmas
  BrokerModel ServerConnModel ServerConnSpec ServerConnProofs.

(* ------------------------------------------------------------------ *)
(** Computing concrete histories, for the examples and refutations. *)
Definition keeps_b (id_of ack_of : nat -> str) (hp : sheap) : bool :=
  bool_decide (map_Forall (fun s sb => s_id sb = id_of s /\ s_ack sb = ack_of s /\ s_msgid sb = 0%N) hp).
Definition from_broker_b (hp : sheap) (i : cin) : bool :=
  match i with
  | InTopic m => bool_decide (f_cmd (g_frame m) = MESSAGE)
  | InSub s => match hp !! s with
               | Some sb => match s_frame sb with Some m => bool_decide (f_cmd (g_frame m) = MESSAGE) | None => true end
               | None => true
               end
  | _ => true
  end.
(** One input: what the broker assigned before it (object, message), whether
    writes succeed, and the input. *)
Notation cinput := (option (nat * msg) * bool * cin)%type.
Definition assign (a : option (nat * msg)) (hp : sheap) : sheap :=
  match a with Some (s, m) => alter (fun sb => set_frame sb (Some m)) s hp | None => hp end.
Fixpoint crun (cfg : scfg) (cid : nat) (id_of ack_of : nat -> str) (log : list cev) (c : cst) (hp : sheap) (nx : nat)
    (l : list cinput) : option (list cev * cst * bool) :=
  match l with
  | [] => Some (log, c, false)
  | (a, w, i) :: l' =>
      let hp1 := assign a hp in
      match conn_iter cfg cid w w c hp1 nx i with
      | Fine o =>
          if keeps_b id_of ack_of hp1 && from_broker_b hp1 i && keeps_b id_of ack_of (i_hp o) then
            let log' := log ++ [mkCev i (i_wr o) (i_push o) (i_stop o)] in
            if i_stop o then match l' with [] => Some (log', i_c o, true) | _ => None end
            else crun cfg cid id_of ack_of log' (i_c o) (i_hp o) (i_next o) l'
          else None
      | Panicked _ => None
      end
  end.
Lemma crun_cexec cfg cid id_of ack_of l log c hp nx log' c' st : cexec cfg cid id_of ack_of log c false ->
  crun cfg cid id_of ack_of log c hp nx l = Some (log', c', st) -> cexec cfg cid id_of ack_of log' c' st.
Proof.
  revert log c hp nx. induction l as [|[[a w] i] l IH]; intros log c hp nx He; cbn [crun]; [by intros [= <- <- <-]|].
  destruct (conn_iter cfg cid w w c (assign a hp) nx i) as [p|o] eqn:Hi; [done|].
  destruct (keeps_b id_of ack_of (assign a hp)) eqn:H1; [|done].
  destruct (from_broker_b (assign a hp) i) eqn:H2; [|done].
  destruct (keeps_b id_of ack_of (i_hp o)) eqn:H3; [|done]. cbn [andb].
  assert (He' : cexec cfg cid id_of ack_of (log ++ [mkCev i (i_wr o) (i_push o) (i_stop o)]) (i_c o) (i_stop o)).
  { eapply (ce_step cfg cid id_of ack_of log c (assign a hp) nx w w i o He); [| |exact Hi|].
    - apply bool_decide_eq_true in H1. exact H1.
    - unfold from_broker_b in H2. destruct i as [m| |m|s|]; try done; cbn.
      + by apply bool_decide_eq_true in H2.
      + intros sb m Hs Hm. rewrite Hs, Hm in H2. by apply bool_decide_eq_true in H2.
    - apply bool_decide_eq_true in H3. exact H3. }
  destruct (i_stop o) eqn:Hst.
  - destruct l; [|done]. intros [= <- <- <-]. done.
  - by apply IH.
Qed.

Definition any_cfg : scfg := mkScfg 0 None.
Definition fr (u : nat) (cmd : str) (h : header) (b : str) : cinput := (None, true, InFrame (mkMsg u (mkFrame cmd h b))).
Definition hello (u : nat) : cinput := fr u CONNECT [(lit "accept-version", lit "1.2")] [].
(** the broker hands message [u] to object [s] of queue /queue/a *)
Definition give (s u : nat) (id : str) : cinput :=
  (Some (s, mkMsg u (mkFrame MESSAGE [(lit "destination", lit "/queue/a"); (lit "subscription", id)] (lit "x"))), true, InSub s).
Definition ids (s : nat) : str := match s with 0 => lit "s0" | 1 => lit "s1" | _ => lit "s2" end.
Definition modes (s : nat) : str := match s with 0 => lit "client" | 1 => lit "client-individual" | _ => lit "client" end.
Definition sub_frame (u s : nat) : cinput :=
  fr u SUBSCRIBE [(lit "id", ids s); (lit "destination", lit "/queue/a"); (lit "ack", modes s); (lit "receipt", lit "rs")] [].
Definition autos (s : nat) : str := lit "auto".

(* ------------------------------------------------------------------ *)
(** C32: a request of a client frame reaches the broker only if it is the
    announcement of a completed CONNECT with accepted credentials and a
    supported version, or such a CONNECT was accepted earlier. *)
Theorem C32_connect_first : forall cfg cid id_of ack_of pre e post c st m r,
  cexec cfg cid id_of ack_of (pre ++ e :: post) c st -> v_in e = InFrame m -> r ∈ v_push e ->
  (r = RConnected cid /\ session_ok cfg m) \/
  exists e' m', e' ∈ pre /\ accepted e' = Some m' /\ session_ok cfg m'.
Proof. exact nothing_before_connect. Qed.
Print Assumptions C32_connect_first.
Example C32_case : exists log c,
  cexec any_cfg 7 ids autos log c true /\
  (v_push <$> log) = [[]] /\ (fst <$> wire log) = [Some (mkMsg 1 (mkFrame ERROR [(lit "message", lit "expected CONNECT or STOMP frame")] []))].
Proof.
  destruct (crun any_cfg 7 ids autos [] cst_init ∅ 0 [fr 1 SEND [(lit "destination", lit "/queue/a")] (lit "hi")]) as [[[log c] st]|] eqn:E;
    [|by vm_compute in E].
  pose proof (crun_cexec _ _ _ _ _ _ _ _ _ _ _ _ (ce_init _ _ _ _) E) as H. vm_compute in E. injection E as <- <- <-.
  eexists _, _. split; [exact H|]. by vm_compute.
Qed.

(* ------------------------------------------------------------------ *)
(** C33: a rejected frame is the last one handled, asks nothing of the broker,
    and its last write is its only ERROR frame.  If the frame asked for a
    receipt, the ERROR carries the receipt-id, unless a RECEIPT for the frame
    had already been sent.  Accepted frames never cause an ERROR. *)
Theorem C33_one_error : forall cfg cid id_of ack_of pre e post c st m,
  cexec cfg cid id_of ack_of (pre ++ e :: post) c st -> v_in e = InFrame m ->
  frames_with ERROR (wire pre) = [] /\
  if v_stop e then
    post = [] /\ v_push e = [] /\ exists before err w, v_wr e = before ++ [(Some err, w)] /\ cmd_of err = ERROR /\ g_uid err = g_uid m /\
      ((before = [] /\ hget_of err (lit "receipt-id") = hget_of m (lit "receipt")) \/
       (exists rc r w', before = [(Some rc, w')] /\ cmd_of rc = RECEIPT /\ g_uid rc = g_uid m /\ hget_of m (lit "receipt") = Some r /\
          hget_of rc (lit "receipt-id") = Some r /\ hget_of err (lit "receipt-id") = None))
  else frames_with ERROR (v_wr e) = [].
Proof.
  intros cfg cid id_of ack_of pre e post c st m H Hin. split.
  - apply cexec_event in H as (c0 & _ & _ & _ & _ & _ & He & _). by eapply errors_end.
  - by eapply rejection.
Qed.
Print Assumptions C33_one_error.
(** No ERROR frame is ever written except as the very last write. *)
Theorem C33_error_last : forall cfg cid id_of ack_of log c,
  cexec cfg cid id_of ack_of log c false -> frames_with ERROR (wire log) = [].
Proof. exact errors_end. Qed.
Print Assumptions C33_error_last.
Example C33_case : exists log c,
  cexec any_cfg 7 ids autos log c true /\
  (fst <$> wire log) = [Some (mkMsg 1 (mkFrame CONNECTED [(lit "version", lit "1.2"); (lit "server", lit "stompd/x.y.z"); (lit "heart-beat", lit "0,0")] []));
    Some (mkMsg 2 (mkFrame RECEIPT [(lit "receipt-id", lit "r")] [])); Some (mkMsg 2 (mkFrame ERROR [(lit "message", e_txUnknown)] []))].
Proof.
  destruct (crun any_cfg 7 ids autos [] cst_init ∅ 0 [hello 1; fr 2 COMMIT [(lit "transaction", lit "t"); (lit "receipt", lit "r")] []])
    as [[[log c] st]|] eqn:E; [|by vm_compute in E].
  pose proof (crun_cexec _ _ _ _ _ _ _ _ _ _ _ _ (ce_init _ _ _ _) E) as H. vm_compute in E. injection E as <- <- <-.
  eexists _, _. split; [exact H|]. by vm_compute.
Qed.

(* ------------------------------------------------------------------ *)
(** C34.  Full statement: every accepted frame with a receipt header is
    answered by exactly one RECEIPT, in order.  It fails for SUBSCRIBE and
    UNSUBSCRIBE (and CONNECT), see the refutation.  For SEND, ACK, NACK, BEGIN,
    COMMIT, ABORT and DISCONNECT: while the session lasts, the RECEIPT frames
    written are exactly the ones asked for, in the order of the frames, each
    naming its frame's receipt and answering it in the same iteration. *)
Theorem C34_receipts_partial : forall cfg cid id_of ack_of log c,
  cexec cfg cid id_of ack_of log c false ->
  (fun rc => (g_uid rc, hget_of rc (lit "receipt-id"))) <$> frames_with RECEIPT (wire log) =
  omap (fun e => match asked e with Some r => (fun m => (g_uid m, Some r)) <$> accepted e | None => None end) log.
Proof. exact receipts_exact. Qed.
Print Assumptions C34_receipts_partial.
Theorem C34_subscribe_receipt_refuted : exists cfg cid id_of ack_of log c e m r,
  cexec cfg cid id_of ack_of log c false /\ e ∈ log /\ accepted e = Some m /\ hget_of m (lit "receipt") = Some r /\
  cmd_of m = SUBSCRIBE /\ frames_with RECEIPT (wire log) = [].
Proof.
  destruct (crun any_cfg 7 ids modes [] cst_init ∅ 0 [hello 1; sub_frame 2 0]) as [[[log c] st]|] eqn:E; [|by vm_compute in E].
  pose proof (crun_cexec _ _ _ _ _ _ _ _ _ _ _ _ (ce_init _ _ _ _) E) as H.
  assert (H2 : log !! 1 <> None /\ st = false) by (vm_compute in E; injection E as <- <- <-; by vm_compute).
  destruct H2 as [H2 ->]. destruct (log !! 1) as [e|] eqn:He; [|done].
  exists any_cfg, 7, ids, modes, log, c, e. vm_compute in E. injection E as <- <-. vm_compute in He. injection He as <-.
  eexists _, _. split; [exact H|]. split; [right; left|]. by vm_compute.
Qed.
Print Assumptions C34_subscribe_receipt_refuted.
Example C34_case : exists log c,
  cexec any_cfg 7 ids autos log c false /\
  (fun rc => (g_uid rc, hget_of rc (lit "receipt-id"))) <$> frames_with RECEIPT (wire log) = [(2, Some (lit "a")); (4, Some (lit "b")); (5, Some (lit "a"))].
Proof.
  destruct (crun any_cfg 7 ids autos [] cst_init ∅ 0
    [hello 1; fr 2 SEND [(lit "destination", lit "/topic/x"); (lit "receipt", lit "a")] []; fr 3 SEND [(lit "destination", lit "/topic/x")] [];
     fr 4 BEGIN [(lit "receipt", lit "b"); (lit "transaction", lit "t")] []; fr 5 DISCONNECT [(lit "receipt", lit "a")] []])
    as [[[log c] st]|] eqn:E; [|by vm_compute in E].
  pose proof (crun_cexec _ _ _ _ _ _ _ _ _ _ _ _ (ce_init _ _ _ _) E) as H. vm_compute in E. injection E as <- <- <-.
  eexists _, _. split; [exact H|]. by vm_compute.
Qed.

(* ------------------------------------------------------------------ *)
(** C35.  The messages an iteration gives to the broker are: for an accepted
    SEND outside transactions its own message; for an accepted COMMIT those of
    all SENDs collected by that transaction, in order; otherwise none.
    ([collected t] depends on frames naming t only, and is emptied by ABORT.) *)
Theorem C35_no_early_effect : forall cfg cid id_of ack_of pre e post c st,
  cexec cfg cid id_of ack_of (pre ++ e :: post) c st -> enqueues (v_push e) = due pre e.
Proof. exact enqueue_due. Qed.
Print Assumptions C35_no_early_effect.
(** A frame inside a transaction asks nothing of the broker and leaves the
    outstanding deliveries alone. *)
Theorem C35_transaction_waits : forall cfg cid id_of ack_of log c hp nx w1 w2 m o t,
  cexec cfg cid id_of ack_of log c false -> conn_iter cfg cid w1 w2 c hp nx (InFrame m) = Fine o ->
  hget_of m (lit "transaction") = Some t -> cmd_of m <> COMMIT -> cmd_of m <> SUBSCRIBE -> cmd_of m <> UNSUBSCRIBE ->
  k_connected c = true ->
  i_push o = [] /\ i_hp o = hp /\ k_sublist (i_c o) = k_sublist c.
Proof. exact tx_frames_wait. Qed.
Print Assumptions C35_transaction_waits.
(** COMMIT does exactly what the collected frames do when they are handled one
    by one without their transaction and receipt headers; none of them can be
    rejected, so it cannot stop half way. *)
Theorem C35_commit_all : forall cfg cid id_of ack_of log c hp nx w2 m t l,
  cexec cfg cid id_of ack_of log c false ->
  k_connected c = true -> cmd_of m = COMMIT -> hget_of m (lit "transaction") = Some t -> collected t log = Some l ->
  match one_by_one cfg cid c hp nx (stripped <$> l) with
  | Panicked p => conn_iter cfg cid true w2 c hp nx (InFrame m) = Panicked p
  | Fine None => False
  | Fine (Some (c', hp', nx', rs)) => exists ws,
      conn_iter cfg cid true w2 c hp nx (InFrame m) = Fine (mkIout (set_tx c' (delete t (k_tx c'))) hp' nx' ws rs false)
  end.
Proof. exact commit_exact. Qed.
Print Assumptions C35_commit_all.
(** Unknown and duplicate names end the session. *)
Theorem C35_names : forall cfg cid id_of ack_of log c hp nx w1 w2 m o t,
  cexec cfg cid id_of ack_of log c false -> conn_iter cfg cid w1 w2 c hp nx (InFrame m) = Fine o ->
  hget_of m (lit "transaction") = Some t ->
  (collected t log = None -> cmd_of m ∈ [SEND; ACK; NACK; COMMIT; ABORT] -> i_stop o = true) /\
  (collected t log <> None -> cmd_of m = BEGIN -> i_stop o = true).
Proof.
  intros cfg cid id_of ack_of log c hp nx w1 w2 m o t He Hi Ht. split.
  - intros. by eapply tx_unknown.
  - intros Hc Hcmd. destruct (collected t log) eqn:E; [|done]. by eapply tx_duplicate.
Qed.
Print Assumptions C35_names.
Example C35_case : exists log c,
  cexec any_cfg 7 ids autos log c false /\
  (fun e => g_uid <$> enqueues (v_push e)) <$> log = [[]; []; []; []; []; []; [3; 5]; []; [9]].
Proof.
  destruct (crun any_cfg 7 ids autos [] cst_init ∅ 0
    [hello 1; fr 2 BEGIN [(lit "transaction", lit "t")] []; fr 3 SEND [(lit "destination", lit "/queue/x"); (lit "transaction", lit "t")] [];
     fr 4 BEGIN [(lit "transaction", lit "u")] []; fr 5 SEND [(lit "destination", lit "/queue/y"); (lit "transaction", lit "t")] [];
     fr 6 SEND [(lit "destination", lit "/queue/y"); (lit "transaction", lit "u")] [];
     fr 7 COMMIT [(lit "transaction", lit "t")] []; fr 8 ABORT [(lit "transaction", lit "u")] [];
     fr 9 SEND [(lit "destination", lit "/queue/y")] []])
    as [[[log c] st]|] eqn:E; [|by vm_compute in E].
  pose proof (crun_cexec _ _ _ _ _ _ _ _ _ _ _ _ (ce_init _ _ _ _) E) as H. vm_compute in E. injection E as <- <- <-.
  eexists _, _. split; [exact H|]. by vm_compute.
Qed.

(* ------------------------------------------------------------------ *)
(** C43: the i-th MESSAGE frame of a connection (counting from 1) has
    message-id i, as long as fewer than 2^64 have been sent. *)
Theorem C43_message_ids : forall cfg cid id_of ack_of log c st i m,
  cexec cfg cid id_of ack_of log c st -> frames_with MESSAGE (wire log) !! i = Some m -> (N.of_nat i < 2 ^ 64 - 1)%N ->
  hget_of m (lit "message-id") = Some (format_uint (N.of_nat i + 1)).
Proof.
  intros cfg cid id_of ack_of log c st i m He Hm Hi. destruct (message_ids _ _ _ _ _ _ _ He) as [_ H].
  destruct (H _ _ Hm) as [-> _]. f_equal. f_equal. rewrite N.mod_small by lia. lia.
Qed.
Print Assumptions C43_message_ids.
(** ... and an ack header, equal to the message-id, exactly when it is a queue
    delivery on a subscription that requires acknowledgement. *)
Theorem C43_ack_header : forall cfg cid id_of ack_of pre e post c st m w,
  cexec cfg cid id_of ack_of (pre ++ e :: post) c st -> (Some m, w) ∈ v_wr e -> cmd_of m = MESSAGE ->
  match v_in e with
  | InTopic _ => hget_of m (lit "ack") = None
  | InSub s => hget_of m (lit "ack") = if decide (ack_of s = lit "auto") then None else hget_of m (lit "message-id")
  | _ => False
  end.
Proof. exact ack_headers. Qed.
Print Assumptions C43_ack_header.
Example C43_case : exists log c,
  cexec any_cfg 7 ids modes log c false /\
  (fun m => (g_uid m, hget_of m (lit "message-id"), hget_of m (lit "ack"))) <$> frames_with MESSAGE (wire log) =
    [(10, Some (lit "1"), Some (lit "1")); (12, Some (lit "2"), None); (11, Some (lit "3"), Some (lit "3"))].
Proof.
  destruct (crun any_cfg 7 ids modes [] cst_init ∅ 0
    [hello 1; sub_frame 2 0; sub_frame 3 1; give 0 10 (lit "s0"); (None, true, InTopic (mkMsg 12 (mkFrame MESSAGE [(lit "ack", lit "9")] []))); give 1 11 (lit "s1")])
    as [[[log c] st]|] eqn:E; [|by vm_compute in E].
  pose proof (crun_cexec _ _ _ _ _ _ _ _ _ _ _ _ (ce_init _ _ _ _) E) as H. vm_compute in E. injection E as <- <- <-.
  eexists _, _. split; [exact H|]. by vm_compute.
Qed.

(* ------------------------------------------------------------------ *)
(** C53: at every moment an id has at most one live subscription ([live] is a
    function of the history); an accepted SUBSCRIBE found the id free, a
    SUBSCRIBE with a live id ends the session, an accepted UNSUBSCRIBE removes
    the named subscription and no other, an unknown id ends the session. *)
Theorem C53_subscribe : forall cfg cid id_of ack_of pre e post c st m,
  cexec cfg cid id_of ack_of (pre ++ e :: post) c st -> v_in e = InFrame m -> cmd_of m = SUBSCRIBE ->
  if v_stop e then v_push e = []
  else exists id s, hget_of m (lit "id") = Some id /\ live id pre = None /\ v_push e = [RSubscribe s] /\ live id (pre ++ [e]) = Some s /\
         is_Some (hget_of m (lit "destination")).
Proof. exact subscribe_exact. Qed.
Print Assumptions C53_subscribe.
Theorem C53_unsubscribe : forall cfg cid id_of ack_of pre e post c st m,
  cexec cfg cid id_of ack_of (pre ++ e :: post) c st -> v_in e = InFrame m -> cmd_of m = UNSUBSCRIBE ->
  if v_stop e then v_push e = []
  else exists id s, hget_of m (lit "id") = Some id /\ live id pre = Some s /\ v_push e = [RUnsubscribe s] /\ live id (pre ++ [e]) = None /\
         forall id', id' <> id -> live id' (pre ++ [e]) = live id' pre.
Proof. exact unsubscribe_exact. Qed.
Print Assumptions C53_unsubscribe.
Theorem C53_refused : forall cfg cid id_of ack_of log c hp nx w1 w2 m o id,
  cexec cfg cid id_of ack_of log c false -> conn_iter cfg cid w1 w2 c hp nx (InFrame m) = Fine o -> hget_of m (lit "id") = Some id ->
  (cmd_of m = SUBSCRIBE -> live id log <> None -> i_stop o = true) /\ (cmd_of m = UNSUBSCRIBE -> live id log = None -> i_stop o = true).
Proof.
  intros cfg cid id_of ack_of log c hp nx w1 w2 m o id He Hi Hid. split.
  - intros Hcmd Hl. destruct (live id log) eqn:E; [|done]. by eapply subscribe_taken.
  - intros. by eapply unsubscribe_unknown.
Qed.
Print Assumptions C53_refused.
Example C53_case : exists log c,
  cexec any_cfg 7 ids modes log c true /\ (v_push <$> log) = [[RConnected 7]; [RSubscribe 0]; [RSubscribe 1]; [RUnsubscribe 0]; []] /\
  live (lit "s0") log = None /\ live (lit "s1") log = Some 1.
Proof.
  destruct (crun any_cfg 7 ids modes [] cst_init ∅ 0
    [hello 1; sub_frame 2 0; sub_frame 3 1; fr 4 UNSUBSCRIBE [(lit "id", lit "s0")] []; sub_frame 5 1])
    as [[[log c] st]|] eqn:E; [|by vm_compute in E].
  pose proof (crun_cexec _ _ _ _ _ _ _ _ _ _ _ _ (ce_init _ _ _ _) E) as H. vm_compute in E. injection E as <- <- <-.
  eexists _, _. split; [exact H|]. by vm_compute.
Qed.

(* ------------------------------------------------------------------ *)
(** C41.  Full statement: an ACK in client mode acknowledges that message and
    earlier ones of its subscription, in client-individual mode exactly that
    message; a NACK returns exactly that message.  False of the code (see the
    refutations; Subscription.msgId is never assigned).  What an accepted
    ACK outside transactions really releases: every outstanding delivery of
    every client-mode subscription of the connection, whatever id n it names,
    and in client-individual mode nothing unless n = 0; a NACK with n <> 0
    does nothing.  In particular in client mode the named message is among the
    released ones. *)
Theorem C41_released_partial : forall cfg cid id_of ack_of pre e post c st m,
  cexec cfg cid id_of ack_of (pre ++ e :: post) c st -> accepted e = Some m ->
  cmd_of m = ACK \/ cmd_of m = NACK -> hget_of m (lit "transaction") = None ->
  exists n, names m n /\
    if decide (cmd_of m = ACK)
    then v_push e = RSubscribe <$> filter (fun s => acked ack_of n s = true) (outstanding ack_of pre)
    else n <> 0%N -> v_push e = [].
Proof. exact acknack_exact. Qed.
Print Assumptions C41_released_partial.
(** A message of a client-individual subscription cannot be acknowledged: the
    client acknowledges the message-id it was given, and the delivery is still
    outstanding. *)
Theorem C41_individual_ack_refuted : exists cfg cid id_of ack_of log c s,
  cexec cfg cid id_of ack_of log c false /\ outstanding ack_of log = [s] /\ ack_of s = lit "client-individual" /\
  (exists m, last (frames_with MESSAGE (wire log)) = Some m /\
   exists e a, last log = Some e /\ accepted e = Some a /\ cmd_of a = ACK /\ hget_of a (lit "message-id") = hget_of m (lit "message-id")).
Proof.
  destruct (crun any_cfg 7 ids modes [] cst_init ∅ 1 [hello 1; sub_frame 2 1; give 1 10 (lit "s1"); fr 3 ACK [(lit "message-id", lit "1")] []])
    as [[[log c] st]|] eqn:E; [|by vm_compute in E].
  pose proof (crun_cexec _ _ _ _ _ _ _ _ _ _ _ _ (ce_init _ _ _ _) E) as H. vm_compute in E. injection E as <- <- <-.
  eexists _, _, _, _, _, _, 1. split; [exact H|]. split; [by vm_compute|]. split; [done|].
  eexists. split; [by vm_compute|]. eexists _, _. by vm_compute.
Qed.
Print Assumptions C41_individual_ack_refuted.
(** An ACK in client mode also acknowledges the message of another
    subscription, delivered later. *)
Theorem C41_client_ack_refuted : exists cfg cid id_of ack_of log c,
  cexec cfg cid id_of ack_of log c false /\
  (exists m1 m2, frames_with MESSAGE (wire log) = [m1; m2] /\
     hget_of m1 (lit "subscription") = Some (lit "s0") /\ hget_of m2 (lit "subscription") = Some (lit "s2") /\
   exists e a, last log = Some e /\ accepted e = Some a /\ cmd_of a = ACK /\ hget_of a (lit "message-id") = hget_of m1 (lit "message-id") /\
     v_push e = [RSubscribe 0; RSubscribe 2]) /\ outstanding ack_of log = [].
Proof.
  destruct (crun any_cfg 7 ids modes [] cst_init ∅ 0 [hello 1; sub_frame 2 0; sub_frame 3 1; sub_frame 4 2; give 0 10 (lit "s0"); give 2 11 (lit "s2");
      fr 5 ACK [(lit "message-id", lit "1")] []])
    as [[[log c] st]|] eqn:E; [|by vm_compute in E].
  pose proof (crun_cexec _ _ _ _ _ _ _ _ _ _ _ _ (ce_init _ _ _ _) E) as H. vm_compute in E. injection E as <- <- <-.
  eexists _, _, _, _, _, _. split; [exact H|]. split; [|by vm_compute].
  eexists _, _. split; [by vm_compute|]. split; [by vm_compute|]. split; [by vm_compute|]. eexists _, _. by vm_compute.
Qed.
Print Assumptions C41_client_ack_refuted.

(* ------------------------------------------------------------------ *)
(** C50.  Full statement: nothing follows the receipt of a DISCONNECT.  False
    of the code: handleDisconnect does not end the loop.  What holds: the
    DISCONNECT itself is answered by the requested RECEIPT only. *)
Theorem C50_disconnect_partial : forall cfg cid id_of ack_of pre e post c st m,
  cexec cfg cid id_of ack_of (pre ++ e :: post) c st ->
  v_in e = InFrame m -> cmd_of m = DISCONNECT -> v_stop e = false ->
  v_push e = [] /\ frames_with RECEIPT (v_wr e) = match hget_of m (lit "receipt") with
    | Some r => [mkMsg (g_uid m) (mkFrame RECEIPT [(lit "receipt-id", r)] [])] | None => [] end /\
  length (v_wr e) = length (frames_with RECEIPT (v_wr e)).
Proof. exact disconnect_exact. Qed.
Print Assumptions C50_disconnect_partial.
Theorem C50_more_after_disconnect_refuted : exists cfg cid id_of ack_of log c,
  cexec cfg cid id_of ack_of log c false /\
  (exists m, accepted <$> log !! 2 = Some (Some m) /\ cmd_of m = DISCONNECT /\ hget_of m (lit "receipt") = Some (lit "bye")) /\
  (cmd_of <$> omap fst (wire log)) = [CONNECTED; RECEIPT; MESSAGE; RECEIPT].
Proof.
  destruct (crun any_cfg 7 ids modes [] cst_init ∅ 0 [hello 1; sub_frame 2 0; fr 3 DISCONNECT [(lit "receipt", lit "bye")] []; give 0 10 (lit "s0");
      fr 5 SEND [(lit "destination", lit "/queue/b"); (lit "receipt", lit "r")] []])
    as [[[log c] st]|] eqn:E; [|by vm_compute in E].
  pose proof (crun_cexec _ _ _ _ _ _ _ _ _ _ _ _ (ce_init _ _ _ _) E) as H. vm_compute in E. injection E as <- <- <-.
  eexists _, _, _, _, _, _. split; [exact H|]. split; [|by vm_compute]. eexists. by vm_compute.
Qed.
Print Assumptions C50_more_after_disconnect_refuted.

(** C49, the part of the connection: a queue message assigned to a
    subscription whose id is not live is not written; it goes back. *)
Theorem C49_dead_id : forall cfg cid id_of ack_of pre e post c st s,
  cexec cfg cid id_of ack_of (pre ++ e :: post) c st -> v_in e = InSub s -> live (id_of s) pre = None ->
  v_wr e = [] /\ v_stop e = false /\ exists m, v_push e = [RRequeue m].
Proof. exact dead_id_requeues. Qed.
Print Assumptions C49_dead_id.
Example C49_local_case : exists log c,
  cexec any_cfg 7 ids modes log c false /\ (cmd_of <$> omap fst (wire log)) = [CONNECTED] /\
  (length ∘ v_push <$> log) = [1; 1; 1; 1].
Proof.
  destruct (crun any_cfg 7 ids modes [] cst_init ∅ 0 [hello 1; sub_frame 2 0; fr 3 UNSUBSCRIBE [(lit "id", lit "s0")] []; give 0 10 (lit "s0")])
    as [[[log c] st]|] eqn:E; [|by vm_compute in E].
  pose proof (crun_cexec _ _ _ _ _ _ _ _ _ _ _ _ (ce_init _ _ _ _) E) as H. vm_compute in E. injection E as <- <- <-.
  eexists _, _. split; [exact H|]. by vm_compute.
Qed.
