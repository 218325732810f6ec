(** C45, C48: this library's client talking to this library's server. *)
From Verif Require Import GoBase GoBaseProofs HeaderModel FrameModel GrammarSpec HeaderProofs CodecProofs NegotiationModel NegotiationSpec NegotiationLemmas
  ClientApiModel ClientApiSpec ClientApiProofs BrokerModel BrokerSpec BrokerProofs ServerConnModel ServerConnSpec ServerConnProofs SystemModel SystemLemmas SystemSpec SystemProofs SystemTokens
  SystemMessages SystemUids SystemHistory SystemPanics SystemCleanup SystemProgress SystemProps PeerModel PeerSpec PeerProofs.

(* ------------------------------------------------------------------ *)
(** C48.  The server side, for any client: a MESSAGE frame written to anyone
    carries the body and, except for the headers the server consumes or writes
    itself, the headers of a SEND frame that some connection accepted. *)
Theorem C48_relayed : forall cfg y c n m w, reach cfg y -> y_conns y !! c = Some n -> (Some m, w) ∈ written n -> cmd_of m = MESSAGE ->
  exists c1 m1, accepts y c1 m1 /\ cmd_of m1 = SEND /\ g_uid m = g_uid m1 /\ carries (g_frame m1) (g_frame m).
Proof. exact message_carries. Qed.
Print Assumptions C48_relayed.
(** End to end: if that frame came from a call of Send, of the connection or of
    a transaction, then both hops of the codec return the frames unchanged, and
    the Message made by any subscription has the arguments of the call. *)
Theorem C48_end_to_end_partial : forall cfg y c n m w, reach cfg y -> y_conns y !! c = Some n -> (Some m, w) ∈ written n -> cmd_of m = MESSAGE ->
  exists c1 m1, accepts y c1 m1 /\ cmd_of m1 = SEND /\ g_uid m = g_uid m1 /\
    forall dest ctype body os, send_call dest ctype body os (g_frame m1) -> plain_opts os -> (N.of_nat (length body) < 2 ^ 32)%N ->
      (forall rest, read_stream (write_frame (g_frame m1) ++ rest) = RFrame (g_frame m1) rest) /\
      (forall rest, read_stream (write_frame (g_frame m) ++ rest) = RFrame (g_frame m) rest) /\
      forall sub, m_dest (message_of sub (g_frame m)) = dest /\ m_body (message_of sub (g_frame m)) = body /\
        (ctype <> [] -> m_ctype (message_of sub (g_frame m)) = ctype) /\
        (ctype = [] -> (forall v, SoHeader (lit "content-type") v ∉ os) -> m_ctype (message_of sub (g_frame m)) = []).
Proof.
  intros cfg y c n m w Hr Hn Hin Hc. destruct (message_carries _ _ _ _ _ _ Hr Hn Hin Hc) as (c1 & m1 & H1 & H2 & H3 & H4). exists c1, m1. split_and!; [done|done|done|].
  intros dest ctype body os Hs Ho Hl. pose proof (send_call_writable _ _ _ _ _ Hs Ho Hl) as Hw. destruct (send_call_spec _ _ _ _ _ Hs Ho) as (_ & G2 & _ & G4 & G5 & G6 & _).
  assert (forall k, k ∉ server_headers -> hd_contains (f_hdr (g_frame m)) k = hd_contains (f_hdr (g_frame m1)) k) as Hk by (intros k Hk; by apply carries_get).
  split_and!.
  - intros rest. by apply read_write_frame.
  - intros rest. apply read_write_frame. eapply carries_writable; [done| |done]. unfold cmd_of in Hc. rewrite Hc. neq_lits.
  - intros sub. cbn [message_of m_dest m_body m_ctype]. unfold hd_get. rewrite !Hk by neq_lits. rewrite G4. split_and!; [done| |..].
    + by rewrite (proj1 H4).
    + intros Hct. by rewrite (G5 Hct).
    + intros Hct Hno. by rewrite (G6 Hct Hno).
Qed.
Print Assumptions C48_end_to_end_partial.

(** A text sent inside a transaction to a topic and a queue, with a receipt and
    a custom header. *)
Definition c48_frames : list frame :=
  match create_send_frame 4 q (lit "text/plain") [NUL; LF] [SoReceipt; SoHeader (lit "ack") (lit "mine")], tx_step (mkTx (lit "5") false 5) (TxSend t [] (lit "two") []) SendOk V12 with
  | Some (_, f), (_, [g], _) => [f; g]
  | _, _ => []
  end.
Definition c48_run : list act :=
  join 0 ++ join 1 ++ ask1 0 (f_sub (lit "x") q (lit "client")) ++ ask1 0 (f_sub (lit "y") t (lit "auto")) ++
  match c48_frames with
  | [f; g] => handle 1 (mkFrame BEGIN [(lit "transaction", lit "5")] []) ++ handle 1 g ++ ask1 1 f ++ deliver 0 ++
              ask1 1 (mkFrame COMMIT [(lit "transaction", lit "5")] []) ++ [AOut; ATake 0 SelWrite true true]
  | _ => []
  end.
Definition got (y : sys) (c : nat) : list message :=
  match y_conns y !! c with
  | Some n => (fun m => message_of (lit "x", AckClient) (g_frame m)) <$> frames_with MESSAGE (written n)
  | None => []
  end.
Example C48_case : exists y, reach cfg0 y /\
  (fun m => (m_dest m, m_ctype m, m_body m)) <$> got y 0 = [(q, lit "text/plain", [NUL; LF]); (t, [], lit "two")] /\
  (fun m => m_header m) <$> got y 0 =
    [Some [(h_content_length, lit "2"); (h_destination, q); (h_content_type, lit "text/plain"); (h_ack, lit "1"); (h_subscription, lit "x"); (h_message_id, lit "1"); (h_id, lit "1")];
     Some [(h_content_length, lit "3"); (h_destination, t); (h_subscription, lit "y"); (h_message_id, lit "2"); (h_id, lit "2")]].
Proof.
  pose proof (after_reach c48_run (fun y => bool_decide ((fun m => (m_dest m, m_ctype m, m_body m)) <$> got y 0 = [(q, lit "text/plain", [NUL; LF]); (t, [], lit "two")] /\
    (fun m => m_header m) <$> got y 0 =
    [Some [(h_content_length, lit "2"); (h_destination, q); (h_content_type, lit "text/plain"); (h_ack, lit "1"); (h_subscription, lit "x"); (h_message_id, lit "1"); (h_id, lit "1")];
     Some [(h_content_length, lit "3"); (h_destination, t); (h_subscription, lit "y"); (h_message_id, lit "2"); (h_id, lit "2")]]))) as HA.
  witness HA. destruct HA as (y & Hr & Hy). apply bool_decide_eq_true in Hy. by exists y.
Qed.
(** C48 as stated fails for a custom header with an empty name (the server
    cannot read the frame), and for an empty content type with a custom
    content-type header. *)
Theorem C48_refuted :
  (exists f, send_call q (lit "text/plain") (lit "one") [SoHeader [] (lit "v")] f /\ forall rest g r, read_stream (write_frame f ++ rest) <> RFrame g r) /\
  (exists f, send_call q [] (lit "one") [SoHeader (lit "content-type") (lit "v")] f /\
     exists y m, reach cfg0 y /\ got y 0 = [m] /\ accepts y 1 (mkMsg 3 f) /\ m_body m = lit "one" /\ m_ctype m = lit "v").
Proof.
  split.
  - eexists. split.
    + left. exists 0%N. eexists. reflexivity.
    + intros rest g r. vm_compute. discriminate.
  - destruct (create_send_frame 0 q [] (lit "one") [SoHeader (lit "content-type") (lit "v")]) as [[l f]|] eqn:Ef; [|by vm_compute in Ef]. exists f.
    split; [left; by exists 0%N, l|]. vm_compute in Ef. injection Ef as <- <-.
    set (f := mkFrame _ _ _).
    pose proof (after_reach (join 0 ++ join 1 ++ ask1 0 (f_sub (lit "x") q (lit "client")) ++ ask1 1 f ++ deliver 0)
      (fun y => match got y 0, y_conns y !! 1 with [m], Some n => bool_decide (m_body m = lit "one" /\ m_ctype m = lit "v" /\ (accepted <$> n_log n) !! 1 = Some (Some (mkMsg 3 f))) | _, _ => false end)) as HA.
    witness HA. destruct HA as (y & Hr & Hy). destruct (got y 0) as [|m [|]] eqn:Eg; [done| |done]. destruct (y_conns y !! 1) as [n|] eqn:En; [|done].
    apply bool_decide_eq_true in Hy as (H1 & H2 & H3). exists y, m. split_and!; try done.
    apply list_lookup_fmap_inv in H3 as (e & H3 & H4). exists n, e. split_and!; [done|by eapply elem_of_list_lookup_2|done].
Qed.
Print Assumptions C48_refuted.

(* ------------------------------------------------------------------ *)
(** C45, the part that holds.  With versions 1.0 and 1.1, the ACK or NACK frame
    built for a MESSAGE that this server wrote passes the codec unchanged, and
    whenever the connection comes to read it, it handles it without an ERROR
    frame and goes on, inside and outside transactions, provided all ack modes
    in use are those of STOMP. *)
Theorem C45_accepted_partial : forall cfg y c n m w version sub ack f t,
  reach cfg y -> y_conns y !! c = Some n -> (Some m, w) ∈ written n -> cmd_of m = MESSAGE ->
  version = lit "1.0" \/ version = lit "1.1" -> ack_call version (message_of sub (g_frame m)) ack f t ->
  (forall rest, read_stream (write_frame f ++ rest) = RFrame f rest) /\
  forall y' n' u l, reach cfg y' -> y_conns y' !! c = Some n' -> n_phase n' = Running -> n_out n' = [] -> k_connected (n_c n') = true ->
    n_read n' = mkMsg u f :: l -> known_acks y' c -> (forall t0, t = Some t0 -> k_tx (n_c n') !! t0 <> None) -> takes_frame cfg y' c.
Proof. exact ack_taken. Qed.
Print Assumptions C45_accepted_partial.
(** ... and a frame is built unless the subscription is automatic, or NACK is
    used with version 1.0. *)
Theorem C45_built_partial : forall cfg y c n m w version sid mode ack,
  reach cfg y -> y_conns y !! c = Some n -> (Some m, w) ∈ written n -> cmd_of m = MESSAGE ->
  version = lit "1.1" \/ version = lit "1.0" /\ ack = true -> mode <> AckAuto ->
  exists f, ack_call version (message_of (sid, mode) (g_frame m)) ack f None.
Proof.
  intros cfg y c n m w version sid mode ack Hr Hn Hin Hc Hv Hm. destruct (written_id _ _ _ _ _ _ Hr Hn Hin Hc) as (i & _ & Hi). unfold hget_of in Hi.
  cbn [ack_call]. unfold create_ack_nack. cbn [message_of m_header m_sub m_conn].
  assert (negb ack && negb (supports_nack version) = false) as -> by (destruct Hv as [-> |[-> ->]]; [by destruct ack|done]).
  rewrite decide_False by done. rewrite decide_True by (destruct Hv as [-> |[-> _]]; [by right|by left]). rewrite Hi. by eexists.
Qed.
Print Assumptions C45_built_partial.

(** The ACK frame for the first message of connection c. *)
Definition ack_first (version : str) (y : sys) (c : nat) : option frame :=
  match got y c with
  | m :: _ => match create_ack_nack version m true with AFrame f => Some f | _ => None end
  | [] => None
  end.
Definition c45_run (v : str) : list act :=
  (AAccept :: ask1 0 (mkFrame CONNECT [(lit "accept-version", v)] [])) ++ ask1 0 (f_sub (lit "x") q (lit "client")) ++ ask1 0 (f_send q (lit "one")) ++ deliver 0.
(** The first message is acknowledged; P holds of the result. *)
Definition after_ack (l : list act) (version : str) (P : frame -> sys -> sconn -> bool) : bool :=
  match run cfg0 sys_init l with
  | Some (Fine y) => match ack_first version y 0 with
      | Some f => match run cfg0 y (handle 0 f) with
          | Some (Fine y') => match y_conns y' !! 0 with Some n' => P f y' n' | None => false end
          | _ => false end
      | None => false end
  | _ => false end.
Lemma after_ack_reach l version P : after_ack l version P = true -> exists y y' f n', reach cfg0 y /\ ack_first version y 0 = Some f /\
  run cfg0 y (handle 0 f) = Some (Fine y') /\ y_conns y' !! 0 = Some n' /\ P f y' n' = true.
Proof.
  unfold after_ack. destruct (run cfg0 sys_init l) as [[p|y]|] eqn:E; [done| |done]. destruct (ack_first version y 0) as [f|] eqn:Ef; [|done].
  destruct (run cfg0 y (handle 0 f)) as [[p|y']|] eqn:E'; [done| |done]. destruct (y_conns y' !! 0) as [n'|] eqn:En; [|done]. intros H.
  exists y, y', f, n'. split; [eapply run_reach; [constructor|exact E]|done].
Qed.
Example C45_case : exists y y' f n', reach cfg0 y /\ ack_first (lit "1.1") y 0 = Some f /\
  run cfg0 y (handle 0 f) = Some (Fine y') /\ y_conns y' !! 0 = Some n' /\
  (f_hdr f = [(h_subscription, lit "x"); (h_message_id, lit "1")] /\ k_version (n_c n') = lit "1.1" /\ n_phase n' = Running /\ bodies (y_fin y') = [lit "one"]).
Proof.
  pose proof (after_ack_reach (c45_run (lit "1.1")) (lit "1.1") (fun f y' n' => bool_decide
   (f_hdr f = [(h_subscription, lit "x"); (h_message_id, lit "1")] /\ k_version (n_c n') = lit "1.1" /\ n_phase n' = Running /\ bodies (y_fin y') = [lit "one"]))) as HA.
  witness HA. destruct HA as (y & y' & f & n' & H1 & H2 & H3 & H4 & H5). apply bool_decide_eq_true in H5. by exists y, y', f, n'.
Qed.
(** With version 1.2 the client names the delivery in the [id] header, where
    the server never looks: every ACK and NACK ends the connection, ... *)
Theorem C45_always_rejected : forall cfg cid w1 w2 c hp nx u msg ack f, create_ack_nack (lit "1.2") msg ack = AFrame f -> k_connected c = true ->
  exists o m', conn_iter cfg cid w1 w2 c hp nx (InFrame (mkMsg u f)) = Fine o /\ i_stop o = true /\ i_wr o = [(Some m', w2)] /\ cmd_of m' = ERROR /\
    i_hp o = hp /\ i_push o = [].
Proof. exact ack12_rejected. Qed.
Print Assumptions C45_always_rejected.
(** ... for instance this one, after the two sides agreed on 1.2. *)
Theorem C45_refuted : exists y y' f n', reach cfg0 y /\ ack_first (lit "1.2") y 0 = Some f /\
  run cfg0 y (handle 0 f) = Some (Fine y') /\ y_conns y' !! 0 = Some n' /\
  (k_version (n_c n') = lit "1.2" /\ n_phase n' = CDiscard1 /\ bodies (y_fin y') = [] /\ (cmd_of <$> omap fst (written n')) = [CONNECTED; MESSAGE; ERROR]).
Proof.
  pose proof (after_ack_reach (c45_run (lit "1.0,1.1,1.2")) (lit "1.2") (fun f y' n' => bool_decide
   (k_version (n_c n') = lit "1.2" /\ n_phase n' = CDiscard1 /\ bodies (y_fin y') = [] /\ (cmd_of <$> omap fst (written n')) = [CONNECTED; MESSAGE; ERROR]))) as HA.
  witness HA. destruct HA as (y & y' & f & n' & H1 & H2 & H3 & H4 & H5). apply bool_decide_eq_true in H5. by exists y, y', f, n'.
Qed.
Print Assumptions C45_refuted.
