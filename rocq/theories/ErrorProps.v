(** The error a program gets says why: C81. *)
From stdpp Require Import gmap.
From Verif Require Import GoBase HeaderModel FrameModel GrammarSpec NegotiationModel NegotiationSpec ClientApiModel ClientModel ClientSpec ClientLemmas ClientReady ClientEnd ErrorClient.
From Verif Require Import BrokerModel BrokerSpec ServerConnModel ServerConnSpec SystemModel SystemSpec FlowSpec PeerSpec RefusalSpec NetModel NetSpec NetLinks NetProofs NetProps ErrorModel ErrorSpec ErrorProofs.

(* ------------------------------------------------------------------ *)
(** C81.  An error made out of a frame that a call returns to a client of this
    server ([EResponse f] is newError(f)) has as its text one of the client's own
    reasons, or exactly the reason the server had to refuse a frame that this
    client sent, the last one it took; for calls whose receipt is their own
    (C29 is about others).  Where a RECEIPT could not be written, the reason is
    that of the failed write. *)
Theorem C81_call : forall cfg x c l n o h k y g r f, nreach cfg x -> x_links x !! c = Some l -> y_conns (x_sys x) !! c = Some n -> l_peer l = PeerClient o h k y ->
  Forall writable (peer_sent (l_peer l)) -> c_gs y !! g = Some r -> g_pc r = GDone (RErr (EResponse f)) ->
  (forall fr id, op_frame (g_op r) = Some fr -> hd_contains (f_hdr fr) h_receipt = Some id -> sole (c_gs y) g id) ->
  explained cfg (l_peer l) n f.
Proof. intros. by eapply call_says. Qed.
Print Assumptions C81_call.
(** The same for the error that a subscription hands to the program. *)
Theorem C81_subscription : forall cfg x c l n o h k y s b f, nreach cfg x -> x_links x !! c = Some l -> y_conns (x_sys x) !! c = Some n -> l_peer l = PeerClient o h k y ->
  c_subs y !! s = Some b -> CmErr (Some f) ∈ b_read b -> explained cfg (l_peer l) n f.
Proof. intros. by eapply sub_says. Qed.
Print Assumptions C81_subscription.
(** The frame that Dial finds on the connection is CONNECTED, or an ERROR with
    the reason the server had to refuse its CONNECT frame. *)
Theorem C81_dial : forall cfg x c l n o f rest, nreach cfg x -> x_links x !! c = Some l -> y_conns (x_sys x) !! c = Some n -> l_peer l = PeerDialing o -> writable (connect_frame o) ->
  read_stream (l_down l) = RFrame f rest -> f_cmd f = lit "CONNECTED" \/
  f_cmd f = lit "ERROR" /\ exists txt, connect_refused cfg (connect_frame o) txt /\ new_error f = mkErr txt (Some f).
Proof. intros. by eapply dial_says. Qed.
Print Assumptions C81_dial.

(** The processLoop is about to disconnect, or over. *)
Definition finished (y : cl) : Prop := (exists err, c_p y = PMust err) \/ c_p y = PEnd.
(** When an ERROR of the server ended the connection, every Send, Ack, Nack,
    Begin, transaction call and Disconnect with a request taken and a receipt
    (its own) not received has returned exactly this error... *)
Theorem C81_waiting_partial : forall A cfg y g r q x k f, creach A cfg y -> apart (c_gs y) -> finished y -> PvIn (Some f) ∈ c_log y -> f_cmd f = lit "ERROR" ->
  c_gs y !! g = Some r -> match g_op r with OSend _ | OFrame _ | ODisconnect _ => True | _ => False end ->
  PvReq q x ∈ c_log y -> q_by q = g -> hd_contains (f_hdr (q_frame q)) h_receipt = Some k -> sole (c_gs y) g k ->
  (forall rc, PvIn (Some rc) ∈ c_log y -> f_cmd rc = lit "RECEIPT" -> hd_contains (f_hdr rc) h_receipt_id <> Some k) -> g_pc r = GDone (RErr (EResponse f)).
Proof. intros A cfg y g r q x k f H1 H2 H3 H4 H5 H6 H7. eapply waiting_told; try done. Qed.
Print Assumptions C81_waiting_partial.
(** ...and for every registered subscription that no call unsubscribed and whose
    readLoop is over, it is the last thing that C holds or held. *)
Theorem C81_last : forall A cfg y k s b f, creach A cfg y -> finished y -> PvIn (Some f) ∈ c_log y -> f_cmd f = lit "ERROR" ->
  c_subs y !! s = Some b -> ClientEnd.listens (c_log y) k (b_ch b) -> (forall g r fu, c_gs y !! g = Some r -> g_op r <> OUnsub s fu) -> b_rl b = RlDone ->
  last (b_read b ++ b_buf b) = Some (CmErr (Some f)).
Proof.
  intros A cfg y k s b f Hr He Hin Hc Hb Hl HK Hd. destruct (end_told _ _ _ _ _ Hr He Hl) as (f' & Hc' & Ht). destruct (one_error _ _ _ Hr _ Hin Hc) as (_ & _ & H1). rewrite (H1 _ _ Ht Hc') in Ht.
  pose proof (reach_tells _ _ _ Hr _ _ Hb HK) as HT. unfold tells in HT. rewrite Hd in HT. by apply HT.
Qed.
Print Assumptions C81_last.

(** Client 0 subscribes, sends a frame in a transaction it did not begin, and
    another one with a receipt: the second call and the subscription get the
    server's reason for refusing the first. *)
Definition no_tx : frame := fsend top (lit "one") [(lit "transaction", lit "nope")].
Definition refusal : list nact :=
  dial 0 ++ call 0 0 (OSubscribe (Some (fsub (lit "1") top, lit "1", false))) ++ handle 0 ++ process 0 ++
  call 0 1 (OSend (Some no_tx)) ++ call 0 2 (OSend (Some (fsend top (lit "two") (ask_receipt (lit "r1"))))) ++ handle 0.
Definition response (y : cl) (g : nat) : option frame := match c_gs y !! g with Some r => match g_pc r with GDone (RErr (EResponse f)) => Some f | _ => None end | None => None end.
Definition only_error (b : csub) (f : frame) : bool :=
  match b_read b, b_rl b with [CmErr (Some f')], RlDone => bool_decide (f' = f) | _, _ => false end.
Definition told_all : list nact := NDown 0 :: does 0 [XTakeRead; XPick 0; XDeliver; XPick 0; XDeliver; XFinish; XLoop 0; XLoop 0; XLoop 0; XLoop 0; XConsume 0].
Definition unknown_tx : frame := mkFrame ERROR [(lit "message", lit "unknown transaction")] [].
Definition handled_in (y : cl) : list frame := omap (fun e => match e with PvIn o => o | _ => None end) (c_log y).
Lemma in_handled y f : f ∈ handled_in y -> PvIn (Some f) ∈ c_log y.
Proof. intros ([q w|o|ch g] & He & E)%elem_of_list_omap; try done. by rewrite <-E. Qed.
Definition ends (y : cl) : bool := match c_p y with PMust _ | PEnd => true | _ => false end.
Example C81_example : exists x l n y b, nreach cfg0 x /\ linked x 0 l n y /\ finished y /\ PvIn (Some unknown_tx) ∈ c_log y /\ response y 2 = Some unknown_tx /\
  c_subs y !! 0 = Some b /\ b_rl b = RlDone /\ b_read b = [CmErr (Some unknown_tx)] /\ e_text (new_error unknown_tx) = lit "unknown transaction" /\
  last (server_got n) = Some no_tx /\ no_tx ∈ peer_sent (l_peer l).
Proof.
  pose proof (nafter_reach (refusal ++ told_all) (fun x => client_at x 0 (fun l n y => match c_subs y !! 0 with Some b =>
    bool_decide (ends y = true /\ unknown_tx ∈ handled_in y /\ response y 2 = Some unknown_tx /\ only_error b unknown_tx = true /\
      last (server_got n) = Some no_tx /\ no_tx ∈ peer_sent (l_peer l)) | None => false end))) as HA. witness HA.
  destruct HA as (x & Hr & (l & n & y & HL & Hx)%client_at_ok). destruct (c_subs y !! 0) as [b|] eqn:Hb; [|done]. apply bool_decide_eq_true in Hx as (H1 & H2 & H3 & H4 & H5 & H6).
  unfold only_error in H4. destruct (b_read b) as [|[|[f|]] [|]] eqn:Eb; try done. destruct (b_rl b) eqn:El; try done. apply bool_decide_eq_true in H4. subst f.
  exists x, l, n, y, b. split_and!; try done; [|by apply in_handled]. unfold ends, finished in *. destruct (c_p y); try done; [left; by eexists|by right].
Qed.
(** A client that this server does not let in. *)
Definition guarded : scfg := mkScfg 0 (Some (fun _ _ => false)).
Definition turned_away : list nact := [NDial (lit "h") [] None; NUp 0; NServer (ATake 0 SelRead true true) 0].
Definition simple_hdr (h : header) : bool := forallb (fun e => negb (bool_decide (fst e = [])) && negb (bool_decide (fst e = h_content_length))) h.
Example C81_dial_example : exists x l n o f rest, nreach guarded x /\ x_links x !! 0 = Some l /\ y_conns (x_sys x) !! 0 = Some n /\ l_peer l = PeerDialing o /\
  writable (connect_frame o) /\ read_stream (l_down l) = RFrame f rest /\ f_cmd f = ERROR /\ e_text (new_error f) = lit "authentication failed".
Proof.
  assert (exists x, nrun guarded net_init turned_away = Some x /\ match x_links x !! 0, y_conns (x_sys x) !! 0 with
    | Some l, Some n => match l_peer l, read_stream (l_down l) with
      | PeerDialing o, RFrame f rest => bool_decide (f_cmd f = ERROR /\ e_text (new_error f) = lit "authentication failed" /\ f_cmd (connect_frame o) = CONNECT /\ f_body (connect_frame o) = []) && simple_hdr (f_hdr (connect_frame o))
      | _, _ => false end
    | _, _ => false end = true) as (x & Hrun & Hx).
  { destruct (nrun guarded net_init turned_away) as [x|] eqn:E; [exists x; split; [done|]|by vm_compute in E].
    assert (nrun guarded net_init turned_away = Some x) as E' by done. clear E. vm_compute in E'. injection E' as <-. by vm_compute. }
  destruct (x_links x !! 0) as [l|] eqn:Hl; [|done]. destruct (y_conns (x_sys x) !! 0) as [n|] eqn:Hn; [|done]. destruct (l_peer l) as [|o| |] eqn:Hp; try done. destruct (read_stream (l_down l)) as [|f rest| | |] eqn:Hrd; try done.
  apply andb_true_iff in Hx as [Hx Hh]. apply bool_decide_eq_true in Hx as (H1 & H2 & H3 & H4). exists x, l, n, o, f, rest. split_and!; try done; [eapply nrun_reach; [constructor|done]|].
  destruct (connect_frame o) as [cm hd bd]. cbn in *. subst cm bd. apply plain_writable; [left|]. intros k v Hk. unfold simple_hdr in Hh. rewrite forallb_forall in Hh. apply elem_of_list_In in Hk. specialize (Hh _ Hk).
  apply andb_true_iff in Hh as [Ha Hb]. by apply negb_true_iff, bool_decide_eq_false in Ha, Hb.
Qed.
(** The condition of the theorem about calls is needed: an Unsubscribe that waits
    when the server refuses a frame returns nil. *)
Definition ignorant : list nact :=
  dial 0 ++ call 0 0 (OSubscribe (Some (fsub (lit "1") top, lit "1", false))) ++ handle 0 ++ process 0 ++ call 0 1 (OSend (Some no_tx)) ++
  does 0 [XCall (OUnsub 0 (Some (funsub (lit "1")))); XRun 2; XRun 2; XRun 2; XRun 2; XRun 2; XTakeWrite true] ++ handle 0 ++
  NDown 0 :: does 0 [XTakeRead; XPick 0; XDeliver; XFinish; XLoop 0; XLoop 0; XLoop 0; XLoop 0; XRun 2; XRun 2].
Theorem C81_refuted : exists x l n y, nreach cfg0 x /\ linked x 0 l n y /\ finished y /\ PvIn (Some unknown_tx) ∈ c_log y /\
  f_cmd <$> client_wrote y = [SUBSCRIBE; SEND; UNSUBSCRIBE] /\ server_got n = take 3 (peer_sent (l_peer l)) /\ f_cmd <$> server_got n = [CONNECT; SUBSCRIBE; SEND] /\
  exists r, c_gs y !! 2 = Some r /\ g_op r = OUnsub 0 (Some (funsub (lit "1"))) /\ g_pc r = GDone RNil.
Proof.
  pose proof (nafter_reach ignorant (fun x => client_at x 0 (fun l n y => bool_decide (ends y = true /\ unknown_tx ∈ handled_in y /\
    f_cmd <$> client_wrote y = [SUBSCRIBE; SEND; UNSUBSCRIBE] /\ server_got n = take 3 (peer_sent (l_peer l)) /\ f_cmd <$> server_got n = [CONNECT; SUBSCRIBE; SEND]) &&
    match c_gs y !! 2 with Some r => match g_op r, g_pc r with OUnsub 0 (Some f), GDone RNil => bool_decide (f = funsub (lit "1")) | _, _ => false end | None => false end))) as HA. witness HA.
  destruct HA as (x & Hr & (l & n & y & HL & [Hx Hy]%andb_true_iff)%client_at_ok). apply bool_decide_eq_true in Hx as (H1 & H2 & H3 & H4 & H5).
  exists x, l, n, y. split_and!; try done.
  - unfold ends, finished in *. destruct (c_p y); try done; [left; by eexists|by right].
  - by apply in_handled.
  - destruct (c_gs y !! 2) as [r|]; [|done]. exists r. split; [done|]. destruct (g_op r) as [| | |[|] [f|]| |]; try done. destruct (g_pc r) as [| | | | | | | | | |[| |]]; try done. apply bool_decide_eq_true in Hy. by subst.
Qed.
Print Assumptions C81_refuted.
