(** Client and server together: C72-C76. *)
From stdpp Require Import gmap.
From Verif Require Import GoBase HeaderModel FrameModel GrammarSpec NegotiationModel ClientApiModel ClientModel ClientSpec ClientLemmas.
From Verif Require Import BrokerModel BrokerSpec ServerConnModel ServerConnSpec SystemModel SystemSpec FlowSpec PeerSpec RefusalSpec NetModel NetSpec NetLinks NetProofs NetTopics NetUnsub.

(* ------------------------------------------------------------------ *)
(** Runs for the examples: cfg0 is a server without authenticator and with the
    default heart-beat; kc a client with all its timeouts. *)
Definition cfg0 : scfg := mkScfg 0 None.
Definition kc : ccfg := mkCcfg 20 20 true true true true true true.
Lemma nrun_reach cfg x l x' : nreach cfg x -> nrun cfg x l = Some x' -> nreach cfg x'.
Proof. revert x. induction l as [|a l IH]; cbn [nrun]; intros x Hr; [by intros [= <-]|]. destruct (nstep cfg x a) as [x1|] eqn:E; [|done]. apply IH. by eapply nr_step. Qed.
Definition nafter (l : list nact) (P : net -> bool) : bool := match nrun cfg0 net_init l with Some x => P x | None => false end.
Lemma nafter_reach l P : nafter l P = true -> exists x, nreach cfg0 x /\ P x = true.
Proof. unfold nafter. destruct (nrun cfg0 net_init l) as [x|] eqn:E; [|done]. intros H. exists x. split; [|done]. eapply nrun_reach; [constructor|done]. Qed.
(** Link c with the connection of the server and the client at its ends. *)
Definition client_at (x : net) (c : nat) (P : link -> sconn -> cl -> bool) : bool :=
  match x_links x !! c, y_conns (x_sys x) !! c with
  | Some l, Some n => match l_peer l with PeerClient _ _ _ y => P l n y | _ => false end
  | _, _ => false
  end.
Definition linked (x : net) (c : nat) (l : link) (n : sconn) (y : cl) : Prop :=
  x_links x !! c = Some l /\ y_conns (x_sys x) !! c = Some n /\ exists o h k, l_peer l = PeerClient o h k y.
Lemma client_at_ok x c P : client_at x c P = true -> exists l n y, linked x c l n y /\ P l n y = true.
Proof.
  unfold client_at, linked. destruct (x_links x !! c) as [l|]; [|done]. destruct (y_conns (x_sys x) !! c) as [n|]; [|done]. destruct (l_peer l) as [| | |o h k y] eqn:E; try done.
  intros H. exists l, n, y. split; [|done]. split_and!; try done. by exists o, h, k.
Qed.
Ltac witness H := match type of H with ?A -> _ => let HB := fresh in assert A as HB by (vm_compute; reflexivity); specialize (H HB); clear HB end.

Definition dial (c : nat) : list nact := [NDial (lit "h") [] None; NUp c; NServer (ATake c SelRead true true) 0; NHello c kc; NServer (APush c) 0; NServer AProc 0].
Definition does (c : nat) (l : list cact) : list nact := (fun a => NClient c a 0) <$> l.
(** A call, up to the writing of its frame; the server handles a frame, and the
    request it made; a topic frame is written; the client reads a frame. *)
Definition call (c g : nat) (o : op) : list nact := does c [XCall o; XRun g; XRun g; XTakeWrite true].
Definition handle (c : nat) : list nact := [NUp c; NServer (ATake c SelRead true true) 0].
Definition process (c : nat) : list nact := [NServer (APush c) 0; NServer AProc 0].
Definition publish (c : nat) : list nact := [NServer AOut 0; NServer (ATake c SelWrite true true) 0].
Definition arrive (c : nat) : list nact := NDown c :: does c [XTakeRead; XDeliver].
Definition top : str := lit "/topic/t".
Definition fsub (id dest : str) : frame := mkFrame SUBSCRIBE [(lit "id", id); (lit "destination", dest); (lit "ack", lit "auto")] [].
Definition fsend (dest body : str) (more : header) : frame := mkFrame SEND ((lit "destination", dest) :: (lit "content-length", lit "3") :: more) body.
Definition ask_receipt (rid : str) : header := [(lit "receipt", rid)].
(** Client 0 subscribes, client 1 sends "one" with a receipt, both read. *)
Definition one_message : list nact :=
  dial 0 ++ dial 1 ++ call 0 0 (OSubscribe (Some (fsub (lit "1") top, lit "1", false))) ++ handle 0 ++ process 0 ++
  call 1 0 (OSend (Some (fsend top (lit "one") (ask_receipt (lit "r1"))))) ++ handle 1 ++ process 1 ++ publish 0 ++
  arrive 0 ++ does 0 [XLoop 0; XConsume 0] ++ arrive 1.

(* ------------------------------------------------------------------ *)
(** C72.  Connected, client and server run as they do alone (so what C14-C71
    say of each holds of both together), their timers are the negotiated ones,
    and the frames one has read are, in order, the first ones the other has
    written; all of them when nothing is on the way and no write failed.
    Towards the server this holds if the frames the client's calls ask for
    are well-formed. *)
Theorem C72_parts : forall cfg x, nreach cfg x ->
  reach cfg (x_sys x) /\ length (x_links x) = length (y_conns (x_sys x)) /\
  forall c l o h k y, x_links x !! c = Some l -> l_peer l = PeerClient o h k y -> creach anything k y /\
    (exists remote opts, new_conn_options remote opts = Some o) /\
    exists cc rest, client_connect o (RFrame h rest) = CConnected cc /\ k_read_to k = (0 <? cc_read cc)%Z /\ k_write_to k = (0 <? cc_write cc)%Z.
Proof.
  intros cfg x Hr. pose proof (nreach_inv _ _ Hr) as HI. split; [apply HI|]. split; [apply HI|]. intros c l o h k y Hl Hp. split; [by eapply ni_client|].
  destruct (nreach_peer _ _ Hr _ _ Hl) as [H1 H2]. rewrite Hp in H2. split; [|done]. apply H1. by rewrite Hp.
Qed.
Print Assumptions C72_parts.
Theorem C72_from_server : forall cfg x c l n, nreach cfg x -> x_links x !! c = Some l -> y_conns (x_sys x) !! c = Some n ->
  peer_got (l_peer l) `prefix_of` server_sent n /\
  forall o h k y, l_peer l = PeerClient o h k y -> l_ok l = true -> l_down l = [] -> h :: client_read y = server_sent n.
Proof. intros cfg x c l n Hr Hl Hn. split; [by eapply down_prefix|]. intros o h k y Hp Hok Hd. by eapply down_all. Qed.
Print Assumptions C72_from_server.
Theorem C72_to_server_partial : forall cfg x c l n, nreach cfg x -> x_links x !! c = Some l -> y_conns (x_sys x) !! c = Some n -> l_peer l <> PeerOther ->
  Forall writable (peer_sent (l_peer l)) ->
  server_got n `prefix_of` peer_sent (l_peer l) /\ (writes (l_peer l) = true -> l_up l = [] -> server_got n = peer_sent (l_peer l)).
Proof. intros cfg x c l n Hr Hl Hn Hp Hw. split; [by eapply up_prefix|]. intros Hwr Hu. by eapply up_all. Qed.
Print Assumptions C72_to_server_partial.
(** Frames of a client can be read if those its calls ask for can. *)
Theorem C72_calls : forall cfg x c l o h k y, nreach cfg x -> x_links x !! c = Some l -> l_peer l = PeerClient o h k y -> writable (connect_frame o) ->
  (forall g r f, c_gs y !! g = Some r -> op_frame (g_op r) = Some f -> writable f) -> Forall writable (peer_sent (l_peer l)).
Proof.
  intros cfg x c l o h k y Hr Hl Hp Ho Hf. rewrite Hp. constructor; [done|]. eapply calls_writable; [|done]. by eapply ni_client; [apply nreach_inv|..].
Qed.
Print Assumptions C72_calls.
Example C72_example : exists x l n y, nreach cfg0 x /\ linked x 0 l n y /\ l_ok l = true /\ l_down l = [] /\ l_up l = [] /\
  f_cmd <$> server_got n = [CONNECT; SUBSCRIBE] /\ f_cmd <$> peer_sent (l_peer l) = [CONNECT; SUBSCRIBE] /\
  f_cmd <$> server_sent n = [CONNECTED; MESSAGE] /\ f_cmd <$> client_read y = [MESSAGE].
Proof.
  pose proof (nafter_reach one_message (fun x => client_at x 0 (fun l n y => bool_decide (l_ok l = true /\ l_down l = [] /\ l_up l = [] /\
    f_cmd <$> server_got n = [CONNECT; SUBSCRIBE] /\ f_cmd <$> peer_sent (l_peer l) = [CONNECT; SUBSCRIBE] /\
    f_cmd <$> server_sent n = [CONNECTED; MESSAGE] /\ f_cmd <$> client_read y = [MESSAGE])))) as HA. witness HA.
  destruct HA as (x & Hr & (l & n & y & HL & Hx)%client_at_ok). apply bool_decide_eq_true in Hx. by exists x, l, n, y.
Qed.
(** Without the condition, the server reads frames that no call asked for: a
    body sent with NoContentLength may contain one. *)
Definition smuggle : str := lit "hi" ++ [NUL] ++ lit "SEND" ++ [LF] ++ lit "destination:/topic/t" ++ [LF; LF] ++ lit "evil" ++ [NUL].
Definition smuggled : frame := match create_send_frame 0 top [] smuggle [SoNoContentLength] with Some (_, f) => f | None => fsend [] [] [] end.
Theorem C72_refuted : exists x l n y last, nreach cfg0 x /\ linked x 0 l n y /\ create_send_frame 0 top [] smuggle [SoNoContentLength] = Some (last, smuggled) /\
  g_op <$> c_gs y = [OSend (Some smuggled)] /\ f_body <$> peer_sent (l_peer l) = [[]; smuggle] /\ f_body <$> server_got n = [[]; lit "hi"; lit "evil"] /\
  ~ server_got n `prefix_of` peer_sent (l_peer l).
Proof.
  pose proof (nafter_reach (dial 0 ++ call 0 0 (OSend (Some smuggled)) ++ handle 0 ++ process 0 ++ handle 0) (fun x => client_at x 0 (fun l n y => bool_decide (
    f_body <$> peer_sent (l_peer l) = [[]; smuggle] /\ f_body <$> server_got n = [[]; lit "hi"; lit "evil"]) &&
    match c_gs y with [r] => match g_op r with OSend (Some f) => bool_decide (f = smuggled) | _ => false end | _ => false end))) as HA. witness HA.
  destruct HA as (x & Hr & (l & n & y & HL & [Hx Hy]%andb_true_iff)%client_at_ok). apply bool_decide_eq_true in Hx as [Hx1 Hx2]. exists x, l, n, y, 0%N. split_and!; try done.
  - destruct (c_gs y) as [|r [|]]; try done. cbn. destruct (g_op r) as [[f|]| | | | |]; try done. apply bool_decide_eq_true in Hy. by subst.
  - intros [k E]. apply (f_equal (fmap f_body)) in E. rewrite fmap_app, Hx1, Hx2 in E. discriminate E.
Qed.
Print Assumptions C72_refuted.

(* ------------------------------------------------------------------ *)
(** C73.  Every message a client's subscription hands to its program is a copy
    (body, and headers except those the server sets) of a SEND frame that the
    server accepted; if that came from a client of this library whose calls
    asked for well-formed frames, one of its calls asked for exactly it. *)
Theorem C73_origin : forall cfg x c l o h k y s b f, nreach cfg x -> x_links x !! c = Some l -> l_peer l = PeerClient o h k y -> c_subs y !! s = Some b -> f ∈ msgs (b_read b) ->
  exists c1 m1, accepts (x_sys x) c1 m1 /\ cmd_of m1 = SEND /\ carries (g_frame m1) f /\
    forall l1 o1 h1 k1 y1, x_links x !! c1 = Some l1 -> l_peer l1 = PeerClient o1 h1 k1 y1 -> Forall writable (peer_sent (l_peer l1)) ->
      exists g r, c_gs y1 !! g = Some r /\ op_frame (g_op r) = Some (g_frame m1).
Proof. exact origin. Qed.
Print Assumptions C73_origin.
Definition read_bodies (y : cl) (s : nat) : list str := match c_subs y !! s with Some b => f_body <$> msgs (b_read b) | None => [] end.
Definition op_body (r : gor) : option str := f_body <$> op_frame (g_op r).
Example C73_example : exists x l n y l1 n1 y1, nreach cfg0 x /\ linked x 0 l n y /\ linked x 1 l1 n1 y1 /\ read_bodies y 0 = [lit "one"] /\ op_body <$> c_gs y1 = [Some (lit "one")].
Proof.
  pose proof (nafter_reach one_message (fun x => client_at x 0 (fun l n y => client_at x 1 (fun l1 n1 y1 => bool_decide (read_bodies y 0 = [lit "one"] /\ op_body <$> c_gs y1 = [Some (lit "one")]))))) as HA. witness HA.
  destruct HA as (x & Hr & (l & n & y & HL & (l1 & n1 & y1 & HL1 & Hx)%client_at_ok)%client_at_ok). apply bool_decide_eq_true in Hx. by exists x, l, n, y, l1, n1, y1.
Qed.

(* ------------------------------------------------------------------ *)
(** C74.  A client's subscription to a topic: the messages the program received
    from it are copies, in order, of the first messages the server's processor
    was given for the topic while the subscription was in force there; when
    nothing is on the way and it was not unsubscribed, of all of them.  (The
    SUBSCRIBE frame has no receipt header and no other call uses its id.) *)
Theorem C74_topic : forall cfg x c l n o h k y s0 b r f id rt, nreach cfg x -> x_links x !! c = Some l -> y_conns (x_sys x) !! c = Some n -> l_peer l = PeerClient o h k y ->
  Forall writable (peer_sent (l_peer l)) -> c_subs y !! s0 = Some b -> c_gs y !! b_by b = Some r -> g_op r = OSubscribe (Some (f, id, rt)) ->
  hd_contains (f_hdr f) h_receipt = None -> sole (c_gs y) (b_by b) (sub_key f) ->
  forall s sb, y_heap (x_sys x) !! s = Some sb -> s_conn sb = c -> s_id sb = sub_key f -> is_queue (s_dest sb) = false ->
  hd_contains (f_hdr f) h_destination = Some (s_dest sb) /\
  (exists ms, ms `prefix_of` during s (s_dest sb) false (y_blog (x_sys x)).*1 /\ Forall2 copy_of ms (msgs (b_read b))) /\
  (arrived x l n y b -> (forall g' r' s' f', c_gs y !! g' = Some r' -> g_op r' = OUnsub s' (Some f') -> hd_contains (f_hdr f') h_reply_to <> Some (sub_key f)) ->
     Forall2 copy_of (during s (s_dest sb) false (y_blog (x_sys x)).*1) (msgs (b_read b))).
Proof. exact topic_client. Qed.
Print Assumptions C74_topic.
(** If anything was received there is such a subscription object. *)
Theorem C74_object : forall cfg x c l n o h k y s0 b r f id rt, nreach cfg x -> x_links x !! c = Some l -> y_conns (x_sys x) !! c = Some n -> l_peer l = PeerClient o h k y ->
  Forall writable (peer_sent (l_peer l)) -> c_subs y !! s0 = Some b -> c_gs y !! b_by b = Some r -> g_op r = OSubscribe (Some (f, id, rt)) ->
  hd_contains (f_hdr f) h_receipt = None -> sole (c_gs y) (b_by b) (sub_key f) -> msgs (b_read b) <> [] ->
  exists s sb, y_heap (x_sys x) !! s = Some sb /\ s_conn sb = c /\ s_id sb = sub_key f /\ hd_contains (f_hdr f) h_destination = Some (s_dest sb).
Proof. exact no_object. Qed.
Print Assumptions C74_object.
(** Two messages; a third was sent before the subscription. *)
Definition sends_one (g : nat) (body : str) : list nact := call 1 g (OSend (Some (fsend top body []))) ++ handle 1 ++ process 1.
Definition topic_run : list nact :=
  dial 0 ++ dial 1 ++ sends_one 0 (lit "old") ++ call 0 0 (OSubscribe (Some (fsub (lit "1") top, lit "1", false))) ++ handle 0 ++ process 0 ++
  sends_one 1 (lit "one") ++ publish 0 ++ sends_one 2 (lit "two") ++ publish 0 ++
  arrive 0 ++ does 0 [XLoop 0; XConsume 0] ++ arrive 0 ++ does 0 [XLoop 0; XConsume 0].
Definition bodies (l : list msg) : list str := (fun m => f_body (g_frame m)) <$> l.
Local Instance cmsg_dec : EqDecision cmsg.
Proof. solve_decision. Defined.
Local Instance phase_dec : EqDecision phase.
Proof. solve_decision. Defined.
Example C74_example : exists x l n y b sb, nreach cfg0 x /\ linked x 0 l n y /\ c_subs y !! 0 = Some b /\ arrived x l n y b /\ y_heap (x_sys x) !! 0 = Some sb /\
  s_conn sb = 0 /\ s_id sb = lit "1" /\ s_dest sb = top /\ bodies (during 0 top false (y_blog (x_sys x)).*1) = [lit "one"; lit "two"] /\ read_bodies y 0 = [lit "one"; lit "two"].
Proof.
  pose proof (nafter_reach topic_run (fun x => client_at x 0 (fun l n y => match c_subs y !! 0, y_heap (x_sys x) !! 0 with
    | Some b, Some sb => bool_decide (n_phase n = Running /\ n_write n = [] /\ y_pout (x_sys x) = [] /\ l_ok l = true /\ l_down l = [] /\ c_rch y = [] /\ transit y b = [] /\ b_buf b = [] /\
        s_conn sb = 0 /\ s_id sb = lit "1" /\ s_dest sb = top /\ bodies (during 0 top false (y_blog (x_sys x)).*1) = [lit "one"; lit "two"] /\ read_bodies y 0 = [lit "one"; lit "two"])
    | _, _ => false end))) as HA. witness HA.
  destruct HA as (x & Hr & (l & n & y & HL & Hx)%client_at_ok). destruct (c_subs y !! 0) as [b|] eqn:Hb; [|done]. destruct (y_heap (x_sys x) !! 0) as [sb|] eqn:Hs; [|done].
  apply bool_decide_eq_true in Hx as (H1 & H2 & H3 & H4 & H5 & H6 & H7 & H8 & H9 & H10 & H11 & H12 & H13). exists x, l, n, y, b, sb. by split_and!.
Qed.

(* ------------------------------------------------------------------ *)
(** C75.  A call that waits for a receipt and returns nil: the server has
    handled exactly its frame, after accepting everything the client wrote
    before it.  A SEND outside a transaction has been given to the processor;
    after Disconnect everything written before has been accepted.  (No other
    call uses the receipt id; no write of the server failed.) *)
Theorem C75_handled_partial : forall cfg x c l n o h k y g r f, nreach cfg x -> x_links x !! c = Some l -> y_conns (x_sys x) !! c = Some n -> l_peer l = PeerClient o h k y ->
  Forall writable (peer_sent (l_peer l)) -> c_gs y !! g = Some r -> receipt_call (g_op r) f -> g_pc r = GDone RNil -> (forall rid, hd_contains (f_hdr f) h_receipt = Some rid -> sole (c_gs y) g rid) ->
  exists pre e post m l1 q w l2, n_log n = pre ++ e :: post /\ v_in e = InFrame m /\ g_frame m = f /\
    c_log y = l1 ++ PvReq q (Some (f, w)) :: l2 /\ q_by q = g /\ g_frame <$> omap accepted pre = connect_frame o :: wrote_in l1 /\
    established pre /\ (l_ok l = true -> v_stop e = true -> exists txt, refused cfg pre m txt).
Proof. exact receipt_call_served. Qed.
Print Assumptions C75_handled_partial.
Theorem C75_send : forall cfg x c l n o h k y g r f, nreach cfg x -> x_links x !! c = Some l -> y_conns (x_sys x) !! c = Some n -> l_peer l = PeerClient o h k y -> l_ok l = true ->
  Forall writable (peer_sent (l_peer l)) -> c_gs y !! g = Some r -> receipt_call (g_op r) f -> g_pc r = GDone RNil -> (forall rid, hd_contains (f_hdr f) h_receipt = Some rid -> sole (c_gs y) g rid) ->
  f_cmd f = SEND -> hd_contains (f_hdr f) (lit "transaction") = None -> exists m, g_frame m = f /\ accepts (x_sys x) c m /\ delivered m ∈ client_sent n.
Proof. exact send_delivered. Qed.
Print Assumptions C75_send.
Theorem C75_disconnect : forall cfg x c l n o h k y g r rid, nreach cfg x -> x_links x !! c = Some l -> y_conns (x_sys x) !! c = Some n -> l_peer l = PeerClient o h k y -> l_ok l = true ->
  Forall writable (peer_sent (l_peer l)) -> c_gs y !! g = Some r -> g_op r = ODisconnect rid -> g_pc r = GDone RNil -> sole (c_gs y) g rid -> mkFrame DISCONNECT [(h_receipt, rid)] [] ∈ client_wrote y ->
  exists l1 q w l2, c_log y = l1 ++ PvReq q (Some (mkFrame DISCONNECT [(h_receipt, rid)] [], w)) :: l2 /\ q_by q = g /\
    forall f, f ∈ wrote_in l1 -> exists m, g_frame m = f /\ accepts (x_sys x) c m.
Proof. exact disconnect_wrote. Qed.
Print Assumptions C75_disconnect.
Definition returned (y : cl) (g : nat) : bool := match c_gs y !! g with Some r => match g_pc r with GDone RNil => true | _ => false end | None => false end.
(** SEND with a receipt, SEND without, Disconnect. *)
Definition goodbye : list nact :=
  dial 0 ++ call 0 0 (OSend (Some (fsend top (lit "one") (ask_receipt (lit "r1"))))) ++ handle 0 ++ process 0 ++ arrive 0 ++
  call 0 1 (OSend (Some (fsend top (lit "two") []))) ++ call 0 2 (ODisconnect (lit "r2")) ++ handle 0 ++ process 0 ++ handle 0 ++ arrive 0.
Example C75_example : exists x l n y, nreach cfg0 x /\ linked x 0 l n y /\ l_ok l = true /\ returned y 0 = true /\ returned y 1 = true /\ returned y 2 = true /\
  f_cmd <$> client_wrote y = [SEND; SEND; DISCONNECT] /\ f_body <$> (g_frame <$> client_sent n) = [lit "one"; lit "two"] /\ f_cmd <$> (g_frame <$> omap accepted (n_log n)) = [CONNECT; SEND; SEND; DISCONNECT].
Proof.
  pose proof (nafter_reach goodbye (fun x => client_at x 0 (fun l n y => bool_decide (l_ok l = true /\ returned y 0 = true /\ returned y 1 = true /\ returned y 2 = true /\
    f_cmd <$> client_wrote y = [SEND; SEND; DISCONNECT] /\ f_body <$> (g_frame <$> client_sent n) = [lit "one"; lit "two"] /\ f_cmd <$> (g_frame <$> omap accepted (n_log n)) = [CONNECT; SEND; SEND; DISCONNECT])))) as HA. witness HA.
  destruct HA as (x & Hr & (l & n & y & HL & Hx)%client_at_ok). apply bool_decide_eq_true in Hx. by exists x, l, n, y.
Qed.
(** In general nil does not mean that the server accepted the frame: it writes
    the receipt before it looks at the transaction. *)
Definition stray : frame := fsend top (lit "one") [(lit "transaction", lit "nope"); (lit "receipt", lit "r1")].
Theorem C75_refuted : exists x l n y r, nreach cfg0 x /\ linked x 0 l n y /\ l_ok l = true /\ c_gs y !! 0 = Some r /\ receipt_call (g_op r) stray /\ g_pc r = GDone RNil /\
  sole (c_gs y) 0 (lit "r1") /\ stray ∈ server_got n /\ client_sent n = [] /\ (forall m, g_frame m = stray -> ~ accepts (x_sys x) 0 m) /\ f_cmd <$> server_sent n = [CONNECTED; RECEIPT; ERROR].
Proof.
  pose proof (nafter_reach (dial 0 ++ call 0 0 (OSend (Some stray)) ++ handle 0 ++ arrive 0) (fun x => client_at x 0 (fun l n y => bool_decide (l_ok l = true /\ stray ∈ server_got n /\
    (g_uid <$> client_sent n) = [] /\ stray ∉ g_frame <$> omap accepted (n_log n) /\ f_cmd <$> server_sent n = [CONNECTED; RECEIPT; ERROR]) &&
    match c_gs y with [r] => match g_op r, g_pc r with OSend (Some f), GDone RNil => bool_decide (f = stray) | _, _ => false end | _ => false end))) as HA. witness HA.
  destruct HA as (x & Hr & (l & n & y & HL & [Hx Hy]%andb_true_iff)%client_at_ok). apply bool_decide_eq_true in Hx as (H1 & H2 & H3 & H4 & H5).
  destruct (c_gs y) as [|r [|]] eqn:Eg; try done. destruct (g_op r) as [[f|]| | | | |] eqn:Eo; try done. destruct (g_pc r) as [| | | | | | | | | |res] eqn:Ep; try done. destruct res; try done. apply bool_decide_eq_true in Hy. subst f.
  exists x, l, n, y, r. split_and!; try done.
  - by rewrite Eg.
  - rewrite Eo. split; [by left|done].
  - intros j r' f' Hj _ _. rewrite Eg in Hj. destruct j as [|j]; [done|]. by rewrite lookup_cons, lookup_nil in Hj.
  - by apply fmap_nil_inv in H3.
  - intros m Hm (n' & e & Hn' & He & Hacc). destruct HL as (_ & Hn & _). rewrite Hn in Hn'. injection Hn' as <-. apply H4. rewrite <-Hm. apply elem_of_list_fmap_1, elem_of_list_omap. by exists e.
Qed.
Print Assumptions C75_refuted.

(* ------------------------------------------------------------------ *)
(** C76.  The server should confirm the UNSUBSCRIBE frame for which Unsubscribe
    waits.  It does not: a RECEIPT that a client reads answers a frame of
    another kind, and Unsubscribe does not return nil while the connection
    works. *)
Theorem C76_receipts_partial : forall cfg x c l n o h k y fr rid, nreach cfg x -> x_links x !! c = Some l -> y_conns (x_sys x) !! c = Some n -> l_peer l = PeerClient o h k y ->
  Forall writable (peer_sent (l_peer l)) -> fr ∈ client_read y -> f_cmd fr = RECEIPT -> hd_contains (f_hdr fr) h_receipt_id = Some rid ->
  exists g r f, c_gs y !! g = Some r /\ op_frame (g_op r) = Some f /\ f ∈ client_wrote y /\ hd_contains (f_hdr f) h_receipt = Some rid /\ f_cmd f <> UNSUBSCRIBE.
Proof.
  intros cfg x c l n o h k y fr rid Hr Hl Hn Hp Hw Hf Hc Hid. destruct (receipt_of_call _ _ _ _ _ _ _ _ _ _ _ Hr Hl Hn Hp Hw Hf Hc Hid) as (g & r & f & H1 & H2 & H3 & H4 & H5).
  exists g, r, f. split_and!; try done. intros E. by rewrite E in H5.
Qed.
Print Assumptions C76_receipts_partial.
Theorem C76_unconfirmed : forall cfg x c l n o h k y s b r0 f id rt g r fu, nreach cfg x -> x_links x !! c = Some l -> y_conns (x_sys x) !! c = Some n -> l_peer l = PeerClient o h k y ->
  Forall writable (peer_sent (l_peer l)) -> c_subs y !! s = Some b -> c_gs y !! b_by b = Some r0 -> g_op r0 = OSubscribe (Some (f, id, rt)) ->
  hd_contains (f_hdr f) h_receipt = None -> sole (c_gs y) (b_by b) (sub_key f) ->
  (forall g' r' s' f', c_gs y !! g' = Some r' -> g_op r' = OUnsub s' (Some f') -> hd_contains (f_hdr f') h_reply_to <> Some (sub_key f)) ->
  c_gs y !! g = Some r -> g_op r = OUnsub s fu -> g_pc r = GDone RNil -> ended (c_p y) = true.
Proof. exact unsub_unconfirmed. Qed.
Print Assumptions C76_unconfirmed.
(** Unsubscribe sends its frame and waits; the server accepts it and ends the
    subscription; everything has been read and handled, and the call still
    waits.  With a timeout it then fails, and gives the program an error. *)
Definition funsub (id : str) : frame := mkFrame UNSUBSCRIBE [(lit "id", id)] [].
Definition leave : list nact :=
  dial 0 ++ call 0 0 (OSubscribe (Some (fsub (lit "1") top, lit "1", false))) ++ handle 0 ++ process 0 ++
  does 0 [XCall (OUnsub 0 (Some (funsub (lit "1")))); XRun 1; XRun 1; XRun 1; XRun 1; XRun 1; XTakeWrite true] ++ handle 0 ++ process 0.
Definition at_rest (x : net) (l : link) (n : sconn) (y : cl) : bool :=
  bool_decide (l_up l = [] /\ l_down l = [] /\ n_read n = [] /\ n_out n = [] /\ n_write n = [] /\ n_sub n = [] /\ y_pout (x_sys x) = [] /\ c_wch y = [] /\ c_rch y = []) &&
  match y_req (x_sys x), c_p y with [], PLoop => true | _, _ => false end.
Definition waits_on (y : cl) (g s : nat) : bool := match c_gs y !! g with Some r => match g_pc r with GBlocked s' => bool_decide (s' = s) | _ => false end | None => false end.
Definition timed_out (y : cl) (g : nat) : bool := match c_gs y !! g with Some r => match g_pc r with GDone (RErr EUnsubTimeout) => true | _ => false end | None => false end.
Theorem C76_refuted :
  (exists x l n y, nreach cfg0 x /\ linked x 0 l n y /\ at_rest x l n y = true /\ ended (c_p y) = false /\ waits_on y 1 0 = true /\
     f_cmd <$> (g_frame <$> omap accepted (n_log n)) = [CONNECT; SUBSCRIBE; UNSUBSCRIBE] /\ last (f_hdr <$> server_got n) = Some [(lit "id", lit "1"); (lit "receipt", lit "1")] /\
     f_cmd <$> server_sent n = [CONNECTED] /\ live (lit "1") (n_log n) = None) /\
  (exists x l n y b, nreach cfg0 x /\ linked x 0 l n y /\ c_subs y !! 0 = Some b /\ timed_out y 1 = true /\ b_read b ++ b_buf b = [CmErr None]).
Proof.
  split.
  - pose proof (nafter_reach leave (fun x => client_at x 0 (fun l n y => bool_decide (at_rest x l n y = true /\ ended (c_p y) = false /\ waits_on y 1 0 = true /\
      f_cmd <$> (g_frame <$> omap accepted (n_log n)) = [CONNECT; SUBSCRIBE; UNSUBSCRIBE] /\ last (f_hdr <$> server_got n) = Some [(lit "id", lit "1"); (lit "receipt", lit "1")] /\
      f_cmd <$> server_sent n = [CONNECTED] /\ live (lit "1") (n_log n) = None)))) as HA. witness HA.
    destruct HA as (x & Hr & (l & n & y & HL & Hx)%client_at_ok). apply bool_decide_eq_true in Hx. by exists x, l, n, y.
  - pose proof (nafter_reach (leave ++ does 0 [XTimeout 1; XRun 1; XRun 1]) (fun x => client_at x 0 (fun l n y => match c_subs y !! 0 with
      | Some b => bool_decide (timed_out y 1 = true /\ b_read b ++ b_buf b = [CmErr None]) | None => false end))) as HA. witness HA.
    destruct HA as (x & Hr & (l & n & y & HL & Hx)%client_at_ok). destruct (c_subs y !! 0) as [b|] eqn:Hb; [|done]. apply bool_decide_eq_true in Hx as [H1 H2]. by exists x, l, n, y, b.
Qed.
Print Assumptions C76_refuted.
(** It returns nil when the connection is lost. *)
Example C76_example : exists x l n y, nreach cfg0 x /\ linked x 0 l n y /\ returned y 1 = true /\ ended (c_p y) = true /\ f_cmd <$> client_wrote y = [SUBSCRIBE; UNSUBSCRIBE].
Proof.
  pose proof (nafter_reach (leave ++ does 0 [XEof; XTakeRead; XPick 0; XDeliver; XLoop 0; XLoop 0; XLoop 0; XLoop 0; XRun 1; XRun 1]) (fun x => client_at x 0 (fun l n y =>
    bool_decide (returned y 1 = true /\ ended (c_p y) = true /\ f_cmd <$> client_wrote y = [SUBSCRIBE; UNSUBSCRIBE])))) as HA. witness HA.
  destruct HA as (x & Hr & (l & n & y & HL & Hx)%client_at_ok). apply bool_decide_eq_true in Hx. by exists x, l, n, y.
Qed.
