(** Client and server together, when nobody calls, connects or sends anything
    new: C77, C78. *)
From stdpp Require Import gmap.
From Verif Require Import GoBase GoBaseProofs HeaderModel HeaderProofs FrameModel GrammarSpec NegotiationModel ClientApiModel ClientModel ClientSpec ClientLemmas ClientProofs ClientReceipts ClientReady ClientRestSpec ClientRest.
From Verif Require Import BrokerModel BrokerSpec ServerConnModel ServerConnSpec SystemModel SystemSpec FlowSpec RestSpec RestProofs PeerSpec RefusalSpec
  NetModel NetSpec NetLinks NetProofs NetTopics NetUnsub NetProps NetRestSpec NetRest NetSettled NetAnswered.

(* ------------------------------------------------------------------ *)
(** C77.  Left alone, the whole comes to rest: the streams, the server and the
    clients can only do finitely many things, and from every state something
    leads - without timeouts, without failing writes - to a state in which
    nothing happens any more, unless a goroutine panics. *)
Theorem C77_finite : forall cfg (s : nat -> net) (t : nat -> nact), nreach cfg (s 0) -> ~ forall i, nwork (t i) /\ nstep cfg (s i) (t i) = Some (s (S i)).
Proof. intros cfg s t Hr. by eapply ends_no_infinite; [apply nreach_ends|]. Qed.
Print Assumptions C77_finite.
Theorem C77_settles : forall cfg x, nreach cfg x -> exists l x', Forall (fun a => prompt a /\ lucky a) l /\ nrun cfg x l = Some x' /\ (nsettled cfg x' \/ npanics cfg x') /\
  forall c l, x_links x !! c = Some l -> exists l', x_links x' !! c = Some l' /\ l_ok l' = l_ok l.
Proof. exact nsettles. Qed.
Print Assumptions C77_settles.
(** At rest (without panic) the server is at rest or in the deadlock of C47. *)
Theorem C77_server : forall cfg x, nreach cfg x -> nsettled cfg x -> ~ npanics cfg x -> RestSpec.at_rest (x_sys x) \/ deadlocked (x_sys x).
Proof. exact settled_server. Qed.
Print Assumptions C77_server.
(** In the first case, everything each end of a working connection has written
    the other end has read and handled, nothing is on the way, and nobody waits
    for the reply to CONNECT. *)
Theorem C77_streams : forall cfg x c l n k y, rested cfg x -> healthy x c l n k y ->
  l_up l = [] /\ server_got n = peer_sent (l_peer l) /\ g_frame <$> omap accepted (n_log n) = peer_sent (l_peer l) /\
  l_down l = [] /\ peer_got (l_peer l) = server_sent n /\ c_rch y = [] /\ c_wch y = [] /\ (forall s b, c_subs y !! s = Some b -> settled_sub y b).
Proof.
  intros cfg x c l n k y (Hr & HS & HP & HD) (Hl & Hn & (o & h & Hp) & Hph & Hok & Hlo & Hrc & Hwc & Hw).
  destruct (settled_up _ _ Hr HS HP HD _ _ _ Hl Hn Hph) as [E1 E2]; [by rewrite Hp|rewrite Hp; cbn; by rewrite Hlo|done|].
  destruct (settled_down _ _ Hr HS HP _ _ _ _ _ _ _ Hl Hn Hp Hlo Hrc Hok) as [E3 E4]. destruct (settled_loop _ _ HS HP _ _ _ _ _ _ Hl Hp Hlo) as (E5 & _ & E6 & _).
  split_and!; try done.
  - rewrite <-E2. unfold server_got. destruct (settled_quiet _ _ Hr HS HP HD) as (_ & _ & HQ). destruct (HQ _ _ Hn) as (_ & [Hq|(_ & Q1 & _)]); [congruence|]. rewrite Q1, app_nil_r.
    by rewrite (running_accepted _ _ Hr _ _ Hn Hph).
  - intros s b. eapply (rest_sub _ _ _ _ (ni_client _ _ (nreach_inv _ _ Hr) _ _ _ _ _ _ Hl Hp) (settled_rest _ _ HS HP _ _ _ _ _ _ Hl Hp)).
Qed.
Print Assumptions C77_streams.
Theorem C77_connected : forall cfg x c l n o, rested cfg x -> x_links x !! c = Some l -> y_conns (x_sys x) !! c = Some n -> l_peer l = PeerDialing o -> n_phase n = Running -> l_ok l = true -> ~ writable (connect_frame o).
Proof. intros cfg x c l n o (Hr & HS & HP & HD) Hl Hn Hp Hph Hok Hw. eapply settled_hello; done. Qed.
Print Assumptions C77_connected.
(** A topic subscriber has received exactly the messages that the processor was
    given for the topic since the SUBSCRIBE (hypotheses as in C74). *)
Theorem C77_topic : forall cfg x c l n k y s0 b r f id rt s sb, rested cfg x -> healthy x c l n k y ->
  c_subs y !! s0 = Some b -> c_gs y !! b_by b = Some r -> g_op r = OSubscribe (Some (f, id, rt)) -> hd_contains (f_hdr f) h_receipt = None -> sole (c_gs y) (b_by b) (sub_key f) ->
  (forall g' r' s' f', c_gs y !! g' = Some r' -> g_op r' = OUnsub s' (Some f') -> hd_contains (f_hdr f') h_reply_to <> Some (sub_key f)) ->
  y_heap (x_sys x) !! s = Some sb -> s_conn sb = c -> s_id sb = sub_key f -> is_queue (s_dest sb) = false ->
  Forall2 copy_of (during s (s_dest sb) false (y_blog (x_sys x)).*1) (msgs (b_read b)).
Proof.
  intros cfg x c l n k y s0 b r f id rt s sb HR HH Hb Hg Hop Hre Hso Hun Hs Hc Hid Hq. destruct (C77_streams _ _ _ _ _ _ _ HR HH) as (_ & _ & _ & E1 & _ & E2 & _ & HSB).
  destruct HR as (Hr & HS & HP & HD). destruct HH as (Hl & Hn & (o & h & Hp) & Hph & Hok & Hlo & Hrc & Hwc & Hw).
  destruct (C74_topic cfg x c l n o h k y s0 b r f id rt Hr Hl Hn Hp Hw Hb Hg Hop Hre Hso s sb Hs Hc Hid Hq) as (_ & _ & HT). apply HT; [|done].
  destruct (settled_quiet _ _ Hr HS HP HD) as (_ & Q2 & HQ). destruct (HQ _ _ Hn) as (_ & [Hx|(_ & _ & _ & Q3 & _)]); [congruence|]. destruct (HSB _ _ Hb) as [B1 B2].
  split_and!; try done. unfold transit. rewrite Hlo, app_nil_r. by destruct B2 as [[-> _]| ->].
Qed.
Print Assumptions C77_topic.

Definition writable_check (f : frame) : bool :=
  bool_decide (stomp_command (f_cmd f)) && forallb (fun kv => match kv.1 with [] => false | _ => true end) (f_hdr f) &&
  match hd_contains (f_hdr f) h_content_length with
  | Some t => bool_decide (t <> [] /\ forallb is_digit t = true /\ dec_value t = N.of_nat (length (f_body f)) /\ (N.of_nat (length (f_body f)) < 2 ^ 32)%N)
  | None => bool_decide (NUL ∉ f_body f)
  end.
Lemma writable_check_ok f : writable_check f = true -> writable f.
Proof.
  unfold writable_check. rewrite !andb_true_iff, forallb_forall. intros [[H1 H2] H3]. apply bool_decide_eq_true in H1. split; [done| |].
  - intros k v Hk ->. apply elem_of_list_In, H2 in Hk. done.
  - destruct (hd_contains (f_hdr f) h_content_length) as [t|] eqn:E; apply bool_decide_eq_true in H3.
    + left. exists t. split; [by apply hd_contains_Some|]. rewrite dec_text_iff. tauto.
    + right. split; [by apply hd_contains_None|done].
Qed.
(** Client 0 is subscribed, client 1 has sent "one" with a receipt; all is
    delivered and confirmed. *)
Definition healthy_check (l : link) (n : sconn) (y : cl) : bool :=
  bool_decide (n_phase n = Running /\ l_ok l = true) && match c_p y with PLoop => true | _ => false end &&
  match l_peer l with PeerClient _ _ k _ => (0 <? k_rcap k) && (0 <? k_wcap k) | _ => false end && forallb (fun f => writable_check f) (peer_sent (l_peer l)).
Lemma healthy_ok x c l n y : linked x c l n y -> healthy_check l n y = true -> exists k, healthy x c l n k y.
Proof.
  intros (Hl & Hn & o & h & k & Hp) H. unfold healthy_check in H. rewrite !andb_true_iff in H. destruct H as [[[H1 H2] H3] H4]. apply bool_decide_eq_true in H1 as [H1 H1'].
  exists k. rewrite Hp in H3. apply andb_true_iff in H3 as [H3 H3']. apply Nat.ltb_lt in H3, H3'. split_and!; try done; [by exists o, h|by destruct (c_p y)|].
  apply Forall_forall. intros f Hf. rewrite forallb_forall in H4. apply elem_of_list_In, H4 in Hf. by apply writable_check_ok.
Qed.
Example C77_example : exists x l0 n0 k0 y0 l1 n1 k1 y1 b, rested cfg0 x /\ healthy x 0 l0 n0 k0 y0 /\ healthy x 1 l1 n1 k1 y1 /\ c_subs y0 !! 0 = Some b /\
  f_body <$> msgs (b_read b) = [lit "one"] /\ f_cmd <$> server_sent n1 = [CONNECTED; RECEIPT] /\ f_cmd <$> server_got n0 = [CONNECT; SUBSCRIBE].
Proof.
  pose proof (nafter_reach one_message (fun x => rest_check cfg0 x && client_at x 0 (fun l n y => healthy_check l n y && match c_subs y !! 0 with
    | Some b => bool_decide (f_body <$> msgs (b_read b) = [lit "one"] /\ f_cmd <$> server_got n = [CONNECT; SUBSCRIBE]) | None => false end) &&
    client_at x 1 (fun l n y => healthy_check l n y && bool_decide (f_cmd <$> server_sent n = [CONNECTED; RECEIPT])))) as HA. witness HA.
  destruct HA as (x & Hr & [[H0 H1]%andb_true_iff H2]%andb_true_iff). apply client_at_ok in H1 as (l0 & n0 & y0 & L0 & [K0 H1]%andb_true_iff), H2 as (l1 & n1 & y1 & L1 & [K1 H2]%andb_true_iff).
  destruct (c_subs y0 !! 0) as [b|] eqn:Hb; [|done]. apply bool_decide_eq_true in H1 as [H1 H1'], H2. destruct (healthy_ok _ _ _ _ _ L0 K0) as [k0 Hh0], (healthy_ok _ _ _ _ _ L1 K1) as [k1 Hh1].
  apply rest_check_ok in H0. exists x, l0, n0, k0, y0, l1, n1, k1, y1, b. by split_and!.
Qed.

(* ------------------------------------------------------------------ *)
(** C78.  At rest every call on a working connection has returned, but for
    Unsubscribe, whose UNSUBSCRIBE the server never confirms (C76). *)
Theorem C78_returned_partial : forall cfg x c l n k y g r, rested cfg x -> healthy x c l n k y -> tidy y -> c_gs y !! g = Some r ->
  (exists v, g_pc r = GDone v) \/ exists s f, g_op r = OUnsub s (Some f) /\ ((exists ch, g_pc r = GWait (FFrame (Some s)) ch) \/ g_pc r = GBlocked s).
Proof.
  intros cfg x c l n k y g r (Hr & HS & HP & HD) (Hl & Hn & (o & h & Hp) & Hph & Hok & Hlo & Hrc & Hwc & Hw) (T1 & T2 & T3 & T4). by eapply settled_calls.
Qed.
Print Assumptions C78_returned_partial.
(** Send has returned nil, unless a timeout passed before or the program
    disconnected. *)
Theorem C78_send : forall cfg x c l n k y g r f, rested cfg x -> healthy x c l n k y -> tidy y -> c_closed y = false -> c_gs y !! g = Some r -> g_op r = OSend (Some f) ->
  exists v, g_pc r = GDone v /\ (v = RNil \/ v = RErr ESendTimeout /\ k_msg_to k = true \/ v = RErr EReceiptTimeout /\ k_rcv_to k = true).
Proof.
  intros cfg x c l n k y g r f (Hr & HS & HP & HD) (Hl & Hn & (o & h & Hp) & Hph & Hok & Hlo & Hrc & Hwc & Hw) (T1 & T2 & T3 & T4) Hcl Hg Hop. by eapply settled_send.
Qed.
Print Assumptions C78_send.
(** If it returned nil, with or without a receipt, and outside a transaction,
    then the processor was given the message. *)
Theorem C78_published : forall cfg x c l n k y g r f, rested cfg x -> healthy x c l n k y -> c_gs y !! g = Some r -> g_op r = OSend (Some f) -> g_pc r = GDone RNil ->
  hd_contains (f_hdr f) (lit "transaction") = None -> exists m, g_frame m = f /\ delivered m ∈ client_sent n /\ delivered m ∈ enqueues (y_blog (x_sys x)).*1.
Proof.
  intros cfg x c l n k y g r f (Hr & HS & HP & HD) (Hl & Hn & (o & h & Hp) & Hph & Hok & Hlo & Hrc & Hwc & Hw) Hg Hop Hd Ht.
  eapply settled_published; try done; [by eapply settled_wrote|].
  pose proof (reach_ops _ _ _ (ni_client _ _ (nreach_inv _ _ Hr) _ _ _ _ _ _ Hl Hp) _ _ Hg) as Hx. rewrite Hop in Hx. by apply bool_decide_eq_true in Hx.
Qed.
Print Assumptions C78_published.
Lemma tidy_one y r f : c_gs y = [r] -> g_op r = OSend (Some f) -> f_cmd f = SEND -> tidy y.
Proof.
  intros Eg Eo Ec. assert (forall g r', c_gs y !! g = Some r' -> g = 0 /\ r' = r) as H by (intros [|g] r'; rewrite Eg; [by intros [= <-]|by rewrite lookup_cons, lookup_nil]).
  unfold tidy. split_and!.
  - intros g r' s f' [_ ->]%H. congruence.
  - intros j r' f' kk i r2 f2 [_ ->]%H Hf Hu. rewrite Eo in Hf. injection Hf as <-. rewrite Ec in Hu. done.
  - intros g r' f' id [-> _]%H _ _ j r2 f2 [-> _]%H. done.
  - intros g r' f' [_ ->]%H. congruence.
Qed.
Example C78_example : exists x l n k y r f, rested cfg0 x /\ healthy x 1 l n k y /\ tidy y /\ c_closed y = false /\ c_gs y = [r] /\ g_op r = OSend (Some f) /\ g_pc r = GDone RNil /\
  hd_contains (f_hdr f) h_receipt = Some (lit "r1") /\ bodies (enqueues (y_blog (x_sys x)).*1) = [lit "one"].
Proof.
  pose proof (nafter_reach one_message (fun x => rest_check cfg0 x && client_at x 1 (fun l n y => healthy_check l n y && negb (c_closed y) && match c_gs y with
    | [r] => match g_op r, g_pc r with OSend (Some f), GDone RNil => bool_decide (f_cmd f = SEND /\ hd_contains (f_hdr f) h_receipt = Some (lit "r1") /\ bodies (enqueues (y_blog (x_sys x)).*1) = [lit "one"]) | _, _ => false end
    | _ => false end))) as HA. witness HA.
  destruct HA as (x & Hr & [H0 (l & n & y & L & [[K H1]%andb_true_iff H2]%andb_true_iff)%client_at_ok]%andb_true_iff). destruct (healthy_ok _ _ _ _ _ L K) as [k Hh].
  destruct (c_gs y) as [|r [|]] eqn:Eg; try done. destruct (g_op r) as [[f|]| | | | |] eqn:Eo; try done. destruct (g_pc r) as [| | | | | | | | | |res] eqn:Ep; try done. destruct res; try done. apply bool_decide_eq_true in H2 as (H2 & H3 & H4).
  apply rest_check_ok in H0. exists x, l, n, k, y, r, f. split_and!; try done; [by eapply tidy_one|by destruct (c_closed y)].
Qed.
(** Unsubscribe may still be waiting: the run of C76_refuted is at rest. *)
Theorem C78_refuted : exists x l n k y r s f, rested cfg0 x /\ healthy x 0 l n k y /\ c_gs y !! 1 = Some r /\ g_op r = OUnsub s (Some f) /\ g_pc r = GBlocked s.
Proof.
  pose proof (nafter_reach leave (fun x => rest_check cfg0 x && client_at x 0 (fun l n y => healthy_check l n y && match c_gs y !! 1 with
    | Some r => match g_op r, g_pc r with OUnsub s (Some f), GBlocked s' => bool_decide (s = s') | _, _ => false end | None => false end))) as HA. witness HA.
  destruct HA as (x & Hr & [H0 (l & n & y & L & [K H1]%andb_true_iff)%client_at_ok]%andb_true_iff). destruct (healthy_ok _ _ _ _ _ L K) as [k Hh]. apply rest_check_ok in H0.
  destruct (c_gs y !! 1) as [r|] eqn:Eg; [|done]. destruct (g_op r) as [| | |s [f|]| |] eqn:Eo; try done. destruct (g_pc r) as [| | | | | | | |s'| |] eqn:Ep; try done. apply bool_decide_eq_true in H1 as <-.
  exists x, l, n, k, y, r, s, f. by split_and!.
Qed.
Print Assumptions C78_refuted.
