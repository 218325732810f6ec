(** Transactions between programs: C92. *)
From stdpp Require Import gmap.
From Verif Require Import GoBase HeaderModel FrameModel GrammarSpec NegotiationModel NegotiationLemmas ClientApiModel ClientApiSpec ClientModel ClientSpec ClientLemmas.
From Verif Require Import BrokerModel BrokerSpec ServerConnModel ServerConnSpec SystemModel SystemSpec FlowSpec FlowProps PeerSpec RefusalSpec NetModel NetSpec NetLinks NetProofs NetProps TransSpec TransProofs.

(* ------------------------------------------------------------------ *)
(** C92.  Every MESSAGE the server writes was made from a SEND (the one with the
    same number) that was outside any transaction, or whose transaction its
    client has committed since, without an ABORT before. *)
Theorem C92_server : forall cfg y c n m w, reach cfg y -> y_conns y !! c = Some n -> (Some m, w) ∈ written n -> cmd_of m = MESSAGE ->
  exists c1 n1 m1, y_conns y !! c1 = Some n1 /\ m1 ∈ omap accepted (n_log n1) /\ cmd_of m1 = SEND /\ g_uid m = g_uid m1 /\ carries (g_frame m1) (g_frame m) /\
    (hget_of m1 (lit "transaction") = None \/ exists cm, committed n1 m1 cm).
Proof. exact written_committed. Qed.
Print Assumptions C92_server.
(** So what is not committed never leaves its connection. *)
Theorem C92_uncommitted : forall cfg y c n m1, reach cfg y -> y_conns y !! c = Some n -> m1 ∈ omap accepted (n_log n) -> hget_of m1 (lit "transaction") <> None -> (forall cm, ~ committed n m1 cm) ->
  g_uid m1 ∉ g_uid <$> sent y /\ forall c' n' m w, y_conns y !! c' = Some n' -> (Some m, w) ∈ written n' -> cmd_of m = MESSAGE -> g_uid m <> g_uid m1.
Proof. exact uncommitted_never. Qed.
Print Assumptions C92_uncommitted.
(** Numbers are given once. *)
Theorem C92_numbers : forall cfg y c1 n1 m1 c2 n2 m2, reach cfg y -> y_conns y !! c1 = Some n1 -> y_conns y !! c2 = Some n2 ->
  m1 ∈ omap accepted (n_log n1) -> m2 ∈ omap accepted (n_log n2) -> g_uid m1 = g_uid m2 -> c1 = c2 /\ m1 = m2.
Proof. exact accepted_unique. Qed.
Print Assumptions C92_numbers.
(** The messages of a committed transaction, and nothing else from that client
    between them, go to the processor in the order in which they were sent:
    among the client's messages the processor was given or will be given, they
    stand together. *)
Theorem C92_together : forall cfg y c n pre e post cm t l, reach cfg y -> y_conns y !! c = Some n -> n_log n = pre ++ e :: post -> accepted e = Some cm -> cmd_of cm = COMMIT ->
  hget_of cm (lit "transaction") = Some t -> collected t pre = Some l -> within (sends l) (filter (sent_by n) (enqueues (handed y)) ++ enqueues (n_out n)).
Proof. intros cfg y c n pre e post cm t l Hr Hn El Ha Hc Ht Hl. rewrite (C61_processor _ _ _ _ Hr Hn). by eapply commit_within. Qed.
Print Assumptions C92_together.
(** A program: a message it receives that was sent in a transaction was
    committed, and if the sender uses this library, by one of its calls. *)
Theorem C92_program : forall cfg x c l o h k y s b f, nreach cfg x -> x_links x !! c = Some l -> l_peer l = PeerClient o h k y -> c_subs y !! s = Some b -> f ∈ msgs (b_read b) ->
  exists c1 n1 m1, y_conns (x_sys x) !! c1 = Some n1 /\ m1 ∈ omap accepted (n_log n1) /\ cmd_of m1 = SEND /\ carries (g_frame m1) f /\
    forall t, hget_of m1 (lit "transaction") = Some t -> exists cm, committed n1 m1 cm /\
      forall l1 o1 h1 k1 y1, x_links x !! c1 = Some l1 -> l_peer l1 = PeerClient o1 h1 k1 y1 -> Forall writable (peer_sent (l_peer l1)) ->
        exists g r, c_gs y1 !! g = Some r /\ op_frame (g_op r) = Some (g_frame cm).
Proof. exact program_committed. Qed.
Print Assumptions C92_program.
(** A COMMIT confirmed by its receipt: the messages the client had written in
    the transaction have all been passed on. *)
Theorem C92_confirmed : forall cfg x c l n o h k y g r f t, nreach cfg x -> x_links x !! c = Some l -> y_conns (x_sys x) !! c = Some n -> l_peer l = PeerClient o h k y -> l_ok l = true ->
  Forall writable (peer_sent (l_peer l)) -> c_gs y !! g = Some r -> receipt_call (g_op r) f -> g_pc r = GDone RNil -> (forall rid, hd_contains (f_hdr f) h_receipt = Some rid -> sole (c_gs y) g rid) ->
  f_cmd f = COMMIT -> hd_contains (f_hdr f) (lit "transaction") = Some t ->
  exists l1 q w l2, c_log y = l1 ++ PvReq q (Some (f, w)) :: l2 /\ q_by q = g /\
    forall fs, gathered t (wrote_in l1) = Some fs -> exists ms, g_frame <$> ms = fs /\ within (sends ms) (client_sent n).
Proof. exact commit_confirmed. Qed.
Print Assumptions C92_confirmed.
(** The frames of a Transaction object that has not been finished, among any
    frames of other transactions and of none, are the ones the server gathers. *)
Theorem C92_api : forall version last fb t ops pre W, supported version -> begin_tx last = (fb, t) -> Forall (fun x : txop * sendres => is_finish x.1 = false) ops ->
  filter (of_tx (tx_id t)) W = concat ((fun e => e.1.2) <$> tx_run version t ops) ->
  gathered (tx_id t) (pre ++ fb :: W) = Some (concat ((fun e => e.1.2) <$> tx_run version t ops)).
Proof.
  intros version last fb t ops pre W Hv Hb Hops HW. destruct (ClientApiProofs.begin_spec _ _ _ Hb) as (B1 & _ & B3 & B4 & _).
  pose proof (tx_open version ops Hv Hops t B4) as HF. rewrite <- HW in HF. rewrite (gathered_open (tx_id t) pre fb W); [by rewrite HW|done|by apply HeaderProofs.hd_contains_Some|].
  apply Forall_forall. intros f Hf Ht. rewrite Forall_forall in HF. apply HF. by apply elem_of_list_filter.
Qed.
Print Assumptions C92_api.

(** Client 1 sends two messages in a transaction and one outside, and commits
    with a receipt; client 0 gets the one, and after COMMIT the two. *)
Definition in_t (t : str) : header := [(lit "transaction", t)].
Definition fbegin (t : str) : frame := mkFrame BEGIN (in_t t) [].
Definition fcommit (t : str) (more : header) : frame := mkFrame COMMIT (in_t t ++ more) [].
Definition fabort (t : str) : frame := mkFrame ABORT (in_t t) [].
Definition says (c g : nat) (f : frame) : list nact := does c [XCall (OFrame f); XRun g; XRun g; XRun g; XTakeWrite true] ++ handle c.
Definition reads1 : list nact := publish 0 ++ arrive 0 ++ does 0 [XLoop 0; XConsume 0].
Definition tx_begun : list nact :=
  dial 0 ++ dial 1 ++ call 0 0 (OSubscribe (Some (fsub (lit "1") top, lit "1", false))) ++ handle 0 ++ process 0 ++
  says 1 0 (fbegin (lit "t1")) ++ says 1 1 (fsend top (lit "one") (in_t (lit "t1"))) ++ says 1 2 (fsend top (lit "two") (in_t (lit "t1"))) ++
  says 1 3 (fsend top (lit "now") []) ++ process 1 ++ reads1.
Definition tx_done : list nact :=
  tx_begun ++ says 1 4 (fcommit (lit "t1") (ask_receipt (lit "r1"))) ++ process 1 ++ reads1 ++ process 1 ++ reads1 ++ arrive 1.
Definition tx_left : list nact := tx_begun ++ says 1 4 (fabort (lit "t1")) ++ says 1 5 (fsend top (lit "end") []) ++ process 1 ++ reads1.
Example C92_case : exists x l n y l1 n1 y1, nreach cfg0 x /\ linked x 0 l n y /\ linked x 1 l1 n1 y1 /\ read_bodies y 0 = [lit "now"; lit "one"; lit "two"] /\ returned y1 4 = true /\
  f_body <$> (g_frame <$> client_sent n1) = [lit "now"; lit "one"; lit "two"] /\ f_body <$> default [] (gathered (lit "t1") (take 4 (client_wrote y1))) = [lit "one"; lit "two"].
Proof.
  pose proof (nafter_reach tx_done (fun x => client_at x 0 (fun l n y => client_at x 1 (fun l1 n1 y1 => bool_decide (read_bodies y 0 = [lit "now"; lit "one"; lit "two"] /\ returned y1 4 = true /\
    f_body <$> (g_frame <$> client_sent n1) = [lit "now"; lit "one"; lit "two"] /\ f_body <$> default [] (gathered (lit "t1") (take 4 (client_wrote y1))) = [lit "one"; lit "two"]))))) as HA. witness HA.
  destruct HA as (x & Hr & (l & n & y & HL & (l1 & n1 & y1 & HL1 & Hx)%client_at_ok)%client_at_ok). apply bool_decide_eq_true in Hx. by exists x, l, n, y, l1, n1, y1.
Qed.
Example C92_aborted : exists x l n y l1 n1 y1, nreach cfg0 x /\ linked x 0 l n y /\ linked x 1 l1 n1 y1 /\ read_bodies y 0 = [lit "now"; lit "end"] /\
  f_body <$> (g_frame <$> omap accepted (n_log n1)) = [[]; []; lit "one"; lit "two"; lit "now"; []; lit "end"] /\ f_body <$> (g_frame <$> sent (x_sys x)) = [lit "now"; lit "end"].
Proof.
  pose proof (nafter_reach tx_left (fun x => client_at x 0 (fun l n y => client_at x 1 (fun l1 n1 y1 => bool_decide (read_bodies y 0 = [lit "now"; lit "end"] /\
    f_body <$> (g_frame <$> omap accepted (n_log n1)) = [[]; []; lit "one"; lit "two"; lit "now"; []; lit "end"] /\ f_body <$> (g_frame <$> sent (x_sys x)) = [lit "now"; lit "end"]))))) as HA. witness HA.
  destruct HA as (x & Hr & (l & n & y & HL & (l1 & n1 & y1 & HL1 & Hx)%client_at_ok)%client_at_ok). apply bool_decide_eq_true in Hx. by exists x, l, n, y, l1, n1, y1.
Qed.
