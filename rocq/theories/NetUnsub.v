(** Unsubscribe of a client of this server: what its results say. *)
From stdpp Require Import gmap.
From Verif Require Import GoBase HeaderModel HeaderProofs FrameModel GrammarSpec NegotiationModel ClientApiModel ClientModel ClientSpec ClientLemmas ClientProofs ClientRequests ClientCalls ClientChannels ClientReceipts ClientDelivery
  ClientMessages ClientRouting ClientUnsub.
From Verif Require Import BrokerModel BrokerSpec ServerConnModel ServerConnSpec SystemModel SystemSpec FlowSpec PeerSpec ServerConnProofs NetModel NetSpec NetLinks NetProofs NetTopics.

Lemma pmove_ended y y' : pmove y y' -> ended (c_p y) = true -> ended (c_p y') = true.
Proof.
  destruct 1 as [E _ _|txt E _ _ _|o E _ _ _|f txt E _ _ _ _ _|f E _ _ _ _|f id k ch E _ _ _ _ _ _|q l w txt E _ _ _ _ _|q l E _ _ _ _ _ _|q l ch E _ _ _ _ _ _ _ _|i f rest err k ch _ _ _ E _ _|ch f k E E' _ _|f err E E' _ _|err E E' _ _];
    try (by rewrite E); try (by rewrite E'); try (by destruct E' as [E'|E']; rewrite E').
  rewrite E, E'. by destruct k.
Qed.
Lemma told_error A k y : creach A k y -> forall ch f, PvTold ch f ∈ c_log y -> f_cmd f = ERROR -> ended (c_p y) = true.
Proof.
  induction 1 as [|y a y' Hr IH _ Hs]; [intros ch f H; by apply elem_of_nil in H|]. apply cstep_cmv, cmv_pmove in Hs as Hm. pose proof (reach_map _ _ _ Hr) as HM. intros ch f Ht Hc.
  assert (Hold : PvTold ch f ∈ c_log y -> ended (c_p y') = true) by (intros H; eapply pmove_ended; [done|by eapply IH]).
  assert (Hnew : forall e, c_log y' = c_log y ++ [e] -> e <> PvTold ch f -> ended (c_p y') = true).
  { intros e E Hne. rewrite E in Ht. apply snoc_in in Ht as [Ht|Ht]; [by apply Hold|congruence]. }
  destruct Hm as [E1 E2 E|txt E1 E2 E3 E|o E1 E2 E3 E _|f1 txt E1 _ _ E2 _ E|f1 E1 _ E2 _ E|f1 id k0 ch0 E1 _ _ _ _ _ E|q l w txt E1 _ _ _ _ E|q l E1 _ _ _ _ _ E|q l ch0 E1 _ _ _ _ _ _ _ E|i f1 rest err k0 ch0 _ _ _ _ _ E|ch0 f0 k0 E1 E2 _ E|f1 err E1 E2 _ E|err E1 E2 _ E];
    try (by eapply Hnew); try (by rewrite E in Ht; apply Hold).
  rewrite E in Ht. apply snoc_in in Ht as [Ht|Ht]; [by apply Hold|]. injection Ht as <- <-. destruct (mi_send _ HM _ _ _ E1) as [(f' & rest & err & ->)|(id & l & _ & Hro & _)]; [by rewrite E2|].
  exfalso. inversion Hro as [id' Hx|id' Hx]; by rewrite Hc in Hx.
Qed.

(** With this server, a call of Unsubscribe returns nil only after the
    connection has ended. *)
Lemma unsub_unconfirmed cfg x c l n o h k y s b r0 f id rt g r fu : nreach cfg x -> x_links x !! c = Some l -> y_conns (x_sys x) !! c = Some n -> l_peer l = PeerClient o h k y ->
  Forall writable (peer_sent (l_peer l)) -> c_subs y !! s = Some b -> c_gs y !! b_by b = Some r0 -> g_op r0 = OSubscribe (Some (f, id, rt)) ->
  hd_contains (f_hdr f) h_receipt = None -> sole (c_gs y) (b_by b) (sub_key f) ->
  (forall g' r' s' f', c_gs y !! g' = Some r' -> g_op r' = OUnsub s' (Some f') -> hd_contains (f_hdr f') h_reply_to <> Some (sub_key f)) ->
  c_gs y !! g = Some r -> g_op r = OUnsub s fu -> g_pc r = GDone RNil -> ended (c_p y) = true.
Proof.
  intros Hr Hl Hn Hp Hw Hb Hg0 Ho0 Hrc Hso Hno Hg Ho Hd. pose proof (nreach_inv _ _ Hr) as HI. pose proof (ni_client _ _ HI _ _ _ _ _ _ Hl Hp) as Hcr.
  pose proof (reach_map _ _ _ Hcr) as HM. pose proof (reach_req _ _ _ Hcr) as HR.
  assert (Hch : forall q w key, PvReq q w ∈ c_log y -> q_chan q = Some (b_ch b) -> ClientSpec.names (q_frame q) key -> key = sub_key f).
  { intros q w key Hq Hc Hk. assert (known y q) as Hkn by (right; left; by eapply log_req_in). pose proof (chan_req _ _ _ _ HR Hb Hkn Hc) as Hby.
    destruct (req_chan _ _ _ _ _ _ _ _ Hcr Hb Hkn Hby Hg0 Ho0) as [_ Ef]. cbn in Ef. rewrite Ef in Hk. destruct Hk as [Hk|[_ Hk]]; [by rewrite Hrc in Hk|done]. }
  destruct (unsub_nil _ _ _ Hcr _ _ _ _ Hg Ho Hd) as (b' & Hb' & Hgone). rewrite Hb in Hb'. injection Hb' as <-.
  destruct Hgone as [(fr & Hfr & Hc)|(q & q' & w & rt' & H1 & H2 & H3 & H4 & H5 & H6)].
  - destruct (decide (f_cmd fr = ERROR)) as [He|He]; [by eapply told_error|]. destruct Hc as [Hc|]; [|done]. exfalso.
    destruct (mi_told _ HM _ _ Hfr) as [?|(key & k0 & q & w & l1 & l2 & l3 & Hro & Hqc & Hnm & El)]; [done|].
    assert (key = sub_key f) as -> by (eapply (Hch q w); [rewrite El; apply elem_of_app; right; left|done..]).
    assert (hd_contains (f_hdr fr) h_receipt_id = Some (sub_key f)) as Hid by (inversion Hro as [id' Hx ?|id' Hx ?]; [done|by rewrite Hc in Hx]).
    destruct (receipt_of_call _ _ _ _ _ _ _ _ _ fr (sub_key f) Hr Hl Hn Hp Hw) as (g' & r' & f' & Hg' & Ho' & _ & Hrc' & _); try done.
    { unfold client_read. apply elem_of_app. left. apply elem_of_list_omap. exists (PvIn (Some fr)). split; [|done]. rewrite El. apply elem_of_app. right. right. apply elem_of_app. right. left. }
    assert (g' = b_by b) as -> by (eapply Hso; [done..|by left]). rewrite Hg0 in Hg'. injection Hg' as <-. rewrite Ho0 in Ho'. injection Ho' as <-. congruence.
  - exfalso. assert (rt' = sub_key f) as -> by (by eapply Hch).
    destruct (rq_ok _ HR q) as (r1 & Hg1 & Ho1 & _); [right; left; by eapply log_req_in|]. pose proof (reach_ops _ _ _ Hcr _ _ Hg1) as Hok.
    destruct (g_op r1) as [[f1|]|f1|[[[f1 i1] t1]|]|s1 [f1|]|rid|] eqn:E1; cbn in Ho1; try done; injection Ho1 as E; rewrite <-E in H2, H3; cbn [op_ok] in Hok; unfold is_sub_cmd in Hok; rewrite ?H2 in Hok; try done.
    by eapply Hno.
Qed.

(* ---------------- frames of calls ---------------- *)
Lemma outgoing_writable f : writable f -> writable (outgoing f).
Proof.
  intros [H1 H2 H3]. unfold outgoing. destruct (decide _); [|done]. split; cbn [f_cmd f_hdr f_body].
  - done.
  - intros k v Hk. apply hd_set_keys in Hk as [Hk|Hk]; [injection Hk as -> _; neq_lits|by eapply H2].
  - assert (E : hd_contains (hd_set (f_hdr f) h_receipt (first_of (f_hdr f) h_id)) h_content_length = hd_contains (f_hdr f) h_content_length) by (apply hd_contains_set_other; neq_lits).
    destruct H3 as [(t & Ht & Hx)|[Hno Hx]]; [left; exists t|right]; split; try done.
    + apply hd_contains_Some. rewrite E. by apply hd_contains_Some.
    + apply hd_contains_None. rewrite E. by apply hd_contains_None.
Qed.
(** What a client writes can be read if what its calls ask for can. *)
Lemma calls_writable A k y : creach A k y -> (forall g r f, c_gs y !! g = Some r -> op_frame (g_op r) = Some f -> writable f) -> Forall writable (client_wrote y).
Proof.
  intros Hr Hf. apply Forall_forall. intros f Hw. destruct (in_client_wrote _ _ _ _ Hr Hw) as (q & w & r & _ & -> & _ & Hg & Ho). by eapply outgoing_writable, Hf.
Qed.
