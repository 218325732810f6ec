(** Client and server together: proofs. *)
From Verif Require Import GoBase GoBaseProofs HeaderModel FrameModel GrammarSpec HeaderProofs CodecProofs NegotiationModel NegotiationSpec NegotiationLemmas
  ClientApiModel ClientApiSpec ClientApiProofs BrokerModel BrokerSpec BrokerProofs ServerConnModel ServerConnSpec ServerConnProofs SystemModel SystemLemmas SystemSpec SystemProofs SystemTokens
  SystemMessages SystemUids SystemHistory SystemPanics PeerModel PeerSpec.

(* ------------------------------------------------------------------ *)
(** Where messages come from. *)
Lemma collected_in t log l m : collected t log = Some l -> m ∈ l -> exists e, e ∈ log /\ accepted e = Some m.
Proof.
  revert l. induction log as [|e log IH] using rev_ind; intros l; [done|]. unfold collected. rewrite fold_left_app. cbn [fold_left].
  fold (collected t log). unfold tx_event. intros Hc Hm.
  assert (collected t log = Some l -> exists e0, e0 ∈ log ++ [e] /\ accepted e0 = Some m) as Hold.
  { intros E. destruct (IH _ E Hm) as (e0 & H1 & H2). exists e0. split; [set_solver|done]. }
  destruct (accepted e) as [m'|] eqn:Ha; [|auto]. case_decide; [|auto]. case_decide; [injection Hc as <-; by apply elem_of_nil in Hm|].
  case_decide; [done|]. destruct (in_tx m'); [|auto]. destruct (collected t log) as [l0|] eqn:E; [|done]. cbn in Hc. injection Hc as <-.
  apply elem_of_app in Hm as [Hm|Hm].
  - destruct (IH _ eq_refl Hm) as (e0 & G1 & G2). exists e0. split; [set_solver|done].
  - apply elem_of_list_singleton in Hm as ->. exists e. split; [set_solver|done].
Qed.
Lemma sends_in l m : m ∈ sends l -> exists m1, m1 ∈ l /\ cmd_of m1 = SEND /\ m = delivered m1.
Proof.
  unfold sends. intros H. apply elem_of_list_omap in H as (m1 & H1 & H2). exists m1. case_decide; [|done]. by injection H2 as <-.
Qed.
Lemma sent_received cfg y m : reach cfg y -> m ∈ sent y -> exists c m1, accepts y c m1 /\ cmd_of m1 = SEND /\ m = delivered m1.
Proof.
  intros Hr Hm. unfold sent in Hm. apply elem_of_list_In, in_concat in Hm as (x & Hx & Hm). apply elem_of_list_In, elem_of_list_fmap in Hx as (n & -> & Hn).
  apply in_concat in Hm as (x & Hx & Hm). apply elem_of_list_In, elem_of_list_fmap in Hx as (e & -> & He). apply elem_of_list_In in Hm.
  apply elem_of_list_lookup in Hn as [c Hn]. apply elem_of_list_split in He as (pre & post & He).
  destruct (conn_history _ _ Hr _ _ (keeps_in _ (reach_wf _ _ Hr)) _ _ Hn) as (k & st & Hx & _). rewrite He in Hx. rewrite (enqueue_due _ _ _ _ _ _ _ _ _ Hx) in Hm.
  exists c. unfold due in Hm. destruct (accepted e) as [m'|] eqn:Ha; [|by apply elem_of_nil in Hm].
  assert (forall m1 e1, e1 ∈ n_log n -> accepted e1 = Some m1 -> accepts y c m1) as Hacc by (intros m1 e1 ? ?; by exists n, e1).
  destruct (hget_of m' (lit "transaction")) as [t|].
  - case_decide; [|by apply elem_of_nil in Hm]. destruct (collected t pre) as [l|] eqn:Ec; [|by apply elem_of_nil in Hm].
    apply sends_in in Hm as (m1 & H1 & H2 & ->). destruct (collected_in _ _ _ _ Ec H1) as (e1 & H3 & H4). exists m1. split_and!; [|done|done].
    apply (Hacc _ e1); [rewrite He; set_solver|done].
  - apply sends_in in Hm as (m1 & H1 & H2 & ->). apply elem_of_list_singleton in H1 as ->. exists m'. split_and!; [|done|done].
    apply (Hacc _ e); [rewrite He; set_solver|done].
Qed.

Lemma strip_incl (ks ks' : list str) (h h' : header) : (forall k, k ∈ ks -> k ∈ ks') ->
  filter (fun kv : str * str => kv.1 ∉ ks) h = filter (fun kv : str * str => kv.1 ∉ ks) h' ->
  filter (fun kv : str * str => kv.1 ∉ ks') h = filter (fun kv : str * str => kv.1 ∉ ks') h'.
Proof.
  intros Hi E. assert (forall x : header, filter (fun kv : str * str => kv.1 ∉ ks') x = filter (fun kv : str * str => kv.1 ∉ ks') (filter (fun kv : str * str => kv.1 ∉ ks) x)) as Hf.
  { intros x. rewrite list_filter_filter. apply list_filter_iff. intros kv. split; [|by intros [? _]]. intros H. split; [done|]. auto. }
  by rewrite (Hf h), (Hf h'), E.
Qed.
Lemma payload_carries m m1 : payload m = payload (delivered m1) -> g_uid m = g_uid m1 /\ carries (g_frame m1) (g_frame m).
Proof.
  intros E. unfold payload in E. injection E as E1 E2 E3 E4. split; [done|]. split; [done|].
  assert (forall k, k ∈ per_delivery -> k ∈ server_headers) as Hi by (unfold per_delivery, server_headers; set_solver).
  rewrite (strip_incl _ _ _ _ Hi E3). cbn [delivered g_frame f_hdr]. rewrite !strip_del; [done|unfold server_headers; set_solver..].
Qed.
Lemma message_carries cfg y c n m w : reach cfg y -> y_conns y !! c = Some n -> (Some m, w) ∈ written n -> cmd_of m = MESSAGE ->
  exists c1 m1, accepts y c1 m1 /\ cmd_of m1 = SEND /\ g_uid m = g_uid m1 /\ carries (g_frame m1) (g_frame m).
Proof.
  intros Hr Hn Hin Hc. assert (exists m0, m0 ∈ sent y /\ payload m = payload m0) as (m0 & Hs & Hp).
  { unfold written, wire in Hin. apply elem_of_list_In, in_concat in Hin as (l & Hl & Hin).
    apply elem_of_list_In in Hin. apply elem_of_list_In, elem_of_list_fmap in Hl as (e & -> & He).
    apply elem_of_list_split in He as (pre & post & He). exact (messages_from_sent _ _ Hr _ _ _ _ _ _ _ Hn He Hin Hc). }
  destruct (sent_received _ _ _ Hr Hs) as (c1 & m1 & H1 & H2 & ->). exists c1, m1. destruct (payload_carries _ _ Hp). done.
Qed.

(* ------------------------------------------------------------------ *)
(** Carried frames. *)
Lemma carries_get f g k : carries f g -> k ∉ server_headers -> hd_contains (f_hdr g) k = hd_contains (f_hdr f) k.
Proof. intros [_ E] Hk. by rewrite <-(strip_get server_headers (f_hdr g) k Hk), E, strip_get. Qed.
Lemma carries_writable f g : carries f g -> stomp_command (f_cmd g) -> writable f -> writable g.
Proof.
  intros Hc Hg [W1 W2 W3]. split; [done|..].
  - intros k v Hk. destruct (decide (k ∈ server_headers)) as [Hi|Hi].
    + intros ->. revert Hi. unfold server_headers. rewrite !elem_of_cons, elem_of_nil. by intros [?|[?|[?|[?|[?|[?|?]]]]]].
    + destruct Hc as [_ E]. assert ((k, v) ∈ filter (fun kv : str * str => kv.1 ∉ server_headers) (f_hdr f)) as H.
      { rewrite <-E. by apply elem_of_list_filter. }
      apply elem_of_list_filter in H as [_ H]. by eapply W2.
  - assert (h_content_length ∉ server_headers) as Hk by (apply (bool_decide_unpack _); vm_compute; exact I).
    pose proof (carries_get _ _ _ Hc Hk) as E. destruct Hc as [Eb _]. rewrite Eb. destruct W3 as [(t & H1 & H2)|[H1 H2]]; [left; exists t|right]; (split; [|done]).
    + apply hd_contains_Some. rewrite E. by apply hd_contains_Some.
    + apply hd_contains_None. rewrite E. by apply hd_contains_None.
Qed.

(* ------------------------------------------------------------------ *)
(** The frames of Conn.Send and Transaction.Send. *)
Lemma send_call_spec dest ctype body os f : send_call dest ctype body os f -> plain_opts os ->
  f_cmd f = SEND /\ f_body f = body /\ (forall k v, (k, v) ∈ f_hdr f -> k <> []) /\
  hd_contains (f_hdr f) h_destination = Some dest /\
  (ctype <> [] -> hd_contains (f_hdr f) h_content_type = Some ctype) /\
  (ctype = [] -> (forall v, SoHeader h_content_type v ∉ os) -> hd_contains (f_hdr f) h_content_type = None) /\
  exists t, first_entry (f_hdr f) h_content_length t /\ dec_text t (N.of_nat (length body)).
Proof.
  intros H [Hno Hks].
  assert (forall last l g, create_send_frame last dest ctype body os = Some (l, g) ->
    f_cmd g = SEND /\ f_body g = body /\ (forall k v, (k, v) ∈ f_hdr g -> k <> []) /\
    hd_contains (f_hdr g) h_destination = Some dest /\
    (ctype <> [] -> hd_contains (f_hdr g) h_content_type = Some ctype) /\
    (ctype = [] -> (forall v, SoHeader h_content_type v ∉ os) -> hd_contains (f_hdr g) h_content_type = None) /\
    exists t, first_entry (f_hdr g) h_content_length t /\ dec_text t (N.of_nat (length body))) as Hg.
  { intros last l g Hf. destruct (send_frame_spec last dest ctype body os) as (l' & f' & Hf' & Hc & Hb & Hd & Ht1 & Ht2 & Hcl & _ & _).
    rewrite Hf in Hf'. injection Hf' as <- <-. split_and!; [done|done|..].
    - unfold create_send_frame in Hf. rewrite send_base_hdr in Hf. eapply apply_sopts_names; [done| |done].
      cbn [f_hdr]. intros k v. rewrite !elem_of_cons. intros [H1|[H1|H1]].
      + by simplify_eq.
      + by simplify_eq.
      + case_decide; [by apply elem_of_nil in H1|]. apply elem_of_list_singleton in H1. by simplify_eq.
    - by apply hd_contains_Some.
    - intros ?. by apply hd_contains_Some, Ht1.
    - intros ? ?. by apply hd_contains_None, Ht2.
    - by apply Hcl. }
  destruct H as [(last & l & H)|(t & o & version & t' & fs & r & H & Hin)]; [by eapply Hg|].
  unfold tx_step in H. destruct (tx_completed t); [injection H as <- <- <-; by apply elem_of_nil in Hin|].
  destruct (create_send_frame (tx_last t) dest ctype body os) as [[l g]|] eqn:E; [|injection H as <- <- <-; by apply elem_of_nil in Hin].
  apply Hg in E as (G1 & G2 & G3 & G4 & G5 & G6 & tt & G7 & G8). injection H as <- <- <-. unfold sent_frames in Hin.
  assert (f = mkFrame (f_cmd g) (hd_set (f_hdr g) h_transaction (tx_id t)) (f_body g)) as ->.
  { destruct o; [by apply elem_of_nil in Hin|..]; by apply elem_of_list_singleton in Hin. }
  cbn [f_cmd f_hdr f_body]. split_and!; [done|done|..].
  - intros k v Hk. apply hd_set_keys in Hk as [Hk|Hk]; [by injection Hk as -> ->|by eapply G3].
  - by rewrite hd_contains_set_other.
  - intros Hc. rewrite hd_contains_set_other by done. auto.
  - intros Hc Hx. rewrite hd_contains_set_other by done. auto.
  - exists tt. split; [|done]. apply hd_contains_Some. rewrite hd_contains_set_other by done. by apply hd_contains_Some.
Qed.
Lemma send_call_writable dest ctype body os f : send_call dest ctype body os f -> plain_opts os -> (N.of_nat (length body) < 2 ^ 32)%N -> writable f.
Proof.
  intros Hs Ho Hl. destruct (send_call_spec _ _ _ _ _ Hs Ho) as (H1 & H2 & H3 & _ & _ & _ & t & H4 & H5). split; [rewrite H1; (apply (bool_decide_unpack _); vm_compute; exact I)|done|].
  left. exists t. by rewrite H2.
Qed.

(* ------------------------------------------------------------------ *)
(** Acknowledgements. *)
Lemma written_id cfg y c n m w : reach cfg y -> y_conns y !! c = Some n -> (Some m, w) ∈ written n -> cmd_of m = MESSAGE ->
  exists i, (i < 2 ^ 64)%N /\ hget_of m h_message_id = Some (format_uint i).
Proof.
  intros Hr Hn Hin Hc. unfold written, wire in Hin. apply elem_of_list_In, in_concat in Hin as (l & Hl & Hin).
  apply elem_of_list_In in Hin. apply elem_of_list_In, elem_of_list_fmap in Hl as (e & -> & He).
  apply elem_of_list_split in He as (pre & post & He).
  assert (forall last a m0 k m1, alloc_id last a m0 = (k, m1) -> cmd_of m1 = MESSAGE -> exists i, (i < 2 ^ 64)%N /\ hget_of m1 h_message_id = Some (format_uint i)) as Ha.
  { intros last a m0 k m1 E Hcm. unfold alloc_id in E. case_decide as Hd.
    - injection E as <- <-. exists ((last + 1) mod 2 ^ 64)%N. split; [by apply N.mod_lt|]. unfold hget_of. cbn [with_hdr g_frame f_hdr].
      case_decide; [rewrite hd_contains_del_other by done|rewrite hd_contains_set_other by done]; rewrite hd_contains_set_other by done; apply hd_contains_set_same.
    - injection E as <- <-. destruct Hd. by left. }
  apply (log_inv cfg (fun pre e y => forall m w, (Some m, w) ∈ v_wr e -> cmd_of m = MESSAGE -> exists i, (i < 2 ^ 64)%N /\ hget_of m h_message_id = Some (format_uint i)))
    with (y := y) (c := c) (n := n) (pre := pre) (e := e) (post := post) (w := w); try done; clear -Ha.
  intros y c n x w1 w2 i n1 o Hr Hn Hph Hout Hti Hci Hmv m w Hin Hcmd. cbn [new_event v_wr] in Hin.
  pose proof (reach_wf _ _ Hr) as HW. pose proof (co_tx _ _ _ (wf_conns _ HW _ _ Hn)) as Htx. destruct i as [m0| |m0|s|].
  - by destruct (frame_no_message _ _ _ _ _ _ _ _ _ _ _ Htx Hci Hin).
  - injection Hci as <-. by apply elem_of_nil in Hin.
  - cbn [conn_iter] in Hci. destruct (alloc_id (k_last (n_c n)) None m0) as [k m1] eqn:Hal. injection Hci as <-. cbn in Hin.
    apply elem_of_list_singleton in Hin. injection Hin as -> ->. exact (Ha _ _ _ _ _ Hal Hcmd).
  - pose proof (conn_iter_sub cfg c w1 w2 (n_c n) (y_heap y) (y_next y) s) as Hc. rewrite Hci in Hc.
    inversion Hc; subst; cbn [i_wr] in Hin; [by apply elem_of_nil in Hin|..];
      (apply elem_of_list_singleton in Hin; injection Hin as -> _; eapply Ha; [eassumption|done]).
  - injection Hci as <-. cbn in Hin. by apply elem_of_list_singleton in Hin.
Qed.

Lemma acknack_iter cfg cid w1 w2 c hp nx u f i : f_cmd f = ACK \/ f_cmd f = NACK -> k_connected c = true ->
  ack_id (mkMsg u f) = inr i -> hd_contains (f_hdr f) h_receipt = None ->
  (forall t, hd_contains (f_hdr f) h_transaction = Some t -> k_tx c !! t <> None) ->
  (exists o, conn_iter cfg cid w1 w2 c hp nx (InFrame (mkMsg u f)) = Fine o /\ i_stop o = false /\ i_wr o = []) \/
  (exists p, sl_of (f_cmd f) hp (k_sublist c) i = Panicked p).
Proof.
  intros Hcmd Hk Hid Hrc Htx.
  assert (conn_iter cfg cid w1 w2 c hp nx (InFrame (mkMsg u f)) =
    match h_acknack (sl_of (f_cmd f)) w1 c hp nx (mkMsg u f) with
    | Panicked p => Panicked p
    | Fine o => match o_err o with
            | None => Fine (mkIout (o_c o) (o_hp o) (o_next o) (o_wr o) (o_push o) false)
            | Some e => Fine (mkIout (o_c o) (o_hp o) (o_next o) (o_wr o ++ [(Some (error_frame e (o_msg o)), w2)]) (o_push o) true)
            end end) as ->.
  { cbn [conn_iter]. unfold state_func, state_plain. rewrite Hk. cbn [g_frame]. by destruct Hcmd as [-> | ->]. }
  unfold h_acknack. rewrite Hid. unfold send_receipt. change (hdr (mkMsg u f)) with (f_hdr f). rewrite Hrc. cbn [negb]. change (hdr (mkMsg u f)) with (f_hdr f).
  destruct (hd_contains (f_hdr f) h_transaction) as [t|] eqn:Et.
  - left. unfold tx_add. destruct (k_tx c !! t) eqn:E; [|by destruct (Htx t)]. eexists. split; [reflexivity|done].
  - destruct (sl_of (f_cmd f) hp (k_sublist c) i) as [p|[[hp' rest] rs]] eqn:E; [right; by exists p|]. left. eexists. split; [reflexivity|done].
Qed.

Lemma ack_call_spec version msg ack f t : ack_call version msg ack f t -> version = V10 \/ version = V11 ->
  exists sid mid, f_cmd f = (if ack then ACK else NACK) /\ match m_header msg with Some h => hd_contains h h_message_id = Some mid | None => False end /\
    f_hdr f = [(h_subscription, sid); (h_message_id, mid)] ++ match t with Some t => [(h_transaction, t)] | None => [] end /\ f_body f = [].
Proof.
  intros H Hv.
  assert (forall g, create_ack_nack version msg ack = AFrame g -> exists sid mid, f_cmd g = (if ack then ACK else NACK) /\
    match m_header msg with Some h => hd_contains h h_message_id = Some mid | None => False end /\ f_hdr g = [(h_subscription, sid); (h_message_id, mid)] /\ f_body g = []) as Hg.
  { intros g E. unfold create_ack_nack in E. destruct (negb ack && _); [done|]. destruct (m_header msg) as [h|]; [|done]. destruct (m_sub msg) as [[sid mode]|]; [|done].
    destruct (m_conn msg); [|done]. case_decide; [by destruct ack|]. case_decide; [|done]. destruct (hd_contains h h_message_id) as [mid|]; [|done]. injection E as <-.
    exists sid, mid. done. }
  destruct t as [t|]; cbn [ack_call] in H.
  - destruct H as (tx & o & tx' & fs & r & Hs & Hin & Hid).
    assert (exists g, create_ack_nack version msg ack = AFrame g /\ f = mkFrame (f_cmd g) (hd_set (f_hdr g) h_transaction t) (f_body g)) as (g & Eg & ->).
    { unfold tx_step in Hs. destruct (tx_completed tx); [injection Hs as <- <- <-; by apply elem_of_nil in Hin|].
      destruct ack.
      all: destruct (create_ack_nack version msg _) as [e| |g] eqn:E; injection Hs as <- <- <-; [by apply elem_of_nil in Hin|by apply elem_of_nil in Hin|].
      all: exists g; split; [done|]; rewrite Hid in Hin; unfold sent_frames in Hin; destruct o; [by apply elem_of_nil in Hin|..]; by apply elem_of_list_singleton in Hin. }
    apply Hg in Eg as (sid & mid & G1 & G2 & G3 & G4). exists sid, mid. cbn [f_cmd f_hdr f_body]. rewrite G3. done.
  - apply Hg in H as (sid & mid & G1 & G2 & G3 & G4). exists sid, mid. by rewrite G3.
Qed.

Lemma ack_taken cfg y c n m w version sub ack f t : reach cfg y -> y_conns y !! c = Some n -> (Some m, w) ∈ written n -> cmd_of m = MESSAGE ->
  version = V10 \/ version = V11 -> ack_call version (message_of sub (g_frame m)) ack f t ->
  (forall rest, read_stream (write_frame f ++ rest) = RFrame f rest) /\
  forall y' n' u l, reach cfg y' -> y_conns y' !! c = Some n' -> n_phase n' = Running -> n_out n' = [] -> k_connected (n_c n') = true ->
    n_read n' = mkMsg u f :: l -> known_acks y' c -> (forall t0, t = Some t0 -> k_tx (n_c n') !! t0 <> None) -> takes_frame cfg y' c.
Proof.
  intros Hr Hn Hin Hc Hv Hf. destruct (ack_call_spec _ _ _ _ _ Hf Hv) as (sid & mid & F1 & F2 & F3 & F4). cbn [m_header message_of] in F2.
  destruct (written_id _ _ _ _ _ _ Hr Hn Hin Hc) as (i & Hi & Hid). unfold hget_of in Hid. rewrite Hid in F2. injection F2 as <-.
  assert (f_cmd f = ACK \/ f_cmd f = NACK) as Hcmd by (rewrite F1; destruct ack; auto).
  split.
  - intros rest. apply read_write_frame. split.
    + destruct Hcmd as [-> | ->]; (apply (bool_decide_unpack _); vm_compute; exact I).
    + intros k v. rewrite F3. destruct t; cbn [app]; rewrite !elem_of_cons, elem_of_nil; intros H; by repeat (destruct H as [H|H]; [by injection H as -> ->|]).
    + right. rewrite F4. split; [|apply not_elem_of_nil]. apply hd_contains_None. rewrite F3. by destruct t.
  - clear Hr Hn Hin Hc n y. intros y n u l Hr Hn Hph Hout Hco Hrd Hka Htx w1 w2.
    assert (ack_id (mkMsg u f) = inr i) as Hai.
    { unfold ack_id. change (hdr (mkMsg u f)) with (f_hdr f). rewrite F3.
      assert (hd_contains ([(h_subscription, sid); (h_message_id, format_uint i)] ++ match t with Some t => [(h_transaction, t)] | None => [] end) h_ack = None) as -> by (by destruct t).
      assert (hd_contains ([(h_subscription, sid); (h_message_id, format_uint i)] ++ match t with Some t => [(h_transaction, t)] | None => [] end) h_message_id = Some (format_uint i)) as -> by done.
      by rewrite parse_format. }
    destruct (acknack_iter cfg c w1 w2 (n_c n) (y_heap y) (y_next y) u f i Hcmd Hco Hai) as [(o & Ho & Hst & Hw)|(p & Hp)].
    + rewrite F3. by destruct t.
    + intros t0. rewrite F3. destruct t as [t|]; [|done]. intros E. apply Htx. change (Some t = Some t0) in E. done.
    + cbn [step]. unfold do_take. rewrite Hn, Hph. unfold idle. rewrite Hout. cbn [take_input]. rewrite Hrd. rewrite Ho, Hst.
      eexists _, _, _. split; [reflexivity|]. cbn [y_conns]. split; [apply list_lookup_insert; by eapply lookup_lt_Some|]. cbn [n_phase n_log].
      split; [done|]. rewrite last_snoc. done.
    + exfalso. pose proof (reach_wf _ _ Hr) as HW. pose proof (reach_tok _ _ Hr) as HT.
      assert (Hall : all_held (y_heap y) (k_sublist (n_c n))).
      { intros s Hs. destruct (held_frame y c n s HW HT Hn) as [_ (sb & m' & E1 & E2)]; [set_solver|]. unfold fr. rewrite E1. cbn. by rewrite E2. }
      destruct (sl_of_panic _ _ _ _ _ (sublist_nodup _ _ _ HT Hn) Hall Hp) as (_ & (s & sb & H1 & H2 & H3 & H4 & H5) & _).
      destruct (co_list _ _ _ (wf_conns _ HW _ _ Hn) _ H1) as ((sb' & E1 & E2) & _). assert (sb' = sb) as -> by congruence.
      specialize (Hka _ _ H2 E2). rewrite !elem_of_cons, elem_of_nil in Hka. destruct Hka as [?|[?|[?|[]]]]; done.
Qed.

Lemma ack12_rejected cfg cid w1 w2 c hp nx u msg ack f : create_ack_nack V12 msg ack = AFrame f -> k_connected c = true ->
  exists o m', conn_iter cfg cid w1 w2 c hp nx (InFrame (mkMsg u f)) = Fine o /\ i_stop o = true /\ i_wr o = [(Some m', w2)] /\ cmd_of m' = ERROR /\
    i_hp o = hp /\ i_push o = [].
Proof.
  intros E Hk. assert (exists a, f = mkFrame (if ack then ACK else NACK) [(h_id, a)] []) as [a ->].
  { unfold create_ack_nack in E. destruct (negb ack && _); [done|]. destruct (m_header msg) as [h|]; [|done]. destruct (m_sub msg) as [[sid mode]|]; [|done].
    destruct (m_conn msg); [|done]. case_decide; [by destruct ack|]. case_decide as Hv; [by destruct Hv|]. case_decide; [|done]. destruct (hd_contains h h_ack) as [a|]; [|done]. injection E as <-.
    by exists a. }
  cbn [conn_iter]. unfold state_func, state_plain. rewrite Hk. cbn [g_frame f_cmd]. destruct ack; (eexists _, _; split; [reflexivity|]; done).
Qed.
