(** The parts of the whole run as they do alone, and the streams between them
    deliver frames. *)
From stdpp Require Import gmap.
From Verif Require Import GoBase GoBaseProofs HeaderModel HeaderProofs FrameModel GrammarSpec CodecProofs NegotiationModel ClientApiModel ClientModel ClientSpec ClientLemmas.
From Verif Require Import BrokerModel BrokerSpec ServerConnModel ServerConnSpec ServerConnProofs SystemModel SystemSpec SystemLemmas SystemHistory SystemProofs FlowSpec PeerSpec PeerProofs
  NetModel NetSpec.

(* ---------------- what a step of the server does to its streams ---------------- *)
Definition same_io (n n' : sconn) : Prop := server_got n' = server_got n /\ written n' = written n.
Lemma step_conns cfg y a y' : step cfg y a = Some (Fine y') ->
  match a with
  | AAccept => y_conns y' = y_conns y ++ [sconn_init]
  | ARecv c f => exists n n', y_conns y !! c = Some n /\ y_conns y' = <[c := n']> (y_conns y) /\ server_got n' = server_got n ++ [f] /\ written n' = written n
  | ATake c _ _ _ => exists n n' ws, y_conns y !! c = Some n /\ y_conns y' = <[c := n']> (y_conns y) /\ server_got n' = server_got n /\ written n' = written n ++ ws
  | _ => length (y_conns y') = length (y_conns y) /\ forall c n', y_conns y' !! c = Some n' -> exists n, y_conns y !! c = Some n /\ same_io n n'
  end.
Proof.
  assert (Hone : forall c n n', y_conns y !! c = Some n -> same_io n n' -> length (<[c := n']> (y_conns y)) = length (y_conns y) /\
    forall c0 n0, <[c := n']> (y_conns y) !! c0 = Some n0 -> exists n, y_conns y !! c0 = Some n /\ same_io n n0).
  { intros c n n' Hn Hs. split; [apply insert_length|]. intros c0 n0 H0. apply list_lookup_insert_Some in H0 as [(-> & <- & _)|[_ H0]]; [by exists n|]. by exists n0. }
  destruct a as [|c f|c|c x w1 w2|c|c pick| |]; cbn [step].
  - by intros [= <-].
  - intros H%fine_Some. unfold do_recv in H. destruct (y_conns y !! c) as [n|] eqn:Hn; [|done]. destruct (n_eof n) eqn:He; [done|].
    destruct (decide _); [|done]. injection H as <-. cbn [y_conns]. exists n. eexists. split; [done|]. split; [done|]. unfold server_got, written. cbn [n_log n_read].
    by rewrite app_assoc, (fmap_app _ (_ ++ _)).
  - intros H%fine_Some. unfold do_eof in H. destruct (y_conns y !! c) as [n|] eqn:Hn; [|done]. destruct (n_eof n) eqn:He; [done|]. injection H as <-. by eapply Hone.
  - unfold do_take. destruct (y_conns y !! c) as [n|] eqn:Hn; [|done]. destruct (n_phase n) eqn:Hp; try done.
    destruct (idle n) eqn:Hi; [|done]. destruct (take_input n x) as [[i n1]|] eqn:Ht; [|done].
    destruct (conn_iter cfg c w1 w2 (n_c n) (y_heap y) (y_next y) i) as [p|o] eqn:Ho; [done|]. intros [= <-]. cbn [y_conns].
    exists n. eexists _, _. split; [done|]. split; [done|]. unfold server_got, written, wire. cbn [n_log n_read].
    assert (n_log n1 = n_log n /\ frames_of (n_log n) ++ n_read n = frames_of (n_log n) ++ option_list (match i with InFrame m => Some m | _ => None end) ++ n_read n1) as [-> Hx].
    { destruct x; cbn [take_input] in Ht.
      - destruct (n_read n) as [|m l] eqn:E; [destruct (n_eof n); [|done]|]; injection Ht as <- <-; cbn; by rewrite ?E.
      - destruct (n_write n); [done|]. by injection Ht as <- <-.
      - destruct (n_sub n); [done|]. by injection Ht as <- <-.
      - destruct (0 <? k_wt (n_c n))%Z; [|done]. by injection Ht as <- <-. }
    split; [|by rewrite fmap_app, concat_app].
    rewrite Hx. f_equal. unfold frames_of. rewrite omap_app, <-app_assoc. by destruct i.
  - intros H%fine_Some. unfold do_push in H. destruct (y_conns y !! c) as [n|] eqn:Hn; [|done]. destruct (n_out n) as [|r rs] eqn:He; [done|].
    destruct (decide _); [|done]. injection H as <-. by eapply Hone.
  - unfold do_clean. destruct (y_conns y !! c) as [n|] eqn:Hn; [|done]. destruct (idle n) eqn:Hi; [|done].
    destruct (clean_step c n (y_heap y) pick) as [[p|[n' hp']]|] eqn:E; [done| |done]. intros [= <-]. eapply Hone; [done|]. apply clean_cases in E. by destruct E.
  - unfold do_proc. destruct (y_pout y) eqn:Ho; [|done]. destruct (y_req y) as [|r rs] eqn:Hr; [done|].
    destruct (serve (y_broker y) (y_heap y) r) as [p|[[b hp] outs]] eqn:E; [done|]. intros [= <-]. split; [done|]. intros c n' H. by exists n'.
  - intros H%fine_Some. unfold do_out in H. destruct (y_pout y) as [|o os] eqn:Ho; [done|].
    destruct o as [c s m|c m]; (destruct (y_conns y !! c) as [n|] eqn:Hn; [|done]); (destruct (decide _); [|done]); injection H as <-; by eapply Hone.
Qed.

(* ---------------- frames made by the server can be read ---------------- *)
Lemma plain_writable cmd h : stomp_command cmd -> (forall k v, (k, v) ∈ h -> k <> [] /\ k <> h_content_length) -> writable (mkFrame cmd h []).
Proof.
  intros Hc Hh. split; [done|..].
  - intros k v H. by destruct (Hh _ _ H).
  - right. split; [|apply not_elem_of_nil]. intros v H. by destruct (Hh _ _ H).
Qed.
Lemma receipt_wr_writable w0 m m' w : (Some m', w) ∈ receipt_wr w0 m -> writable (g_frame m').
Proof.
  unfold receipt_wr. destruct (hd_contains (hdr m) h_receipt); [|by intros ?%elem_of_nil]. intros E%elem_of_list_singleton. injection E as -> _.
  apply plain_writable; [by apply (bool_decide_unpack _); vm_compute|]. intros k v Hk%elem_of_list_singleton. injection Hk as -> _. split; neq_lits.
Qed.
Lemma error_frame_writable e m : writable (g_frame (error_frame e m)).
Proof.
  apply plain_writable; [by apply (bool_decide_unpack _); vm_compute|]. intros k v. rewrite elem_of_cons. intros [[= -> _]|H]; [split; neq_lits|].
  destruct (hd_contains (hdr m) h_receipt); [|by apply elem_of_nil in H]. apply elem_of_list_singleton in H. injection H as -> _. split; neq_lits.
Qed.
Lemma connected_writable cfg f r : handle_connect cfg f = inr r -> writable (sc_response r).
Proof.
  unfold handle_connect. destruct (hd_contains (f_hdr f) h_receipt); [done|]. destruct (negb _); [done|]. destruct (determine_version f); [done|]. case_decide; [done|].
  destruct (get_heart_beat f) as [|[cx cy]]; [done|]. intros [= <-]. cbn [sc_response]. apply plain_writable; [by apply (bool_decide_unpack _); vm_compute|].
  intros k v. rewrite !elem_of_cons. intros [[= -> _]|[[= -> _]|[[= -> _]|Hx]]]; [split; neq_lits..|]. by apply elem_of_nil in Hx.
Qed.
Lemma iter_writable cfg cid w1 w2 c hp nx i o m w : tx_ok c -> from_broker hp i -> conn_iter cfg cid w1 w2 c hp nx i = Fine o -> (Some m, w) ∈ i_wr o ->
  cmd_of m = MESSAGE \/ writable (g_frame m).
Proof.
  intros Htx Hb Ho Hin. destruct i as [m0| |m0|s|].
  - right. pose proof (conn_iter_frame cfg cid w1 w2 c hp nx m0 Htx) as Hc. rewrite Ho in Hc.
    inversion Hc; subst; cbn [i_wr] in Hin; try (by eapply receipt_wr_writable); try (by apply elem_of_nil in Hin).
    + apply elem_of_list_singleton in Hin. injection Hin as -> _. apply error_frame_writable.
    + apply elem_of_app in Hin as [Hin|Hin]; [by eapply receipt_wr_writable|]. apply elem_of_list_singleton in Hin. injection Hin as -> _. apply error_frame_writable.
    + apply elem_of_list_singleton in Hin. injection Hin as -> _. by eapply connected_writable.
  - cbn in Ho. injection Ho as <-. by apply elem_of_nil in Hin.
  - left. cbn in Ho, Hb. destruct (alloc_id (k_last c) None m0) as [n' m'] eqn:E. injection Ho as <-. cbn in Hin. apply elem_of_list_singleton in Hin. injection Hin as -> _.
    by rewrite (proj1 (alloc_id_cmd _ _ _ _ _ E)).
  - left. cbn in Hb. pose proof (conn_iter_sub cfg cid w1 w2 c hp nx s) as Hsc. rewrite Ho in Hsc. inversion Hsc as [|? ? H1 H2|? ? ? ? ? ? H1 H2 ? E|? ? ? ? ? ? H1 H2 ? ? E|? ? ? ? ? ? H1 H2 ? ? E|]; subst; cbn [i_wr] in Hin; [by apply elem_of_nil in Hin|..].
    all: apply elem_of_list_singleton in Hin; injection Hin as -> _; rewrite (proj1 (alloc_id_cmd _ _ _ _ _ E)); by eapply Hb.
  - cbn in Ho. injection Ho as <-. cbn in Hin. by apply elem_of_list_singleton in Hin.
Qed.
(** Whatever was received could be read, so it can be written again. *)
Lemma sent_writable cfg y : reach cfg y -> (forall c n, y_conns y !! c = Some n -> Forall writable (server_got n)) ->
  forall c n, y_conns y !! c = Some n -> Forall writable (server_sent n).
Proof.
  intros Hr Hg c n Hn. apply Forall_forall. intros f Hf. unfold server_sent in Hf. apply elem_of_list_fmap in Hf as (m & -> & Hm).
  apply elem_of_list_omap in Hm as ([o w] & Hin & [= ->]).
  assert (cmd_of m = MESSAGE -> writable (g_frame m)) as Hmsg.
  { intros Hc. destruct (message_carries _ _ _ _ _ _ Hr Hn Hin Hc) as (c1 & m1 & (n1 & e & H1 & H2 & H3) & _ & _ & H4).
    eapply carries_writable; [done|unfold cmd_of in Hc; rewrite Hc; by apply (bool_decide_unpack _); vm_compute|].
    specialize (Hg _ _ H1). rewrite Forall_forall in Hg. apply Hg. unfold server_got. apply elem_of_list_fmap. exists m1. split; [done|]. apply elem_of_app. left.
    unfold frames_of. apply elem_of_list_omap. exists e. split; [done|]. unfold accepted in H3. by destruct (v_stop e). }
  unfold written, wire in Hin. apply elem_of_list_In, in_concat in Hin as (l & Hl & Hin). apply elem_of_list_In in Hin. apply elem_of_list_In, elem_of_list_fmap in Hl as (e & -> & He).
  apply elem_of_list_split in He as (pre & post & He).
  destruct (conn_history _ _ Hr _ _ (keeps_in _ (reach_wf _ _ Hr)) _ _ Hn) as (k & st & Hx & _). rewrite He in Hx.
  destruct (cexec_event _ _ _ _ _ _ _ _ _ Hx) as (c0 & hp & nx & w1 & w2 & o & H1 & _ & H3 & H4 & _ & H6 & _). rewrite H6 in Hin. cbn [v_wr] in Hin.
  destruct (iter_writable _ _ _ _ _ _ _ _ _ _ _ (cexec_tx_ok _ _ _ _ _ _ _ H1) H3 H4 Hin); auto.
Qed.

(* ---------------- streams ---------------- *)
Lemma stream_read items s : Forall writable_item items -> s `prefix_of` concat (write_item <$> items) ->
  forall o rest, read_stream s = match o with Some f => RFrame f rest | None => RHeartbeat rest end ->
  exists items', items = o :: items' /\ rest `prefix_of` concat (write_item <$> items') /\
    (s = concat (write_item <$> items) -> rest = concat (write_item <$> items')).
Proof.
  intros Hi [q Hq] o rest Hs.
  assert (read_stream (s ++ q) = match o with Some f => RFrame f (rest ++ q) | None => RHeartbeat (rest ++ q) end) as Hr.
  { destruct o as [f|].
    - apply reader_iff_grammar in Hs as (raw & -> & He). rewrite <-app_assoc. by apply read_stream_complete.
    - apply reader_heartbeat_iff in Hs as (raw & -> & He). rewrite <-app_assoc. by apply read_stream_heartbeat. }
  destruct items as [|o' items].
  { cbn in Hq. symmetry in Hq. apply app_eq_nil in Hq as [-> ->]. by destruct o. }
  inversion_clear Hi as [|? ? Ho Hi']. rewrite <-Hq, fmap_cons in Hr. cbn [concat] in Hr.
  assert (read_stream (write_item o' ++ concat (write_item <$> items)) = match o' with Some f => RFrame f (concat (write_item <$> items)) | None => RHeartbeat (concat (write_item <$> items)) end) as Hw.
  { destruct o' as [f|]; [by apply read_write_frame|]. apply read_write_heartbeat. }
  rewrite Hw in Hr. assert (o' = o /\ concat (write_item <$> items) = rest ++ q) as [-> Hx] by (destruct o, o'; by simplify_eq).
  exists items. split; [done|]. split; [by exists q|]. intros ->. rewrite <-(app_nil_r (concat _)) in Hq at 1. apply app_inv_head in Hq as <-. by rewrite app_nil_r in Hx.
Qed.

(** A stream s on which [got] was read of what was [sent]; [all]: nothing that
    was sent is missing. *)
Definition conveys (sent got : list frame) (s : str) (all : bool) : Prop :=
  exists items, Forall writable_item items /\ sent = got ++ omap id items /\ s `prefix_of` concat (write_item <$> items) /\
    (all = true -> s = concat (write_item <$> items)).
Lemma conveys_start all : conveys [] [] [] all.
Proof. exists []. by split_and!. Qed.
Lemma conveys_frame sent got s all f rest : conveys sent got s all -> read_stream s = RFrame f rest -> conveys sent (got ++ [f]) rest all.
Proof.
  intros (items & Hi & -> & Hp & Ha) Hs. destruct (stream_read items s Hi Hp (Some f) rest Hs) as (items' & -> & H1 & H2).
  exists items'. split_and!; [by inversion Hi|by rewrite <-app_assoc|done|auto].
Qed.
Lemma conveys_beat sent got s all rest : conveys sent got s all -> read_stream s = RHeartbeat rest -> conveys sent got rest all.
Proof.
  intros (items & Hi & -> & Hp & Ha) Hs. destruct (stream_read items s Hi Hp None rest Hs) as (items' & -> & H1 & H2).
  exists items'. split_and!; [by inversion Hi|done|done|auto].
Qed.
Lemma conveys_write sent got s new b all : conveys sent got s true -> Forall writable_item new -> b `prefix_of` concat (write_item <$> new) ->
  (all = true -> b = concat (write_item <$> new)) -> conveys (sent ++ omap id new) got (s ++ b) all.
Proof.
  intros (items & Hi & -> & Hp & Ha) Hn Hb Hall. specialize (Ha eq_refl) as ->. exists (items ++ new). split_and!.
  - by apply Forall_app.
  - by rewrite omap_app, app_assoc.
  - rewrite fmap_app, concat_app. by apply prefix_app.
  - intros ->. rewrite fmap_app, concat_app, Hall; done.
Qed.
Lemma conveys_lost sent got s new all : conveys sent got s all -> Forall writable_item new -> conveys (sent ++ omap id new) got s false.
Proof.
  intros (items & Hi & -> & Hp & Ha) Hn. exists (items ++ new). split_and!.
  - by apply Forall_app.
  - by rewrite omap_app, app_assoc.
  - rewrite fmap_app, concat_app. by apply prefix_app_r.
  - done.
Qed.
Lemma conveys_weaken sent got s (all all' : bool) : conveys sent got s all -> (all' = true -> all = true) -> conveys sent got s all'.
Proof. intros (items & Hi & He & Hp & Ha) H. exists items. split_and!; auto. Qed.

(* ---------------- writes ---------------- *)
Definition wr_item (x : wr) : option frame := g_frame <$> fst x.
Lemma sticky_false ws : sticky false ws = true -> filter (fun x : wr => snd x = true) ws = [] /\ filter (fun x : wr => snd x = false) ws = ws.
Proof.
  induction ws as [|[o w] ws IH]; [done|]. cbn [sticky snd]. intros H. apply andb_true_iff in H as [H1 H2]. destruct w; [done|].
  destruct (IH H2) as [I1 I2]. rewrite filter_cons_False, filter_cons_True by done. by rewrite I1, I2.
Qed.
Lemma sticky_split ws : sticky true ws = true ->
  ws = filter (fun x : wr => snd x = true) ws ++ filter (fun x : wr => snd x = false) ws.
Proof.
  induction ws as [|[o w] ws IH]; [done|]. cbn [sticky snd implb]. intros H. apply andb_true_iff in H as [_ H]. destruct w.
  - rewrite filter_cons_True, filter_cons_False by done. cbn [app]. f_equal. by apply IH.
  - destruct (sticky_false _ H) as [I1 I2]. rewrite filter_cons_False, filter_cons_True by done. by rewrite I1, I2.
Qed.
Lemma all_true ws : forallb snd ws = true -> filter (fun x : wr => snd x = false) ws = [].
Proof.
  induction ws as [|[o w] ws IH]; [done|]. cbn [forallb snd]. intros H. apply andb_true_iff in H as [-> H]. rewrite filter_cons_False by done. auto.
Qed.
Lemma omap_item (ws : list wr) : omap id (wr_item <$> ws) = g_frame <$> omap fst ws.
Proof. induction ws as [|[[m|] w] ws IH]; cbn; [done|by rewrite <-IH|done]. Qed.
Lemma take_prefix {A} k (l : list A) : take k l `prefix_of` l.
Proof. exists (drop k l). by rewrite take_drop. Qed.
Lemma conveys_server sent got s ok (ws : list wr) k : conveys sent got s ok -> Forall writable (g_frame <$> omap fst ws) -> sticky ok ws = true ->
  conveys (sent ++ (g_frame <$> omap fst ws)) got (s ++ server_bytes ok ws k) (server_ok ok ws).
Proof.
  intros Hc Hw Hs. rewrite <-omap_item in Hw |- *.
  assert (Forall writable_item (wr_item <$> ws)) as Hi.
  { clear -Hw. induction ws as [|[[m|] w] ws IH]; cbn in *; [done| |constructor; auto; done]. inversion_clear Hw. constructor; [done|auto]. }
  unfold server_bytes, server_ok. destruct ok; cbn [andb].
  - apply conveys_write; try done.
    + rewrite (sticky_split _ Hs) at 3. rewrite fmap_app, fmap_app, concat_app, <-!list_fmap_compose.
      apply prefix_app, take_prefix.
    + intros Ha. rewrite (sticky_split _ Hs) at 3. rewrite fmap_app, fmap_app, concat_app, <-!list_fmap_compose. rewrite (all_true _ Ha). cbn [fmap list_fmap concat]. by rewrite take_nil.
  - destruct (sticky_false _ Hs) as [-> _]. cbn. rewrite app_nil_r. by eapply conveys_lost.
Qed.

(* ---------------- what a step of a client does to its streams ---------------- *)
Lemma answers_io y g f k y' : ClientLemmas.answers y g f k y' -> c_log y' = c_log y /\ c_rch y' = c_rch y /\ c_p y' = c_p y.
Proof. destruct 1; done. Qed.
Lemma after_send_io y ch k : c_log (after_send y ch k) = c_log y /\ c_rch (after_send y ch k) = c_rch y /\
  c_p (after_send y ch k) = match k with KBcast f rest err => PBcast f rest err | _ => PLoop end.
Proof. destruct k as [| |? ? []]; done. Qed.
Lemma read_taken y l o : c_rch y = o :: l -> client_read (ClientLemmas.taken y l o) = client_read y.
Proof. intros H. unfold client_read. cbn. rewrite H, omap_app, <-app_assoc. by destruct o. Qed.
Lemma wrote_taken y l o : client_wrote (ClientLemmas.taken y l o) = client_wrote y.
Proof. unfold client_wrote, wrote_in. cbn. by rewrite omap_app, app_nil_r. Qed.
Lemma client_io cfg y a y' : cmv cfg y a y' -> (forall f, a <> XRecv f) ->
  client_read y' = client_read y /\ (ended (c_p y) = true -> ended (c_p y') = true) /\
  (client_writes y a = ([], true) /\ client_wrote y' = client_wrote y \/
   exists o w, client_writes y a = (write_item o, w) /\ client_wrote y' = client_wrote y ++ option_list o /\ ended (c_p y) = false /\ (w = false -> ended (c_p y') = true)).
Proof.
  intros H Hne. destruct H; try (split_and!; [done|done|left; by split]).
  - split_and!; [done|done|left; by destruct t].
  - split_and!; [by destruct own|by destruct own|left; by destruct own].
  - split_and!; [by destruct (put_next k (q_chan q)) as [? []]|by destruct (put_next k (q_chan q)) as [? []]|left; by destruct (put_next k (q_chan q)) as [? []]].
  - by destruct (Hne f).
  - split_and!; [done|done|left]. cbn [client_writes]. match goal with H : c_wch y = [] |- _ => by rewrite H end.
  - split_and!; [done|done|right]. exists None, true. rewrite app_nil_r. split_and!; try done. match goal with H : c_p y = PLoop |- _ => by rewrite H end.
  - split_and!; [done|done|right]. exists None, false. cbn. rewrite app_nil_r. split_and!; try done. match goal with H : c_p y = PLoop |- _ => by rewrite H end.
  - split_and!; [by apply read_taken|cbn; by rewrite H|left; split; [done|by apply wrote_taken]].
  - split_and!; [by apply (read_taken y)|done|left; split; [done|by apply wrote_taken]].
  - split_and!; [by apply (read_taken y)|done|left; split; [done|by apply wrote_taken]].
  - split_and!; [by apply (read_taken y)|by rewrite H|left; split; [done|by apply wrote_taken]].
  - assert (client_wrote (ClientLemmas.requested y l q (Some (outgoing (q_frame q), w))) = client_wrote y ++ [outgoing (q_frame q)]) as Hw
      by (unfold client_wrote, wrote_in; cbn; by rewrite omap_app).
    split_and!.
    + destruct w; unfold client_read; cbn; by rewrite omap_app, app_nil_r.
    + by rewrite H.
    + right. exists (Some (outgoing (q_frame q))), w. cbn [client_writes]. rewrite H0, H1. split_and!; [done|by destruct w|by rewrite H|by intros ->].
  - split_and!.
    + unfold client_read. cbn. by rewrite omap_app, app_nil_r.
    + done.
    + left. cbn [client_writes]. rewrite H0, H1. split; [done|]. unfold client_wrote, wrote_in. cbn. by rewrite omap_app, app_nil_r.
  - split_and!.
    + unfold client_read. cbn. by rewrite omap_app, app_nil_r.
    + done.
    + left. cbn [client_writes]. rewrite H0, H1. split; [done|]. unfold client_wrote, wrote_in. cbn. by rewrite omap_app, app_nil_r.
  - destruct (answers_io _ _ _ _ _ H4) as (A1 & A2 & A3). cbn [with_log c_log c_rch c_p] in A1, A2, A3. destruct (after_send_io y ch k) as (B1 & B2 & B3). rewrite B1 in A1. rewrite B2 in A2. rewrite B3 in A3. split_and!.
    + unfold client_read. rewrite A1, A2, omap_app. by rewrite app_nil_r.
    + rewrite A3, H. by destruct k.
    + left. split; [done|]. unfold client_wrote, wrote_in. rewrite A1, omap_app. by rewrite app_nil_r.
  - destruct (after_send_io y ch k) as (B1 & B2 & B3). split_and!.
    + unfold client_read. cbn [with_subs with_log c_log c_rch]. rewrite B1, B2, omap_app. by rewrite app_nil_r.
    + cbn [with_subs with_log c_p]. rewrite B3, H. by destruct k.
    + left. split; [done|]. unfold client_wrote, wrote_in. cbn [with_subs with_log c_log]. rewrite B1, omap_app. by rewrite app_nil_r.
Qed.

(* ---------------- the invariant ---------------- *)
Definition listens (p : peer) : Prop := match p with PeerDialing _ | PeerClient _ _ _ _ => True | _ => False end.
Definition writes (p : peer) : bool := match p with PeerDialing _ => true | PeerClient _ _ _ y => negb (ended (c_p y)) | _ => false end.
Record ninv (cfg : scfg) (x : net) : Prop := {
  ni_reach : reach cfg (x_sys x);
  ni_len : length (x_links x) = length (y_conns (x_sys x));
  ni_client : forall c l o h k y, x_links x !! c = Some l -> l_peer l = PeerClient o h k y -> creach anything k y;
  ni_got : forall c n, y_conns (x_sys x) !! c = Some n -> Forall writable (server_got n);
  ni_down : forall c l n, x_links x !! c = Some l -> y_conns (x_sys x) !! c = Some n -> listens (l_peer l) ->
    conveys (server_sent n) (peer_got (l_peer l)) (l_down l) (l_ok l);
  ni_up : forall c l n, x_links x !! c = Some l -> y_conns (x_sys x) !! c = Some n -> l_peer l <> PeerOther -> Forall writable (peer_sent (l_peer l)) ->
    conveys (peer_sent (l_peer l)) (server_got n) (l_up l) (writes (l_peer l));
  ni_ok : forall c l n, x_links x !! c = Some l -> y_conns (x_sys x) !! c = Some n -> l_ok l = true -> forallb snd (written n) = true }.

(** One link changes, the server does not. *)
Lemma ninv_link cfg x c l l' : ninv cfg x -> x_links x !! c = Some l -> l_ok l' = l_ok l ->
  (forall o h k y, l_peer l' = PeerClient o h k y -> creach anything k y) ->
  (forall n, y_conns (x_sys x) !! c = Some n -> listens (l_peer l') -> conveys (server_sent n) (peer_got (l_peer l')) (l_down l') (l_ok l')) ->
  (forall n, y_conns (x_sys x) !! c = Some n -> l_peer l' <> PeerOther -> Forall writable (peer_sent (l_peer l')) -> conveys (peer_sent (l_peer l')) (server_got n) (l_up l') (writes (l_peer l'))) ->
  ninv cfg (with_link x c l').
Proof.
  intros [H1 H2 H3 H4 H5 H6 H7] Hl Hok Hc Hd Hu. split; cbn [with_link x_sys x_links]; try done.
  - by rewrite insert_length.
  - intros c0 l0 o h k y H. apply list_lookup_insert_Some in H as [(-> & <- & _)|[_ H]]; [apply Hc|by eapply H3].
  - intros c0 l0 n H. apply list_lookup_insert_Some in H as [(-> & <- & _)|[_ H]]; [apply Hd|by eapply H5].
  - intros c0 l0 n H. apply list_lookup_insert_Some in H as [(-> & <- & _)|[_ H]]; [apply Hu|by eapply H6].
  - intros c0 l0 n H. apply list_lookup_insert_Some in H as [(-> & <- & _)|[_ H]]; [rewrite Hok|]; by eapply H7.
Qed.
(** A new connection. *)
Lemma ninv_add cfg x x' l : ninv cfg x -> add_link cfg x l = Some x' -> (forall o h k y, l_peer l <> PeerClient o h k y) -> l_down l = [] ->
  (l_peer l <> PeerOther -> Forall writable (peer_sent (l_peer l)) -> conveys (peer_sent (l_peer l)) [] (l_up l) (writes (l_peer l))) -> ninv cfg x'.
Proof.
  intros [H1 H2 H3 H4 H5 H6 H7] Ha Hp Hd Hu. unfold add_link in Ha. destruct (step cfg (x_sys x) AAccept) as [[?|y]|] eqn:Hs; [done| |done]. injection Ha as <-.
  pose proof (step_conns _ _ _ _ Hs) as Hc. cbn in Hc. split; cbn [x_sys x_links].
  - by eapply reach_step.
  - by rewrite Hc, !app_length, H2.
  - intros c l0 o h k y0 H. apply lookup_app_Some in H as [H|[_ H]]; [by eapply H3|]. apply list_lookup_singleton_Some in H as [_ <-]. intros E. by destruct (Hp _ _ _ _ E).
  - intros c n. rewrite Hc. intros H. apply lookup_app_Some in H as [H|[_ H]]; [by eapply H4|]. apply list_lookup_singleton_Some in H as [_ <-]. constructor.
  - intros c l0 n H. rewrite Hc. intros Hn. apply lookup_app_Some in H as [H|[Hlen H]].
    + rewrite lookup_app_l in Hn by (rewrite <-H2; by eapply lookup_lt_Some). by eapply H5.
    + rewrite lookup_app_r in Hn by lia. apply list_lookup_singleton_Some in H as [_ <-], Hn as [_ <-]. intros Hli.
      assert (peer_got (l_peer l) = []) as -> by (destruct (l_peer l) eqn:E; try done; by destruct (Hp _ _ _ _ eq_refl)). rewrite Hd. apply conveys_start.
  - intros c l0 n H. rewrite Hc. intros Hn. apply lookup_app_Some in H as [H|[Hlen H]].
    + rewrite lookup_app_l in Hn by (rewrite <-H2; by eapply lookup_lt_Some). by eapply H6.
    + rewrite lookup_app_r in Hn by lia. apply list_lookup_singleton_Some in H as [_ <-], Hn as [_ <-]. exact Hu.
  - intros c l0 n H. rewrite Hc. intros Hn. apply lookup_app_Some in H as [H|[Hlen H]].
    + rewrite lookup_app_l in Hn by (rewrite <-H2; by eapply lookup_lt_Some). by eapply H7.
    + rewrite lookup_app_r in Hn by lia. by apply list_lookup_singleton_Some in Hn as [_ <-].
Qed.
Lemma conveys_first f : writable f -> conveys [f] [] (write_frame f) true.
Proof. intros H. exists [Some f]. split_and!; [constructor; [done|constructor]|done|cbn; by rewrite app_nil_r|cbn; by rewrite app_nil_r]. Qed.
Lemma conveys_cut f k : writable f -> conveys [f] [] (take k (write_frame f)) false.
Proof. intros H. exists [Some f]. split_and!; [constructor; [done|constructor]|done| |done]. cbn. rewrite app_nil_r. apply take_prefix. Qed.

(** A move of the server that changes no stream. *)
Lemma ninv_quiet cfg x a y : ninv cfg x -> step cfg (x_sys x) a = Some (Fine y) ->
  match a with AAccept | ARecv _ _ | ATake _ _ _ _ => False | _ => True end -> ninv cfg (mkNet y (x_links x)).
Proof.
  intros [H1 H2 H3 H4 H5 H6 H7] Hs Ha. assert (length (y_conns y) = length (y_conns (x_sys x)) /\ forall c n', y_conns y !! c = Some n' -> exists n, y_conns (x_sys x) !! c = Some n /\ same_io n n') as [L1 L2].
  { pose proof (step_conns _ _ _ _ Hs) as Hc. by destruct a. }
  split; cbn [x_sys x_links].
  - by eapply reach_step.
  - congruence.
  - done.
  - intros c n' Hn. destruct (L2 _ _ Hn) as (n & Hn0 & E & _). rewrite E. by eapply H4.
  - intros c l n' Hl Hn. destruct (L2 _ _ Hn) as (n & Hn0 & _ & E). unfold server_sent. rewrite E. by eapply H5.
  - intros c l n' Hl Hn. destruct (L2 _ _ Hn) as (n & Hn0 & E & _). rewrite E. by eapply H6.
  - intros c l n' Hl Hn. destruct (L2 _ _ Hn) as (n & Hn0 & _ & E). rewrite E. by eapply H7.
Qed.
Lemma ninv_take cfg x c s w1 w2 y n n' l k : ninv cfg x -> step cfg (x_sys x) (ATake c s w1 w2) = Some (Fine y) ->
  x_links x !! c = Some l -> y_conns (x_sys x) !! c = Some n -> y_conns y !! c = Some n' -> sticky (l_ok l) (wrote n n') = true ->
  ninv cfg (mkNet y (<[c := mkLink (l_up l) (l_down l ++ server_bytes (l_ok l) (wrote n n') k) (server_ok (l_ok l) (wrote n n')) (l_peer l)]> (x_links x))).
Proof.
  intros [H1 H2 H3 H4 H5 H6 H7] Hs Hl Hn Hn' Hst. pose proof (step_conns _ _ _ _ Hs) as (n0 & n1 & ws & E1 & E2 & E3 & E4). cbn in E1, E2.
  assert (c < length (y_conns (x_sys x))) as Hlt by by eapply lookup_lt_Some.
  rewrite Hn in E1. injection E1 as <-. rewrite E2, list_lookup_insert in Hn' by done. injection Hn' as <-.
  assert (wrote n n1 = ws) as Hws by (unfold wrote; by rewrite E4, drop_app). rewrite Hws in Hst |- *.
  assert (reach cfg y) as Hr by by eapply reach_step.
  assert (forall c0 n0, y_conns y !! c0 = Some n0 -> Forall writable (server_got n0)) as Hg.
  { intros c0 n0 H0. rewrite E2 in H0. apply list_lookup_insert_Some in H0 as [(-> & <- & _)|[_ H0]]; [rewrite E3|]; by eapply H4. }
  assert (server_sent n1 = server_sent n ++ (g_frame <$> omap fst ws)) as Hsent by (unfold server_sent; by rewrite E4, omap_app, fmap_app).
  split; cbn [x_sys x_links]; try done.
  - by rewrite insert_length, E2, insert_length.
  - intros c0 l0 o h kc y0 H. apply list_lookup_insert_Some in H as [(-> & <- & _)|[_ H]]; [cbn [l_peer]|]; by eapply H3.
  - intros c0 l0 n0 H Hc0. rewrite E2 in Hc0. apply list_lookup_insert_Some in H as [(-> & <- & _)|[Hne H]].
    + rewrite list_lookup_insert in Hc0 by done. injection Hc0 as <-. cbn [l_peer l_down l_ok]. intros Hli. rewrite Hsent. apply conveys_server; [by eapply H5| |done].
      pose proof (sent_writable _ _ Hr Hg c0 n1) as Hw. rewrite E2, list_lookup_insert in Hw by done. specialize (Hw eq_refl). rewrite Hsent in Hw. by apply Forall_app in Hw as [_ Hw].
    + rewrite list_lookup_insert_ne in Hc0 by done. by eapply H5.
  - intros c0 l0 n0 H Hc0. rewrite E2 in Hc0. apply list_lookup_insert_Some in H as [(-> & <- & _)|[Hne H]].
    + rewrite list_lookup_insert in Hc0 by done. injection Hc0 as <-. cbn [l_peer l_up]. rewrite E3. by eapply H6.
    + rewrite list_lookup_insert_ne in Hc0 by done. by eapply H6.
  - intros c0 l0 n0 H Hc0. rewrite E2 in Hc0. apply list_lookup_insert_Some in H as [(-> & <- & _)|[Hne H]].
    + rewrite list_lookup_insert in Hc0 by done. injection Hc0 as <-. cbn [l_ok]. unfold server_ok. intros [Hk Hws']%andb_true_iff. rewrite E4, forallb_app, Hws', (H7 _ _ _ Hl Hn Hk). done.
    + rewrite list_lookup_insert_ne in Hc0 by done. by eapply H7.
Qed.
Lemma ninv_recv cfg x c f rest y l : ninv cfg x -> step cfg (x_sys x) (ARecv c f) = Some (Fine y) ->
  x_links x !! c = Some l -> read_stream (l_up l) = RFrame f rest -> ninv cfg (mkNet y (<[c := mkLink rest (l_down l) (l_ok l) (l_peer l)]> (x_links x))).
Proof.
  intros [H1 H2 H3 H4 H5 H6 H7] Hs Hl Hrd. pose proof (step_conns _ _ _ _ Hs) as (n & n1 & E1 & E2 & E3 & E4). cbn in E1, E2.
  assert (c < length (y_conns (x_sys x))) as Hlt by by eapply lookup_lt_Some.
  split; cbn [x_sys x_links].
  - by eapply reach_step.
  - by rewrite insert_length, E2, insert_length.
  - intros c0 l0 o h kc y0 H. apply list_lookup_insert_Some in H as [(-> & <- & _)|[_ H]]; [cbn [l_peer]|]; by eapply H3.
  - intros c0 n0 H0. rewrite E2 in H0. apply list_lookup_insert_Some in H0 as [(-> & <- & _)|[_ H0]]; [|by eapply H4]. rewrite E3. apply Forall_app. split; [by eapply H4|].
    constructor; [|done]. apply reader_iff_grammar in Hrd as (raw & _ & He). by eapply encodes_writable.
  - intros c0 l0 n0 H Hc0. rewrite E2 in Hc0. apply list_lookup_insert_Some in H as [(-> & <- & _)|[Hne H]].
    + rewrite list_lookup_insert in Hc0 by done. injection Hc0 as <-. cbn [l_peer l_down l_ok]. unfold server_sent. rewrite E4. by eapply H5.
    + rewrite list_lookup_insert_ne in Hc0 by done. by eapply H5.
  - intros c0 l0 n0 H Hc0. rewrite E2 in Hc0. apply list_lookup_insert_Some in H as [(-> & <- & _)|[Hne H]].
    + rewrite list_lookup_insert in Hc0 by done. injection Hc0 as <-. cbn [l_peer l_up]. rewrite E3. intros Hp Hw. eapply conveys_frame; [|done]. by eapply H6.
    + rewrite list_lookup_insert_ne in Hc0 by done. by eapply H6.
  - intros c0 l0 n0 H Hc0. rewrite E2 in Hc0. apply list_lookup_insert_Some in H as [(-> & <- & _)|[Hne H]].
    + rewrite list_lookup_insert in Hc0 by done. injection Hc0 as <-. cbn [l_ok]. rewrite E4. by eapply H7.
    + rewrite list_lookup_insert_ne in Hc0 by done. by eapply H7.
Qed.
Lemma ninv_client cfg x c l o h kc y a y' k : ninv cfg x -> x_links x !! c = Some l -> l_peer l = PeerClient o h kc y ->
  (forall f, a <> XRecv f) -> cstep kc y a = Some (COk y') ->
  ninv cfg (with_link x c (mkLink (l_up l ++ on_wire (client_writes y a).1 (client_writes y a).2 k) (l_down l) (l_ok l) (PeerClient o h kc y'))).
Proof.
  intros HI Hl Hp Hne Hs. destruct (client_io _ _ _ _ (cstep_cmv _ _ _ _ Hs) Hne) as (I1 & I2 & I3). eapply ninv_link; try done; cbn [l_peer l_up l_down l_ok].
  - intros o0 h0 k0 y0 [= <- <- <- <-]. eapply cr_step; [by eapply ni_client|done|done].
  - intros n Hn _. cbn [peer_got]. rewrite I1. assert (listens (l_peer l)) as Hli by by rewrite Hp. pose proof (ni_down _ _ HI _ _ _ Hl Hn Hli) as Hd. by rewrite Hp in Hd.
  - intros n Hn _. cbn [peer_sent writes]. intros Hw. pose proof (ni_up _ _ HI _ _ _ Hl Hn) as Hu. rewrite Hp in Hu. cbn [peer_sent writes] in Hu. specialize (Hu ltac:(done)).
    destruct I3 as [[E1 E2]|(it & w & E1 & E2 & E3 & E4)].
    + rewrite E1. cbn. rewrite app_nil_r, E2 in *. eapply conveys_weaken; [by apply Hu|]. intros H. apply negb_true_iff in H. apply negb_true_iff.
      destruct (ended (c_p y)); [|done]. by rewrite I2 in H.
    + rewrite E1, E2 in *. cbn [fst snd]. change (connect_frame o :: client_wrote y ++ option_list it) with ((connect_frame o :: client_wrote y) ++ option_list it) in *.
      apply Forall_app in Hw as [Hw1 Hw2]. specialize (Hu Hw1). rewrite E3 in Hu. assert (option_list it = omap id [it]) as Hx by by destruct it. rewrite Hx.
      apply conveys_write; [done|..].
      * constructor; [|done]. destruct it; [|done]. by inversion_clear Hw2.
      * cbn. rewrite app_nil_r. destruct w; cbn; [done|apply take_prefix].
      * cbn. rewrite app_nil_r. intros H. destruct w; [done|]. by rewrite E4 in H.
Qed.
Lemma ninv_arrive cfg x c l o h kc y y' it rest : ninv cfg x -> x_links x !! c = Some l -> l_peer l = PeerClient o h kc y ->
  cstep kc y (XRecv it) = Some (COk y') -> read_stream (l_down l) = match it with Some f => RFrame f rest | None => RHeartbeat rest end ->
  ninv cfg (with_link x c (mkLink (l_up l) rest (l_ok l) (PeerClient o h kc y'))).
Proof.
  intros HI Hl Hp Hs Hrd. eapply ninv_link; try done; cbn [l_peer l_up l_down l_ok].
  - intros o0 h0 k0 y0 [= <- <- <- <-]. eapply cr_step; [by eapply ni_client|done|done].
  - intros n Hn _. cbn [peer_got]. assert (listens (l_peer l)) as Hli by by rewrite Hp. pose proof (ni_down _ _ HI _ _ _ Hl Hn Hli) as Hd. rewrite Hp in Hd. cbn [peer_got] in Hd.
    assert (client_read y' = client_read y ++ option_list it) as ->.
    { cbn [cstep] in Hs. destruct (c_rclosed y); [done|]. destruct (decide _); [|done]. injection Hs as <-. unfold client_read. cbn. rewrite omap_app, app_assoc. by destruct it. }
    destruct it as [f|]; cbn [option_list]; [exact (conveys_frame _ (h :: client_read y) _ _ _ _ Hd Hrd)|]. rewrite app_nil_r. by eapply conveys_beat.
  - intros n Hn _ Hw. pose proof (ni_up _ _ HI _ _ _ Hl Hn) as Hu. rewrite Hp in Hu. cbn [peer_sent writes] in Hu, Hw |- *.
    assert (client_wrote y' = client_wrote y /\ c_p y' = c_p y) as [E1 E2].
    { cbn [cstep] in Hs. destruct (c_rclosed y); [done|]. destruct (decide _); [|done]. by injection Hs as <-. }
    rewrite E1, E2 in *. by apply Hu.
Qed.

Lemma nreach_inv cfg x : nreach cfg x -> ninv cfg x.
Proof.
  induction 1 as [|x a x' _ HI Hs].
  - split; cbn; try done; [constructor|..]; intros c *; rewrite lookup_nil; done.
  - destruct a as [remote opts cut| |c b|c|a k|c k|c|c|c a k]; cbn [nstep] in Hs.
    + destruct (new_conn_options remote opts) as [o|]; [|done]. eapply ninv_add; [done|exact Hs|..]; destruct cut as [k|]; cbn; try done.
      * intros _ Hw. inversion_clear Hw. by apply conveys_cut.
      * intros _ Hw. inversion_clear Hw. by apply conveys_first.
    + eapply ninv_add; [done|exact Hs|..]; cbn; done.
    + destruct (x_links x !! c) as [l|] eqn:Hl; [|done]. destruct (l_peer l) eqn:Hp; try done. injection Hs as <-. eapply ninv_link; try done; cbn; done.
    + unfold net_up in Hs. destruct (x_links x !! c) as [l|] eqn:Hl; [|done]. destruct (read_stream (l_up l)) as [rest|f rest|e| |] eqn:Hrd; try done.
      * injection Hs as <-. eapply ninv_link; try done; cbn [l_peer l_up l_down l_ok].
        -- intros o h k y Hp. by eapply ni_client.
        -- intros n Hn. by eapply ni_down.
        -- intros n Hn Hp Hw. eapply conveys_beat; [|done]. by eapply ni_up.
      * destruct (step cfg (x_sys x) (ARecv c f)) as [[?|y]|] eqn:Hst; [done| |done]. injection Hs as <-. by eapply ninv_recv.
    + unfold net_server in Hs. destruct a as [|c f|c|c s w1 w2|c|c pick| |]; try done.
      2: destruct (x_links x !! c) as [l|] eqn:Hl; [|done]; destruct (y_conns (x_sys x) !! c) as [n|] eqn:Hn; [|done].
      all: match goal with H : context [step ?c ?y ?a] |- _ => destruct (step c y a) as [[?|y']|] eqn:Hst; [done| |done] end.
      1,3-6: injection Hs as <-; by eapply ninv_quiet.
      destruct (y_conns y' !! c) as [n'|] eqn:Hn'; [|done]. destruct (sticky _ _) eqn:Hsk; [|done]. injection Hs as <-. by eapply ninv_take.
    + unfold net_hello in Hs. destruct (x_links x !! c) as [l|] eqn:Hl; [|done]. destruct (l_peer l) as [|o|o|o h k0 y] eqn:Hp; try done.
      assert (forall rest, ninv cfg (with_link x c (mkLink (l_up l) rest (l_ok l) (PeerFailed o)))) as Hf.
      { intros rest. eapply ninv_link; try done; cbn. intros n Hn _ Hw. pose proof (ni_up _ _ HI _ _ _ Hl Hn) as Hu. rewrite Hp in Hu. cbn in Hu. eapply conveys_weaken; [by apply Hu|done]. }
      destruct (read_stream (l_down l)) as [rest|f rest|e| |] eqn:Hrd; try done.
      { by injection Hs as <-. }
      destruct (client_connect o (RFrame f rest)) as [cc| | | | | |]; try (by injection Hs as <-). destruct (bool_decide _); [|done]. injection Hs as <-.
      eapply ninv_link; try done; cbn [l_peer l_up l_down l_ok].
      * intros o0 h k0 y [= <- <- <- <-]. constructor.
      * intros n Hn _. cbn [peer_got]. change (client_read cl_init) with (@nil frame). change [f] with ([] ++ [f]). eapply conveys_frame; [|done].
        pose proof (ni_down _ _ HI _ _ _ Hl Hn) as Hd. rewrite Hp in Hd. by apply Hd.
      * intros n Hn _ Hw. pose proof (ni_up _ _ HI _ _ _ Hl Hn) as Hu. rewrite Hp in Hu. by apply Hu.
    + unfold net_give_up in Hs. destruct (x_links x !! c) as [l|] eqn:Hl; [|done]. destruct (l_peer l) as [|o|o|o h k0 y] eqn:Hp; try done. injection Hs as <-.
      eapply ninv_link; try done; cbn. intros n Hn _ Hw. pose proof (ni_up _ _ HI _ _ _ Hl Hn) as Hu. rewrite Hp in Hu. cbn in Hu. eapply conveys_weaken; [by apply Hu|done].
    + unfold net_down in Hs. destruct (x_links x !! c) as [l|] eqn:Hl; [|done]. destruct (l_peer l) as [|o|o|o h k0 y] eqn:Hp; try done.
      destruct (read_stream (l_down l)) as [rest|f rest|e| |] eqn:Hrd; try done.
      * destruct (cstep k0 y (XRecv None)) as [[?|y']|] eqn:Hst; [done| |done]. injection Hs as <-. by eapply ninv_arrive.
      * destruct (cstep k0 y (XRecv (Some f))) as [[?|y']|] eqn:Hst; [done| |done]. injection Hs as <-. by eapply ninv_arrive.
    + unfold net_client in Hs. destruct (x_links x !! c) as [l|] eqn:Hl; [|done]. destruct (l_peer l) as [|o|o|o h k0 y] eqn:Hp; try done.
      assert ((forall f, a <> XRecv f) /\ exists y', cstep k0 y a = Some (COk y') /\
        x' = with_link x c (mkLink (l_up l ++ on_wire (client_writes y a).1 (client_writes y a).2 k) (l_down l) (l_ok l) (PeerClient o h k0 y'))) as (Hne & y' & Hst & ->).
      { destruct a; try done; (split; [done|]); match goal with H : context [cstep ?c ?y ?a] |- _ => destruct (cstep c y a) as [[?|y']|] eqn:Hst; [done| |done] end; injection Hs as <-; by exists y'. }
      by eapply ninv_client.
Qed.
