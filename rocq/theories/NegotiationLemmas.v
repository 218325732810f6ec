From Verif Require Import GoBase HeaderModel FrameModel GrammarSpec GoBaseProofs HeaderProofs CodecProofs
  NegotiationModel NegotiationSpec NegotiationProofs.
From Coq Require Import ZifyBool ZifyNat ZifyN.

Lemma value_or_empty_get h k : value_or_empty h k (hd_get h k).
Proof.
  unfold value_or_empty, hd_get. destruct (hd_contains h k) eqn:He.
  - left. by apply hd_contains_Some.
  - right. split; [by apply hd_contains_None|done].
Qed.
Lemma value_or_empty_iff h k v : value_or_empty h k v <-> hd_get h k = v.
Proof.
  split; [|intros <-; apply value_or_empty_get]. unfold hd_get. intros [H|[H ->]].
  - apply hd_contains_Some in H. by rewrite H.
  - apply hd_contains_None in H. by rewrite H.
Qed.

(* ---------- C14 ---------- *)
Definition supported (v : str) : Prop := v = lit "1.0" \/ v = lit "1.1" \/ v = lit "1.2".
Lemma check_supported_iff v : check_supported v = true <-> supported v.
Proof.
  unfold check_supported, supported. rewrite bool_decide_eq_true, !elem_of_cons, elem_of_nil.
  unfold V10, V11, V12. tauto.
Qed.

Lemma client_connect_iff o reply version session server :
  (exists c, client_connect o reply = CConnected c /\ cc_version c = version /\
             cc_session c = session /\ cc_server c = server) <->
  (exists f rest, reply = RFrame f rest /\ f_cmd f = lit "CONNECTED" /\
     value_or_empty (f_hdr f) (lit "session") session /\
     value_or_empty (f_hdr f) (lit "server") server /\
     (value_or_empty (f_hdr f) (lit "version") [] /\ version = lit "1.0" \/
      first_entry (f_hdr f) (lit "version") version /\ supported version) /\
     (no_entry (f_hdr f) (lit "heart-beat") \/
      exists t n m, first_entry (f_hdr f) (lit "heart-beat") t /\ hb_pair t n m /\
        (Z.of_N n * 1000000 < 2 ^ 63)%Z /\ (Z.of_N m * 1000000 < 2 ^ 63)%Z)).
Proof.
  assert (forall t, (exists n m, hb_pair t n m /\ (Z.of_N n * 1000000 < 2 ^ 63)%Z /\ (Z.of_N m * 1000000 < 2 ^ 63)%Z)
          <-> exists p, parse_heart_beat t = Some p) as Hhb.
  { intros t. split.
    - intros (n & m & H1 & H2 & H3). exists (Z.of_N n * 1000000, Z.of_N m * 1000000)%Z.
      apply parse_heart_beat_iff. eauto 10.
    - intros [[d1 d2] H]. apply parse_heart_beat_iff in H as (n & m & ? & ? & ? & _). eauto 10. }
  split.
  - intros (c & Hc & <- & <- & <-). unfold client_connect in Hc.
    destruct reply as [rest|f rest|e| |]; try done. destruct (decide (f_cmd f = CONNECTED)) as [Hcmd|]; [|done].
    destruct (negb (bool_decide (hd_get (f_hdr f) h_version = [])) && negb (check_supported (hd_get (f_hdr f) h_version))) eqn:Hv; [done|].
    exists f, rest. split; [done|]. split; [done|].
    assert (Hver : forall v, v = (if decide (hd_get (f_hdr f) h_version = []) then V10 else hd_get (f_hdr f) h_version) ->
      value_or_empty (f_hdr f) (lit "version") [] /\ v = lit "1.0" \/
      first_entry (f_hdr f) (lit "version") v /\ supported v).
    { intros v ->. case_decide as Hn.
      - left. split; [|done]. rewrite <- Hn. apply value_or_empty_get.
      - right. rewrite bool_decide_eq_false_2 in Hv by done. simpl in Hv. apply negb_false_iff in Hv.
        split; [|by apply check_supported_iff].
        destruct (value_or_empty_get (f_hdr f) h_version) as [?|[_ ?]]; done. }
    destruct (hd_contains (f_hdr f) h_heart_beat) as [hb|] eqn:Hb.
    + destruct (parse_heart_beat hb) as [[rt wt]|] eqn:Hp; [|done].
      destruct (client_timeouts o rt wt) as [r w]. simplify_eq. simpl.
      split; [apply value_or_empty_get|]. split; [apply value_or_empty_get|]. split; [by apply Hver|].
      right. destruct (proj2 (Hhb hb)) as (n & m & ? & ? & ?); [eauto|].
      exists hb, n, m. split; [by apply hd_contains_Some|done].
    + simplify_eq. simpl. split; [apply value_or_empty_get|]. split; [apply value_or_empty_get|]. split; [by apply Hver|].
      left. by apply hd_contains_None.
  - intros (f & rest & -> & Hcmd & Hs & Hse & Hv & Hh). unfold client_connect.
    rewrite decide_True by done. change (lit "version") with h_version in Hv. change (lit "heart-beat") with h_heart_beat in Hh.
    apply value_or_empty_iff in Hs, Hse.
    assert (negb (bool_decide (hd_get (f_hdr f) h_version = [])) && negb (check_supported (hd_get (f_hdr f) h_version)) = false
      /\ (if decide (hd_get (f_hdr f) h_version = []) then V10 else hd_get (f_hdr f) h_version) = version) as [-> ->].
    { destruct Hv as [[Hv ->]|[Hv Hs']].
      - apply value_or_empty_iff in Hv. rewrite Hv. done.
      - assert (hd_get (f_hdr f) h_version = version) as -> by (apply value_or_empty_iff; by left).
        rewrite (proj2 (check_supported_iff _) Hs'). rewrite andb_false_r. split; [done|].
        case_decide; [|done]. subst. destruct Hs' as [?|[?|?]]; done. }
    destruct Hh as [Hh|(t & n & m & Ht & Hp)].
    + apply hd_contains_None in Hh. rewrite Hh. eexists. split; [done|]. done.
    + apply hd_contains_Some in Ht. rewrite Ht. destruct (proj1 (Hhb t)) as [[rt wt] ->]; [eauto|].
      destruct (client_timeouts o rt wt) as [r w]. eexists. split; [done|]. done.
Qed.

(* ---------- C16 ---------- *)
Lemma client_timeout_zero o f rest c : client_connect o (RFrame f rest) = CConnected c ->
  (exists t m, first_entry (f_hdr f) (lit "heart-beat") t /\ hb_pair t 0 m) ->
  (o_read o <= 0)%Z -> (cc_read c <= 0)%Z.
Proof.
  unfold client_connect. case_decide; [|done].
  destruct (negb _ && negb _); [done|]. intros Hc (t & m & Ht & Hp) Ho.
  change (lit "heart-beat") with h_heart_beat in Ht.
  apply hd_contains_Some in Ht. rewrite Ht in Hc.
  destruct (parse_heart_beat t) as [[rt wt]|] eqn:Hpt; [|done].
  apply parse_heart_beat_iff in Hpt as (n & m' & Hp' & _ & _ & -> & _).
  assert (n = 0%N) as ->.
  { destruct Hp as (a & b & -> & Ta & Tb), Hp' as (a' & b' & He & Ta' & Tb').
    apply app_comma_inj in He as [-> ->].
    - by eapply dec_text_fun.
    - apply digits_nocomma. by apply dec_text_iff in Ta as (_ & ? & _).
    - apply digits_nocomma. by apply dec_text_iff in Ta' as (_ & ? & _). }
  unfold client_timeouts in Hc. change (Z.of_N 0 * 1000000)%Z with 0%Z in Hc.
  destruct (Z.ltb_spec 0 (o_read o)); [lia|]. simpl in Hc. simplify_eq. simpl. lia.
Qed.

(* ---------- options ---------- *)
Lemma add_versions_supported vs acc l : add_versions vs acc = Some l -> Forall supported acc -> Forall supported l.
Proof.
  revert acc. induction vs as [|v vs IH]; intros acc; simpl; [by intros [= <-]|].
  destruct (check_supported v) eqn:Hv; [|done]. intros H Ha. apply (IH _ H).
  apply Forall_app. split; [done|]. constructor; [by apply check_supported_iff|constructor].
Qed.
Lemma apply_copts_supported o opts o' : apply_copts o opts = Some o' ->
  Forall supported (o_versions o) /\ (o_cmd o = CONNECT \/ o_cmd o = STOMP) ->
  Forall supported (o_versions o') /\ (o_cmd o' = CONNECT \/ o_cmd o' = STOMP).
Proof.
  revert o. induction opts as [|x opts IH]; intros o; simpl; [by intros [= <-]|].
  destruct (apply_copt o x) as [o1|] eqn:Ha; [|done]. intros H Hi. apply (IH _ H).
  destruct x; simpl in Ha; simplify_eq; simpl; try done; try tauto.
  destruct (add_versions vs (o_versions o)) eqn:Hv; [|done]. simplify_eq. simpl.
  split; [|tauto]. eapply add_versions_supported; [done|tauto].
Qed.
Lemma new_conn_options_inv remote opts o : new_conn_options remote opts = Some o ->
  Forall supported (o_versions o) /\ o_versions o <> [] /\ (o_cmd o = CONNECT \/ o_cmd o = STOMP) /\ o_host o <> [].
Proof.
  unfold new_conn_options. destruct (apply_copts default_copts opts) as [o1|] eqn:Ha; [|done].
  apply apply_copts_supported in Ha as [Hv Hc]; [|split; [constructor|by left]].
  intros [= <-]. simpl. split; [|split; [|split; [done|]]].
  - destruct (o_versions o1); [|done]. repeat constructor; unfold supported, V10, V11, V12; tauto.
  - by destruct (o_versions o1).
  - case_decide; [|done]. by case_decide.
Qed.

(* ---------- the CONNECT frame ---------- *)
Lemma connect_frame_hdr o k :
  hd_contains (f_hdr (connect_frame o)) k =
  if decide (k = h_accept_version) then Some (join_with COMMA (o_versions o))
  else if decide (k = h_heart_beat) then Some (heart_beat_text (Z.quot (o_write o) ms) (Z.quot (o_read o) ms))
  else if decide (k = h_host /\ o_host o <> []) then Some (o_host o)
  else if decide (k = h_login /\ ~ (o_login o = [] /\ o_passcode o = [])) then Some (o_login o)
  else if decide (k = h_passcode /\ ~ (o_login o = [] /\ o_passcode o = [])) then Some (o_passcode o)
  else hd_contains (o_header o) k.
Proof.
  unfold connect_frame. cbn [f_hdr]. rewrite hd_contains_app.
  destruct (decide (k = h_accept_version)) as [->|Hav].
  { by rewrite hd_contains_set_same. }
  rewrite hd_contains_set_other by done.
  destruct (decide (k = h_heart_beat)) as [->|Hhb].
  { destruct (decide (o_login o = [] /\ o_passcode o = [])).
    - by rewrite hd_contains_set_same.
    - rewrite !hd_contains_set_other by neq_lit. by rewrite hd_contains_set_same. }
  assert (hd_contains (hd_set (if decide (o_host o = []) then [] else hd_set [] h_host (o_host o)) h_heart_beat
     (heart_beat_text (Z.quot (o_write o) ms) (Z.quot (o_read o) ms))) k =
     if decide (k = h_host /\ o_host o <> []) then Some (o_host o) else None) as Hhost.
  { rewrite hd_contains_set_other by done. destruct (decide (o_host o = [])) as [He|He].
    - by rewrite decide_False by (intros [_ ?]; done).
    - simpl. destruct (decide (h_host = k)) as [<-|Hk]; [by rewrite decide_True|].
      by rewrite decide_False by (intros [? _]; done). }
  destruct (decide (o_login o = [] /\ o_passcode o = [])) as [Hl|Hl].
  - rewrite Hhost. destruct (decide (k = h_host /\ o_host o <> [])); [done|].
    rewrite (decide_False (P:=k = h_login /\ _)) by tauto.
    rewrite (decide_False (P:=k = h_passcode /\ _)) by tauto. done.
  - destruct (decide (k = h_passcode)) as [->|Hp].
    { rewrite hd_contains_set_same. rewrite (decide_False (P:=_ /\ _)), (decide_False (P:=_ /\ _)), decide_True; [done|done|..].
      - intros [H _]. by vm_compute in H.
      - intros [H _]. by vm_compute in H. }
    rewrite hd_contains_set_other by done.
    destruct (decide (k = h_login)) as [->|Hlo].
    { rewrite hd_contains_set_same. rewrite (decide_False (P:=_ /\ _)), decide_True; [done|done|].
      intros [H _]. by vm_compute in H. }
    rewrite hd_contains_set_other by done. rewrite Hhost.
    destruct (decide (k = h_host /\ o_host o <> [])); [done|].
    rewrite (decide_False (P:=k = h_login /\ _)) by tauto.
    rewrite (decide_False (P:=k = h_passcode /\ _)) by tauto. done.
Qed.
Lemma connect_frame_writable o : (o_cmd o = CONNECT \/ o_cmd o = STOMP) ->
  (forall k v, (k, v) ∈ o_header o -> k <> []) -> no_entry (o_header o) h_content_length ->
  writable (connect_frame o).
Proof.
  intros Hc Hn Hcl. split.
  - apply stomp_command_iff. unfold connect_frame. cbn [f_cmd]. destruct Hc as [-> | ->]; neq_lit.
  - intros k v. unfold connect_frame. cbn [f_hdr]. rewrite elem_of_app. intros [H|H]; [|by eapply Hn].
    repeat (case_decide || (apply hd_set_keys in H as [H|H]; [simplify_eq; neq_lit|]) || by apply elem_of_nil in H).
  - right. split; [|apply not_elem_of_nil]. apply hd_contains_None. rewrite connect_frame_hdr.
    repeat (rewrite decide_False; [|first [neq_lit | intros [H _]; by vm_compute in H]]).
    by apply hd_contains_None.
Qed.

Lemma supported_nocomma v : supported v -> COMMA ∉ v.
Proof. intros [->|[->| ->]]; neq_lit. Qed.
Lemma offered_items l v : l <> [] -> Forall supported l -> comma_item (join_with COMMA l) v <-> v ∈ l.
Proof.
  intros Hne Hs. rewrite comma_item_iff. rewrite split_on_join; [done|done|].
  eapply Forall_impl; [done|]. apply supported_nocomma.
Qed.
Lemma highest_version_ext P Q v : (forall w, P w <-> Q w) -> highest_version P v -> highest_version Q v.
Proof. intros H []; constructor; rewrite <- ?H; done. Qed.

(* ---------- server side ---------- *)
Lemma determine_version_cmd f v : determine_version f = inr v -> f_cmd f = CONNECT \/ f_cmd f = STOMP.
Proof. intros H. apply determine_version_iff in H as [[? _]|[? _]]; auto. Qed.

Definition accepted_credentials (c : scfg) (f : frame) : Prop :=
  match s_auth c with
  | None => True
  | Some a => exists l p, value_or_empty (f_hdr f) (lit "login") l /\
                          value_or_empty (f_hdr f) (lit "passcode") p /\ a l p = true
  end.
Lemma accepted_credentials_iff c f :
  accepted_credentials c f <-> cfg_authenticate c (hd_get (f_hdr f) h_login) (hd_get (f_hdr f) h_passcode) = true.
Proof.
  unfold accepted_credentials, cfg_authenticate. destruct (s_auth c) as [a|]; [|done]. split.
  - intros (l & p & Hl & Hp & Ha). apply value_or_empty_iff in Hl, Hp.
    change (lit "login") with h_login in Hl. change (lit "passcode") with h_passcode in Hp. by rewrite Hl, Hp.
  - intros Ha. eexists _, _. split; [apply value_or_empty_get|]. split; [apply value_or_empty_get|done].
Qed.

(** Heart-beat values requested by a CONNECT frame. *)
Definition requested (f : frame) (cx cy : Z) : Prop :=
  (no_entry (f_hdr f) (lit "heart-beat") /\ cx = 0%Z /\ cy = 0%Z) \/
  (exists t n m, first_entry (f_hdr f) (lit "heart-beat") t /\ hb_pair9 t n m /\ cx = Z.of_N n /\ cy = Z.of_N m).
(** The version a session may use: the highest listed, 1.1 or 1.2. *)
Definition session_version (f : frame) (v : str) : Prop :=
  (f_cmd f = lit "CONNECT" \/ f_cmd f = lit "STOMP") /\
  (exists av, first_entry (f_hdr f) (lit "accept-version") av /\ highest_version (comma_item av) v) /\
  (v = lit "1.1" \/ v = lit "1.2").

Lemma highest_cases P v : highest_version P v -> v = lit "1.0" \/ v = lit "1.1" \/ v = lit "1.2".
Proof. intros []; auto. Qed.

Lemma handle_connect_iff c f sc :
  handle_connect c f = inr sc <->
  no_entry (f_hdr f) (lit "receipt") /\ accepted_credentials c f /\
  session_version f (sc_version sc) /\
  exists cx cy mn cx' cy', requested f cx cy /\
    mn = as_milliseconds (cfg_heart_beat c) max_heart_beat /\ raised mn cx cx' /\ raised mn cy cy' /\
    sc_write sc = (cy' * 1000000)%Z /\
    sc_response sc = mkFrame (lit "CONNECTED")
      [(lit "version", sc_version sc); (lit "server", lit "stompd/x.y.z"); (lit "heart-beat", heart_beat_text cy' cx')] [].
Proof.
  rewrite accepted_credentials_iff. unfold handle_connect. split.
  - destruct (hd_contains (f_hdr f) h_receipt) eqn:Hr; [done|].
    destruct (cfg_authenticate _ _ _); simpl; [|done].
    destruct (determine_version f) as [e|v] eqn:Hv; [done|].
    destruct (decide (v = V10)) as [|Hv10]; [done|].
    destruct (get_heart_beat f) as [e|[cx cy]] eqn:Hh; [done|]. intros [= <-]. simpl.
    split; [by apply hd_contains_None|]. split; [done|]. split.
    { apply determine_version_iff in Hv as [[Hc (av & H1 & H2)]|(_ & _ & ->)]; [|done].
      split; [done|]. split; [eauto|]. apply highest_cases in H2 as [->|?]; done. }
    pose proof (get_heart_beat_range _ _ _ Hh) as [Hx Hy].
    exists cx, cy, (as_milliseconds (cfg_heart_beat c) max_heart_beat), 
      (raise_min (as_milliseconds (cfg_heart_beat c) max_heart_beat) cx),
      (raise_min (as_milliseconds (cfg_heart_beat c) max_heart_beat) cy).
    split; [apply get_heart_beat_iff in Hh; [done|by eapply determine_version_cmd]|].
    split; [done|]. split; [apply raise_min_spec; lia|]. split; [apply raise_min_spec; lia|]. done.
  - intros (Hr & Ha & (Hc & Hav & Hv) & cx & cy & mn & cx' & cy' & Hreq & -> & Hcx & Hcy & Hw & Hresp).
    change (lit "receipt") with h_receipt in Hr.
    apply hd_contains_None in Hr. rewrite Hr, Ha. simpl.
    rewrite (proj2 (determine_version_iff f (sc_version sc))) by (left; done).
    rewrite decide_False by (intros He0; rewrite He0 in Hv; destruct Hv; done).
    rewrite (proj2 (get_heart_beat_iff f cx cy Hc) Hreq).
    assert (0 <= cx /\ 0 <= cy)%Z as [Hx Hy].
    { destruct Hreq as [(_ & -> & ->)|(? & ? & ? & _ & _ & -> & ->)]; lia. }
    rewrite (raised_fun _ _ _ _ (raise_min_spec _ cx Hx) Hcx).
    rewrite (raised_fun _ _ _ _ (raise_min_spec _ cy Hy) Hcy).
    destruct sc as [v w r]. simpl in *. subst w r. done.
Qed.
Lemma handle_connect_read c f sc cx cy cx' : handle_connect c f = inr sc -> requested f cx cy ->
  raised (as_milliseconds (cfg_heart_beat c) max_heart_beat) cx cx' ->
  server_read_timeout c f = Some (cx' * 1000000)%Z.
Proof.
  intros H Hreq Hra. apply handle_connect_iff in H as (_ & _ & (Hc & _) & _).
  unfold server_read_timeout. rewrite (proj2 (get_heart_beat_iff f cx cy Hc) Hreq).
  assert (0 <= cx)%Z as Hx.
  { destruct Hreq as [(_ & -> & ->)|(? & ? & ? & _ & _ & -> & ->)]; lia. }
  rewrite (raised_fun _ _ _ _ (raise_min_spec _ cx Hx) Hra). done.
Qed.
Lemma requested_fun f cx cy cx' cy' : requested f cx cy -> requested f cx' cy' -> cx = cx' /\ cy = cy'.
Proof.
  assert (forall t n m n' m', hb_pair9 t n m -> hb_pair9 t n' m' -> n = n' /\ m = m') as Hp.
  { intros t n m n' m' (a & b & -> & Ta & Tb & _) (a' & b' & He & Ta' & Tb' & _).
    apply app_comma_inj in He as [-> ->].
    - split; eapply dec_text_fun; done.
    - apply digits_nocomma. by apply dec_text_iff in Ta as (_ & ? & _).
    - apply digits_nocomma. by apply dec_text_iff in Ta' as (_ & ? & _). }
  intros [(Hn & -> & ->)|(t & n & m & Ht & Hb & -> & ->)] [(Hn' & -> & ->)|(t' & n' & m' & Ht' & Hb' & -> & ->)].
  - done.
  - exfalso. apply hd_contains_None in Hn. apply hd_contains_Some in Ht'. congruence.
  - exfalso. apply hd_contains_None in Hn'. apply hd_contains_Some in Ht. congruence.
  - rewrite (first_entry_fun _ _ _ _ Ht' Ht) in Hb'. destruct (Hp _ _ _ _ _ Hb Hb') as [-> ->]. done.
Qed.

(* ---------- the client's request ---------- *)
Lemma format_int_nocomma z : COMMA ∉ format_int z.
Proof.
  destruct z; simpl; try by apply digits_nocomma, format_uint_digits.
  apply not_elem_of_cons. split; [neq_lit|by apply digits_nocomma, format_uint_digits].
Qed.
Lemma format_int_dec z n : dec_text (format_int z) n -> z = Z.of_N n.
Proof.
  destruct z; simpl; intros H.
  - by rewrite (dec_text_fun _ _ _ H (format_uint_text 0)).
  - by rewrite (dec_text_fun _ _ _ H (format_uint_text (Npos p))).
  - apply dec_text_iff in H as (_ & H & _). done.
Qed.
Lemma connect_frame_requested o cx cy : requested (connect_frame o) cx cy <->
  cx = Z.quot (o_write o) ms /\ cy = Z.quot (o_read o) ms /\ (0 <= cx <= 999999999)%Z /\ (0 <= cy <= 999999999)%Z.
Proof.
  assert (hd_contains (f_hdr (connect_frame o)) h_heart_beat =
     Some (heart_beat_text (Z.quot (o_write o) ms) (Z.quot (o_read o) ms))) as Hh by by rewrite connect_frame_hdr.
  assert (forall d n, dec_text d n -> length d <= 9 -> (n <= 999999999)%N) as Hlen.
  { intros d n Hd Hl. apply dec_text_iff in Hd as (_ & Hd & <-). pose proof (dec_value_bound d Hd).
    assert (10 ^ N.of_nat (length d) <= 10 ^ 9)%N by (apply N.pow_le_mono_r; lia).
    change (10 ^ 9)%N with 1000000000%N in *. lia. }
  assert (forall n, (n <= 999999999)%N -> length (format_uint n) <= 9) as Hlen2.
  { intros n Hn. pose proof (format_uint_text n) as Ht. pose proof (format_uint_nolead n) as Hl.
    destruct (format_uint n) as [|c d] eqn:Hf; simpl; [lia|].
    apply dec_text_iff in Ht as (_ & Hd & Hv). rewrite dec_value_cons in Hv. simpl in Hd.
    apply andb_prop in Hd as [Hc Hd]. destruct (is_digit_char c Hc) as [Hce Hlt].
    destruct (decide (digit_val c = 0%N)) as [H0|H0].
    - simpl in Hl. rewrite Hce, H0 in Hl. destruct Hl as [_ Hl]; [done|]. simplify_eq. simpl. lia.
    - destruct (decide (length d <= 8)); [lia|].
      assert (10 ^ 9 <= 10 ^ N.of_nat (length d))%N by (apply N.pow_le_mono_r; lia).
      change (10 ^ 9)%N with 1000000000%N in *. nia. }
  apply hd_contains_Some in Hh. change h_heart_beat with (lit "heart-beat") in Hh. split.
  - intros [(Hn & _)|(t & n & m & Ht & (a & b & -> & Ta & Tb & Hla & Hlb) & -> & ->)].
    + exfalso. apply hd_contains_None in Hn. apply hd_contains_Some in Hh. congruence.
    + pose proof (first_entry_fun _ _ _ _ Hh Ht) as He. unfold heart_beat_text in He.
      apply app_comma_inj in He as [<- <-]; [|apply format_int_nocomma|].
      2:{ apply digits_nocomma. by apply dec_text_iff in Ta as (_ & ? & _). }
      pose proof (Hlen _ _ Ta Hla). pose proof (Hlen _ _ Tb Hlb).
      apply format_int_dec in Ta as ->, Tb as ->. lia.
  - intros (Hx & Hy & Hx' & Hy'). right. eexists _, (Z.to_N cx), (Z.to_N cy). split; [done|].
    rewrite <- Hx, <- Hy. split; [|rewrite !Z2N.id by lia; done].
    assert (forall z, (0 <= z)%Z -> format_int z = format_uint (Z.to_N z)) as Hf by (intros []; [done..|lia]).
    unfold heart_beat_text. rewrite !Hf by lia.
    eexists _, _. split; [done|]. split; [apply format_uint_text|]. split; [apply format_uint_text|].
    split; apply Hlen2; lia.
Qed.

(* ---------- both sides together ---------- *)
Lemma sc_response_writable c f sc : handle_connect c f = inr sc -> writable (sc_response sc).
Proof.
  intros H. apply handle_connect_iff in H as (_ & _ & _ & cx & cy & mn & cx' & cy' & _ & _ & _ & _ & _ & ->).
  split; cbn [f_cmd f_hdr f_body].
  - apply (bool_decide_unpack _). by vm_compute.
  - intros k v H. repeat (apply elem_of_cons in H as [H|H]; [by simplify_eq|]). by apply elem_of_nil in H.
  - right. split; [|apply not_elem_of_nil]. by apply hd_contains_None.
Qed.

Lemma client_accepts_response c o sc rest :
  handle_connect c (connect_frame o) = inr sc ->
  exists cx cy cx' cy', requested (connect_frame o) cx cy /\
    raised (as_milliseconds (cfg_heart_beat c) max_heart_beat) cx cx' /\
    raised (as_milliseconds (cfg_heart_beat c) max_heart_beat) cy cy' /\
    (0 <= cx' <= 999999999)%Z /\ (0 <= cy' <= 999999999)%Z /\ sc_write sc = (cy' * 1000000)%Z /\
    client_connect o (RFrame (sc_response sc) rest) =
      CConnected (mkCconn (sc_version sc) [] (lit "stompd/x.y.z")
        (fst (client_timeouts o (cy' * 1000000) (cx' * 1000000)))
        (snd (client_timeouts o (cy' * 1000000) (cx' * 1000000)))).
Proof.
  intros H. apply handle_connect_iff in H as (_ & _ & (_ & _ & Hv) & cx & cy & mn & cx' & cy' & Hreq & -> & Hx & Hy & Hw & Hr).
  pose proof (as_milliseconds_max (cfg_heart_beat c)) as Hmx.
  pose proof (proj1 (connect_frame_requested _ _ _) Hreq) as (_ & _ & Hcx & Hcy).
  assert (0 <= cx' <= 999999999)%Z by (unfold raised in *; lia).
  assert (0 <= cy' <= 999999999)%Z by (unfold raised in *; lia).
  exists cx, cy, cx', cy'. do 6 (split; [done|]).
  rewrite Hr. unfold client_connect.
  rewrite decide_True by done. cbn [f_hdr].
  assert (forall hb, hd_get [(lit "version", sc_version sc); (lit "server", lit "stompd/x.y.z"); (lit "heart-beat", hb)] h_version = sc_version sc) as Hv1 by done.
  assert (forall hb, hd_get [(lit "version", sc_version sc); (lit "server", lit "stompd/x.y.z"); (lit "heart-beat", hb)] h_session = []) as Hv2 by done.
  assert (forall hb, hd_get [(lit "version", sc_version sc); (lit "server", lit "stompd/x.y.z"); (lit "heart-beat", hb)] h_server = lit "stompd/x.y.z") as Hv3 by done.
  assert (forall hb, hd_contains [(lit "version", sc_version sc); (lit "server", lit "stompd/x.y.z"); (lit "heart-beat", hb)] h_heart_beat = Some hb) as Hv4 by done.
  rewrite Hv1, Hv2, Hv3, Hv4.
  assert (check_supported (sc_version sc) = true) as ->.
  { apply check_supported_iff. unfold supported. tauto. }
  rewrite andb_false_r.
  rewrite decide_False by (intros He; rewrite He in Hv; destruct Hv; done).
  change (2 ^ 63)%Z with 9223372036854775808%Z.
  rewrite parse_heart_beat_text by (change (2 ^ 63)%Z with 9223372036854775808%Z; lia).
  destruct (client_timeouts o (cy' * 1000000) (cx' * 1000000)). done.
Qed.

Lemma heart_beat_safety c o sc rest ts :
  (0 <= o_hberr o <= 2 ^ 62)%Z ->
  (o_read o <= 0 \/ 1000000 <= o_read o)%Z ->
  handle_connect c (connect_frame o) = inr sc ->
  server_read_timeout c (connect_frame o) = Some ts ->
  exists cc, client_connect o (RFrame (sc_response sc) rest) = CConnected cc /\
    keeps_alive (2 * cc_write cc) (2 * ts) /\ keeps_alive (sc_write sc) (cc_read cc).
Proof.
  intros HE HR H Hts.
  destruct (client_accepts_response c o sc rest H) as (cx & cy & cx' & cy' & Hreq & Hx & Hy & Hcx & Hcy & Hw & ->).
  eexists. split; [done|]. cbn [cc_write cc_read].
  rewrite (handle_connect_read _ _ _ _ _ _ H Hreq Hx) in Hts. simplify_eq.
  pose proof (proj1 (connect_frame_requested _ _ _) Hreq) as (Ex & Ey & Hcx0 & Hcy0).
  unfold keeps_alive, client_timeouts. cbn [fst snd].
  assert (o_read o < 1000000000 * 1000000)%Z as HRb.
  { unfold ms in Ey. pose proof (Z.quot_rem' (o_read o) 1000000). pose proof (Z.rem_bound_abs (o_read o) 1000000). lia. }
  assert (cy = 0 -> o_read o <= 0)%Z as H0.
  { intros ->. unfold ms in Ey. pose proof (Z.quot_rem' (o_read o) 1000000). pose proof (Z.rem_bound_abs (o_read o) 1000000). lia. }
  change (2 ^ 62)%Z with 4611686018427387904%Z in HE.
  split.
  - destruct (Z.ltb_spec (o_hberr o) (cx' * 1000000)).
    + rewrite wrap64_id by (unfold is_int64; change (2 ^ 63)%Z with 9223372036854775808%Z; lia). lia.
    + lia.
  - rewrite Hw. destruct (Z.ltb_spec (cy' * 1000000) (o_read o)).
    + destruct (Z.ltb_spec 0 (o_read o)); [|lia].
      rewrite wrap64_id by (unfold is_int64; change (2 ^ 63)%Z with 9223372036854775808%Z; lia).
      unfold raised in Hy. lia.
    + destruct (Z.ltb_spec 0 (cy' * 1000000)); [|lia].
      rewrite wrap64_id by (unfold is_int64; change (2 ^ 63)%Z with 9223372036854775808%Z; lia). lia.
Qed.

Lemma handshake c remote opts o rest1 rest2 :
  new_conn_options remote opts = Some o ->
  (forall k v, (k, v) ∈ o_header o -> k <> []) ->
  no_entry (o_header o) (lit "content-length") -> no_entry (o_header o) (lit "receipt") ->
  (0 <= o_read o < 1000000000 * 1000000)%Z -> (0 <= o_write o < 1000000000 * 1000000)%Z ->
  lit "1.1" ∈ o_versions o \/ lit "1.2" ∈ o_versions o ->
  accepted_credentials c (connect_frame o) ->
  exists f sc cc, read_stream (write_frame (connect_frame o) ++ rest1) = RFrame f rest1 /\
    handle_connect c f = inr sc /\
    client_connect o (read_stream (write_frame (sc_response sc) ++ rest2)) = CConnected cc /\
    cc_version cc = sc_version sc /\ highest_version (fun v => v ∈ o_versions o) (cc_version cc).
Proof.
  intros Ho Hn Hcl Hr HR HW Hv Ha.
  destruct (new_conn_options_inv _ _ _ Ho) as (Hsup & Hne & Hcmd & Hhost).
  exists (connect_frame o).
  assert (no_entry (f_hdr (connect_frame o)) (lit "receipt")) as Hnr.
  { apply hd_contains_None. rewrite connect_frame_hdr.
    repeat (rewrite decide_False; [|first [neq_lit | intros [H _]; by vm_compute in H]]).
    by apply hd_contains_None. }
  assert (exists v, highest_version (fun v => v ∈ o_versions o) v /\ (v = lit "1.1" \/ v = lit "1.2")) as (v & Hhv & Hv12).
  { destruct (decide (lit "1.2" ∈ o_versions o)) as [H2|H2]; [exists (lit "1.2"); split; [by constructor|auto]|].
    destruct Hv as [H1|?]; [|done]. exists (lit "1.1"). split; [by constructor|auto]. }
  set (cx := Z.quot (o_write o) ms). set (cy := Z.quot (o_read o) ms).
  assert (0 <= cx <= 999999999)%Z as Hcx.
  { unfold cx, ms. rewrite Z.quot_div_nonneg by lia. lia. }
  assert (0 <= cy <= 999999999)%Z as Hcy.
  { unfold cy, ms. rewrite Z.quot_div_nonneg by lia. lia. }
  assert (requested (connect_frame o) cx cy) as Hreq by by apply connect_frame_requested.
  set (mn := as_milliseconds (cfg_heart_beat c) max_heart_beat).
  set (sc := mkSconnect v (raise_min mn cy * 1000000) (mkFrame (lit "CONNECTED")
      [(lit "version", v); (lit "server", lit "stompd/x.y.z"); (lit "heart-beat", heart_beat_text (raise_min mn cy) (raise_min mn cx))] [])).
  assert (handle_connect c (connect_frame o) = inr sc) as Hsc.
  { apply handle_connect_iff. split; [done|]. split; [done|]. split.
    - split; [done|]. split; [|done]. exists (join_with COMMA (o_versions o)). split.
      + apply hd_contains_Some. by rewrite connect_frame_hdr.
      + eapply highest_version_ext; [|done]. intros w. by rewrite offered_items.
    - exists cx, cy, mn, (raise_min mn cx), (raise_min mn cy). split; [done|]. split; [done|].
      split; [apply raise_min_spec; lia|]. split; [apply raise_min_spec; lia|]. done. }
  exists sc.
  destruct (client_accepts_response c o sc rest2 Hsc) as (cx1 & cy1 & cx' & cy' & _ & _ & _ & _ & _ & _ & Hcc).
  eexists. split; [by apply read_write_frame, connect_frame_writable|]. split; [done|].
  rewrite read_write_frame by by eapply sc_response_writable. split; [exact Hcc|]. done.
Qed.

(** The server's minimum heart-beat in milliseconds. *)
Definition configured_minimum (c : scfg) (mn : Z) : Prop :=
  (s_heartbeat c = 0 /\ mn = 60000 \/ s_heartbeat c <> 0 /\ whole_ms (s_heartbeat c) mn)%Z.
Lemma configured_minimum_as c : configured_minimum c (as_milliseconds (cfg_heart_beat c) max_heart_beat).
Proof.
  unfold configured_minimum, cfg_heart_beat. case_decide as H.
  - left. split; [done|]. by vm_compute.
  - right. split; [done|]. apply as_milliseconds_spec.
Qed.
Lemma configured_minimum_raised c mn v v' : configured_minimum c mn -> raised mn v v' ->
  raised (as_milliseconds (cfg_heart_beat c) max_heart_beat) v v'.
Proof.
  pose proof (configured_minimum_as c) as H1. intros H2.
  set (k := as_milliseconds _ _) in *. clearbody k.
  unfold configured_minimum, whole_ms, raised in *. lia.
Qed.
Lemma handle_connect_spec c f sc :
  handle_connect c f = inr sc <->
  no_entry (f_hdr f) (lit "receipt") /\ accepted_credentials c f /\
  session_version f (sc_version sc) /\
  exists cx cy mn cx' cy', requested f cx cy /\
    configured_minimum c mn /\ raised mn cx cx' /\ raised mn cy cy' /\
    sc_write sc = (cy' * 1000000)%Z /\
    sc_response sc = mkFrame (lit "CONNECTED")
      [(lit "version", sc_version sc); (lit "server", lit "stompd/x.y.z"); (lit "heart-beat", heart_beat_text cy' cx')] [].
Proof.
  rewrite handle_connect_iff. split.
  - intros (H1 & H2 & H3 & cx & cy & mn & cx' & cy' & A & -> & B). do 3 (split; [done|]).
    eexists cx, cy, _, cx', cy'. split; [done|]. split; [apply configured_minimum_as|]. done.
  - intros (H1 & H2 & H3 & cx & cy & mn & cx' & cy' & A & Hm & B & C & D). do 3 (split; [done|]).
    eexists cx, cy, _, cx', cy'. split; [done|]. split; [done|].
    split; [by eapply configured_minimum_raised|]. split; [by eapply configured_minimum_raised|]. done.
Qed.
Lemma server_heart_beats c f sc cx cy mn cx' cy' :
  handle_connect c f = inr sc -> requested f cx cy -> configured_minimum c mn ->
  raised mn cx cx' -> raised mn cy cy' ->
  server_read_timeout c f = Some (cx' * 1000000)%Z /\ sc_write sc = (cy' * 1000000)%Z /\
  first_entry (f_hdr (sc_response sc)) (lit "heart-beat") (heart_beat_text cy' cx').
Proof.
  intros H Hreq Hm Hx Hy. split.
  - eapply handle_connect_read; [done..|]. by eapply configured_minimum_raised.
  - apply handle_connect_spec in H as (_ & _ & _ & a & b & mn1 & a' & b' & Hreq1 & Hm1 & Ha & Hb & -> & ->).
    destruct (requested_fun _ _ _ _ _ Hreq Hreq1) as [-> ->].
    apply (configured_minimum_raised c) in Ha, Hb, Hx, Hy; try done.
    rewrite (raised_fun _ _ _ _ Hx Ha), (raised_fun _ _ _ _ Hy Hb). split; [done|].
    by apply hd_contains_Some.
Qed.

(* ---------- C59 ---------- *)
Lemma add_versions_spec vs : forall acc, (Forall supported vs /\ add_versions vs acc = Some (acc ++ vs)) \/ (~ Forall supported vs /\ add_versions vs acc = None).
Proof.
  induction vs as [|v vs IH]; intros acc; simpl; [left; by rewrite app_nil_r|].
  unfold check_supported. case_bool_decide as Hv.
  - destruct (IH (acc ++ [v])) as [[H1 ->]|[H1 ->]]; rewrite <-?app_assoc; [left|right]; (split; [|done]); [constructor; [|done]|by inversion_clear 1].
    unfold supported. set_solver.
  - right. split; [|done]. inversion_clear 1 as [|? ? Hs _]. apply Hv. unfold supported in Hs. set_solver.
Qed.
Lemma apply_copts_spec opts : forall o,
  (Forall supported (asked_versions opts) /\ exists e, apply_copts o opts = Some (mkCopts
     (if existsb (fun x => match x with OptUseStomp => true | _ => false end) opts then STOMP else o_cmd o)
     (last_opt (fun x => match x with OptHost h => Some h | _ => None end) (o_host o) opts)
     (snd (last_opt (fun x => match x with OptHeartBeat s r => Some (s, r) | _ => None end) (o_write o, o_read o) opts))
     (fst (last_opt (fun x => match x with OptHeartBeat s r => Some (s, r) | _ => None end) (o_write o, o_read o) opts))
     e
     (fst (last_opt (fun x => match x with OptLogin l p => Some (l, p) | _ => None end) (o_login o, o_passcode o) opts))
     (snd (last_opt (fun x => match x with OptLogin l p => Some (l, p) | _ => None end) (o_login o, o_passcode o) opts))
     (o_versions o ++ asked_versions opts) (o_header o ++ asked_headers opts)))
  \/ (~ Forall supported (asked_versions opts) /\ apply_copts o opts = None).
Proof.
  induction opts as [|x opts IH]; intros o.
  - left. split; [constructor|]. exists (o_hberr o). simpl. rewrite !app_nil_r. by destruct o.
  - destruct x as [|l p|h| |vs|s r|e|k v]; cbn [apply_copts apply_copt existsb last_opt];
      try (match goal with |- context [apply_copts ?o' opts] => destruct (IH o') as [[H1 [e1 ->]]|[H1 ->]] end;
        cbn [o_cmd o_host o_read o_write o_hberr o_login o_passcode o_versions o_header orb];
        [left; split; [exact H1|]; exists e1; unfold asked_versions, asked_headers, hd_add; cbn [fmap list_fmap concat]; rewrite <-?app_assoc;
          try (destruct (existsb _ opts)); done
        |right; split; [exact H1|done]]).
    destruct (add_versions_spec vs (o_versions o)) as [[Hv ->]|[Hv ->]].
    + match goal with |- context [apply_copts ?o' opts] => destruct (IH o') as [[H1 [e1 ->]]|[H1 ->]] end;
        cbn [o_cmd o_host o_read o_write o_hberr o_login o_passcode o_versions o_header orb].
      * left. split; [by apply Forall_app|]. exists e1. unfold asked_versions, asked_headers. cbn [fmap list_fmap concat]. by rewrite <-app_assoc.
      * right. split; [|done]. by intros [_ ?]%Forall_app.
    + right. split; [|done]. by intros [? _]%Forall_app.
Qed.
Lemma connect_frame_asked remote opts :
  (Forall supported (asked_versions opts) -> exists o, new_conn_options remote opts = Some o /\
     connect_frame o = mkFrame (if existsb (fun x => match x with OptUseStomp => true | _ => false end) opts then lit "STOMP" else lit "CONNECT")
       ([(lit "host", if decide (asked_host opts = []) then (if decide (remote = []) then lit "default" else remote) else asked_host opts);
         (lit "heart-beat", format_int (Z.quot (fst (asked_beats opts)) 1000000) ++ lit "," ++ format_int (Z.quot (snd (asked_beats opts)) 1000000))] ++
        (if decide (asked_login opts = ([], [])) then [] else [(lit "login", fst (asked_login opts)); (lit "passcode", snd (asked_login opts))]) ++
        (lit "accept-version", join_with COMMA (match asked_versions opts with [] => [lit "1.0"; lit "1.1"; lit "1.2"] | l => l end)) ::
        asked_headers opts) [] /\
     o_write o = fst (asked_beats opts) /\ o_read o = snd (asked_beats opts)) /\
  (~ Forall supported (asked_versions opts) -> new_conn_options remote opts = None).
Proof.
  unfold new_conn_options. destruct (apply_copts_spec opts default_copts) as [[Hv [e ->]]|[Hv ->]]; split; try done.
  intros _. eexists. split; [reflexivity|]. cbn [o_cmd o_host o_read o_write o_hberr o_login o_passcode o_versions o_header].
  split; [|done]. unfold connect_frame. cbn [o_cmd o_host o_read o_write o_hberr o_login o_passcode o_versions o_header].
  change (last_opt (λ x : copt, match x with OptHost h => Some h | _ => None end) (o_host default_copts) opts) with (asked_host opts).
  change (last_opt (λ x : copt, match x with OptLogin l p => Some (l, p) | _ => None end) (o_login default_copts, o_passcode default_copts) opts) with (asked_login opts).
  change (last_opt (λ x : copt, match x with OptHeartBeat s r => Some (s, r) | _ => None end) (o_write default_copts, o_read default_copts) opts) with (asked_beats opts).
  set (host := if decide (asked_host opts = []) then _ else _).
  assert (host <> []) as Hh by (unfold host; repeat case_decide; done).
  rewrite (decide_False (P:=host = [])) by done. f_equal. cbn [app].
  destruct (asked_login opts) as [l p]. cbn [fst snd].
  destruct (decide ((l, p) = ([], []))) as [[= -> ->]|Hlp].
  - rewrite decide_True by done. done.
  - rewrite (decide_False (P:=l = [] /\ p = [])) by (intros [-> ->]; done). done.
Qed.
