(** Property theorems of the handshake: C11, C14, C15, C16, C30, C31, C55, C56. *)
From Verif Require Import GoBase HeaderModel FrameModel GrammarSpec HeaderProofs CodecProofs
  NegotiationModel NegotiationSpec NegotiationProofs NegotiationLemmas TimeoutSpec TimeoutProofs.

(* ------------------------------------------------------------------ *)
(** C11: ParseHeartBeat accepts exactly "n,m" with both values representable
    as a time.Duration in nanoseconds, and returns n and m milliseconds. *)
Theorem C11_heart_beat_text : forall s d1 d2,
  parse_heart_beat s = Some (d1, d2) <->
  exists n m, hb_pair s n m /\ (Z.of_N n * 1000000 < 2 ^ 63)%Z /\ (Z.of_N m * 1000000 < 2 ^ 63)%Z /\
              d1 = (Z.of_N n * 1000000)%Z /\ d2 = (Z.of_N m * 1000000)%Z.
Proof. exact parse_heart_beat_iff. Qed.
Print Assumptions C11_heart_beat_text.
Example C11_case :
  parse_heart_beat (lit "9223372036854,0015") = Some (9223372036854000000, 15000000)%Z /\
  parse_heart_beat (lit "9223372036855,0") = None /\ parse_heart_beat (lit "1,2,3") = None /\
  parse_heart_beat (lit "-1,2") = None /\ parse_heart_beat (lit "1,2" ++ [LF]) = None.
Proof. by vm_compute. Qed.

(* ------------------------------------------------------------------ *)
(** C14: Connect yields a connection reporting exactly (version, session,
    server) iff the first frame is a CONNECTED with these data. *)
Theorem C14_connect_reply : forall o reply version session server,
  (exists c, client_connect o reply = CConnected c /\ cc_version c = version /\
             cc_session c = session /\ cc_server c = server) <->
  (exists f rest, reply = RFrame f rest /\ f_cmd f = lit "CONNECTED" /\
     value_or_empty (f_hdr f) (lit "session") session /\
     value_or_empty (f_hdr f) (lit "server") server /\
     (value_or_empty (f_hdr f) (lit "version") [] /\ version = lit "1.0" \/
      first_entry (f_hdr f) (lit "version") version /\ supported version) /\
     (no_entry (f_hdr f) (lit "heart-beat") \/
      exists t n m, first_entry (f_hdr f) (lit "heart-beat") t /\ hb_pair t n m /\
        (Z.of_N n * 1000000 < 2 ^ 63)%Z /\ (Z.of_N m * 1000000 < 2 ^ 63)%Z)).
Proof. exact client_connect_iff. Qed.
Print Assumptions C14_connect_reply.
Definition sample_reply : frame :=
  mkFrame CONNECTED [(h_version, lit "1.1"); (h_session, lit "s-1"); (h_version, lit "9"); (h_heart_beat, lit "10000,0")] [].
Example C14_case :
  client_connect default_copts (RFrame sample_reply []) =
    CConnected (mkCconn (lit "1.1") (lit "s-1") [] (65000 * ms) 0) /\
  client_connect default_copts (RFrame (mkFrame CONNECTED [(h_version, lit "2.0")] []) []) =
    CBadVersion (mkFrame CONNECTED [(h_version, lit "2.0")] []) /\
  client_connect default_copts (RFrame (mkFrame ERROR [] []) []) = CUnexpected (mkFrame ERROR [] []).
Proof. by vm_compute. Qed.

(* ------------------------------------------------------------------ *)
(** C15.  Full statement: for every options and server settings whose
    handshake is accepted, [keeps_alive] holds in both directions.  It fails
    for a ReadTimeout strictly between 0 and 1 ms (announced as 0 to the
    server, but armed by the client): C15_sub_millisecond_refuted.  Otherwise
    it holds; the HeartBeatError option is assumed non-negative and below
    2^62 ns (146 years), and the grace multiplier 1.0 (its default). *)
Theorem C15_heart_beat_safety_partial : forall c o sc rest ts,
  (0 <= o_hberr o <= 2 ^ 62)%Z ->
  (o_read o <= 0 \/ 1000000 <= o_read o)%Z ->
  handle_connect c (connect_frame o) = inr sc ->
  server_read_timeout c (connect_frame o) = Some ts ->
  exists cc, client_connect o (RFrame (sc_response sc) rest) = CConnected cc /\
    keeps_alive (2 * cc_write cc) (2 * ts) /\ keeps_alive (sc_write sc) (cc_read cc).
Proof. exact heart_beat_safety. Qed.
Print Assumptions C15_heart_beat_safety_partial.
Definition plain_server : scfg := mkScfg 0 None.
Definition quick_opts : copts :=
  default default_copts (new_conn_options [] [OptAcceptVersion [V11; V12]; OptHeartBeat (7000 * ms) (3000 * ms)]).
Example C15_case : exists sc cc, handle_connect plain_server (connect_frame quick_opts) = inr sc /\
  server_read_timeout plain_server (connect_frame quick_opts) = Some (60000 * ms)%Z /\
  client_connect quick_opts (RFrame (sc_response sc) []) = CConnected cc /\
  cc_write cc = (55000 * ms)%Z /\ sc_write sc = (60000 * ms)%Z /\ cc_read cc = (65000 * ms)%Z.
Proof. eexists _, _. split; [vm_compute; reflexivity|]. split; [vm_compute; reflexivity|].
  split; [vm_compute; reflexivity|]. by vm_compute. Qed.
Theorem C15_sub_millisecond_refuted : exists c o sc cc,
  new_conn_options [] [OptHeartBeat (60000 * ms) 500000] = Some o /\
  handle_connect c (connect_frame o) = inr sc /\
  client_connect o (RFrame (sc_response sc) []) = CConnected cc /\
  ~ keeps_alive (sc_write sc) (cc_read cc).
Proof.
  exists plain_server. eexists _, _, _. split; [vm_compute; reflexivity|].
  split; [vm_compute; reflexivity|]. split; [vm_compute; reflexivity|].
  unfold keeps_alive. cbn. lia.
Qed.
Print Assumptions C15_sub_millisecond_refuted.

(* ------------------------------------------------------------------ *)
(** C16 is false: with default options the answer "0,60000" arms a read
    timeout of 65 s although the server will not send.  It is true when the
    client did not ask for heart-beats. *)
Theorem C16_declined_heart_beats_refuted : exists f cc,
  first_entry (f_hdr f) (lit "heart-beat") (lit "0,60000") /\
  client_connect default_copts (RFrame f []) = CConnected cc /\ (0 < cc_read cc)%Z.
Proof.
  exists (mkFrame CONNECTED [(h_heart_beat, lit "0,60000")] []). eexists.
  split; [by apply hd_contains_Some|]. split; [vm_compute; reflexivity|done].
Qed.
Print Assumptions C16_declined_heart_beats_refuted.
Theorem C16_no_timeout_partial : forall o f rest c,
  client_connect o (RFrame f rest) = CConnected c ->
  (exists t m, first_entry (f_hdr f) (lit "heart-beat") t /\ hb_pair t 0 m) ->
  (o_read o <= 0)%Z -> (cc_read c <= 0)%Z.
Proof. exact client_timeout_zero. Qed.
Print Assumptions C16_no_timeout_partial.
Example C16_case : exists o cc, new_conn_options [] [OptHeartBeat (1000 * ms) 0] = Some o /\
  client_connect o (RFrame (mkFrame CONNECTED [(h_heart_beat, lit "00,60000")] []) []) = CConnected cc /\
  cc_read cc = 0%Z /\ cc_write cc = (55000 * ms)%Z.
Proof. eexists _, _. split; [vm_compute; reflexivity|]. split; [vm_compute; reflexivity|]. by vm_compute. Qed.

(* ------------------------------------------------------------------ *)
(** C30: the version chosen by the server ... *)
Theorem C30_highest_version : forall f v,
  determine_version f = inr v <->
  ((f_cmd f = lit "CONNECT" \/ f_cmd f = lit "STOMP") /\
   (exists av, first_entry (f_hdr f) (lit "accept-version") av /\ highest_version (comma_item av) v)) \/
  (f_cmd f = lit "CONNECT" /\ no_entry (f_hdr f) (lit "accept-version") /\ v = lit "1.0").
Proof. exact determine_version_iff. Qed.
Print Assumptions C30_highest_version.
(** ... and what a session needs: the server accepts exactly the frames
    without receipt, with accepted credentials, a listed version whose highest
    is 1.1 or 1.2, and a well-formed heart-beat. *)
Theorem C30_session_established : forall c f sc,
  handle_connect c f = inr sc <->
  no_entry (f_hdr f) (lit "receipt") /\ accepted_credentials c f /\
  session_version f (sc_version sc) /\
  exists cx cy mn cx' cy', requested f cx cy /\
    configured_minimum c mn /\ raised mn cx cx' /\ raised mn cy cy' /\
    sc_write sc = (cy' * 1000000)%Z /\
    sc_response sc = mkFrame (lit "CONNECTED")
      [(lit "version", sc_version sc); (lit "server", lit "stompd/x.y.z"); (lit "heart-beat", heart_beat_text cy' cx')] [].
Proof. exact handle_connect_spec. Qed.
Print Assumptions C30_session_established.
Example C30_case :
  determine_version (mkFrame STOMP [(h_accept_version, lit "1.2,1.0,3.7,1.1,1.2")] []) = inr (lit "1.2") /\
  determine_version (mkFrame CONNECT [(h_accept_version, lit "1.1,1.0")] []) = inr (lit "1.1") /\
  determine_version (mkFrame CONNECT [(h_accept_version, lit " 1.1")] []) = inl e_unknownVersion /\
  determine_version (mkFrame CONNECT [] []) = inr (lit "1.0") /\
  (exists sc, handle_connect plain_server (mkFrame STOMP [(h_accept_version, lit "1.2,1.0")] []) = inr sc).
Proof. repeat split; try by vm_compute. eexists. vm_compute. reflexivity. Qed.

(* ------------------------------------------------------------------ *)
(** C31: accepted texts ([requested], two 1-9 digit numbers), announced and
    used values.  The read deadline is twice [server_read_timeout]
    (server/client/conn.go:123). *)
Theorem C31_heart_beat_text : forall f cx cy, f_cmd f = lit "CONNECT" \/ f_cmd f = lit "STOMP" ->
  (get_heart_beat f = inr (cx, cy) <-> requested f cx cy).
Proof. exact get_heart_beat_iff. Qed.
Print Assumptions C31_heart_beat_text.
Theorem C31_heart_beats_used : forall c f sc cx cy mn cx' cy',
  handle_connect c f = inr sc -> requested f cx cy -> configured_minimum c mn ->
  raised mn cx cx' -> raised mn cy cy' ->
  server_read_timeout c f = Some (cx' * 1000000)%Z /\ sc_write sc = (cy' * 1000000)%Z /\
  first_entry (f_hdr (sc_response sc)) (lit "heart-beat") (heart_beat_text cy' cx').
Proof. exact server_heart_beats. Qed.
Print Assumptions C31_heart_beats_used.
Example C31_case :
  let f := mkFrame STOMP [(h_accept_version, lit "1.2"); (h_heart_beat, lit "70000,500")] [] in
  (exists sc, handle_connect (mkScfg (2000 * ms + 7) None) f = inr sc /\ sc_write sc = (2000 * ms)%Z /\
     hd_contains (f_hdr (sc_response sc)) h_heart_beat = Some (lit "2000,70000")) /\
  server_read_timeout (mkScfg (2000 * ms + 7) None) f = Some (70000 * ms)%Z /\
  get_heart_beat (mkFrame STOMP [(h_heart_beat, lit "1234567890,0")] []) = inl e_invalidHeartBeat.
Proof. split; [|by vm_compute]. eexists. split; [vm_compute; reflexivity|]. by vm_compute. Qed.

(* ------------------------------------------------------------------ *)
(** C55: with this library's server both sides agree on the highest version
    offered, over the wire. *)
Theorem C55_handshake : forall c remote opts o rest1 rest2,
  new_conn_options remote opts = Some o ->
  (forall k v, (k, v) ∈ o_header o -> k <> []) ->
  no_entry (o_header o) (lit "content-length") -> no_entry (o_header o) (lit "receipt") ->
  (0 <= o_read o < 1000000000 * 1000000)%Z -> (0 <= o_write o < 1000000000 * 1000000)%Z ->
  lit "1.1" ∈ o_versions o \/ lit "1.2" ∈ o_versions o ->
  accepted_credentials c (connect_frame o) ->
  exists f sc cc, read_stream (write_frame (connect_frame o) ++ rest1) = RFrame f rest1 /\
    handle_connect c f = inr sc /\
    client_connect o (read_stream (write_frame (sc_response sc) ++ rest2)) = CConnected cc /\
    cc_version cc = sc_version sc /\ highest_version (fun v => v ∈ o_versions o) (cc_version cc).
Proof. exact handshake. Qed.
Print Assumptions C55_handshake.
Example C55_case :
  let o := quick_opts in
  exists f sc cc, read_stream (write_frame (connect_frame o) ++ lit "x") = RFrame f (lit "x") /\
    handle_connect plain_server f = inr sc /\
    client_connect o (read_stream (write_frame (sc_response sc) ++ [])) = CConnected cc /\ cc_version cc = lit "1.2".
Proof. eexists _, _, _. split; [vm_compute; reflexivity|]. split; [vm_compute; reflexivity|].
  split; [vm_compute; reflexivity|]. by vm_compute. Qed.

(* ------------------------------------------------------------------ *)
(** C56 is false: the client does not check that the server's version is one
    it offered.  With this library's server it always is (C55_handshake). *)
Theorem C56_unoffered_version_refuted : exists o f cc,
  new_conn_options [] [OptAcceptVersion [lit "1.2"]] = Some o /\
  client_connect o (RFrame f []) = CConnected cc /\ cc_version cc ∉ o_versions o.
Proof.
  eexists _, (mkFrame CONNECTED [(h_version, lit "1.0")] []), _. split; [vm_compute; reflexivity|].
  split; [vm_compute; reflexivity|]. neq_lit.
Qed.
Print Assumptions C56_unoffered_version_refuted.

(* ------------------------------------------------------------------ *)
(** C59: the CONNECT frame is exactly what the options ask for; options with an
    unsupported version are refused. *)
Theorem C59_connect_frame : forall remote opts,
  (Forall supported (asked_versions opts) -> exists o, new_conn_options remote opts = Some o /\
     connect_frame o = mkFrame (if existsb (fun x => match x with OptUseStomp => true | _ => false end) opts then lit "STOMP" else lit "CONNECT")
       ([(lit "host", if decide (asked_host opts = []) then (if decide (remote = []) then lit "default" else remote) else asked_host opts);
         (lit "heart-beat", format_int (Z.quot (fst (asked_beats opts)) 1000000) ++ lit "," ++ format_int (Z.quot (snd (asked_beats opts)) 1000000))] ++
        (if decide (asked_login opts = ([], [])) then [] else [(lit "login", fst (asked_login opts)); (lit "passcode", snd (asked_login opts))]) ++
        (lit "accept-version", join_with COMMA (match asked_versions opts with [] => [lit "1.0"; lit "1.1"; lit "1.2"] | l => l end)) ::
        asked_headers opts) [] /\
     o_write o = fst (asked_beats opts) /\ o_read o = snd (asked_beats opts)) /\
  (~ Forall supported (asked_versions opts) -> new_conn_options remote opts = None).
Proof. exact connect_frame_asked. Qed.
Print Assumptions C59_connect_frame.
Example C59_case : let opts := [OptHost (lit "a"); OptLogin (lit "u") []; OptAcceptVersion [lit "1.2"]; OptNil; OptHeader (lit "x") (lit "1"); OptHost (lit "b");
    OptHeartBeat 2500000 0; OptAcceptVersion [lit "1.1"]; OptUseStomp; OptHeader (lit "host") (lit "c")] in
  exists o, new_conn_options (lit "h") opts = Some o /\ connect_frame o =
    mkFrame STOMP [(lit "host", lit "b"); (lit "heart-beat", lit "2,0"); (lit "login", lit "u"); (lit "passcode", []); (lit "accept-version", lit "1.2,1.1");
      (lit "x", lit "1"); (lit "host", lit "c")] [].
Proof. eexists. split; vm_compute; reflexivity. Qed.

(** The timeouts of the connected client: the read timeout is the larger of what
    the options and the server's answer say, plus the tolerance; the write
    interval is what the answer says, less the tolerance when it is longer. *)
Theorem C59_timeouts : forall remote opts o f rest c,
  new_conn_options remote opts = Some o -> client_connect o (RFrame f rest) = CConnected c ->
  (no_entry (f_hdr f) (lit "heart-beat") -> cc_read c = 0%Z /\ cc_write c = 0%Z) /\
  (forall t n m, first_entry (f_hdr f) (lit "heart-beat") t -> hb_pair t n m ->
     let e := asked_tolerance opts in
     let r := Z.max (snd (asked_beats opts)) (Z.of_N n * 1000000) in
     let w := (Z.of_N m * 1000000)%Z in
     (0 <= e)%Z -> (r + e < 2 ^ 63)%Z ->
     cc_read c = (if decide (0 < r)%Z then r + e else r)%Z /\
     cc_write c = (if decide (e < w)%Z then w - e else w)%Z).
Proof. exact client_timeouts_asked. Qed.
Print Assumptions C59_timeouts.
Example C59_timeouts_case : exists o c,
  new_conn_options [] [OptHeartBeatError 1; OptHeartBeat 0 (20000 * ms); OptHeartBeatError (2000 * ms)] = Some o /\
  client_connect o (RFrame (mkFrame CONNECTED [(h_heart_beat, lit "10000,15000")] []) []) = CConnected c /\
  cc_read c = (22000 * ms)%Z /\ cc_write c = (13000 * ms)%Z.
Proof. eexists _, _. split; [vm_compute; reflexivity|]. split; [vm_compute; reflexivity|]. by vm_compute. Qed.
