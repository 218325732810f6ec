(** Handshake: client connect options and response handling (conn_options.go,
    conn.go:100-244), server CONNECT handling (server/client/frame.go, util.go,
    conn.go:427-534), heart-beat texts (frame/heartbeat.go), versions.

    time.Duration is a signed 64-bit number of nanoseconds: [Z] with explicit
    wrap-around where the code adds without a guard. *)
From Verif Require Import GoBase HeaderModel FrameModel.

(** int64 wrap-around. *)
Definition wrap64 (z : Z) : Z := ((z + 2 ^ 63) mod 2 ^ 64 - 2 ^ 63)%Z.
Definition is_int64 (z : Z) : Prop := (- 2 ^ 63 <= z < 2 ^ 63)%Z.
Definition ms : Z := 1000000%Z.            (* time.Millisecond *)

(* ---------------- texts ---------------- *)

(** longest prefix of decimal digits *)
Fixpoint span_digits (s : str) : str * str :=
  match s with
  | [] => ([], [])
  | c :: t => if is_digit c then let '(a, b) := span_digits t in (c :: a, b) else ([], s)
  end.

(** the regular expressions ^[0-9]+,[0-9]+$ (frame/heartbeat.go:13) and
    ^[0-9]{1,9},[0-9]{1,9}$ (server/client/frame.go:22); [maxlen] = None for
    the unbounded one.  Digits and the comma are disjoint so greedy matching
    is complete; $ is the end of the text (no (?m) flag). *)
Definition hb_regexp (maxlen : option nat) (s : str) : bool :=
  let ok (d : str) := negb (bool_decide (d = [])) &&
                      match maxlen with None => true | Some m => length d <=? m end in
  let '(a, r) := span_digits s in
  match r with
  | c :: r' => if decide (c = COMMA)
               then let '(b, r'') := span_digits r' in ok a && ok b && bool_decide (r'' = [])
               else false
  | [] => false
  end.

(** math.MaxInt64 / 10^6, frame/heartbeat.go:19 *)
Definition max_milliseconds : N := (9223372036854775807 / 1000000)%N.

(** frame/heartbeat.go:26-44 (ParseHeartBeat); [None] = ErrInvalidHeartBeat.
    ParseInt(_, 10, 64) on a digit string fails iff the value is >= 2^63. *)
Definition parse_heart_beat (s : str) : option (Z * Z) :=
  if hb_regexp None s then
    match split_on COMMA s with
    | a :: b :: _ =>
        match parse_uint 63 a, parse_uint 63 b with
        | Some v1, Some v2 =>
            if (max_milliseconds <? v1)%N || (max_milliseconds <? v2)%N then None
            else Some (wrap64 (Z.of_N v1 * ms), wrap64 (Z.of_N v2 * ms))%Z
        | _, _ => None
        end
    | _ => None
    end
  else None.

(** fmt.Sprintf("%d,%d", a, b) *)
Definition heart_beat_text (a b : Z) : str := format_int a ++ COMMA :: format_int b.

(* ---------------- versions ---------------- *)

(** version.go:7-10 *)
Definition V10 := lit "1.0".
Definition V11 := lit "1.1".
Definition V12 := lit "1.2".
(** version.go:20-26 (CheckSupported) *)
Definition check_supported (v : str) : bool := bool_decide (v ∈ [V10; V11; V12]).
(** version.go:30-40 (SupportsNack) *)
Definition supports_nack (v : str) : bool :=
  if decide (v = V10) then false else if decide (v ∈ [V11; V12]) then true else false.

(* ---------------- client ---------------- *)

Record copts := mkCopts {
  o_cmd : str; o_host : str; o_read : Z; o_write : Z; o_hberr : Z;
  o_login : str; o_passcode : str; o_versions : list str; o_header : header }.

(** ConnOpt functions that influence the handshake (conn_options.go:206-298).
    The remaining options (timeouts of API calls, channel and buffer sizes,
    callback, logger, statistics) do not. *)
Inductive copt :=
| OptNil
| OptLogin (login passcode : str)
| OptHost (host : str)
| OptUseStomp
| OptAcceptVersion (vs : list str)
| OptHeartBeat (send recv : Z)
| OptHeartBeatError (e : Z)
| OptHeader (k v : str).

(** conn_options.go:227-237: versions checked and appended one at a time;
    [None] = ErrUnsupportedVersion. *)
Fixpoint add_versions (vs acc : list str) : option (list str) :=
  match vs with
  | [] => Some acc
  | v :: vs' => if check_supported v then add_versions vs' (acc ++ [v]) else None
  end.

Definition apply_copt (o : copts) (opt : copt) : option copts :=
  match opt with
  | OptNil => Some o
  | OptLogin l p => Some (mkCopts (o_cmd o) (o_host o) (o_read o) (o_write o) (o_hberr o) l p (o_versions o) (o_header o))
  | OptHost h => Some (mkCopts (o_cmd o) h (o_read o) (o_write o) (o_hberr o) (o_login o) (o_passcode o) (o_versions o) (o_header o))
  | OptUseStomp => Some (mkCopts STOMP (o_host o) (o_read o) (o_write o) (o_hberr o) (o_login o) (o_passcode o) (o_versions o) (o_header o))
  | OptAcceptVersion vs =>
      match add_versions vs (o_versions o) with
      | None => None
      | Some l => Some (mkCopts (o_cmd o) (o_host o) (o_read o) (o_write o) (o_hberr o) (o_login o) (o_passcode o) l (o_header o))
      end
  | OptHeartBeat s r => Some (mkCopts (o_cmd o) (o_host o) r s (o_hberr o) (o_login o) (o_passcode o) (o_versions o) (o_header o))
  | OptHeartBeatError e => Some (mkCopts (o_cmd o) (o_host o) (o_read o) (o_write o) e (o_login o) (o_passcode o) (o_versions o) (o_header o))
  | OptHeader k v => Some (mkCopts (o_cmd o) (o_host o) (o_read o) (o_write o) (o_hberr o) (o_login o) (o_passcode o) (o_versions o) (hd_add (o_header o) k v))
  end.
Fixpoint apply_copts (o : copts) (opts : list copt) : option copts :=
  match opts with
  | [] => Some o
  | x :: xs => match apply_copt o x with Some o' => apply_copts o' xs | None => None end
  end.

(** conn_options.go:34-46: defaults; conn.go:18 DefaultHeartBeatError = 5s. *)
Definition default_copts : copts :=
  mkCopts CONNECT [] (60000 * ms)%Z (60000 * ms)%Z (5000 * ms)%Z [] [] [] [].

(** conn_options.go:34-70 (newConnOptions) and conn.go:140-152 (host default;
    [remote] is the host of the net.Conn, empty when unknown). *)
Definition new_conn_options (remote : str) (opts : list copt) : option copts :=
  match apply_copts default_copts opts with
  | None => None
  | Some o =>
      let vs := match o_versions o with [] => [V10; V11; V12] | l => l end in
      let host := if decide (o_host o = []) then (if decide (remote = []) then lit "default" else remote)
                  else o_host o in
      Some (mkCopts (o_cmd o) host (o_read o) (o_write o) (o_hberr o) (o_login o) (o_passcode o) vs (o_header o))
  end.

(** conn_options.go:72-100 (NewFrame). Integer division of durations truncates
    toward zero. *)
Definition connect_frame (o : copts) : frame :=
  let h0 := if decide (o_host o = []) then [] else hd_set [] h_host (o_host o) in
  let h1 := hd_set h0 h_heart_beat (heart_beat_text (Z.quot (o_write o) ms) (Z.quot (o_read o) ms)) in
  let h2 := if decide (o_login o = [] /\ o_passcode o = []) then h1
            else hd_set (hd_set h1 h_login (o_login o)) h_passcode (o_passcode o) in
  let h3 := hd_set h2 h_accept_version (join_with COMMA (o_versions o)) in
  mkFrame (o_cmd o) (h3 ++ o_header o) [].

(** What the client connection knows after connecting. *)
Record cconn := mkCconn { cc_version : str; cc_session : str; cc_server : str; cc_read : Z; cc_write : Z }.
Inductive cres :=
| CConnected (c : cconn)
| CReadError (e : rerr)
| CEmptyFrame
| CUnexpected (f : frame)          (* newError(response) *)
| CBadVersion (f : frame)
| CBadHeartBeat (f : frame)
| CImpossible.

(** conn.go:203-229: timeouts from the heart-beat header. *)
Definition client_timeouts (o : copts) (rt wt : Z) : Z * Z :=
  let rt1 := if (rt <? o_read o)%Z then o_read o else rt in
  let rt2 := if (0 <? rt1)%Z then wrap64 (rt1 + o_hberr o) else rt1 in
  let wt2 := if (o_hberr o <? wt)%Z then wrap64 (wt - o_hberr o) else wt in
  (rt2, wt2).

(** conn.go:166-242: the reply of the server. *)
Definition client_connect (o : copts) (reply : rres) : cres :=
  match reply with
  | RError e => CReadError e
  | RPanic | RFuel => CImpossible
  | RHeartbeat _ => CEmptyFrame
  | RFrame f _ =>
      if decide (f_cmd f = CONNECTED) then
        let vs := hd_get (f_hdr f) h_version in
        if negb (bool_decide (vs = [])) && negb (check_supported vs) then CBadVersion f
        else
          let version := if decide (vs = []) then V10 else vs in
          match hd_contains (f_hdr f) h_heart_beat with
          | None => CConnected (mkCconn version (hd_get (f_hdr f) h_session) (hd_get (f_hdr f) h_server) 0 0)
          | Some hb =>
              match parse_heart_beat hb with
              | None => CBadHeartBeat f
              | Some (rt, wt) =>
                  let '(r, w) := client_timeouts o rt wt in
                  CConnected (mkCconn version (hd_get (f_hdr f) h_session) (hd_get (f_hdr f) h_server) r w)
              end
          end
      else CUnexpected f
  end.

(* ---------------- server ---------------- *)

(** error texts, server/client/errors.go *)
Definition e_notConnected := lit "expected CONNECT or STOMP frame".
Definition e_unexpectedCommand := lit "unexpected frame command".
Definition e_unknownCommand := lit "unknown command".
Definition e_receiptInConnect := lit "receipt header prohibited in CONNECT or STOMP frame".
Definition e_authenticationFailed := lit "authentication failed".
Definition e_txAlreadyInProgress := lit "transaction already in progress".
Definition e_txUnknown := lit "unknown transaction".
Definition e_unsupportedVersion := lit "unsupported version".
Definition e_subscriptionExists := lit "subscription already exists".
Definition e_subscriptionNotFound := lit "subscription not found".
Definition e_unknownVersion := lit "incompatible version".
Definition e_notConnectFrame := lit "operation valid for STOMP and CONNECT frames only".
Definition e_invalidHeartBeat := lit "invalid format for heart-beat".
Definition e_invalidOperationForFrame := lit "invalid operation for frame".
Definition e_missingHeader (n : str) := lit "missing header: " ++ n.
Definition e_prohibitedHeader (n : str) := lit "prohibited header: " ++ n.

(** byte-wise lexicographic order of Go strings *)
Fixpoint str_le (a b : str) : bool :=
  match a, b with
  | [], _ => true
  | _ :: _, [] => false
  | x :: a', y :: b' =>
      if (N_of_ascii x <? N_of_ascii y)%N then true
      else if (N_of_ascii y <? N_of_ascii x)%N then false
      else str_le a' b'
  end.
(** sort.Strings: any correct sort gives the same list. *)
Fixpoint insert_sorted (x : str) (l : list str) : list str :=
  match l with
  | [] => [x]
  | y :: t => if str_le x y then x :: l else y :: insert_sorted x t
  end.
Definition sort_strings (l : list str) : list str := foldr insert_sorted [] l.

(** server/client/frame.go:52-66: the last recognised version wins. *)
Definition pick_version (acc : option str) (v : str) : option str :=
  if decide (v = V10) then Some V10
  else if decide (v = V11) then Some V11
  else if decide (v = V12) then Some V12 else acc.

(** server/client/frame.go:37-80 (determineVersion) *)
Definition determine_version (f : frame) : str + str :=    (* error + version *)
  if decide (f_cmd f <> CONNECT /\ f_cmd f <> STOMP) then inl e_notConnectFrame
  else
    match hd_contains (f_hdr f) h_accept_version with
    | Some av =>
        match fold_left pick_version (sort_strings (split_on COMMA av)) None with
        | Some v => inr v
        | None => inl e_unknownVersion
        end
    | None => if decide (f_cmd f = CONNECT) then inr V10
              else inl (e_missingHeader h_accept_version)
    end.

(** server/client/frame.go:91-119 (getHeartBeat).  ParseUint errors are
    ignored by the code (the value is then 0, or the maximum on overflow);
    the regexp excludes them. *)
Definition get_heart_beat (f : frame) : str + (Z * Z) :=
  if decide (f_cmd f <> CONNECT /\ f_cmd f <> STOMP /\ f_cmd f <> CONNECTED) then inl e_invalidOperationForFrame
  else
    match hd_contains (f_hdr f) h_heart_beat with
    | None => inr (0, 0)%Z
    | Some hb =>
        if hb_regexp (Some 9) hb then
          match split_on COMMA hb with
          | a :: b :: _ =>
              inr (Z.of_N (default 0%N (parse_uint 32 a)), Z.of_N (default 0%N (parse_uint 32 b)))
          | _ => inl e_invalidHeartBeat       (* index panic in Go; excluded by the regexp *)
          end
        else inl e_invalidHeartBeat
    end.

(** server/client/frame.go:17 *)
Definition max_heart_beat : Z := 999999999%Z.
(** server/client/util.go:10-21 *)
Definition as_milliseconds (d max : Z) : Z :=
  let max64 := if (max <? 0)%Z then 0%Z else max in
  let msec := Z.quot d ms in
  if (max64 <? msec)%Z then max64 else msec.

(** server/server.go:24-31, server/processor.go:140-158: server settings. *)
Record scfg := mkScfg { s_heartbeat : Z; s_auth : option (str -> str -> bool) }.
Definition cfg_heart_beat (c : scfg) : Z :=
  if decide (s_heartbeat c = 0%Z) then (60000 * ms)%Z else s_heartbeat c.
Definition cfg_authenticate (c : scfg) (login passcode : str) : bool :=
  match s_auth c with Some a => a login passcode | None => true end.

(** raise a non-zero value to the minimum (conn.go:167-170, 510-516) *)
Definition raise_min (mn v : Z) : Z := if (0 <? v)%Z && (v <? mn)%Z then mn else v.

(** server/client/conn.go:154-176: the read loop's own computation of the read
    timeout from the first CONNECT-like frame (nanoseconds; the deadline is
    twice this). [None] = still expecting. *)
Definition server_read_timeout (c : scfg) (f : frame) : option Z :=
  match get_heart_beat f with
  | inl _ => None
  | inr (cx, _) => Some (raise_min (as_milliseconds (cfg_heart_beat c) max_heart_beat) cx * ms)%Z
  end.

(** server/client/conn.go:465-534 (handleConnect) *)
Record sconnect := mkSconnect { sc_version : str; sc_write : Z; sc_response : frame }.
Definition handle_connect (c : scfg) (f : frame) : str + sconnect :=
  match hd_contains (f_hdr f) h_receipt with
  | Some _ => inl e_receiptInConnect
  | None =>
      if negb (cfg_authenticate c (hd_get (f_hdr f) h_login) (hd_get (f_hdr f) h_passcode))
      then inl e_authenticationFailed
      else
        match determine_version f with
        | inl e => inl e
        | inr v =>
            if decide (v = V10) then inl e_unsupportedVersion
            else
              match get_heart_beat f with
              | inl e => inl e
              | inr (cx, cy) =>
                  let mn := as_milliseconds (cfg_heart_beat c) max_heart_beat in
                  let cx' := raise_min mn cx in
                  let cy' := raise_min mn cy in
                  inr (mkSconnect v (cy' * ms)%Z
                        (mkFrame CONNECTED [(h_version, v); (h_server, lit "stompd/x.y.z");
                                            (h_heart_beat, heart_beat_text cy' cx')] []))
              end
        end
  end.
