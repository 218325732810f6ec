(** Model of frame/frame.go, frame/command.go, frame/encode.go,
    frame/writer.go (frame -> bytes) and frame/reader.go (bytes -> frame).
    I/O buffering is in BufioModel; this file also gives the reader as a
    function of the whole byte stream, which BufioModel's reader is proved
    equal to. *)
From Verif Require Import GoBase HeaderModel.

(** frame/command.go:5-26 *)
Definition CONNECT := lit "CONNECT".
Definition STOMP := lit "STOMP".
Definition CONNECTED := lit "CONNECTED".
Definition SEND := lit "SEND".
Definition SUBSCRIBE := lit "SUBSCRIBE".
Definition UNSUBSCRIBE := lit "UNSUBSCRIBE".
Definition ACK := lit "ACK".
Definition NACK := lit "NACK".
Definition BEGIN := lit "BEGIN".
Definition COMMIT := lit "COMMIT".
Definition ABORT := lit "ABORT".
Definition DISCONNECT := lit "DISCONNECT".
Definition MESSAGE := lit "MESSAGE".
Definition RECEIPT := lit "RECEIPT".
Definition ERROR := lit "ERROR".

(** frame/frame.go:9-13.  A nil Header is modelled as the empty one: the
    writer prints both the same way (frame/writer.go:52) and the reader never
    produces nil.  A nil Body and an empty Body are identified. *)
Record frame := mkFrame { f_cmd : str; f_hdr : header; f_body : str }.

Global Instance frame_eq_dec : EqDecision frame.
Proof. solve_decision. Defined.

(** frame/frame.go:18-24 (New); [None] is the index-out-of-range panic on an
    odd number of header strings. *)
Fixpoint new_headers (l : list str) : option header :=
  match l with
  | [] => Some []
  | [_] => None
  | k :: v :: t => match new_headers t with Some h => Some ((k, v) :: h) | None => None end
  end.
Definition frame_new (cmd : str) (headers : list str) : option frame :=
  match new_headers headers with Some h => Some (mkFrame cmd h []) | None => None end.

(** frame/frame.go:28-38 (Clone), contents only; see HeapModel for aliasing. *)
Definition frame_clone (f : frame) : frame := mkFrame (f_cmd f) (f_hdr f) (f_body f).

(** frame/encode.go:9-14: a strings.Replacer whose old strings are single
    bytes substitutes byte by byte. *)
Definition enc_byte (c : ascii) : str :=
  if decide (c = BSLASH) then [BSLASH; BSLASH]
  else if decide (c = CR) then [BSLASH; ch_r]
  else if decide (c = LF) then [BSLASH; ch_n]
  else if decide (c = COLON) then [BSLASH; ch_c]
  else [c].
Definition encode_value (s : str) : str := concat (enc_byte <$> s).

(** frame/encode.go:15-20, 31-34: the generic strings.Replacer scans left to
    right; at each position the (unique) matching two-byte key is replaced and
    skipped, otherwise one byte is copied. *)
Fixpoint unencode_value (s : str) : str :=
  match s with
  | [] => []
  | a :: t =>
      if decide (a = BSLASH) then
        match t with
        | [] => [a]
        | b :: t' =>
            if decide (b = ch_r) then CR :: unencode_value t'
            else if decide (b = ch_n) then LF :: unencode_value t'
            else if decide (b = ch_c) then COLON :: unencode_value t'
            else if decide (b = BSLASH) then BSLASH :: unencode_value t'
            else a :: unencode_value t
        end
      else a :: unencode_value t
  end.

(** frame/writer.go:53-71: one header line. *)
Definition write_header (kv : str * str) : str :=
  encode_value (fst kv) ++ [COLON] ++ encode_value (snd kv) ++ [LF].

(** frame/writer.go:31-92: the bytes of one frame ([None] = nil frame, a
    heart-beat). *)
Definition write_frame (f : frame) : str :=
  f_cmd f ++ [LF] ++ concat (write_header <$> f_hdr f) ++ [LF] ++ f_body f ++ [NUL].
Definition write_item (o : option frame) : str :=
  match o with None => [LF] | Some f => write_frame f end.

(** frame/reader.go:60-72: commands accepted by the reader. *)
Definition valid_commands : list str :=
  [CONNECT; STOMP; SEND; SUBSCRIBE; UNSUBSCRIBE; ACK; NACK; BEGIN;
   COMMIT; ABORT; DISCONNECT; CONNECTED; MESSAGE; RECEIPT; ERROR].

(** Errors a Read can return. [EIO] is whatever error the connection gave
    (io.EOF included). *)
Inductive rerr := EInvalidCommand | EInvalidFormat | EContentLength | EIO.

(** Outcome of one Read on a byte stream with the unread rest; [RPanic] is a
    run-time panic and [RFuel] is "the model ran out of fuel" (both proved
    impossible). *)
Inductive rres :=
| RHeartbeat (rest : str)
| RFrame (f : frame) (rest : str)
| RError (e : rerr)
| RPanic
| RFuel.

(** bufio ReadBytes on a whole stream: the prefix up to and including the
    first delimiter, and the rest; [None] = the stream ended first. *)
Fixpoint cut_after (d : ascii) (s : str) : option (str * str) :=
  match s with
  | [] => None
  | c :: t => if decide (c = d) then Some ([c], t)
              else match cut_after d t with
                   | Some (a, b) => Some (c :: a, b)
                   | None => None
                   end
  end.

(** frame/reader.go:149-154: strip CR LF or LF; [None] is a slice panic. *)
Definition strip_eol (line : str) : option str :=
  if has_suffix line [CR; LF] then go_slice 0 (length line - 2) line
  else if has_suffix line [LF] then go_slice 0 (length line - 1) line
  else Some line.

(** frame/reader.go:86-97: split a header line at the first colon. Outer
    [None] is a slice panic, inner [None] is ErrInvalidFrameFormat. *)
Definition parse_header_line (l : str) : option (option (str * str)) :=
  match index_byte COLON l with
  | None => Some None
  | Some 0 => Some None
  | Some i =>
      match go_slice 0 i l, go_slice (i + 1) (length l) l with
      | Some rn, Some rv => Some (Some (unencode_value rn, unencode_value rv))
      | _, _ => None
      end
  end.

(** frame/reader.go:75-104: the header loop. *)
Inductive hres := HOk (h : header) (rest : str) | HError (e : rerr) | HPanic | HFuel.
Fixpoint read_headers (fuel : nat) (s : str) (acc : header) : hres :=
  match fuel with
  | O => HFuel
  | S k =>
      match cut_after LF s with
      | None => HError EIO
      | Some (raw, rest) =>
          match strip_eol raw with
          | None => HPanic
          | Some [] => HOk acc rest
          | Some l =>
              match parse_header_line l with
              | None => HPanic
              | Some None => HError EInvalidFormat
              | Some (Some kv) => read_headers k rest (acc ++ [kv])
              end
          end
      end
  end.

(** frame/reader.go:107-136: the body. *)
Definition read_body (cmd : str) (h : header) (s : str) : rres :=
  match hd_content_length h with
  | ClError => RError EContentLength
  | ClValue n =>
      if (N.of_nat (length s) <? n)%N then RError EIO
      else
        let b := take (N.to_nat n) s in
        match drop (N.to_nat n) s with
        | [] => RError EIO
        | t :: rest => if decide (t = NUL) then RFrame (mkFrame cmd h b) rest
                       else RError EInvalidFormat
        end
  | ClAbsent =>
      match cut_after NUL s with
      | None => RError EIO
      | Some (raw, rest) =>
          match go_slice 0 (length raw - 1) raw with
          | None => RPanic
          | Some b => RFrame (mkFrame cmd h b) rest
          end
      end
  end.

(** frame/reader.go:47-140 (Reader.Read) on a whole stream. *)
Definition read_stream (s : str) : rres :=
  match cut_after LF s with
  | None => RError EIO
  | Some (raw, rest) =>
      match strip_eol raw with
      | None => RPanic
      | Some [] => RHeartbeat rest
      | Some cmd =>
          if decide (cmd ∈ valid_commands) then
            match read_headers (S (length rest)) rest [] with
            | HError e => RError e
            | HPanic => RPanic
            | HFuel => RFuel
            | HOk h rest' => read_body cmd h rest'
            end
          else RError EInvalidCommand
      end
  end.

(** Repeated Read calls until the first error: everything a reading program
    sees. [None] in the list is a heart-beat (nil frame). *)
Fixpoint read_all (fuel : nat) (s : str) : list (option frame) * rres :=
  match fuel with
  | O => ([], RFuel)
  | S k =>
      match read_stream s with
      | RHeartbeat rest => let '(l, r) := read_all k rest in (None :: l, r)
      | RFrame f rest => let '(l, r) := read_all k rest in (Some f :: l, r)
      | r => ([], r)
      end
  end.
