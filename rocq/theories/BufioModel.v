(** frame.Reader and frame.Writer over Go's bufio, with an explicit buffer
    capacity, an arbitrary packetisation of the input and an arbitrary failure
    pattern of the output connection.

    Assumptions about Go that are not in /repo: the algorithms of
    bufio.Reader (fill, ReadSlice, ReadBytes, Read, ReadByte), bufio.Writer
    (Write, WriteString, Flush) and strings.Replacer.WriteString, transcribed
    from the standard library; a connection Read returns at least one byte or
    an error; a connection Write that reports fewer bytes than given also
    reports an error (io.Writer contract). *)
From Verif Require Import GoBase HeaderModel FrameModel.

(* ================= input side ================= *)

(** bufio.Reader: buffered bytes and what the connection will return from now
    on (one list element per read call it could satisfy; a longer element is
    taken in pieces).  After the last element the connection reports an
    error (io.EOF, timeout, reset: any). *)
Record bufr := mkBufr { r_buf : str; r_net : list str }.

Definition flat (st : bufr) : str := r_buf st ++ concat (r_net st).

(** One connection read into free space of size [room]: bytes and new state of
    the network; [None] = error. *)
Definition net_read (room : nat) (net : list str) : option (str * list str) :=
  match net with
  | [] => None
  | c :: net' => Some (take room c, match drop room c with [] => net' | d => d :: net' end)
  end.

(** bufio.Reader.fill, called only when there is free space. *)
Definition fill (cap : nat) (st : bufr) : option bufr :=
  match net_read (cap - length (r_buf st)) (r_net st) with
  | None => None
  | Some (b, net') => Some (mkBufr (r_buf st ++ b) net')
  end.

(** bufio.Reader.ReadSlice. *)
Inductive slice_res :=
| SlFound (line : str) (st : bufr)     (* delimiter found *)
| SlFull (frag : str) (st : bufr)      (* ErrBufferFull *)
| SlErr (st : bufr)                    (* connection error *)
| SlFuel.
Fixpoint read_slice (fuel : nat) (cap : nat) (d : ascii) (st : bufr) : slice_res :=
  match fuel with
  | O => SlFuel
  | S k =>
      match cut_after d (r_buf st) with
      | Some (line, rest) => SlFound line (mkBufr rest (r_net st))
      | None =>
          if decide (cap <= length (r_buf st)) then SlFull (r_buf st) (mkBufr [] (r_net st))
          else match fill cap st with
               | None => SlErr (mkBufr [] (r_net st))
               | Some st' => read_slice k cap d st'
               end
      end
  end.

(** bufio.Reader.ReadBytes (collectFragments). *)
Inductive bytes_res := ByOk (line : str) (st : bufr) | ByErr | ByFuel.
Fixpoint read_bytes (fuel : nat) (cap : nat) (d : ascii) (acc : str) (st : bufr) : bytes_res :=
  match fuel with
  | O => ByFuel
  | S k =>
      match read_slice (S cap) cap d st with
      | SlFound line st' => ByOk (acc ++ line) st'
      | SlFull frag st' => read_bytes k cap d (acc ++ frag) st'
      | SlErr _ => ByErr
      | SlFuel => ByFuel
      end
  end.

(** bufio.Reader.Read(p) with len(p) = [want] > 0: at most one connection
    read, directly into p when p is at least as large as the buffer. *)
Definition upto (want : N) (b : str) : nat := N.to_nat (N.min want (N.of_nat (length b))).
Definition buf_read (cap : nat) (want : N) (st : bufr) : option (str * bufr) :=
  match r_buf st with
  | [] =>
      if decide (N.of_nat cap <= want)%N then
        match r_net st with
        | [] => None
        | c :: _ =>
            match net_read (upto want c) (r_net st) with
            | None => None
            | Some (b, net') => Some (b, mkBufr [] net')
            end
        end
      else
        match net_read cap (r_net st) with
        | None => None
        | Some (b, net') => Some (take (upto want b) b, mkBufr (drop (upto want b) b) net')
        end
  | b => Some (take (upto want b) b, mkBufr (drop (upto want b) b) (r_net st))
  end.

(** bufio.Reader.ReadByte. *)
Definition buf_read_byte (cap : nat) (st : bufr) : option (ascii * bufr) :=
  match r_buf st with
  | c :: b => Some (c, mkBufr b (r_net st))
  | [] => match fill cap st with
          | Some (mkBufr (c :: b) net') => Some (c, mkBufr b net')
          | _ => None
          end
  end.

(** frame/reader.go:113-119: the loop that fills the body. [want] bytes are
    still missing. *)
Inductive body_res := BoOk (body : str) (st : bufr) | BoErr | BoFuel.
Fixpoint body_loop (fuel cap : nat) (want : N) (acc : str) (st : bufr) : body_res :=
  match fuel with
  | O => BoFuel
  | S k =>
      if decide (want = 0%N) then BoOk acc st
      else match buf_read cap want st with
           | None => BoErr
           | Some (b, st') => body_loop k cap (want - N.of_nat (length b))%N (acc ++ b) st'
           end
  end.

(** Outcome of one Reader.Read with the reader's new state. *)
Inductive bres :=
| BHeartbeat (st : bufr)
| BFrame (f : frame) (st : bufr)
| BError (e : rerr)
| BPanic
| BFuel.

(** frame/reader.go:143-157 (readLine) *)
Inductive line_res := LiOk (line : str) (st : bufr) | LiErr | LiPanic | LiFuel.
Definition read_line (fuel cap : nat) (st : bufr) : line_res :=
  match read_bytes fuel cap LF [] st with
  | ByErr => LiErr
  | ByFuel => LiFuel
  | ByOk raw st' => match strip_eol raw with
                    | None => LiPanic
                    | Some l => LiOk l st'
                    end
  end.

(** frame/reader.go:75-104 *)
Inductive bhres := BHOk (h : header) (st : bufr) | BHError (e : rerr) | BHPanic | BHFuel.
Fixpoint bread_headers (fuel fuel' cap : nat) (st : bufr) (acc : header) : bhres :=
  match fuel with
  | O => BHFuel
  | S k =>
      match read_line fuel' cap st with
      | LiErr => BHError EIO
      | LiPanic => BHPanic
      | LiFuel => BHFuel
      | LiOk [] st' => BHOk acc st'
      | LiOk l st' =>
          match parse_header_line l with
          | None => BHPanic
          | Some None => BHError EInvalidFormat
          | Some (Some kv) => bread_headers k fuel' cap st' (acc ++ [kv])
          end
      end
  end.

(** frame/reader.go:107-136.  The content length is compared with the number
    of bytes actually available only through the read loop. *)
Definition bread_body (fuel cap : nat) (cmd : str) (h : header) (st : bufr) : bres :=
  match hd_content_length h with
  | ClError => BError EContentLength
  | ClValue n =>
      match body_loop fuel cap n [] st with
      | BoErr => BError EIO
      | BoFuel => BFuel
      | BoOk b st' =>
          match buf_read_byte cap st' with
          | None => BError EIO
          | Some (t, st'') => if decide (t = NUL) then BFrame (mkFrame cmd h b) st''
                              else BError EInvalidFormat
          end
      end
  | ClAbsent =>
      match read_bytes fuel cap NUL [] st with
      | ByErr => BError EIO
      | ByFuel => BFuel
      | ByOk raw st' =>
          match go_slice 0 (length raw - 1) raw with
          | None => BPanic
          | Some b => BFrame (mkFrame cmd h b) st'
          end
      end
  end.

(** frame/reader.go:47-140 (Reader.Read) *)
Definition bread (cap : nat) (st : bufr) : bres :=
  let fuel := S (S (length (flat st))) in
  match read_line fuel cap st with
  | LiErr => BError EIO
  | LiPanic => BPanic
  | LiFuel => BFuel
  | LiOk [] st' => BHeartbeat st'
  | LiOk cmd st' =>
      if decide (cmd ∈ valid_commands) then
        match bread_headers fuel fuel cap st' [] with
        | BHError e => BError e
        | BHPanic => BPanic
        | BHFuel => BFuel
        | BHOk h st'' => bread_body fuel cap cmd h st''
        end
      else BError EInvalidCommand
  end.

(** Repeated Read calls until the first error. *)
Fixpoint bread_all (fuel cap : nat) (st : bufr) : list (option frame) * bres :=
  match fuel with
  | O => ([], BFuel)
  | S k =>
      match bread cap st with
      | BHeartbeat st' => let '(l, r) := bread_all k cap st' in (None :: l, r)
      | BFrame f st' => let '(l, r) := bread_all k cap st' in (Some f :: l, r)
      | r => ([], r)
      end
  end.

(* ================= output side ================= *)

(** One entry per connection Write call: (number of bytes it accepts, whether
    it reports an error).  Accepting fewer bytes than given always reports an
    error.  When the script runs out, writes succeed. *)
Definition script := list (N * bool).

Record bufw := mkBufw { w_buf : str; w_err : bool; w_wire : str; w_script : script }.

(** The connection's Write(p): bytes written and error flag. *)
Definition sink_write (p : str) (w : bufw) : nat * bool * bufw :=
  match w_script w with
  | [] => (length p, false, mkBufw (w_buf w) (w_err w) (w_wire w ++ p) [])
  | (n, e) :: sc =>
      let k := N.to_nat (N.min n (N.of_nat (length p))) in
      (k, e || (k <? length p), mkBufw (w_buf w) (w_err w) (w_wire w ++ take k p) sc)
  end.

(** bufio.Writer.Flush *)
Definition bw_flush (w : bufw) : bufw :=
  if w_err w then w
  else match w_buf w with
       | [] => w
       | p => let '(k, e, w') := sink_write p w in
              if e then mkBufw (drop k p) true (w_wire w') (w_script w')
              else mkBufw [] false (w_wire w') (w_script w')
       end.

(** bufio.Writer.Write (direct = true) and WriteString (direct = false: never
    hands a large string straight to the connection).  [None] = fuel. *)
Fixpoint bw_write (fuel cap : nat) (direct : bool) (p : str) (w : bufw) : option bufw :=
  match fuel with
  | O => None
  | S k =>
      if w_err w then Some w
      else if decide (length p <= cap - length (w_buf w)) then
        Some (mkBufw (w_buf w ++ p) false (w_wire w) (w_script w))
      else if direct && bool_decide (w_buf w = []) then
        let '(n, e, w') := sink_write p w in
        bw_write k cap direct (drop n p) (mkBufw (w_buf w') e (w_wire w') (w_script w'))
      else
        let n := cap - length (w_buf w) in
        bw_write k cap direct (drop n p)
          (bw_flush (mkBufw (w_buf w ++ take n p) false (w_wire w) (w_script w)))
  end.

(** frame/encode.go:9-14 + strings.byteStringReplacer.WriteString: the runs of
    ordinary bytes are written as strings, each replacement as a byte slice. *)
Fixpoint value_pieces (run s : str) : list (bool * str) :=
  match s with
  | [] => match run with [] => [] | _ => [(false, run)] end
  | c :: t =>
      if decide (enc_byte c = [c]) then value_pieces (run ++ [c]) t
      else match run with [] => [] | _ => [(false, run)] end ++ (true, enc_byte c) :: value_pieces [] t
  end.

(** frame/writer.go:31-92: the sequence of calls on the bufio.Writer. *)
Definition item_pieces (o : option frame) : list (bool * str) :=
  match o with
  | None => [(true, [LF])]
  | Some f =>
      [(true, f_cmd f); (true, [LF])] ++
      concat ((fun kv => value_pieces [] (fst kv) ++ (true, [COLON]) ::
                         value_pieces [] (snd kv) ++ [(true, [LF])]) <$> f_hdr f) ++
      [(true, [LF])] ++
      (match f_body f with [] => [] | b => [(true, b)] end) ++
      [(true, [NUL])]
  end.

(** Calls are made until one reports an error. *)
Fixpoint write_pieces (cap : nat) (l : list (bool * str)) (w : bufw) : option bufw :=
  match l with
  | [] => Some w
  | (d, p) :: l' =>
      match bw_write (S (S (length p))) cap d p w with
      | None => None
      | Some w' => if w_err w' then Some w' else write_pieces cap l' w'
      end
  end.

(** frame/writer.go:31-100 (Writer.Write): new state and whether an error is
    returned; [None] = fuel (proved impossible). *)
Definition fw_write (cap : nat) (o : option frame) (w : bufw) : option (bool * bufw) :=
  match write_pieces cap (item_pieces o) w with
  | None => None
  | Some w' => if w_err w' then Some (true, w')
               else let w'' := bw_flush w' in Some (w_err w'', w'')
  end.

(** A whole session of Write calls, each result recorded together with the
    bytes the connection has accepted so far. *)
Fixpoint fw_session (cap : nat) (items : list (option frame)) (w : bufw) : option (list (bool * str)) :=
  match items with
  | [] => Some []
  | o :: items' =>
      match fw_write cap o w with
      | None => None
      | Some (e, w') => match fw_session cap items' w' with
                        | None => None
                        | Some l => Some ((e, w_wire w') :: l)
                        end
      end
  end.

Definition bufw_init (sc : script) : bufw := mkBufw [] false [] sc.
