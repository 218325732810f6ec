(** Readers and the frames they returned, in memory.  frame.Reader (frame/
    reader.go) over bufio.Reader with the buffer as an array, fresh arrays
    where Go allocates, and Go strings as parts of byte arrays, because
    bytesToString (frame/encode.go:24-27) turns a byte slice into a string
    without copying it.  Beside the reader a program may write into the bodies
    of the frames it was given (they are its byte slices).

    Assumptions about Go that are not in /repo: bufio.Reader as in BufioModel,
    here with its array operations; make, append into a new array, and
    string(b) allocate; strings.Replacer.Replace returns its argument itself
    or a copy when there is nothing to replace ([al] decides which).

    What is simplified: the array of strings inside a Header is a value here
    (HeapModel has its aliasing); after an error a reader is not used again
    (conn.go:293, server/client/conn.go:129-142). *)
From stdpp Require Import gmap.
From Verif Require Import GoBase HeaderModel FrameModel BufioModel.

(** Memory: byte arrays; an address is a position. *)
Notation mem := (list str) (only parsing).
(** A byte slice, or a string. *)
Record ref := mkRef { f_arr : nat; f_off : nat; f_len : nat }.
Definition array (m : mem) (a : nat) : str := default [] (m !! a).
Definition deref (m : mem) (r : ref) : str := take (f_len r) (drop (f_off r) (array m (f_arr r))).
(** copy(a[off:], s), where s fits. *)
Definition poke (m : mem) (a off : nat) (s : str) : mem := alter (fun x => take off x ++ s ++ drop (off + length s) x) a m.
(** A new array. *)
Definition alloc (m : mem) (s : str) : mem * ref := (m ++ [s], mkRef (length m) 0 (length s)).

(** bufio.Reader: buf (its array and size), r, w, and what the connection will
    return. *)
Record mrd := mkMrd { b_arr : nat; b_cap : nat; b_r : nat; b_w : nat; b_net : list str }.
Definition buffered (m : mem) (b : mrd) : str := deref m (mkRef (b_arr b) (b_r b) (b_w b - b_r b)).

(** fill: slide, then read into the free part. *)
Definition m_fill (m : mem) (b : mrd) : mem * option mrd :=
  let s := buffered m b in
  let m1 := poke m (b_arr b) 0 s in
  match net_read (b_cap b - length s) (b_net b) with
  | None => (m1, None)
  | Some (x, net) => (poke m1 (b_arr b) (length s) x, Some (mkMrd (b_arr b) (b_cap b) 0 (length s + length x) net))
  end.
(** ReadSlice: the slice is a part of the buffer. *)
Inductive ms_res := MsFound (r : ref) (b : mrd) | MsFull (r : ref) (b : mrd) | MsErr | MsFuel.
Fixpoint m_read_slice (fuel : nat) (d : ascii) (m : mem) (b : mrd) : mem * ms_res :=
  match fuel with
  | O => (m, MsFuel)
  | S k =>
      match cut_after d (buffered m b) with
      | Some (line, _) => (m, MsFound (mkRef (b_arr b) (b_r b) (length line)) (mkMrd (b_arr b) (b_cap b) (b_r b + length line) (b_w b) (b_net b)))
      | None =>
          if decide (b_cap b <= b_w b - b_r b) then (m, MsFull (mkRef (b_arr b) (b_r b) (b_w b - b_r b)) (mkMrd (b_arr b) (b_cap b) (b_w b) (b_w b) (b_net b)))
          else match m_fill m b with
               | (m1, None) => (m1, MsErr)
               | (m1, Some b1) => m_read_slice k d m1 b1
               end
      end
  end.
(** ReadBytes: full buffers are copied, and everything is copied together in
    the end. *)
Inductive mb_res := MbOk (r : ref) (b : mrd) | MbErr | MbFuel.
Fixpoint m_read_bytes (fuel : nat) (d : ascii) (frags : list ref) (m : mem) (b : mrd) : mem * mb_res :=
  match fuel with
  | O => (m, MbFuel)
  | S k =>
      match m_read_slice (S (b_cap b)) d m b with
      | (m1, MsFound r b1) => let '(m2, r2) := alloc m1 (concat (deref m1 <$> frags) ++ deref m1 r) in (m2, MbOk r2 b1)
      | (m1, MsFull r b1) => let '(m2, r2) := alloc m1 (deref m1 r) in m_read_bytes k d (frags ++ [r2]) m2 b1
      | (m1, MsErr) => (m1, MbErr)
      | (m1, MsFuel) => (m1, MbFuel)
      end
  end.
(** Read(a[off:off+want]), want > 0: how many bytes. *)
Definition m_buf_read (a off : nat) (want : N) (m : mem) (b : mrd) : mem * option (nat * mrd) :=
  match buffered m b with
  | [] =>
      if decide (N.of_nat (b_cap b) <= want)%N then
        match b_net b with
        | [] => (m, None)
        | c :: _ =>
            match net_read (upto want c) (b_net b) with
            | None => (m, None)
            | Some (x, net) => (poke m a off x, Some (length x, mkMrd (b_arr b) (b_cap b) (b_r b) (b_w b) net))
            end
        end
      else
        match net_read (b_cap b) (b_net b) with
        | None => (m, None)
        | Some (x, net) =>
            let m1 := poke m (b_arr b) 0 x in
            let k := upto want x in
            (poke m1 a off (take k x), Some (k, mkMrd (b_arr b) (b_cap b) k (length x) net))
        end
  | s => let k := upto want s in (poke m a off (take k s), Some (k, mkMrd (b_arr b) (b_cap b) (b_r b + k) (b_w b) (b_net b)))
  end.
(** ReadByte. *)
Definition m_read_byte (m : mem) (b : mrd) : mem * option (ascii * mrd) :=
  let next m b := match buffered m b with
                  | c :: _ => Some (c, mkMrd (b_arr b) (b_cap b) (S (b_r b)) (b_w b) (b_net b))
                  | [] => None
                  end in
  match buffered m b with
  | _ :: _ => (m, next m b)
  | [] => match m_fill m b with
          | (m1, Some b1) => (m1, next m1 b1)
          | (m1, None) => (m1, None)
          end
  end.

(** A frame whose strings and body are parts of arrays. *)
Record mframe := mkMframe { m_cmd : ref; m_hdr : list (ref * ref); m_body : ref }.
Definition look (m : mem) (f : mframe) : frame :=
  mkFrame (deref m (m_cmd f)) ((fun kv => (deref m kv.1, deref m kv.2)) <$> m_hdr f) (deref m (m_body f)).

Section reading.
  Context (al : nat -> bool).

  (** frame/reader.go:143-157 (readLine): cut off in place. *)
  Inductive ml_res := MlOk (r : ref) (b : mrd) | MlErr | MlPanic | MlFuel.
  Definition m_read_line (fuel : nat) (m : mem) (b : mrd) : mem * ml_res :=
    match m_read_bytes fuel LF [] m b with
    | (m1, MbErr) => (m1, MlErr)
    | (m1, MbFuel) => (m1, MlFuel)
    | (m1, MbOk r b1) => match strip_eol (deref m1 r) with
                         | None => (m1, MlPanic)
                         | Some l => (m1, MlOk (mkRef (f_arr r) (f_off r) (length l)) b1)
                         end
    end.
  (** frame/encode.go:29-34 (unencodeValue). *)
  Definition m_unencode (m : mem) (r : ref) : mem * ref :=
    let s := unencode_value (deref m r) in
    if al (length m) && bool_decide (s = deref m r) then (m, r) else alloc m s.
  (** frame/reader.go:75-104. *)
  Inductive mh_res := MhOk (h : list (ref * ref)) (b : mrd) | MhError (e : rerr) | MhPanic | MhFuel.
  Fixpoint m_read_headers (fuel fuel' : nat) (m : mem) (b : mrd) (acc : list (ref * ref)) : mem * mh_res :=
    match fuel with
    | O => (m, MhFuel)
    | S k =>
        match m_read_line fuel' m b with
        | (m1, MlErr) => (m1, MhError EIO)
        | (m1, MlPanic) => (m1, MhPanic)
        | (m1, MlFuel) => (m1, MhFuel)
        | (m1, MlOk r b1) =>
            if decide (f_len r = 0) then (m1, MhOk acc b1)
            else match index_byte COLON (deref m1 r) with
                 | None | Some 0 => (m1, MhError EInvalidFormat)
                 | Some i =>
                     let '(m2, k1) := m_unencode m1 (mkRef (f_arr r) (f_off r) i) in
                     let '(m3, v1) := m_unencode m2 (mkRef (f_arr r) (f_off r + (i + 1)) (f_len r - (i + 1))) in
                     m_read_headers k fuel' m3 b1 (acc ++ [(k1, v1)])
                 end
        end
    end.
  (** frame/reader.go:113-119: the loop into the body's array a. *)
  Inductive mo_res := MoOk (b : mrd) | MoErr | MoFuel.
  Fixpoint m_body_loop (fuel : nat) (a off : nat) (want : N) (m : mem) (b : mrd) : mem * mo_res :=
    match fuel with
    | O => (m, MoFuel)
    | S k =>
        if decide (want = 0%N) then (m, MoOk b)
        else match m_buf_read a off want m b with
             | (m1, None) => (m1, MoErr)
             | (m1, Some (n, b1)) => m_body_loop k a (off + n) (want - N.of_nat n)%N m1 b1
             end
    end.
  (** Outcome of a Read. *)
  Inductive mres := MHeartbeat (b : mrd) | MFrame (f : mframe) (b : mrd) | MError (e : rerr) | MPanic | MFuel.
  (** frame/reader.go:107-136; make gives zero bytes. *)
  Definition m_read_body (fuel : nat) (cmd : ref) (h : list (ref * ref)) (m : mem) (b : mrd) : mem * mres :=
    match hd_content_length (f_hdr (look m (mkMframe cmd h cmd))) with
    | ClError => (m, MError EContentLength)
    | ClValue n =>
        let '(m1, body) := alloc m (replicate (N.to_nat n) NUL) in
        match m_body_loop fuel (f_arr body) 0 n m1 b with
        | (m2, MoErr) => (m2, MError EIO)
        | (m2, MoFuel) => (m2, MFuel)
        | (m2, MoOk b2) =>
            match m_read_byte m2 b2 with
            | (m3, None) => (m3, MError EIO)
            | (m3, Some (t, b3)) => (m3, if decide (t = NUL) then MFrame (mkMframe cmd h body) b3 else MError EInvalidFormat)
            end
        end
    | ClAbsent =>
        match m_read_bytes fuel NUL [] m b with
        | (m1, MbErr) => (m1, MError EIO)
        | (m1, MbFuel) => (m1, MFuel)
        | (m1, MbOk r b1) => (m1, if decide (f_len r = 0) then MPanic else MFrame (mkMframe cmd h (mkRef (f_arr r) (f_off r) (f_len r - 1))) b1)
        end
    end.
  (** frame/reader.go:47-140 (Reader.Read). *)
  Definition m_read (m : mem) (b : mrd) : mem * mres :=
    let fuel := S (S (length (buffered m b ++ concat (b_net b)))) in
    match m_read_line fuel m b with
    | (m1, MlErr) => (m1, MError EIO)
    | (m1, MlPanic) => (m1, MPanic)
    | (m1, MlFuel) => (m1, MFuel)
    | (m1, MlOk r b1) =>
        if decide (f_len r = 0) then (m1, MHeartbeat b1)
        else let '(m2, cmd) := alloc m1 (deref m1 r) in        (* string(commandSlice) *)
             if decide (deref m2 cmd ∈ valid_commands) then
               match m_read_headers fuel fuel m2 b1 [] with
               | (m3, MhError e) => (m3, MError e)
               | (m3, MhPanic) => (m3, MPanic)
               | (m3, MhFuel) => (m3, MFuel)
               | (m3, MhOk h b3) => m_read_body fuel cmd h m3 b3
               end
             else (m2, MError EInvalidCommand)
    end.
End reading.

(** Readers (None: it has failed) and frames of a program; ghosts: the bytes
    each reader was opened on and what its Reads have returned so far (a
    frame's number, or None for a heart-beat). *)
Record prog := mkProg { p_mem : mem; p_rds : list (option mrd); p_frames : list mframe; p_bytes : list str; p_got : list (list (option nat)) }.
Definition prog_init : prog := mkProg [] [] [] [] [].
Inductive pact :=
| POpen (cap : nat) (net : list str)          (* frame.NewReaderSize on a connection that will return net *)
| PRead (al : nat -> bool) (i : nat)          (* reader i: Read *)
| PPoke (k i : nat) (c : ascii).              (* f.Body[i] = c for frame k *)
Definition pstep (u : prog) (a : pact) : option prog :=
  match a with
  | POpen cap net =>
      if decide (0 < cap /\ [] ∉ net) then
        Some (mkProg (p_mem u ++ [replicate cap NUL]) (p_rds u ++ [Some (mkMrd (length (p_mem u)) cap 0 0 net)]) (p_frames u) (p_bytes u ++ [concat net]) (p_got u ++ [[]]))
      else None
  | PRead al i =>
      match p_rds u !! i with
      | Some (Some b) =>
          match m_read al (p_mem u) b with
          | (m, MHeartbeat b1) => Some (mkProg m (<[i := Some b1]> (p_rds u)) (p_frames u) (p_bytes u) (alter (fun l => l ++ [None]) i (p_got u)))
          | (m, MFrame f b1) => Some (mkProg m (<[i := Some b1]> (p_rds u)) (p_frames u ++ [f]) (p_bytes u) (alter (fun l => l ++ [Some (length (p_frames u))]) i (p_got u)))
          | (m, _) => Some (mkProg m (<[i := None]> (p_rds u)) (p_frames u) (p_bytes u) (p_got u))
          end
      | _ => None
      end
  | PPoke k i c =>
      match p_frames u !! k with
      | Some f => if decide (i < f_len (m_body f)) then Some (mkProg (poke (p_mem u) (f_arr (m_body f)) (f_off (m_body f) + i) [c]) (p_rds u) (p_frames u) (p_bytes u) (p_got u)) else None
      | None => None
      end
  end.
Fixpoint prun (u : prog) (l : list pact) : option prog :=
  match l with [] => Some u | a :: l => match pstep u a with Some u => prun u l | None => None end end.
