(** Dial, DialWithContext, Connect and ConnectWithContext (conn.go:65-244) as
    programs that operate on a network connection, and the options that do not
    influence the handshake (conn_options.go:254-351).

    Assumptions about Go that are not in /repo: the algorithm of
    net.SplitHostPort, transcribed from the standard library.

    What is simplified: reader.Read and writer.Write are one operation each
    (BufioModel says what they do to the connection); durations and sizes are
    integers; a callback is represented by a number; the Logger and
    HeartBeatGracePeriodMultiplier options do nothing here. *)
From stdpp Require Import gmap.
From Verif Require Import GoBase HeaderModel FrameModel NegotiationModel ClientApiModel ClientModel.

(** net.SplitHostPort; errors are not told apart. *)
Definition index_of (c : ascii) (s : str) : option nat := fst <$> list_find (eq c) s.
Definition last_index_of (c : ascii) (s : str) : option nat := (fun i => length s - S i) <$> index_of c (reverse s).
Definition LBRACK : ascii := "["%char.
Definition RBRACK : ascii := "]"%char.
Definition split_host_port (s : str) : option (str * str) :=
  match last_index_of COLON s with
  | None => None                                       (* missing port *)
  | Some i =>
    if decide (head s = Some LBRACK) then
      match index_of RBRACK s with
      | None => None                                   (* missing ']' *)
      | Some e =>
        if decide (S e = i) then
          match index_of LBRACK (drop 1 s), index_of RBRACK (drop (S e) s) with
          | None, None => Some (drop 1 (take e s), drop (S i) s)
          | _, _ => None                               (* unexpected bracket *)
          end
        else None                                      (* missing port, too many colons *)
      end
    else
      match index_of COLON (take i s), index_of LBRACK s, index_of RBRACK s with
      | None, None, None => Some (take i s, drop (S i) s)
      | _, _, _ => None                                (* too many colons, unexpected bracket *)
      end
  end.

(** Options.  [DHand]: an option of the handshake. *)
Inductive dopt :=
| DHand (o : copt)
| DMsgSendTimeout (d : Z) | DRcvReceiptTimeout (d : Z) | DDisconnectReceiptTimeout (d : Z) | DUnsubscribeReceiptTimeout (d : Z)
| DReadChannelCapacity (n : Z) | DWriteChannelCapacity (n : Z) | DReadBufferSize (n : Z) | DWriteBufferSize (n : Z)
| DResponseHeaders (callback : option nat) | DWithStats | DLogger | DGracePeriod.
Record dset := mkDset {
  e_hand : copts; e_msg : Z; e_rcv : Z; e_disc : Z; e_unsub : Z; e_rcap : Z; e_wcap : Z; e_rbuf : Z; e_wbuf : Z; e_callback : option nat; e_stats : bool }.
(** conn_options.go:35-46, conn.go:18-30. *)
Definition second : Z := (1000 * ms)%Z.
Definition default_dset : dset := mkDset default_copts (10 * second) (30 * second) (30 * second) (30 * second) 0 0 0 0 None false.
(** conn_options.go:206-351; [None]: the option returned an error. *)
Definition apply_dopt (s : dset) (o : dopt) : option dset :=
  match o with
  | DHand o => match apply_copt (e_hand s) o with
               | Some h => Some (mkDset h (e_msg s) (e_rcv s) (e_disc s) (e_unsub s) (e_rcap s) (e_wcap s) (e_rbuf s) (e_wbuf s) (e_callback s) (e_stats s))
               | None => None
               end
  | DMsgSendTimeout d => Some (mkDset (e_hand s) d (e_rcv s) (e_disc s) (e_unsub s) (e_rcap s) (e_wcap s) (e_rbuf s) (e_wbuf s) (e_callback s) (e_stats s))
  | DRcvReceiptTimeout d => Some (mkDset (e_hand s) (e_msg s) d (e_disc s) (e_unsub s) (e_rcap s) (e_wcap s) (e_rbuf s) (e_wbuf s) (e_callback s) (e_stats s))
  | DDisconnectReceiptTimeout d => Some (mkDset (e_hand s) (e_msg s) (e_rcv s) d (e_unsub s) (e_rcap s) (e_wcap s) (e_rbuf s) (e_wbuf s) (e_callback s) (e_stats s))
  | DUnsubscribeReceiptTimeout d => Some (mkDset (e_hand s) (e_msg s) (e_rcv s) (e_disc s) d (e_rcap s) (e_wcap s) (e_rbuf s) (e_wbuf s) (e_callback s) (e_stats s))
  | DReadChannelCapacity n => Some (mkDset (e_hand s) (e_msg s) (e_rcv s) (e_disc s) (e_unsub s) n (e_wcap s) (e_rbuf s) (e_wbuf s) (e_callback s) (e_stats s))
  | DWriteChannelCapacity n => Some (mkDset (e_hand s) (e_msg s) (e_rcv s) (e_disc s) (e_unsub s) (e_rcap s) n (e_rbuf s) (e_wbuf s) (e_callback s) (e_stats s))
  | DReadBufferSize n => Some (mkDset (e_hand s) (e_msg s) (e_rcv s) (e_disc s) (e_unsub s) (e_rcap s) (e_wcap s) n (e_wbuf s) (e_callback s) (e_stats s))
  | DWriteBufferSize n => Some (mkDset (e_hand s) (e_msg s) (e_rcv s) (e_disc s) (e_unsub s) (e_rcap s) (e_wcap s) (e_rbuf s) n (e_callback s) (e_stats s))
  | DResponseHeaders c => Some (mkDset (e_hand s) (e_msg s) (e_rcv s) (e_disc s) (e_unsub s) (e_rcap s) (e_wcap s) (e_rbuf s) (e_wbuf s) c (e_stats s))
  | DWithStats => Some (mkDset (e_hand s) (e_msg s) (e_rcv s) (e_disc s) (e_unsub s) (e_rcap s) (e_wcap s) (e_rbuf s) (e_wbuf s) (e_callback s) true)
  | DLogger | DGracePeriod => Some s
  end.
(** conn_options.go:55-63. *)
Fixpoint apply_dopts (s : dset) (l : list dopt) : option dset :=
  match l with [] => Some s | o :: l => match apply_dopt s o with Some s => apply_dopts s l | None => None end end.
(** The size bufio.NewReaderSize and NewWriterSize give a buffer for which n
    was asked for (frame/reader.go:33-41, frame/writer.go:22-28): the reader at
    least 16 bytes, the writer the default 4096 if n is not positive. *)
Definition reader_size (n : Z) : Z := Z.max 16 n.
Definition writer_size (n : Z) : Z := if (0 <? n)%Z then n else 4096%Z.
(** conn.go:101-102, 116-138: the sizes of the buffers and the channels; the writer is
    given the size of the reader's buffer. *)
Definition rbuf_of (s : dset) : Z := if (0 <? e_rbuf s)%Z then reader_size (e_rbuf s) else 4096%Z.
Definition wbuf_of (s : dset) : Z := if (0 <? e_wbuf s)%Z then writer_size (e_rbuf s) else 4096%Z.
Definition cap_of (n : Z) : nat := if (0 <? n)%Z then Z.to_nat n else 20.
Definition positive (d : Z) : bool := (0 <? d)%Z.
(** conn.go:231-234, 240-241: what readLoop and processLoop run with.  Only a
    zero timeout makes Unsubscribe wait without one (subscription.go:119); a
    negative one expires at once. *)
Definition client_cfg (s : dset) (c : cconn) : ccfg :=
  mkCcfg (cap_of (e_rcap s)) (cap_of (e_wcap s)) (positive (e_msg s)) (positive (e_rcv s)) (positive (e_disc s)) (negb (e_unsub s =? 0)%Z) (positive (cc_read c)) (positive (cc_write c)).

(** Programs that operate on a network connection. [IDeadline]:
    SetReadDeadline, [None] is the zero time. [IStart]: readLoop and
    processLoop are started. *)
Inductive io (A : Type) :=
| IRet (a : A)
| IDial (k : bool -> io A)
| IAddr (k : str -> io A)
| IWrite (b : str) (k : bool -> io A)
| IDeadline (d : option Z) (k : io A)
| IRead (k : rres -> io A)
| IClose (k : io A)
| ICallback (c : nat) (h : header) (k : io A)
| IStart (cfg : ccfg) (k : io A).
Arguments IRet {A} _.
Arguments IDial {A} _.
Arguments IAddr {A} _.
Arguments IWrite {A} _ _.
Arguments IDeadline {A} _ _.
Arguments IRead {A} _.
Arguments IClose {A} _.
Arguments ICallback {A} _ _ _.
Arguments IStart {A} _ _.

(** Errors of Dial and Connect: from the network, an option, an address that
    is not host:port, the reply. *)
Inductive derr := EDialFailed | EBadAddress | EBadOption | EWriteFailed | EReply (r : NegotiationModel.cres).
(** A connection: what it was told, the configuration of its goroutines, the
    sizes of its buffers, whether it counts. *)
Record dconn := mkDconn { d_conn : cconn; d_cfg : ccfg; d_rbuf : Z; d_wbuf : Z; d_stats : bool }.

(** conn.go:154-244: from the CONNECT frame on. [deadline]: of the context, if
    it has one; [isnet]: conn is a net.Conn. *)
Definition shake (deadline : option Z) (isnet : bool) (s : dset) (o : copts) : io (derr + dconn) :=
  IWrite (write_frame (connect_frame o)) (fun ok =>
    if negb ok then IRet (inl EWriteFailed) else
    let limited := if isnet then deadline else None in
    let read := IRead (fun r =>
      let answer := match client_connect o r with
        | CConnected c =>
          let finish := IStart (client_cfg s c) (IRet (inr (mkDconn c (client_cfg s c) (rbuf_of s) (wbuf_of s) (e_stats s)))) in
          match e_callback s, r with Some n, RFrame f _ => ICallback n (f_hdr f) finish | _, _ => finish end
        | e => IRet (inl (EReply e))
        end in
      match r with
      | RError _ | RPanic | RFuel => answer
      | _ => match limited with Some _ => IDeadline None answer | None => answer end
      end) in
    match limited with Some d => IDeadline (Some d) read | None => read end).
(** conn.go:100-152 (ConnectWithContext); Connect (conn.go:96-98) has a
    context without deadline. *)
Definition connect (deadline : option Z) (isnet : bool) (opts : list dopt) : io (derr + dconn) :=
  match apply_dopts default_dset opts with
  | None => IRet (inl EBadOption)
  | Some s =>
    let h := e_hand s in
    let vs := match o_versions h with [] => [V10; V11; V12] | l => l end in
    let with_host host := mkCopts (o_cmd h) host (o_read h) (o_write h) (o_hberr h) (o_login h) (o_passcode h) vs (o_header h) in
    let use host := shake deadline isnet s (with_host (if decide (host = []) then lit "default" else host)) in
    if decide (o_host h = []) then
      if isnet then IAddr (fun a => use (match split_host_port a with Some (host, _) => host | None => [] end)) else use []
    else use (o_host h)
  end.
(** conn.go:73-90 (DialWithContext); the context does not reach net.Dial. *)
Definition dial (deadline : option Z) (opts : list dopt) : io (derr + dconn) :=
  IDial (fun ok =>
    if negb ok then IRet (inl EDialFailed) else
    IAddr (fun a =>
      match split_host_port a with
      | None => IClose (IRet (inl EBadAddress))
      | Some (host, _) => connect deadline true (DHand (OptHost host) :: opts)
      end)).

(** What happens when a program runs: the operations with their outcomes. *)
Inductive ioev :=
| VDial (ok : bool) | VAddr (a : str) | VWrite (b : str) (ok : bool) | VDeadline (d : option Z) | VRead (r : rres) | VClose | VCallback (c : nat) (h : header) | VStart (cfg : ccfg).
(** [runs p t p']: p can do t and then p' is left. *)
Inductive runs {A} : io A -> list ioev -> io A -> Prop :=
| rn_here p : runs p [] p
| rn_dial k ok t p : runs (k ok) t p -> runs (IDial k) (VDial ok :: t) p
| rn_addr k a t p : runs (k a) t p -> runs (IAddr k) (VAddr a :: t) p
| rn_write b k ok t p : runs (k ok) t p -> runs (IWrite b k) (VWrite b ok :: t) p
| rn_deadline d k t p : runs k t p -> runs (IDeadline d k) (VDeadline d :: t) p
| rn_read k r t p : runs (k r) t p -> runs (IRead k) (VRead r :: t) p
| rn_close k t p : runs k t p -> runs (IClose k) (VClose :: t) p
| rn_callback c h k t p : runs k t p -> runs (ICallback c h k) (VCallback c h :: t) p
| rn_start cfg k t p : runs k t p -> runs (IStart cfg k) (VStart cfg :: t) p.
