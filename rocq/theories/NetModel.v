(** Everything together: one server (SystemModel) and any number of programs
    connected to it over byte streams.  A program is a client of this library
    (ClientModel, started by the handshake of NegotiationModel) or anything
    else that sends bytes.  Both sides use the codec of FrameModel.

    Simplifications, beyond those of the parts:
    - a stream delivers the bytes put into it, in order; it may stop doing so
      at any moment, which the two ends notice as a failed read or write;
    - a reader takes a whole frame at once, as soon as all of it is there
      (C02: how the bytes are split does not matter; C04: a part of a frame is
      never taken for one);
    - a failed write leaves some part of its bytes on the stream, and later
      writes of that writer fail (bufio.Writer keeps its error, C05);
    - a panic of the server or of a client has no successor state. *)
From stdpp Require Import gmap.
From Verif Require Import GoBase HeaderModel FrameModel NegotiationModel ClientApiModel ClientModel.
From Verif Require Import BrokerModel ServerConnModel ServerConnSpec SystemModel SystemSpec.

(** The program at the other end of a server connection. *)
Inductive peer :=
| PeerOther                                                     (* not this library *)
| PeerDialing (o : copts)                                       (* conn.go:164-172: waits for the reply *)
| PeerFailed (o : copts)                                        (* Connect has returned an error *)
| PeerClient (o : copts) (hello : frame) (k : ccfg) (y : cl).   (* connected; [hello]: the reply *)

(** A connection: bytes on their way to the server and from it, whether the
    server's writer still has no error, and the program. *)
Record link := mkLink { l_up : str; l_down : str; l_ok : bool; l_peer : peer }.
(** Connection c of the server is link c. *)
Record net := mkNet { x_sys : sys; x_links : list link }.
Definition net_init : net := mkNet sys_init [].

(** The bytes a write leaves on the stream: all, or the first k if it fails. *)
Definition on_wire (b : str) (w : bool) (k : nat) : str := if w then b else take k b.
(** What a step of the client writes (conn.go:333-341, 452-458), and whether
    that succeeds. *)
Definition client_writes (y : cl) (a : cact) : str * bool :=
  match a with
  | XTakeWrite w => match c_wch y with
                    | q :: _ => if local_only (q_frame q) then ([], true) else (write_frame (outgoing (q_frame q)), w)
                    | [] => ([], true)
                    end
  | XBeat w => (write_item None, w)
  | _ => ([], true)
  end.

(** What a step of the server wrote to connection c. *)
Definition wrote (n n' : sconn) : list wr := drop (length (written n)) (written n').
Definition wr_bytes (x : wr) : str := write_item (g_frame <$> fst x).
(** After a failed write the following ones fail. *)
Fixpoint sticky (ok : bool) (ws : list wr) : bool :=
  match ws with [] => true | x :: l => implb (snd x) ok && sticky (snd x) l end.
Definition server_bytes (ok : bool) (ws : list wr) (k : nat) : str :=
  concat (wr_bytes <$> filter (fun x => snd x = true) ws) ++
  (if ok then take k (concat (wr_bytes <$> filter (fun x => snd x = false) ws)) else []).
Definition server_ok (ok : bool) (ws : list wr) : bool := ok && forallb snd ws.

(** Moves: a program dials with these options ([Some k]: the write of its
    CONNECT frame fails after k bytes); another program connects, or sends
    bytes; the server's readLoop reads from the stream; another move of the
    server; Connect reads the reply, or fails otherwise; the client's readLoop
    reads; another move of the client.  [k]: how much a failed write leaves. *)
Inductive nact :=
| NDial (remote : str) (opts : list copt) (cut : option nat) | NOther | NBytes (c : nat) (b : str)
| NUp (c : nat) | NServer (a : act) (k : nat)
| NHello (c : nat) (k : ccfg) | NGiveUp (c : nat)
| NDown (c : nat) | NClient (c : nat) (a : cact) (k : nat).

Definition with_link (x : net) (c : nat) (l : link) : net := mkNet (x_sys x) (<[c := l]> (x_links x)).
Definition add_link (cfg : scfg) (x : net) (l : link) : option net :=
  match step cfg (x_sys x) AAccept with
  | Some (Fine y) => Some (mkNet y (x_links x ++ [l]))
  | _ => None
  end.
(** server/client/conn.go:117-183: the server's readLoop; heart-beats are
    skipped. *)
Definition net_up (cfg : scfg) (x : net) (c : nat) : option net :=
  match x_links x !! c with
  | None => None
  | Some l =>
      let l' rest := mkLink rest (l_down l) (l_ok l) (l_peer l) in
      match read_stream (l_up l) with
      | RFrame f rest => match step cfg (x_sys x) (ARecv c f) with
                         | Some (Fine y) => Some (mkNet y (<[c := l' rest]> (x_links x)))
                         | _ => None
                         end
      | RHeartbeat rest => Some (with_link x c (l' rest))
      | _ => None
      end
  end.
(** A move of the server that is not driven by a stream. *)
Definition net_server (cfg : scfg) (x : net) (a : act) (k : nat) : option net :=
  match a with
  | AAccept | ARecv _ _ => None
  | ATake c _ _ _ =>
      match x_links x !! c, y_conns (x_sys x) !! c, step cfg (x_sys x) a with
      | Some l, Some n, Some (Fine y) =>
          match y_conns y !! c with
          | None => None
          | Some n' =>
              let ws := wrote n n' in
              if sticky (l_ok l) ws then
                Some (mkNet y (<[c := mkLink (l_up l) (l_down l ++ server_bytes (l_ok l) ws k) (server_ok (l_ok l) ws) (l_peer l)]> (x_links x)))
              else None
          end
      | _, _, _ => None
      end
  | _ => match step cfg (x_sys x) a with
         | Some (Fine y) => Some (mkNet y (x_links x))
         | _ => None
         end
  end.
(** conn.go:172-242: the reply; the timers of processLoop are the negotiated
    ones. *)
Definition net_hello (x : net) (c : nat) (k : ccfg) : option net :=
  match x_links x !! c with
  | None => None
  | Some l =>
      match l_peer l, read_stream (l_down l) with
      | PeerDialing o, RFrame f rest =>
          match client_connect o (RFrame f rest) with
          | CConnected cc =>
              if bool_decide (k_read_to k = (0 <? cc_read cc)%Z /\ k_write_to k = (0 <? cc_write cc)%Z)
              then Some (with_link x c (mkLink (l_up l) rest (l_ok l) (PeerClient o f k cl_init))) else None
          | _ => Some (with_link x c (mkLink (l_up l) rest (l_ok l) (PeerFailed o)))
          end
      | PeerDialing o, RHeartbeat rest => Some (with_link x c (mkLink (l_up l) rest (l_ok l) (PeerFailed o)))
      | _, _ => None
      end
  end.
Definition net_give_up (x : net) (c : nat) : option net :=
  match x_links x !! c with
  | Some l => match l_peer l with
              | PeerDialing o => Some (with_link x c (mkLink (l_up l) (l_down l) (l_ok l) (PeerFailed o)))
              | _ => None
              end
  | None => None
  end.
(** conn.go:290-302: the client's readLoop; a heart-beat is a nil frame. *)
Definition net_down (x : net) (c : nat) : option net :=
  match x_links x !! c with
  | None => None
  | Some l =>
      match l_peer l with
      | PeerClient o h k y =>
          let go f rest := match cstep k y (XRecv f) with
                           | Some (COk y') => Some (with_link x c (mkLink (l_up l) rest (l_ok l) (PeerClient o h k y')))
                           | _ => None
                           end in
          match read_stream (l_down l) with
          | RFrame f rest => go (Some f) rest
          | RHeartbeat rest => go None rest
          | _ => None
          end
      | _ => None
      end
  end.
Definition net_client (x : net) (c : nat) (a : cact) (k : nat) : option net :=
  match x_links x !! c with
  | None => None
  | Some l =>
      match l_peer l with
      | PeerClient o h kc y =>
          match a with
          | XRecv _ => None
          | _ => match cstep kc y a with
                 | Some (COk y') =>
                     Some (with_link x c (mkLink (l_up l ++ on_wire (client_writes y a).1 (client_writes y a).2 k) (l_down l) (l_ok l) (PeerClient o h kc y')))
                 | _ => None
                 end
          end
      | _ => None
      end
  end.
Definition nstep (cfg : scfg) (x : net) (a : nact) : option net :=
  match a with
  | NDial remote opts cut =>
      match new_conn_options remote opts with
      | None => None
      | Some o =>
          let b := write_frame (connect_frame o) in
          add_link cfg x (match cut with
                          | None => mkLink b [] true (PeerDialing o)
                          | Some k => mkLink (take k b) [] true (PeerFailed o)
                          end)
      end
  | NOther => add_link cfg x (mkLink [] [] true PeerOther)
  | NBytes c b => match x_links x !! c with
                  | Some l => match l_peer l with
                              | PeerOther => Some (with_link x c (mkLink (l_up l ++ b) (l_down l) (l_ok l) PeerOther))
                              | _ => None
                              end
                  | None => None
                  end
  | NUp c => net_up cfg x c
  | NServer a k => net_server cfg x a k
  | NHello c k => net_hello x c k
  | NGiveUp c => net_give_up x c
  | NDown c => net_down x c
  | NClient c a k => net_client x c a k
  end.

(** States the whole can reach. *)
Inductive nreach (cfg : scfg) : net -> Prop :=
| nr_init : nreach cfg net_init
| nr_step x a x' : nreach cfg x -> nstep cfg x a = Some x' -> nreach cfg x'.
Fixpoint nrun (cfg : scfg) (x : net) (l : list nact) : option net :=
  match l with
  | [] => Some x
  | a :: l' => match nstep cfg x a with Some x' => nrun cfg x' l' | None => None end
  end.
