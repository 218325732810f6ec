(** The goroutines of a connection and when they end: the server's readLoop with
    the frame it has read and not yet put into readChannel (server/client/
    conn.go:117-183), on top of SystemModel.  The client's readLoop with the
    frame in its hand is StatsModel's.

    What is simplified: heart-beats, which readLoop drops (conn.go:144-147), are
    not shown; a Read may return frames after the connection was closed, since
    the bufio.Reader may hold them. *)
From Verif Require Import GoBase HeaderModel FrameModel NegotiationModel ClientApiModel ClientModel StatsModel.
From Verif Require Import BrokerModel ServerConnModel ServerConnSpec SystemModel.

(** [h_hold]: what the readLoop of each connection has in its hand. *)
Record hsys := mkH { h_sys : sys; h_hold : gmap nat frame }.
Definition h_init : hsys := mkH sys_init ∅.
(** HRead c f: reader.Read returned f (conn.go:128). *)
Inductive hact := HServer (a : act) | HRead (c : nat) (f : frame).
Definition hstep (cfg : scfg) (h : hsys) (a : hact) : option hsys :=
  match a with
  | HRead c f =>
      match y_conns (h_sys h) !! c, h_hold h !! c with
      | Some n, None => if n_eof n then None else Some (mkH (h_sys h) (<[c := f]> (h_hold h)))
      | _, _ => None
      end
  | HServer a =>
      match step cfg (h_sys h) a with
      | Some (Fine y) =>
          match a with
          (* conn.go:181: the frame in hand goes into readChannel *)
          | ARecv c f => if decide (h_hold h !! c = Some f) then Some (mkH y (delete c (h_hold h))) else None
          (* conn.go:129-142: an error instead of a frame *)
          | AEof c => if decide (h_hold h !! c = None) then Some (mkH y (h_hold h)) else None
          | _ => Some (mkH y (h_hold h))
          end
      | _ => None
      end
  end.
Inductive hreach (cfg : scfg) : hsys -> Prop :=
| hr_init : hreach cfg h_init
| hr_step h a h' : hreach cfg h -> hstep cfg h a = Some h' -> hreach cfg h'.
Fixpoint hrun (cfg : scfg) (h : hsys) (l : list hact) : option hsys :=
  match l with [] => Some h | a :: l => match hstep cfg h a with Some h => hrun cfg h l | None => None end end.
(** The same for the client. *)
Fixpoint turn (cfg : ccfg) (t : tcl) (l : list tact) : option tcl :=
  match l with [] => Some t | a :: l => match tstep cfg t a with Some t => turn cfg t l | None => None end end.
