(** The statistics of a connection (conn.go:269-303; WithStats,
    conn_options.go:345-350) on top of the running client of ClientModel.

    What is simplified: the counters are natural numbers, not int64. The
    increment of writesSent (conn.go:484-486, 546-548, 645-647, 754-756) is in
    the same step as the lock of the mutex and the test of c.closed before it;
    the mutex is held from there on. The option is one flag of the state that
    never changes. *)
From stdpp Require Import gmap.
From Verif Require Import GoBase HeaderModel FrameModel NegotiationModel ClientApiModel ClientModel.

(** [t_hold]: what readLoop has read and counted but not yet put into readCh
    (conn.go:297-300); a heart-beat is the nil frame [None]. *)
Record tcl := mkT { t_cl : cl; t_on : bool; t_writes : nat; t_reads : nat; t_hold : option (option frame) }.
Definition t_init (on : bool) : tcl := mkT cl_init on 0 0 None.

(** The step of call g passes one of the four places that count: Disconnect
    (conn.go:484), Send (546), sendFrame (645), Subscribe (754). All four lie
    behind the lock of closeMutex and the test of c.closed, Send's and
    Subscribe's also behind their options. *)
Definition counts (y : cl) (g : nat) : bool :=
  match c_gs y !! g, c_mut y, c_closed y with
  | Some r, None, false =>
    match g_pc r, g_op r with
    | GStart, OSend (Some _) | GStart, OSubscribe (Some _) | GStart, ODisconnect _ => true
    | GFrame _ _, _ => true
    | _, _ => false
    end
  | _, _, _ => false
  end.
(** if c.statsEnabled atomic.AddInt64(n, 1). *)
Definition bump (on b : bool) (n : nat) : nat := if on && b then S n else n.

(** TRead f: reader.Read returned f (conn.go:291-299). *)
Inductive tact := TClient (a : cact) | TRead (f : option frame).
Definition tstep (cfg : ccfg) (t : tcl) (a : tact) : option tcl :=
  match a with
  | TRead f =>
    match t_hold t, c_rclosed (t_cl t) with
    | None, false => Some (mkT (t_cl t) (t_on t) (t_writes t) (bump (t_on t) true (t_reads t)) (Some f))
    | _, _ => None
    end
  | TClient a =>
    match cstep cfg (t_cl t) a with
    | Some (COk y) =>
      match a with
      (* conn.go:300: the frame in hand goes into readCh *)
      | XRecv f => if decide (t_hold t = Some f) then Some (mkT y (t_on t) (t_writes t) (t_reads t) None) else None
      (* conn.go:292-295: an error instead of a frame *)
      | XEof => if decide (t_hold t = None) then Some (mkT y (t_on t) (t_writes t) (t_reads t) None) else None
      | XRun g => Some (mkT y (t_on t) (bump (t_on t) (counts (t_cl t) g) (t_writes t)) (t_reads t) (t_hold t))
      | _ => Some (mkT y (t_on t) (t_writes t) (t_reads t) (t_hold t))
      end
    | _ => None
    end
  end.
Inductive treach (cfg : ccfg) (on : bool) : tcl -> Prop :=
| tr_init : treach cfg on (t_init on)
| tr_step t a t' : treach cfg on t -> tstep cfg t a = Some t' -> treach cfg on t'.

(** conn.go:271-285 (ConnectionStats, Stats). *)
Record cstats := mkStats { s_write_chan : nat; s_read_chan : nat; s_writes : nat; s_reads : nat }.
Definition stats (t : tcl) : cstats := mkStats (length (c_wch (t_cl t))) (length (c_rch (t_cl t))) (t_writes t) (t_reads t).
