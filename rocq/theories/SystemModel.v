(** The whole server: any number of connections (readLoop, processLoop and
    cleanup of server/client/conn.go) and the processor (server/processor.go),
    joined by bounded channels.  Each action of [step] is one atomic move of
    one goroutine; an action that would block is not enabled.

    Simplifications: a handler's requests are collected and then pushed one by
    one, although the code pushes while the handler runs (what a handler does
    after a push does not read anything the processor writes); an iteration of
    Serve computes its channel sends first and then performs them one by one,
    taking no other request in between.  Connections are numbered by order of
    acceptance.  Accept itself is [listen] (C52). *)
From Verif Require Import GoBase HeaderModel FrameModel NegotiationModel BrokerModel ServerConnModel ServerConnSpec.

(** server/client/conn.go:18, 22 (maxPendingWrites, maxPendingReads),
    processor.go:27 *)
Definition cap_read := 16.
Definition cap_write := 16.
Definition cap_req := 128.

(** Where processLoop is: in its loop, or in cleanupConn (conn.go:331-370)
    about to do the named step, or gone. *)
Inductive phase := Running
| CDiscard1 | CUnsub | CRequeue | CDiscard2 | CDrain1 | CTell | CDiscard3 | CDrain2 | Dead.

(** One connection: state of processLoop, phase, readChannel, whether it is
    closed, writeChannel, subChannel, requests still to be pushed, and (ghost)
    the history of the loop. *)
Record sconn := mkSconn {
  n_c : cst; n_phase : phase;
  n_read : list msg; n_eof : bool; n_write : list msg; n_sub : list nat;
  n_out : list request; n_log : list cev
}.
Definition sconn_init : sconn := mkSconn cst_init Running [] false [] [] [] [].

(** The server.  Ghosts: [y_blog] what the processor handled and sent,
    [y_fin] messages finally delivered (acknowledged, or written on an auto
    subscription), [y_lost] messages dropped after a failed write. *)
Record sys := mkSys {
  y_conns : list sconn; y_heap : sheap; y_next : nat; y_uid : nat;
  y_req : list request; y_broker : broker; y_pout : list pout;
  y_blog : list (request * list pout); y_fin : list msg; y_lost : list msg
}.
Definition sys_init : sys := mkSys [] ∅ 0 0 [] broker_init [] [] [] [].

(** Messages released by the requests of an iteration: a subscription asks for
    the next message and its last one was not returned just before. *)
Fixpoint finals (hp : sheap) (rs : list request) : list msg :=
  match rs with
  | [] => []
  | RRequeue _ :: RSubscribe _ :: rs' => finals hp rs'
  | RSubscribe s :: rs' =>
      match hp !! s with
      | Some sb => match s_frame sb with Some m => m :: finals hp rs' | None => finals hp rs' end
      | None => finals hp rs'
      end
  | _ :: rs' => finals hp rs'
  end.
(** The message lost by an iteration: a queue delivery whose write failed. *)
Definition losses (hp : sheap) (i : cin) (stop : bool) : list msg :=
  match i with
  | InSub s => if stop then match hp !! s with Some sb => match s_frame sb with Some m => [m] | None => [] end | None => [] end else []
  | _ => []
  end.

(** What the select statement of processLoop picks. *)
Inductive sel := SelRead | SelWrite | SelSub | SelTimer.
(** conn.go:201-207, 237-242, 264-269, 313: the input taken *)
Definition take_input (n : sconn) (x : sel) : option (cin * sconn) :=
  match x with
  | SelRead =>
      match n_read n with
      | m :: l => Some (InFrame m, mkSconn (n_c n) (n_phase n) l (n_eof n) (n_write n) (n_sub n) (n_out n) (n_log n))
      | [] => if n_eof n then Some (InClosed, n) else None
      end
  | SelWrite =>
      match n_write n with
      | m :: l => Some (InTopic m, mkSconn (n_c n) (n_phase n) (n_read n) (n_eof n) l (n_sub n) (n_out n) (n_log n))
      | [] => None
      end
  | SelSub =>
      match n_sub n with
      | s :: l => Some (InSub s, mkSconn (n_c n) (n_phase n) (n_read n) (n_eof n) (n_write n) l (n_out n) (n_log n))
      | [] => None
      end
  | SelTimer => if (0 <? k_wt (n_c n))%Z then Some (InTimer, n) else None
  end.

(** conn.go:331-370 (cleanupConn), one step; [pick] is the next key of the
    range over c.subs. *)
Definition with_phase (n : sconn) (p : phase) : sconn := mkSconn (n_c n) p (n_read n) (n_eof n) (n_write n) (n_sub n) (n_out n) (n_log n).
Definition with_c (n : sconn) (c : cst) : sconn := mkSconn c (n_phase n) (n_read n) (n_eof n) (n_write n) (n_sub n) (n_out n) (n_log n).
Definition with_write (n : sconn) (l : list msg) : sconn := mkSconn (n_c n) (n_phase n) (n_read n) (n_eof n) l (n_sub n) (n_out n) (n_log n).
Definition with_sub_ch (n : sconn) (l : list nat) : sconn := mkSconn (n_c n) (n_phase n) (n_read n) (n_eof n) (n_write n) l (n_out n) (n_log n).
Definition with_out (n : sconn) (l : list request) : sconn := mkSconn (n_c n) (n_phase n) (n_read n) (n_eof n) (n_write n) (n_sub n) l (n_log n).

(** conn.go:375-387 (discardWriteChannelFrames), one turn of its loop *)
Definition discard_step (n : sconn) (next : phase) : sconn :=
  match n_write n with [] => with_phase n next | _ :: l => with_write n l end.
(** conn.go:389-405 (cleanupSubChannel), one turn of its loop.  A nil frame
    would be pushed and panic in the processor; here it panics at once. *)
Definition drain_step (n : sconn) (hp : sheap) (next : phase) : pres sconn :=
  match n_sub n with
  | [] => Fine (with_phase n next)
  | s :: l =>
      match hp !! s with
      | Some sb => match s_frame sb with
                   | Some m => Fine (with_out (with_sub_ch n l) [RRequeue m])
                   | None => Panicked PanicNil
                   end
      | None => Panicked PanicNil
      end
  end.
Definition clean_step (cid : nat) (n : sconn) (hp : sheap) (pick : str) : option (pres (sconn * sheap)) :=
  match n_phase n with
  | Running | Dead => None
  | CDiscard1 => Some (Fine (discard_step n CUnsub, hp))
  | CUnsub =>
      if decide (k_subs (n_c n) = ∅) then Some (Fine (with_phase n CRequeue, hp))
      else match k_subs (n_c n) !! pick with
           | Some s => Some (Fine (with_out (with_c n (set_subs (n_c n) (delete pick (k_subs (n_c n))))) [RUnsubscribe s], hp))
           | None => None
           end
  | CRequeue =>
      match sl_get hp (k_sublist (n_c n)) with
      | None => Some (Fine (with_phase n CDiscard2, hp))
      | Some (s, hp', l) =>
          match hp' !! s with
          | Some sb => match s_frame sb with
                       | Some m => Some (Fine (with_out (with_c n (set_sublist (n_c n) l)) [RRequeue m], hp'))
                       | None => Some (Panicked PanicNil)
                       end
          | None => Some (Panicked PanicNil)
          end
      end
  | CDiscard2 => Some (Fine (discard_step n CDrain1, hp))
  | CDrain1 => Some (match drain_step n hp CTell with Fine n' => Fine (n', hp) | Panicked p => Panicked p end)
  | CTell => Some (Fine (with_out (with_phase n CDiscard3) [RDisconnected cid], hp))
  | CDiscard3 => Some (Fine (discard_step n CDrain2, hp))
  | CDrain2 => Some (match drain_step n hp Dead with Fine n' => Fine (n', hp) | Panicked p => Panicked p end)
  end.

(** Actions: a client connects; readLoop puts a frame on readChannel
    (conn.go:181); readLoop fails and closes it (conn.go:129-142); processLoop
    takes an input and handles it; processLoop pushes its next request;
    cleanupConn moves on; the processor takes a request and handles it; the
    processor performs its next channel send (subscription.go:65, 76). *)
Inductive act :=
| AAccept | ARecv (c : nat) (f : frame) | AEof (c : nat) | ATake (c : nat) (x : sel) (w1 w2 : bool)
| APush (c : nat) | AClean (c : nat) (pick : str) | AProc | AOut.

Definition set_conn (y : sys) (c : nat) (n : sconn) : sys :=
  mkSys (<[c := n]> (y_conns y)) (y_heap y) (y_next y) (y_uid y) (y_req y) (y_broker y) (y_pout y) (y_blog y) (y_fin y) (y_lost y).

Definition do_recv (y : sys) (c : nat) (f : frame) : option sys :=
  match y_conns y !! c with
  | None => None
  | Some n =>
      if n_eof n then None else
      if decide (length (n_read n) < cap_read) then
        Some (mkSys (<[c := mkSconn (n_c n) (n_phase n) (n_read n ++ [mkMsg (y_uid y) f]) (n_eof n) (n_write n) (n_sub n) (n_out n) (n_log n)]> (y_conns y))
                (y_heap y) (y_next y) (S (y_uid y)) (y_req y) (y_broker y) (y_pout y) (y_blog y) (y_fin y) (y_lost y))
      else None
  end.
Definition do_eof (y : sys) (c : nat) : option sys :=
  match y_conns y !! c with
  | None => None
  | Some n => if n_eof n then None
              else Some (set_conn y c (mkSconn (n_c n) (n_phase n) (n_read n) true (n_write n) (n_sub n) (n_out n) (n_log n)))
  end.
Definition idle (n : sconn) : bool := match n_out n with [] => true | _ => false end.
Definition do_take (cfg : scfg) (y : sys) (c : nat) (x : sel) (w1 w2 : bool) : option (pres sys) :=
  match y_conns y !! c with
  | None => None
  | Some n =>
      match n_phase n with
      | Running =>
          if idle n then
            match take_input n x with
            | None => None
            | Some (i, n1) =>
                match conn_iter cfg c w1 w2 (n_c n) (y_heap y) (y_next y) i with
                | Panicked p => Some (Panicked p)
                | Fine o =>
                    let c' := if i_stop o then set_tx (i_c o) ∅ else i_c o in
                    let n2 := mkSconn c' (if i_stop o then CDiscard1 else Running) (n_read n1) (n_eof n1) (n_write n1) (n_sub n1) (i_push o)
                                (n_log n1 ++ [mkCev i (i_wr o) (i_push o) (i_stop o)]) in
                    Some (Fine (mkSys (<[c := n2]> (y_conns y)) (i_hp o) (i_next o) (y_uid y) (y_req y) (y_broker y) (y_pout y) (y_blog y)
                      (y_fin y ++ finals (y_heap y) (i_push o)) (y_lost y ++ losses (y_heap y) i (i_stop o))))
                end
            end
          else None
      | _ => None
      end
  end.
Definition do_push (y : sys) (c : nat) : option sys :=
  match y_conns y !! c with
  | None => None
  | Some n =>
      match n_out n with
      | [] => None
      | r :: rs =>
          if decide (length (y_req y) < cap_req) then
            Some (mkSys (<[c := with_out n rs]> (y_conns y)) (y_heap y) (y_next y) (y_uid y) (y_req y ++ [r]) (y_broker y) (y_pout y) (y_blog y) (y_fin y) (y_lost y))
          else None
      end
  end.
Definition do_clean (y : sys) (c : nat) (pick : str) : option (pres sys) :=
  match y_conns y !! c with
  | None => None
  | Some n =>
      if idle n then
        match clean_step c n (y_heap y) pick with
        | None => None
        | Some (Panicked p) => Some (Panicked p)
        | Some (Fine (n', hp')) =>
            Some (Fine (mkSys (<[c := n']> (y_conns y)) hp' (y_next y) (y_uid y) (y_req y) (y_broker y) (y_pout y) (y_blog y) (y_fin y) (y_lost y)))
        end
      else None
  end.
Definition do_proc (y : sys) : option (pres sys) :=
  match y_pout y, y_req y with
  | [], r :: rs =>
      match serve (y_broker y) (y_heap y) r with
      | Panicked p => Some (Panicked p)
      | Fine (b, hp, outs) =>
          Some (Fine (mkSys (y_conns y) hp (y_next y) (y_uid y) rs b outs (y_blog y ++ [(r, outs)]) (y_fin y) (y_lost y)))
      end
  | _, _ => None
  end.
Definition do_out (y : sys) : option sys :=
  match y_pout y with
  | [] => None
  | o :: os =>
      let c := match o with OutSub c _ _ | OutTopic c _ => c end in
      match y_conns y !! c with
      | None => None
      | Some n =>
          let y' n' := mkSys (<[c := n']> (y_conns y)) (y_heap y) (y_next y) (y_uid y) (y_req y) (y_broker y) os (y_blog y) (y_fin y) (y_lost y) in
          match o with
          | OutSub _ s _ => if decide (length (n_sub n) < cap_write) then Some (y' (with_sub_ch n (n_sub n ++ [s]))) else None
          | OutTopic _ m => if decide (length (n_write n) < cap_write) then Some (y' (with_write n (n_write n ++ [m]))) else None
          end
      end
  end.

Definition fine {A} (o : option A) : option (pres A) := match o with Some a => Some (Fine a) | None => None end.
Definition step (cfg : scfg) (y : sys) (a : act) : option (pres sys) :=
  match a with
  | AAccept => Some (Fine (mkSys (y_conns y ++ [sconn_init]) (y_heap y) (y_next y) (y_uid y) (y_req y) (y_broker y) (y_pout y) (y_blog y) (y_fin y) (y_lost y)))
  | ARecv c f => fine (do_recv y c f)
  | AEof c => fine (do_eof y c)
  | ATake c x w1 w2 => do_take cfg y c x w1 w2
  | APush c => fine (do_push y c)
  | AClean c pick => do_clean y c pick
  | AProc => do_proc y
  | AOut => fine (do_out y)
  end.

(** States the server can reach. *)
Inductive reach (cfg : scfg) : sys -> Prop :=
| reach_init : reach cfg sys_init
| reach_step y a y' : reach cfg y -> step cfg y a = Some (Fine y') -> reach cfg y'.

(** Computing runs: None if an action is not enabled. *)
Fixpoint run (cfg : scfg) (y : sys) (l : list act) : option (pres sys) :=
  match l with
  | [] => Some (Fine y)
  | a :: l' => match step cfg y a with
               | Some (Fine y') => run cfg y' l'
               | r => r
               end
  end.
