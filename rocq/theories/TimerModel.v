(** Heart-beat timers of the client's and the server's processLoop, on top of
    ClientModel and ServerConnModel.  Time is in nanoseconds (Z).  Handlers
    take no time.  At its select statement a loop reacts at once to an expired
    timer: time does not pass there beyond the deadline.  Time that passes
    while the loop is not at its select is counted ([busy]): the loop is
    blocked in a channel operation, and no timer is looked at. *)
From stdpp Require Import gmap.
From Verif Require Import GoBase HeaderModel FrameModel NegotiationModel BrokerModel ServerConnModel ServerConnSpec.
From Verif Require ClientModel.
Local Open Scope Z.

(* ---------------- client, conn.go:306-461 ---------------- *)

(** What a restart of the write timer came with: a transmission, or nothing
    (then with the request taken, if any). *)
Inductive beat := BSent | BSilent (q : option ClientModel.wreq).
(** time, busy time so far, what *)
Record entry := mkEntry { e_time : Z; e_busy : Z; e_what : beat }.
Record tcl := mkTcl { tc_now : Z; tc_busy : Z; tc_timer : Z; tc_y : ClientModel.cl; tc_log : list entry }.

(** Is processLoop at its select statement? *)
Definition at_select (y : ClientModel.cl) : Prop := ClientModel.c_p y = ClientModel.PLoop.
(** conn.go:400-459: what taking from writeCh does. *)
Definition write_beat (y : ClientModel.cl) : beat :=
  match ClientModel.c_wch y with
  | [] => BSilent None
  | q :: _ => if ClientModel.local_only (ClientModel.q_frame q) then BSilent (Some q) else BSent
  end.

(** conn.go:306-461 with writeTimeout W > 0.  The write timer is made when
    there is none at the top of the loop (322-325); it is dropped when it fires
    (338-339) and when a request is taken (404-408), so a new one starts at the
    same instant.  Reads leave it alone. *)
Inductive tcreach (A : ClientModel.cact -> Prop) (cfg : ClientModel.ccfg) (W : Z) : tcl -> Prop :=
| tr_init t0 : tcreach A cfg W (mkTcl t0 0 (t0 + W) ClientModel.cl_init [])
| tr_wait s d : tcreach A cfg W s -> 0 <= d -> at_select (tc_y s) -> tc_now s + d <= tc_timer s ->
    tcreach A cfg W (mkTcl (tc_now s + d) (tc_busy s) (tc_timer s) (tc_y s) (tc_log s))
| tr_busy s d : tcreach A cfg W s -> 0 <= d -> ~ at_select (tc_y s) ->
    tcreach A cfg W (mkTcl (tc_now s + d) (tc_busy s + d) (tc_timer s) (tc_y s) (tc_log s))
| tr_beat s w y' : tcreach A cfg W s -> A (ClientModel.XBeat w) -> tc_timer s <= tc_now s ->
    ClientModel.cstep cfg (tc_y s) (ClientModel.XBeat w) = Some (ClientModel.COk y') ->
    tcreach A cfg W (mkTcl (tc_now s) (tc_busy s) (tc_now s + W) y' (tc_log s ++ [mkEntry (tc_now s) (tc_busy s) BSent]))
| tr_request s w y' : tcreach A cfg W s -> A (ClientModel.XTakeWrite w) ->
    ClientModel.cstep cfg (tc_y s) (ClientModel.XTakeWrite w) = Some (ClientModel.COk y') ->
    tcreach A cfg W (mkTcl (tc_now s) (tc_busy s) (tc_now s + W) y' (tc_log s ++ [mkEntry (tc_now s) (tc_busy s) (write_beat (tc_y s))]))
| tr_other s a y' : tcreach A cfg W s -> A a -> (forall w, a <> ClientModel.XBeat w) -> (forall w, a <> ClientModel.XTakeWrite w) ->
    ClientModel.cstep cfg (tc_y s) a = Some (ClientModel.COk y') ->
    tcreach A cfg W (mkTcl (tc_now s) (tc_busy s) (tc_timer s) y' (tc_log s)).

(* ---------------- server, server/client/conn.go:187-326 ---------------- *)

(** time, busy time so far, writeTimeout after the iteration, the iteration *)
Record sentry := mkSentry { se_time : Z; se_busy : Z; se_wt : Z; se_ev : cev }.
Record tsv := mkTsv { ts_now : Z; ts_busy : Z; ts_timer : option Z; ts_c : cst; ts_log : list sentry }.

(** conn.go:213-216, 275-278, 315-318: these branches drop the timer; frames
    from the client do not. *)
Definition drops_timer (i : cin) : bool := match i with InTopic _ | InSub _ | InTimer => true | InFrame _ | InClosed => false end.
(** conn.go:196-199 *)
Definition next_timer (now : Z) (timer : option Z) (c : cst) (i : cin) : option Z :=
  match (if drops_timer i then None else timer) with
  | Some dl => Some dl
  | None => if 0 <? k_wt c then Some (now + k_wt c) else None
  end.

(** A history as in ServerConnSpec.cexec, with times. *)
Inductive tsexec (cfg : scfg) (cid : nat) (id_of ack_of : nat -> str) : tsv -> bool -> Prop :=
| ts_init t0 : tsexec cfg cid id_of ack_of (mkTsv t0 0 None cst_init []) false
| ts_wait s st d : tsexec cfg cid id_of ack_of s st -> 0 <= d -> (forall dl, ts_timer s = Some dl -> ts_now s + d <= dl) ->
    tsexec cfg cid id_of ack_of (mkTsv (ts_now s + d) (ts_busy s) (ts_timer s) (ts_c s) (ts_log s)) st
| ts_block s st d : tsexec cfg cid id_of ack_of s st -> 0 <= d ->
    tsexec cfg cid id_of ack_of (mkTsv (ts_now s + d) (ts_busy s + d) (ts_timer s) (ts_c s) (ts_log s)) st
| ts_step s hp nx w1 w2 i o : tsexec cfg cid id_of ack_of s false ->
    (i = InTimer -> exists dl, ts_timer s = Some dl /\ dl <= ts_now s) ->
    keeps id_of ack_of hp -> from_broker hp i -> conn_iter cfg cid w1 w2 (ts_c s) hp nx i = Fine o -> keeps id_of ack_of (i_hp o) ->
    tsexec cfg cid id_of ack_of
      (mkTsv (ts_now s) (ts_busy s) (next_timer (ts_now s) (ts_timer s) (i_c o) i) (i_c o)
         (ts_log s ++ [mkSentry (ts_now s) (ts_busy s) (k_wt (i_c o)) (mkCev i (i_wr o) (i_push o) (i_stop o))])) (i_stop o).
