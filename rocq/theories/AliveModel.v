(** Read timeouts: when the client's processLoop and the server's readLoop give
    up on a silent peer.  Time is in nanoseconds (Z), as in TimerModel. *)
From stdpp Require Import gmap.
From Verif Require Import GoBase HeaderModel FrameModel NegotiationModel TimerModel.
From Verif Require ClientModel.
Local Open Scope Z.

(* ---------------- client, conn.go:306-360 ---------------- *)

(** [rc_timer]: deadline of the read timer, if there is one; [rc_write]: since
    when processLoop has been inside writer.Write, if it is; [rc_freed]: when it
    last came out of a Write during which time passed; [rc_heard] (ghost): when
    readLoop put something (a frame or a heart-beat) into readCh. *)
Record rcl := mkRcl {
  rc_now : Z; rc_timer : option Z; rc_write : option Z; rc_freed : option Z; rc_heard : list Z; rc_y : ClientModel.cl }.

(** Actions of processLoop at its select statement. *)
Definition loop_act (a : ClientModel.cact) : bool :=
  match a with ClientModel.XTakeRead | ClientModel.XTakeWrite _ | ClientModel.XReadTimeout | ClientModel.XBeat _ => true | _ => false end.
(** The ones that write to the network (conn.go:335, 453). *)
Definition write_act (a : ClientModel.cact) : bool :=
  match a with ClientModel.XTakeWrite _ | ClientModel.XBeat _ => true | _ => false end.
(** conn.go:317-320 and 343-349: receiving from readCh drops the timer, and a
    new one is made at the top of the loop if there is none.  [R]: readTimeout
    times the grace period multiplier. *)
Definition read_timer (R now : Z) (timer : option Z) (a : ClientModel.cact) (y' : ClientModel.cl) : option Z :=
  let t := match a with ClientModel.XTakeRead => None | _ => timer end in
  match t with
  | Some dl => Some dl
  | None => match ClientModel.c_p y' with ClientModel.PLoop => Some (now + R) | _ => None end
  end.

(** processLoop with read timeout R > 0.  At its select statement the loop
    reacts at once to readCh and to the expired timer (if both are ready, to
    either), so time does not pass then.  A Write may take any time, during
    which the loop looks at nothing; so may a send on a response channel. *)
Inductive rcreach (A : ClientModel.cact -> Prop) (cfg : ClientModel.ccfg) (R : Z) : rcl -> Prop :=
| rr_init t0 : rcreach A cfg R (mkRcl t0 (Some (t0 + R)) None None [] ClientModel.cl_init)
| rr_wait s d : rcreach A cfg R s -> 0 <= d -> at_select (rc_y s) -> rc_write s = None ->
    ClientModel.c_rch (rc_y s) = [] -> (forall dl, rc_timer s = Some dl -> rc_now s + d <= dl) ->
    rcreach A cfg R (mkRcl (rc_now s + d) (rc_timer s) None (rc_freed s) (rc_heard s) (rc_y s))
| rr_busy s d : rcreach A cfg R s -> 0 <= d -> ~ at_select (rc_y s) ->
    rcreach A cfg R (mkRcl (rc_now s + d) (rc_timer s) (rc_write s) (rc_freed s) (rc_heard s) (rc_y s))
| rr_writing s st d : rcreach A cfg R s -> 0 <= d -> rc_write s = Some st ->
    rcreach A cfg R (mkRcl (rc_now s + d) (rc_timer s) (Some st) (rc_freed s) (rc_heard s) (rc_y s))
| rr_written s st : rcreach A cfg R s -> rc_write s = Some st ->
    rcreach A cfg R (mkRcl (rc_now s) (rc_timer s) None (if decide (st < rc_now s) then Some (rc_now s) else rc_freed s) (rc_heard s) (rc_y s))
| rr_step s a y' (slow : bool) : rcreach A cfg R s -> A a ->
    (loop_act a = true -> rc_write s = None) ->
    (a = ClientModel.XReadTimeout -> exists dl, rc_timer s = Some dl /\ dl <= rc_now s) ->
    (slow = true -> write_act a = true /\ at_select y') ->
    ClientModel.cstep cfg (rc_y s) a = Some (ClientModel.COk y') ->
    rcreach A cfg R (mkRcl (rc_now s) (read_timer R (rc_now s) (rc_timer s) a y')
      (if slow then Some (rc_now s) else rc_write s) (rc_freed s)
      (rc_heard s ++ match a with ClientModel.XRecv _ => [rc_now s] | _ => [] end) y').

(* ---------------- server, server/client/conn.go:117-183 ---------------- *)

(** Bytes with the time at which they reach the server. *)
Notation timed := (list (Z * ascii)).
(** One call of reader.Read that started at [start] with everything that will
    ever arrive: the item read (None: heart-beat) with the time of its last
    byte and the remaining bytes, or nothing (error or not complete). *)
Definition next_item (l : timed) : option (option frame * Z * timed) :=
  let got rest it :=
    let n := (length l - length rest)%nat in
    match l !! (n - 1)%nat with Some (t, _) => Some (it, t, drop n l) | None => None end in
  match read_stream (l.*2) with
  | RHeartbeat rest => got rest None
  | RFrame f rest => got rest (Some f)
  | _ => None
  end.

(** [sr_start]: when the current Read was called; [sr_wait]: readTimeout;
    [sr_last]: when the last byte consumed arrived. *)
Record srd := mkSrd { sr_start : Z; sr_wait : Z; sr_expect : bool; sr_left : timed; sr_last : option Z }.
(** conn.go:122-127: the deadline of the current Read *)
Definition sr_deadline (s : srd) : option Z := if decide (sr_wait s = 0) then None else Some (sr_start s + sr_wait s * 2).
(** The current Read fails for lateness: its item is not there by the deadline. *)
Definition too_late (s : srd) (dl : Z) : Prop :=
  sr_deadline s = Some dl /\ forall it t rest, next_item (sr_left s) = Some (it, t, rest) -> dl < t.
(** conn.go:154-176: the new read timeout *)
Definition new_wait (cfg : scfg) (s : srd) (it : option frame) : Z * bool :=
  match it with
  | None => (sr_wait s, sr_expect s)
  | Some f => if sr_expect s then match server_read_timeout cfg f with Some t => (t, false) | None => (sr_wait s, true) end
              else (sr_wait s, false)
  end.
(** The loop; pushing a frame into readChannel may take any time [d]. *)
Inductive sreads (cfg : scfg) (input : timed) : srd -> Prop :=
| sr_init t0 : sreads cfg input (mkSrd t0 0 true input None)
| sr_item s it t rest d : sreads cfg input s -> next_item (sr_left s) = Some (it, t, rest) ->
    (forall dl, sr_deadline s = Some dl -> t <= dl) -> 0 <= d ->
    sreads cfg input (mkSrd (Z.max (sr_start s) t + d) (fst (new_wait cfg s it)) (snd (new_wait cfg s it)) rest (Some t)).
