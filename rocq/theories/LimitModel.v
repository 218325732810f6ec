(** How long the calls of a client take: a clock on top of the running client of
    ClientModel, and the timers of readReceiptWithTimeout (conn.go:579-594),
    sendDataToWriteChWithTimeout (conn.go:596-610), sendFrame (conn.go:664-669)
    and waitWithTimeout (subscription.go:118-134).

    What is simplified: the clock counts whole units. A goroutine of a call that
    can go on does so before the clock advances, and an expired timer is noticed
    before it advances; nothing is assumed of processLoop, readLoop, the
    subscriptions' goroutines, the network and the program. Timeouts are not
    negative. *)
From stdpp Require Import gmap.
From Verif Require Import GoBase HeaderModel FrameModel NegotiationModel ClientApiModel ClientModel.

(** The capacities, the five durations (msgSendTimeout, rcvReceiptTimeout,
    disconnectReceiptTimeout, unsubscribeReceiptTimeout, writeTimeout; 0: none)
    and whether there is a read timeout. *)
Record lcfg := mkLim { l_rcap : nat; l_wcap : nat; l_msg : nat; l_rcv : nat; l_disc : nat; l_unsub : nat; l_write : nat; l_read_to : bool }.
(** conn.go:581, 597, 664; subscription.go:119 *)
Definition untimed (c : lcfg) : ccfg :=
  mkCcfg (l_rcap c) (l_wcap c) (bool_decide (0 < l_msg c)) (bool_decide (0 < l_rcv c)) (bool_decide (0 < l_disc c)) (bool_decide (0 < l_unsub c)) (l_read_to c) (bool_decide (0 < l_write c)).

(** The timer a call waits for, besides what it waits for. *)
Inductive tk := TkMsg | TkRcv | TkDisc | TkUnsub | TkWrite.
Definition timer (x : gpc) : option tk :=
  match x with
  | GPut FSend _ => Some TkMsg            (* conn.go:602 *)
  | GWait FSend _ => Some TkRcv           (* conn.go:582, from 562 *)
  | GWait FDisc _ => Some TkDisc          (* conn.go:582, from 494 *)
  | GWait (FFrame _) _ => Some TkWrite    (* conn.go:667 *)
  | GReg _ | GBlocked _ => Some TkUnsub   (* subscription.go:131 *)
  | _ => None
  end.
Definition duration (c : lcfg) (k : tk) : nat :=
  match k with TkMsg => l_msg c | TkRcv => l_rcv c | TkDisc => l_disc c | TkUnsub => l_unsub c | TkWrite => l_write c end.

(** [l_since]: when the timer of a call was started; [l_call], [l_end]: when it
    was made and when it returned. *)
Record lcl := mkL { l_cl : cl; l_now : nat; l_since : nat -> nat; l_call : nat -> nat; l_end : nat -> nat }.
Definition l_init : lcl := mkL cl_init 0 (fun _ => 0) (fun _ => 0) (fun _ => 0).
Definition pc_of (y : cl) (g : nat) : option gpc := g_pc <$> c_gs y !! g.
Definition timer_at (y : cl) (g : nat) : option tk := match pc_of y g with Some x => timer x | None => None end.
Definition is_done (y : cl) (g : nat) : bool := match pc_of y g with Some (GDone _) => true | _ => false end.
Global Instance tk_dec : EqDecision tk.
Proof. solve_decision. Defined.

(** Its timer has expired. *)
Definition due (c : lcfg) (t : lcl) (g : nat) : bool :=
  match timer_at (l_cl t) g with
  | Some k => bool_decide (0 < duration c k /\ l_since t g + duration c k <= l_now t)
  | None => false
  end.
(** It can neither go on nor has its timer expired. *)
Definition waits (c : lcfg) (t : lcl) (g : nat) : bool := match do_run (untimed c) (l_cl t) g with Some _ => false | None => negb (due c t g) end.

Inductive lact := LTick | LAct (a : cact).
Definition lstep (c : lcfg) (t : lcl) (a : lact) : option lcl :=
  match a with
  | LTick => if forallb (waits c t) (seq 0 (length (c_gs (l_cl t)))) then Some (mkL (l_cl t) (S (l_now t)) (l_since t) (l_call t) (l_end t)) else None
  | LAct a =>
      if match a with XTimeout g => due c t g | _ => true end then
        match cstep (untimed c) (l_cl t) a with
        | Some (COk y) =>
            Some (mkL y (l_now t)
                    (fun g => if decide (timer_at y g = timer_at (l_cl t) g) then l_since t g else l_now t)
                    (fun g => if bool_decide (g < length (c_gs (l_cl t))) then l_call t g else l_now t)
                    (fun g => if is_done (l_cl t) g then l_end t g else l_now t))
        | _ => None
        end
      else None
  end.
(** The clock advances only in states that satisfy [ok]. *)
Inductive lreach (c : lcfg) (ok : lcl -> Prop) : lcl -> Prop :=
| lr_init : lreach c ok l_init
| lr_step t a t' : lreach c ok t -> lstep c t a = Some t' -> (a = LTick -> ok t) -> lreach c ok t'.
