(** What heart-beating should achieve. *)
From stdpp Require Import gmap.
From Verif Require Import GoBase HeaderModel FrameModel NegotiationModel BrokerModel ServerConnModel ServerConnSpec TimerModel.
Local Open Scope Z.

Definition transmits (e : sentry) : bool := match v_wr (se_ev e) with [] => false | _ => true end.
(** Iterations that restart the timer without transmitting anything. *)
Definition silent (e : sentry) : bool := drops_timer (v_in (se_ev e)) && negb (transmits e).
Definition silents (l : list sentry) : Z := Z.of_nat (length (filter (fun e => silent e = true) l)).
(** The time from the last transmission until now is at most the interval, plus
    one interval for each silent restart since then, plus the time the loop was
    blocked since then. *)
Definition beats (s : tsv) : Prop := forall pre e mid, ts_log s = pre ++ e :: mid -> transmits e = true -> Forall (fun e' => transmits e' = false) mid -> 0 < se_wt e ->
  ts_now s - se_time e <= se_wt e * (1 + silents mid) + (ts_busy s - se_busy e).

(** The same for the client; [t0] is when its loop started. *)
Definition sent_entry (e : entry) : Prop := e_what e = BSent.
Definition cbeats (W : Z) (s : tcl) : Prop :=
  (forall pre e mid, tc_log s = pre ++ e :: mid -> sent_entry e -> Forall (fun e' => ~ sent_entry e') mid ->
    tc_now s - e_time e <= W * (1 + Z.of_nat (length mid)) + (tc_busy s - e_busy e)).
