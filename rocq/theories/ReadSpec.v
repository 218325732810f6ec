(** Vocabulary of ReadProps: what Read calls have returned. *)
From stdpp Require Import gmap.
From Verif Require Import GoBase HeaderModel FrameModel NegotiationModel ClientApiModel ClientModel ReadModel.

(** The call has returned a message or the error of one. *)
Definition took (d : rd) : Prop := exists r, d_pc d = RdDone r /\ r <> RdCompleted.
(** What the Read calls on s have returned, in the order of the calls, leaving
    out ErrCompletedSubscription. *)
Definition got_by (s : nat) (d : rd) : option rdres :=
  if decide (d_sub d = s) then match d_pc d with RdDone RdCompleted => None | RdDone r => Some r | _ => None end else None.
Definition reads_of (u : prog) (s : nat) : list rdres := omap (got_by s) (u_reads u).
(** The messages among them. *)
Definition read_msgs (l : list rdres) : list frame := omap (fun r => match r with RdMsg f => Some f | _ => None end) l.
