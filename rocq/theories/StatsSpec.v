(** What the statistics of a connection count. *)
From stdpp Require Import gmap.
From Verif Require Import GoBase HeaderModel FrameModel NegotiationModel ClientApiModel ClientModel ClientSpec OrderSpec.

(** What processLoop has taken from the server so far, heart-beats included. *)
Definition taken_in (y : cl) : list (option frame) := omap (fun e => match e with PvIn o => Some o | _ => None end) (c_log y).
(** The calls whose frames processLoop came to and kept in the client. *)
Definition kept (y : cl) : list nat := omap (fun e => match e with PvReq q None => Some (q_by q) | _ => None end) (c_log y).
(** How many of the calls are as stated. *)
Definition calls_that (P : gpc -> bool) (y : cl) : nat := sum_list_with (fun r => if P (g_pc r) then 1 else 0) (c_gs y).
(** Waiting for room in the write channel; gave up waiting for it. *)
Definition is_offering (x : gpc) : bool := match x with GPut _ _ => true | _ => false end.
Definition is_gave_up (x : gpc) : bool := match x with GDone (RErr ESendTimeout) => true | _ => false end.
Definition offering : cl -> nat := calls_that is_offering.
Definition gave_up : cl -> nat := calls_that is_gave_up.
