(** How long the client's processLoop was held up: the runs of AliveModel with
    the time that passed while the loop was not at its select statement. *)
From stdpp Require Import gmap.
From Verif Require Import GoBase HeaderModel FrameModel NegotiationModel TimerModel AliveModel.
From Verif Require ClientModel.
Local Open Scope Z.

(** conn.go:306-360, as [rcreach]; [t0]: when the loop started; [h]: the time
    spent in writer.Write, in sending on a response channel, or after the end. *)
Inductive runs (A : ClientModel.cact -> Prop) (cfg : ClientModel.ccfg) (R t0 : Z) : rcl -> Z -> Prop :=
| ru_init : runs A cfg R t0 (mkRcl t0 (Some (t0 + R)) None None [] ClientModel.cl_init) 0
| ru_wait s h d : runs A cfg R t0 s h -> 0 <= d -> at_select (rc_y s) -> rc_write s = None ->
    ClientModel.c_rch (rc_y s) = [] -> (forall dl, rc_timer s = Some dl -> rc_now s + d <= dl) ->
    runs A cfg R t0 (mkRcl (rc_now s + d) (rc_timer s) None (rc_freed s) (rc_heard s) (rc_y s)) h
| ru_busy s h d : runs A cfg R t0 s h -> 0 <= d -> ~ at_select (rc_y s) ->
    runs A cfg R t0 (mkRcl (rc_now s + d) (rc_timer s) (rc_write s) (rc_freed s) (rc_heard s) (rc_y s)) (h + d)
| ru_writing s h st d : runs A cfg R t0 s h -> 0 <= d -> rc_write s = Some st ->
    runs A cfg R t0 (mkRcl (rc_now s + d) (rc_timer s) (Some st) (rc_freed s) (rc_heard s) (rc_y s)) (h + d)
| ru_written s h st : runs A cfg R t0 s h -> rc_write s = Some st ->
    runs A cfg R t0 (mkRcl (rc_now s) (rc_timer s) None (if decide (st < rc_now s) then Some (rc_now s) else rc_freed s) (rc_heard s) (rc_y s)) h
| ru_step s h a y' (slow : bool) : runs A cfg R t0 s h -> A a ->
    (loop_act a = true -> rc_write s = None) ->
    (a = ClientModel.XReadTimeout -> exists dl, rc_timer s = Some dl /\ dl <= rc_now s) ->
    (slow = true -> write_act a = true /\ at_select y') ->
    ClientModel.cstep cfg (rc_y s) a = Some (ClientModel.COk y') ->
    runs A cfg R t0 (mkRcl (rc_now s) (read_timer R (rc_now s) (rc_timer s) a y')
      (if slow then Some (rc_now s) else rc_write s) (rc_freed s)
      (rc_heard s ++ match a with ClientModel.XRecv _ => [rc_now s] | _ => [] end) y') h.
