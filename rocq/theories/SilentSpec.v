(** What it means that a silent peer is noticed. *)
From stdpp Require Import gmap.
From Verif Require Import GoBase AliveModel.
Local Open Scope Z.

(** When the client last heard something, or the time it started at. *)
Definition last_sign (t0 : Z) (s : rcl) : Z := match last (rc_heard s) with Some a => a | None => t0 end.
(** Nothing arrives until after [t]. *)
Definition silent_until (t : Z) (l : timed) : Prop := forall a c, (a, c) ∈ l -> t < a.
