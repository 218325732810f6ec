(** What a grace period is for. *)
From stdpp Require Import numbers.
From Coq Require Import ZArith.
From Verif Require Import GraceModel.
Local Open Scope Z.

(** The multiplier is the fraction num / den. *)
Definition is_fraction (f : float) (num den : Z) : Prop :=
  exists m e, f = Fin false m e /\ 0 <= m < 2 ^ 53 /\ 0 < den /\ num * 2 ^ Z.max 0 (- e) = m * 2 ^ Z.max 0 e * den.
(** An integer that a float64 can be. *)
Definition has_53_bits (x : Z) : Prop := exists a j, x = a * 2 ^ j /\ 0 <= a < 2 ^ 53 /\ 0 <= j.
(** IEEE 754, round to nearest, ties to even: r is a float64, none is nearer to
    n, and if another one, x, is as near then r is the multiple of twice their
    distance. *)
Definition nearest_even (n r : Z) : Prop :=
  has_53_bits r /\ forall x, has_53_bits x -> Z.abs (r - n) <= Z.abs (x - n) /\ (Z.abs (x - n) = Z.abs (r - n) -> x <> r -> (2 * Z.abs (x - r) | r)).
