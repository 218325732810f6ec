(** The read timer with HeartBeatGracePeriodMultiplier: conn.go:318 computes
    time.Duration(float64(c.readTimeout) * c.hbGracePeriodMultiplier), and
    conn_options.go:39, 282-287 say where the multiplier comes from.  Read
    timeouts are positive there (conn.go:317).

    A finite float64 is plus or minus m * 2^e with 0 <= m < 2^53.  Conversion
    from int64 and multiplication round to 53 significant bits, to the nearest,
    ties to even (Go specification, "Floating-point operators"; IEEE 754).
    Rounding of subnormal products and overflow to infinity are left out: the
    former are less than 1 and the latter more than any Duration, however they
    are rounded. *)
From stdpp Require Import numbers.
From Coq Require Import ZArith.
Local Open Scope Z.

Inductive float := Fin (neg : bool) (m e : Z) | Inf (neg : bool) | NaN.
(** 1.0, the default (conn_options.go:39) *)
Definition one : float := Fin false (2 ^ 52) (-52).
(** Rounding of an integer n >= 0 to 53 bits: the last k are dropped. *)
Definition round53 (n : Z) : Z :=
  let k := Z.max 0 (Z.log2 n - 52) in
  let q := n / 2 ^ k in
  let r := n mod 2 ^ k in
  if (2 ^ k <? 2 * r) || (2 * r =? 2 ^ k) && Z.odd q then (q + 1) * 2 ^ k else q * 2 ^ k.
(** The integer part of m * 2^e. *)
Definition trunc (m e : Z) : Z := if 0 <=? e then m * 2 ^ e else m / 2 ^ (- e).
(** conn.go:318.  Converting a float that is no int64 gives an
    implementation-dependent value: None. *)
Definition grace (t : Z) (f : float) : option Z :=
  match f with
  | Fin neg m e =>
      let v := trunc (round53 (round53 t * m)) e in
      if neg then if v <=? 2 ^ 63 then Some (- v) else None
      else if v <? 2 ^ 63 then Some v else None
  | Inf _ | NaN => None
  end.
