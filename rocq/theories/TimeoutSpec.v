(** The tolerance for late heart-beats asked for by a list of options: the
    last HeartBeatError, 5 seconds when there is none. *)
From Verif Require Import GoBase NegotiationModel NegotiationSpec.
Definition asked_tolerance :=
  last_opt (fun x => match x with OptHeartBeatError e => Some e | _ => None end) (5 * 1000000000)%Z.
