(** Vocabulary of QueueOrderProps: the order of the messages of one queue. *)
From stdpp Require Import gmap.
From Verif Require Import GoBase HeaderModel FrameModel NegotiationModel BrokerModel BrokerSpec ServerConnModel ServerConnSpec SystemModel SystemSpec OnceSpec.

(** Frames that connection n wrote, or tried to write, for the subscription
    object s of a queue: the answers to [InSub s]. *)
Definition tried_one (s : nat) (e : cev) : list msg :=
  match v_in e with InSub t => if decide (t = s) then omap fst (v_wr e) else [] | _ => [] end.
Definition tried_for (s : nat) (n : sconn) : list msg := concat (tried_one s <$> n_log n).
(** No message for destination d was given back to the processor so far. *)
Definition none_back (d : str) (y : sys) : Prop := filter (to_dest d) (given_back y) = [].
(** The messages for d that the processor was asked to distribute, in the order
    of the asking. *)
Definition asked_for (d : str) (y : sys) : list msg := filter (to_dest d) (enqueues (handed y)).
