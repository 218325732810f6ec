(** Vocabulary of OnceProps: how often a queue message is transmitted. *)
From Verif Require Import GoBase HeaderModel FrameModel NegotiationModel BrokerModel BrokerSpec ServerConnModel ServerConnSpec SystemModel SystemSpec.

(** Frames written because of a queue subscription: the answers to [InSub]. *)
Definition tried (e : cev) : list msg := match v_in e with InSub _ => omap fst (v_wr e) | _ => [] end.
Definition attempts (y : sys) : list msg := concat ((fun n => concat (tried <$> n_log n)) <$> y_conns y).
(** Messages that a connection gave back to the processor so far: by NACK, on
    unsubscribing or at the end of the connection. *)
Definition requeues (l : list request) : list msg := omap (fun r => match r with RRequeue m => Some m | _ => None end) l.
Definition given_back (y : sys) : list msg := requeues (handed y) ++ concat ((fun n => requeues (n_out n)) <$> y_conns y).
(** The same message (server-chosen headers apart). *)
Definition same_payload (m m' : msg) : Prop := payload m' = payload m.
Global Instance same_payload_dec m m' : Decision (same_payload m m').
Proof. unfold same_payload. apply _. Defined.
Definition times (m : msg) (l : list msg) : nat := length (filter (same_payload m) l).
