(** Vocabulary of RestProps: counting the actions of a run. *)
From Verif Require Import GoBase FrameModel BrokerModel ServerConnModel ServerConnSpec SystemModel SystemSpec.

Global Instance work_act_dec a : Decision (work_act a).
Proof. destruct a as [| | |c [] w1 w2| | | |]; cbn; apply _. Defined.
(** Moves of the server other than heart-beats; frames that arrived; clients
    that connected. *)
Definition moves (l : list act) : nat := length (filter work_act l).
Definition frames (l : list act) : nat := sum_list_with (fun a => match a with ARecv _ _ => 1 | _ => 0 end) l.
Definition clients (l : list act) : nat := sum_list_with (fun a => match a with AAccept => 1 | _ => 0 end) l.
(** Nothing is left to do: no request is waiting to be served or handed over,
    and every connection is either closed and cleaned up or open with nothing
    received and not handled and nothing to transmit. *)
Definition quiet (n : sconn) : Prop :=
  n_out n = [] /\ (n_phase n = Dead \/ n_phase n = Running /\ n_read n = [] /\ n_eof n = false /\ n_write n = [] /\ n_sub n = []).
Definition at_rest (y : sys) : Prop := y_req y = [] /\ y_pout y = [] /\ Forall quiet (y_conns y).
(** The deadlock of C47: the processor waits for room in a channel of a
    connection that is gone or that waits for room in the request channel. *)
Definition deadlocked (y : sys) : Prop :=
  exists n, processor_waits y n /\ (n_phase n = Dead \/ n_out n <> [] /\ length (y_req y) = cap_req).
(** The messages with open connections: written to the client and not
    acknowledged, by the history of the connection; and those left in the
    channel of a closed connection. *)
Definition unacked (ack_of : nat -> str) (y : sys) : list msg :=
  concat ((fun n => match n_phase n with Running => omap (holds (y_heap y)) (outstanding ack_of (n_log n)) | _ => [] end) <$> y_conns y).
Definition stranded (y : sys) : list msg :=
  concat ((fun n => match n_phase n with Dead => omap (holds (y_heap y)) (n_sub n) | _ => [] end) <$> y_conns y).
