(** Which destinations the server may remember. *)
From Verif Require Import GoBase HeaderModel FrameModel NegotiationModel BrokerModel ServerConnModel ServerConnSpec SystemModel SystemSpec KeepModel.

(** Clients named the destination: they subscribed to it, or they sent a
    message to it that the server accepted. *)
Definition named_by_client (y : sys) (d : str) : Prop :=
  (exists s sb, y_heap y !! s = Some sb /\ s_dest sb = d) \/ (exists m, m ∈ sent y /\ hget_of m h_destination = Some d).
(** Nobody is left and nothing waits. *)
Definition deserted (y : sys) : Prop :=
  y_req y = [] /\ y_pout y = [] /\ Forall (fun n => n_phase n = Dead /\ n_out n = []) (y_conns y) /\
  forall d, waiting (y_broker y) d = [] /\ ready (y_broker y) d = [] /\ members (y_broker y) d = [].
(** Every destination the server has an object for. *)
Definition remembered (k : ksys) : gset str := k_queues k ∪ k_topics k.
