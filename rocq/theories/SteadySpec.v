(** Clients that stay: vocabulary of ExampleProps. *)
From Verif Require Import GoBase HeaderModel FrameModel NegotiationModel BrokerModel ServerConnModel SystemModel SystemSpec.

(** SEND has a destination, SUBSCRIBE asks for automatic acknowledgement, and
    nobody unsubscribes. *)
Definition steady (f : frame) : Prop := polite false f /\ f_cmd f <> UNSUBSCRIBE.
