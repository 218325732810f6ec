(** Vocabulary of NetQueueProps: programs that consume from a queue. *)
From stdpp Require Import gmap.
From Verif Require Import GoBase HeaderModel FrameModel NegotiationModel ClientApiModel ClientModel ClientSpec.
From Verif Require Import BrokerModel ServerConnModel ServerConnSpec GrammarSpec SystemModel SystemSpec NetModel NetSpec NetRestSpec.

(** Subscription s0 of a client was asked for with the SUBSCRIBE frame f,
    without a receipt, and no other call uses its name (cf. C21, C74). *)
Definition asked_with (y : cl) (s0 : nat) (b : csub) (f : frame) : Prop :=
  c_subs y !! s0 = Some b /\ (exists r id rt, c_gs y !! b_by b = Some r /\ g_op r = OSubscribe (Some (f, id, rt))) /\
  hd_contains (f_hdr f) h_receipt = None /\ sole (c_gs y) (b_by b) (sub_key f).
(** fs: what the program at the client end of connection c has received from
    its subscription s0. *)
Definition takes (x : net) (c s0 : nat) (f : frame) (fs : list frame) : Prop :=
  exists l o h k y b, x_links x !! c = Some l /\ l_peer l = PeerClient o h k y /\ Forall writable (peer_sent (l_peer l)) /\ asked_with y s0 b f /\ fs = msgs (b_read b).
(** ... on a connection that works, from a subscription that the program did
    not unsubscribe from. *)
Definition never_ended (y : cl) (key : str) : Prop := forall g r s f, c_gs y !! g = Some r -> g_op r = OUnsub s (Some f) ->
  hd_contains (f_hdr f) h_id <> Some key /\ hd_contains (f_hdr f) h_reply_to <> Some key.
Definition consumes (x : net) (c s0 : nat) (f : frame) (fs : list frame) : Prop :=
  exists l n k y b, healthy x c l n k y /\ asked_with y s0 b f /\ never_ended y (sub_key f) /\ fs = msgs (b_read b).
