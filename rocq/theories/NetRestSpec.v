(** Vocabulary of NetRestProps: the whole with nobody calling, connecting or
    sending anything new. *)
From stdpp Require Import gmap.
From Verif Require Import GoBase HeaderModel FrameModel NegotiationModel ClientApiModel ClientModel ClientSpec ClientReady ClientRestSpec.
From Verif Require Import BrokerModel ServerConnModel ServerConnSpec GrammarSpec SystemModel SystemSpec RestSpec NetModel NetSpec.

(** What happens by itself: the streams are read, the goroutines of the server
    and of the clients run, the programs receive from their subscriptions. *)
Definition nwork (a : nact) : Prop :=
  match a with
  | NUp _ | NHello _ _ | NDown _ => True
  | NServer a _ => work_act a
  | NClient _ a _ => cplain a
  | _ => False
  end.
(** ... except that a timeout passes. *)
Definition prompt (a : nact) : Prop := nwork a /\ match a with NClient _ (XTimeout _) _ => False | _ => True end.
(** Nothing happens any more but timeouts. *)
Definition nsettled (cfg : scfg) (x : net) : Prop := forall a, prompt a -> nstep cfg x a = None.
(** The write of the client succeeds, if there is one. *)
Definition lucky (a : nact) : Prop := match a with NClient _ (XTakeWrite w) _ => w = true | _ => True end.
(** A goroutine of the server or of a client is about to panic. *)
Definition npanics (cfg : scfg) (x : net) : Prop :=
  (exists a p, work_act a /\ step cfg (x_sys x) a = Some (Panicked p)) \/
  exists c l o h k y a p, x_links x !! c = Some l /\ l_peer l = PeerClient o h k y /\ cplain a /\ cstep k y a = Some (CPanic p).
(** All has come to rest without a panic and without the deadlock of C47. *)
Definition rested (cfg : scfg) (x : net) : Prop := nreach cfg x /\ nsettled cfg x /\ ~ npanics cfg x /\ ~ deadlocked (x_sys x).
(** Connection c with its client: the server serves it, processLoop runs, no
    write of the server failed, and the frames of the client are well-formed. *)
Definition healthy (x : net) (c : nat) (l : link) (n : sconn) (k : ccfg) (y : cl) : Prop :=
  x_links x !! c = Some l /\ y_conns (x_sys x) !! c = Some n /\ (exists o h, l_peer l = PeerClient o h k y) /\ n_phase n = Running /\ l_ok l = true /\ c_p y = PLoop /\
  0 < k_rcap k /\ 0 < k_wcap k /\ Forall writable (peer_sent (l_peer l)).
(** How the program uses the client: it unsubscribes from its own subscriptions,
    each receipt id is of one call, no receipt id is the id of a subscription it
    unsubscribes from, and sendFrame is used for the commands that the server
    confirms (those of Ack, Nack and transactions). *)
Definition tidy (y : cl) : Prop :=
  real_subs y /\ apart (c_gs y) /\
  (forall g r f id, c_gs y !! g = Some r -> op_frame (g_op r) = Some f -> hd_contains (f_hdr f) h_receipt = Some id -> sole (c_gs y) g id) /\
  (forall g r f, c_gs y !! g = Some r -> g_op r = OFrame f -> answers (f_cmd f) = true).
