(** Vocabulary of RealtimeProps: what happens after what, as programs see it. *)
From stdpp Require Import gmap.
From Verif Require Import GoBase HeaderModel FrameModel GrammarSpec NegotiationModel ClientApiModel ClientModel ClientSpec OrderSpec.
From Verif Require Import BrokerModel ServerConnModel ServerConnSpec SystemModel SystemSpec FlowSpec NetModel NetSpec.

(** y: the client library at the other end of connection c. *)
Definition client_of (x : net) (c : nat) (y : cl) : Prop := exists l o h k, x_links x !! c = Some l /\ l_peer l = PeerClient o h k y.
(** The frames of that program can be told apart on the stream (C48). *)
Definition well_formed (x : net) (c : nat) : Prop := forall l, x_links x !! c = Some l -> Forall writable (peer_sent (l_peer l)).
(** Call g of that program was made, and returned v. *)
Definition called (x : net) (c g : nat) : Prop := exists y r, client_of x c y /\ c_gs y !! g = Some r.
Definition returns (x : net) (c g : nat) (v : cres) : Prop := exists y, client_of x c y /\ gave y g v.
(** It returned a result that says that its frame f is on its way (C84). *)
Definition succeeded (x : net) (c g : nat) (f : frame) : Prop := exists y r v, client_of x c y /\ c_gs y !! g = Some r /\ g_pc r = GDone v /\ OrderSpec.accepted (g_op r) v /\ op_frame (g_op r) = Some f.
(** Subscription s0 is of Subscribe call g. *)
Definition made (x : net) (c s0 g : nat) : Prop := exists y b, client_of x c y /\ c_subs y !! s0 = Some b /\ b_by b = g.
(** It waited for a receipt and returned nil; no other call uses the receipt's
    name.  (Disconnect also returns nil for a connection that is closed.) *)
Definition confirmed (x : net) (c g : nat) : Prop := exists y r f, client_of x c y /\ c_gs y !! g = Some r /\ g_pc r = GDone RNil /\
  (receipt_call (g_op r) f \/ exists rid, g_op r = ODisconnect rid /\ f = mkFrame DISCONNECT [(lit "receipt", rid)] [] /\ g ∈ (OrderSpec.written y).*1) /\
  forall rid, hd_contains (f_hdr f) (lit "receipt") = Some rid -> sole (c_gs y) g rid.
(** m: the frame of call g as the server's readLoop read it.  (The first frame
    on the connection is CONNECT.) *)
Definition message_of (x : net) (c g : nat) (m : msg) : Prop := exists y n i, client_of x c y /\ y_conns (x_sys x) !! c = Some n /\
  OrderSpec.written y !! i = Some (g, g_frame m) /\ (frames_of (n_log n) ++ n_read n) !! (S i) = Some m.
(** A SEND outside transactions. *)
Definition plain_send (m : msg) : Prop := cmd_of m = lit "SEND" /\ hget_of m (lit "transaction") = None.
(** The messages the server's processor was asked to distribute, in the order
    of the asking: this is the order in which it does. *)
Definition asked (y : sys) : list msg := enqueues (handed y).
Definition before {A} (l : list A) (a b : A) : Prop := exists l1 l2 l3, l = l1 ++ a :: l2 ++ b :: l3.
