(** Where the errors that a program sees come from. *)
From stdpp Require Import gmap.
From Verif Require Import GoBase HeaderModel FrameModel ClientApiModel ClientModel ClientSpec ErrorModel.
From Verif Require Import GrammarSpec NegotiationModel BrokerModel ServerConnModel ServerConnSpec SystemModel RefusalSpec NetModel NetSpec.

(** Reasons of the client itself to end a connection ("write error" stands for
    the text of the error returned by the write). *)
Definition local_reasons : list str :=
  [lit "connection closed"; lit "write channel closed"; lit "read timeout"; lit "write error"; lit "missing receipt-id"].
(** An ERROR frame made by the client. *)
Definition made_here (f : frame) : Prop :=
  f_cmd f = lit "ERROR" /\ f_body f = [] /\ exists t, t ∈ local_reasons /\ f_hdr f = [(lit "message", t)].

(** The server refused frame m, that it took on this connection after the
    history pre, for the reason txt, and wrote f to say so; it was the last
    thing it did on this connection. *)
Definition reported (cfg : scfg) (n : sconn) (m : msg) (txt : str) (f : frame) : Prop :=
  exists pre e before err w, n_log n = pre ++ [e] /\ v_in e = InFrame m /\ v_wr e = before ++ [(Some err, w)] /\ g_frame err = f /\
    refused cfg pre m txt /\ first_entry (f_hdr f) (lit "message") txt.
(** A RECEIPT could not be written on this connection. *)
Definition receipt_lost (n : sconn) : Prop := exists rc, (Some rc, false) ∈ wire (n_log n) /\ cmd_of rc = lit "RECEIPT".

(** The error that a program gets for f: one of the client's own reasons, or the
    reason the server had to refuse a frame that this client sent it. *)
Definition explained (cfg : scfg) (p : peer) (n : sconn) (f : frame) : Prop :=
  (exists t, t ∈ local_reasons /\ new_error f = mkErr t (Some f) /\ sub_error f = mkErr t (Some f)) \/ receipt_lost n \/
  exists m txt, reported cfg n m txt f /\ new_error f = mkErr txt (Some f) /\ sub_error f = mkErr txt (Some f) /\ (Forall writable (peer_sent p) -> g_frame m ∈ peer_sent p).
