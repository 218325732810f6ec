(** Transactions of one program as other programs see them. *)
From stdpp Require Import gmap.
From Verif Require Import GoBase HeaderModel FrameModel.
From Verif Require Import BrokerModel ServerConnModel ServerConnSpec SystemModel FlowSpec.

(** The server accepted a COMMIT or ABORT of transaction t. *)
Definition finishes (t : str) (e : cev) : Prop :=
  exists m, accepted e = Some m /\ hget_of m (lit "transaction") = Some t /\ (cmd_of m = COMMIT \/ cmd_of m = ABORT).
(** Connection n sent m in a transaction and then, without an ABORT or another
    COMMIT in between, committed it. *)
Definition committed (n : sconn) (m : msg) (cm : msg) : Prop :=
  exists t pre e1 mid e2 post, n_log n = pre ++ e1 :: mid ++ e2 :: post /\ accepted e1 = Some m /\ hget_of m (lit "transaction") = Some t /\
    accepted e2 = Some cm /\ cmd_of cm = COMMIT /\ hget_of cm (lit "transaction") = Some t /\ forall e, e ∈ mid -> ~ finishes t e.

(** The frames a program has written inside its open transaction t. *)
Definition gather_step (t : str) (st : option (list frame)) (f : frame) : option (list frame) :=
  if decide (hd_contains (f_hdr f) (lit "transaction") = Some t) then
    if decide (f_cmd f = BEGIN) then Some []
    else if decide (f_cmd f = COMMIT \/ f_cmd f = ABORT) then None
    else if decide (f_cmd f ∈ [SEND; ACK; NACK]) then (fun l => l ++ [f]) <$> st
    else st
  else st.
Definition gathered (t : str) (fs : list frame) : option (list frame) := fold_left (gather_step t) fs None.
(** l occurs in l' without gaps. *)
Definition within {A} (l l' : list A) : Prop := exists a b, l' = a ++ l ++ b.
(** Frames of transaction t. *)
Definition of_tx (t : str) (f : frame) : Prop := hd_contains (f_hdr f) (lit "transaction") = Some t.
Global Instance of_tx_dec t f : Decision (of_tx t f).
Proof. unfold of_tx. apply _. Defined.
