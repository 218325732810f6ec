(** What Transaction objects do on a running connection. *)
From stdpp Require Import gmap.
From Verif Require Import GoBase HeaderModel FrameModel NegotiationModel ClientApiModel ClientApiSpec ClientModel ClientSpec OrderSpec TxModel.

(** The commands of the frames of a method. *)
Definition op_cmd (op : txop) : str :=
  match op with
  | TxSend _ _ _ _ => lit "SEND" | TxAck _ => lit "ACK" | TxNack _ => lit "NACK" | TxCommit _ => lit "COMMIT" | TxAbort _ => lit "ABORT"
  end.
(** Method call j of transaction k made sendFrame call g. *)
Definition method (u : xprog) (j k : nat) (op : txop) (g : nat) : Prop :=
  exists v, x_calls u !! j = Some v /\ v_tx v = k /\ v_op v = op /\ v_g v = Some g.
(** It returned r. *)
Definition gave_back (u : xprog) (j : nat) (r : vres) : Prop := exists v, x_calls u !! j = Some v /\ v_pc v = VDone r.
(** A Commit or Abort of transaction k has returned nil. *)
Definition ended (u : xprog) (k : nat) : Prop :=
  exists j v, x_calls u !! j = Some v /\ v_tx v = k /\ is_finish (v_op v) = true /\ v_pc v = VDone VNil.
(** Nothing but transaction k itself puts its name on a frame. *)
Definition private (u : xprog) (k : nat) (id : str) : Prop :=
  forall g r f, c_gs (x_cl u) !! g = Some r -> op_frame (g_op r) = Some f -> hd_contains (f_hdr f) (lit "transaction") = Some id ->
    (exists o, x_txs u !! k = Some o /\ x_begin o = g) \/ exists j op, method u j k op g.
(** The 64-bit counter behind the identifiers has not wrapped around in a step
    (C19). *)
Definition unwrapped (cfg : ccfg) (version : str) (u : xprog) (a : wact) : Prop := forall u', xstep cfg version u a = Some u' -> (x_last u <= x_last u')%N.
(** What a method's result tells about its sendFrame call. *)
Definition result_ok (u : xprog) (v : vcall) (r : vres) : Prop :=
  match r with
  | VNil => (exists g x, v_g v = Some g /\ gave (x_cl u) g x /\ forall e, x <> RErr e) \/ (v_g v = None /\ tx_needs_no_frame (v_op v))
  | VErr e => exists g, v_g v = Some g /\ gave (x_cl u) g (RErr e)
  | VCompleted => v_g v = None /\ ended u (v_tx v)
  | VBad => v_g v = None
  end.
