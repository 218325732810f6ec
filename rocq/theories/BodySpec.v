(** When a program may store into a slice it passed to Send. *)
From stdpp Require Import gmap.
From Verif Require Import GoBase HeaderModel FrameModel NegotiationModel ClientApiModel ClientModel ClientSpec OrderSpec BodyModel.

(** A call that asked for a receipt has got it, or another answer. *)
Definition answered (y : cl) (g : nat) : Prop :=
  exists r f, c_gs y !! g = Some r /\ receipt_call (g_op r) f /\ (g_pc r = GDone RNil \/ exists fr, g_pc r = GDone (RErr (EResponse fr))).
(** The slice of call g is free: the call returned an error that says that
    nothing was sent; or it was answered; or a call made after its return
    was. *)
Inductive freed (u : bprog) (g : nat) : Prop :=
| fr_refused x : gave (b_cl u) g x -> refused x -> freed u g
| fr_answered : answered (b_cl u) g -> freed u g
| fr_later j : (g, j) ∈ b_past u -> answered (b_cl u) j -> freed u g.
(** A program that stores into a slice only when it is free. *)
Definition patient (u : bprog) (a : bact) : Prop :=
  forall k i c, a = BStore k i c -> forall g, b_uses u !! g = Some k -> freed u g.
(** Programs that wait for less: for the call's return, for a nil result. *)
Definition after_return (u : bprog) (a : bact) : Prop :=
  forall k i c, a = BStore k i c -> forall g, b_uses u !! g = Some k -> exists x, gave (b_cl u) g x.
Definition after_nil (u : bprog) (a : bact) : Prop :=
  forall k i c, a = BStore k i c -> forall g, b_uses u !! g = Some k -> gave (b_cl u) g RNil.
(** Programs all of whose calls with a slice want a receipt. *)
Definition receipts (u : bprog) (a : bact) : Prop :=
  forall o k, a = BCall o k -> exists f, receipt_call o f.

(** What was written for a call is the frame that it was called with: the
    whole of it, or, if the write failed, with a part of the body. *)
Definition as_called (u : bprog) : Prop := forall (g : nat) (f : frame) (w : bool), (g, f, w) ∈ b_wire u ->
  exists r f0, c_gs (b_cl u) !! g = Some r /\ op_frame (g_op r) = Some f0 /\ sent_as f0 (mkFrame (f_cmd f) (f_hdr f) (f_body f0)) /\
    if w then f_body f = f_body f0 else f_body f `prefix_of` f_body f0.
(** Call, command and header of what was written and of
    what is being written. *)
Definition outline (u : bprog) : list (nat * str * header * bool) :=
  ((fun p => (p.1.1, f_cmd p.1.2, f_hdr p.1.2, p.2)) <$> b_wire u) ++ match b_cur u with Some c => [(u_call c, f_cmd (u_frame c), f_hdr (u_frame c), u_ok c)] | None => [] end.
Definition log_outline (y : cl) : list (nat * str * header * bool) :=
  omap (fun e => match e with PvReq q (Some (f, w)) => Some (q_by q, f_cmd f, f_hdr f, w) | _ => None end) (c_log y).
