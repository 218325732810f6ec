(** How long calls may take. *)
From Verif Require Import GoBase HeaderModel FrameModel NegotiationModel ClientApiModel ClientModel LimitModel.

(** Call g has returned; the time since it was made, or the time it took. *)
Definition has_returned (t : lcl) (g : nat) : Prop := exists r x, c_gs (l_cl t) !! g = Some r /\ g_pc r = GDone x.
Definition elapsed (t : lcl) (g : nat) : nat := (if is_done (l_cl t) g then l_end t g else l_now t) - l_call t g.
(** The result of call g. *)
Definition gave (t : lcl) (g : nat) (x : cres) : Prop := exists r, c_gs (l_cl t) !! g = Some r /\ g_pc r = GDone x.
Definition asked (t : lcl) (g : nat) (o : op) : Prop := exists r, c_gs (l_cl t) !! g = Some r /\ g_op r = o.

(** Calls g and h were in progress at the same time. *)
Definition overlap (t : lcl) (g h : nat) : bool :=
  (negb (is_done (l_cl t) h) || bool_decide (l_call t g < l_end t h)) && (negb (is_done (l_cl t) g) || bool_decide (l_call t h < l_end t g)).
(** How long a call may keep the others out. *)
Definition limit (c : lcfg) (o : op) : nat :=
  match o with
  | OSend (Some f) => l_msg c + (if wants_receipt f then l_rcv c else 0)
  | ODisconnect _ => l_disc c
  | _ => 0
  end.
(** What it may take after that. *)
Definition rest_limit (c : lcfg) (o : op) : nat := match o with OFrame f => if wants_receipt f then l_write c else 0 | _ => 0 end.
Definition total_limit (c : lcfg) (t : lcl) (g : nat) : nat :=
  sum_list_with (fun h => if overlap t g h then match c_gs (l_cl t) !! h with Some r => limit c (g_op r) | None => 0 end else 0) (seq 0 (length (c_gs (l_cl t)))).

(** All five timeouts are set. *)
Definition all_set (c : lcfg) : Prop := 0 < l_msg c /\ 0 < l_rcv c /\ 0 < l_disc c /\ 0 < l_unsub c /\ 0 < l_write c.
(** No call other than Send waits for room in the write channel. *)
Definition room (t : lcl) : Prop := forall g r k q, c_gs (l_cl t) !! g = Some r -> g_pc r = GPut k q -> k = FSend.
