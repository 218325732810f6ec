(** Vocabulary of ClientRestProps: counting what a client does, and when it is
    done. *)
From stdpp Require Import gmap.
From Verif Require Import GoBase HeaderModel FrameModel NegotiationModel ClientApiModel ClientModel.

(** What the client itself does; the others are the program's calls, the server,
    and heart-beats. *)
Definition cwork (a : cact) : Prop := match a with XCall _ | XRecv _ | XEof | XBeat true => False | _ => True end.
Global Instance cwork_dec a : Decision (cwork a).
Proof. destruct a as [| | | | | | | |[]| | | | |]; cbn; apply _. Defined.
Definition cmoves (l : list cact) : nat := length (filter cwork l).
Definition calls (l : list cact) : nat := sum_list_with (fun a => match a with XCall _ => 1 | _ => 0 end) l.
Definition arrivals (l : list cact) : nat := sum_list_with (fun a => match a with XRecv _ => 1 | _ => 0 end) l.
(** Moves that do not depend on anything going wrong or on the server being
    silent; the program keeps receiving from its subscriptions. *)
Definition cplain (a : cact) : Prop := cwork a /\ a <> XReadTimeout /\ a <> XBeat false.
(** Nothing is left to do: no goroutine can move and every timeout has passed. *)
Definition at_rest (cfg : ccfg) (y : cl) : Prop := forall a, cplain a -> cstep cfg y a = None.
(** All timeouts are configured. *)
Definition timeouts (cfg : ccfg) : Prop := k_msg_to cfg = true /\ k_rcv_to cfg = true /\ k_disc_to cfg = true /\ k_unsub_to cfg = true /\ k_write_to cfg = true.
(** Unsubscribe is only called on subscriptions the program has. *)
Definition real_subs (y : cl) : Prop := forall g r s f, c_gs y !! g = Some r -> g_op r = OUnsub s f -> is_Some (c_subs y !! s).
Definition returned (y : cl) (g : nat) : Prop := exists r x, c_gs y !! g = Some r /\ g_pc r = GDone x.
(** Every call has returned and nothing waits to be handled: processLoop and the
    subscriptions' goroutines wait for input, or have ended. *)
Definition all_returned (y : cl) : Prop := forall g, g < length (c_gs y) -> returned y g.
Definition settled_sub (y : cl) (b : csub) : Prop := b_buf b = [] /\ (b_rl b = RlRecv /\ h_is_closed y (b_ch b) = false \/ b_rl b = RlDone).
(** The call that holds closeMutex waits for room in the full writeCh, with no
    timeout to end it. *)
Definition jammed (cfg : ccfg) (y : cl) (h : nat) : Prop :=
  exists r k q, c_mut y = Some h /\ c_gs y !! h = Some r /\ g_pc r = GPut k q /\ k <> FSend /\ c_wclosed y = false /\ k_wcap cfg <= length (c_wch y).
