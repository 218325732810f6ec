(** Calls that are refused before they do anything. *)
From stdpp Require Import gmap.
From Verif Require Import GoBase HeaderModel FrameModel NegotiationModel ClientApiModel ClientModel.

(** Errors that are decided by the client alone, at once: ErrAlreadyClosed, the
    error of an option, ErrCompletedSubscription. *)
Inductive veto : cerr -> Prop := veto_closed : veto EAlreadyClosed | veto_option : veto EOption | veto_completed : veto ECompletedSub.
Definition returned (y : cl) (g : nat) (x : cres) : Prop := exists r, c_gs y !! g = Some r /\ g_pc r = GDone x.
Definition called (y : cl) (g : nat) (o : op) : Prop := exists r, c_gs y !! g = Some r /\ g_op r = o.
(** Everything but the subscriptions and call g is as it was: lock, closed
    flag, channels and what is on them, registrations, processLoop, what was
    written and read, the other calls. *)
Definition same_but (y y' : cl) (g : nat) : Prop :=
  c_mut y' = c_mut y /\ c_closed y' = c_closed y /\ c_wch y' = c_wch y /\ c_wclosed y' = c_wclosed y /\ c_rch y' = c_rch y /\ c_rclosed y' = c_rclosed y /\
  c_map y' = c_map y /\ c_chs y' = c_chs y /\ c_p y' = c_p y /\ c_log y' = c_log y /\ length (c_gs y') = length (c_gs y) /\
  forall h, h <> g -> c_gs y' !! h = c_gs y !! h.
(** Subscription s was active, is no longer, and otherwise is as it was; so are
    the others. *)
Definition deactivated (y y' : cl) (s : nat) : Prop :=
  exists b, c_subs y !! s = Some b /\ b_state b = SubActive /\
    c_subs y' !! s = Some (mkCsub (b_by b) (b_id b) (b_reply b) (b_ch b) SubClosing (b_buf b) (b_cclosed b) (b_once b) (b_rl b) (b_wait b) (b_read b)) /\
    length (c_subs y') = length (c_subs y) /\ forall s', s' <> s -> c_subs y' !! s' = c_subs y !! s'.
