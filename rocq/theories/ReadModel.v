(** Subscription.Read and Subscription.Active (subscription.go:58-62 and
    139-151) on top of the running client of ClientModel: a program that makes
    any number of Read calls, concurrently if it likes, on any subscriptions.

    What is simplified: the program only calls Read on a subscription that
    Subscribe has made; a message is represented by its frame, an error by the
    ERROR frame it was made from ([None]: made by the client itself). *)
From stdpp Require Import gmap.
From Verif Require Import GoBase HeaderModel FrameModel NegotiationModel ClientApiModel ClientModel.

(** What a Read call returns: a message, the error a message carries, or
    ErrCompletedSubscription (errors.go:16). *)
Inductive rdres := RdMsg (f : frame) | RdErr (o : option frame) | RdCompleted.
(** subscription.go:147-149. *)
Definition result_of (m : cmsg) : rdres := match m with CmMsg f => RdMsg f | CmErr o => RdErr o end.
(** Where a Read call is: before the load of the state (subscription.go:140),
    before the receive (143), returned. *)
Inductive rdpc := RdLoad | RdRecv | RdDone (r : rdres).
Record rd := mkRd { d_sub : nat; d_pc : rdpc }.

(** The client together with all Read calls made so far, in the order of the
    calls. *)
Record prog := mkProg { u_cl : cl; u_reads : list rd }.
Definition prog_init : prog := mkProg cl_init [].

(** subscription.go:58-62 (Active). *)
Definition sub_active (b : csub) : bool := match b_state b with SubActive => true | _ => false end.

(** One step of a Read call: subscription.go:140-142 (the state is loaded
    atomically), 143-150 (the receive from the channel C; a closed channel
    gives what is left in its buffer first). *)
Definition do_read (u : prog) (j : nat) : option prog :=
  match u_reads u !! j with
  | None => None
  | Some d =>
    match c_subs (u_cl u) !! d_sub d with
    | None => None
    | Some b =>
      match d_pc d with
      | RdLoad => Some (mkProg (u_cl u) (<[j := mkRd (d_sub d) (if sub_active b then RdRecv else RdDone RdCompleted)]> (u_reads u)))
      | RdRecv =>
        match b_buf b with
        | m :: _ =>
          match do_consume (u_cl u) (d_sub d) with
          | Some (COk y) => Some (mkProg y (<[j := mkRd (d_sub d) (RdDone (result_of m))]> (u_reads u)))
          | _ => None
          end
        | [] => if b_cclosed b then Some (mkProg (u_cl u) (<[j := mkRd (d_sub d) (RdDone RdCompleted)]> (u_reads u))) else None
        end
      | RdDone _ => None
      end
    end
  end.

(** Steps of the client, new Read calls, steps of Read calls. *)
Inductive uact := UClient (a : cact) | URead (s : nat) | UStep (j : nat).
Definition ustep_of (cfg : ccfg) (u : prog) (a : uact) : option prog :=
  match a with
  | UClient a => match cstep cfg (u_cl u) a with Some (COk y) => Some (mkProg y (u_reads u)) | _ => None end
  | URead s => match c_subs (u_cl u) !! s with Some _ => Some (mkProg (u_cl u) (u_reads u ++ [mkRd s RdLoad])) | None => None end
  | UStep j => do_read u j
  end.
Inductive ureach (A : prog -> uact -> Prop) (cfg : ccfg) : prog -> Prop :=
| ur_init : ureach A cfg prog_init
| ur_step u a u' : ureach A cfg u -> A u a -> ustep_of cfg u a = Some u' -> ureach A cfg u'.

(** Nothing but Read takes messages from the channel C. *)
Definition by_read (u : prog) (a : uact) : Prop := forall s, a <> UClient (XConsume s).
(** One Read at a time for each subscription, as in a program that reads a
    subscription from one goroutine. *)
Definition is_done (d : rd) : bool := match d_pc d with RdDone _ => true | _ => false end.
Definition one_at_a_time (u : prog) (a : uact) : Prop :=
  by_read u a /\ forall s, a = URead s -> Forall (fun d => d_sub d = s -> is_done d = true) (u_reads u).
