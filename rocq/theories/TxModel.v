(** Transaction objects (transaction.go; Conn.Begin and BeginWithError,
    conn.go:797-810) used by a program on a running connection: any number of
    transactions, the calls on one of them made by one goroutine or by several
    at a time.

    What is simplified: a method's test of completed, the making of its frame
    and the call of sendFrame are one step; sendFrame itself runs step by step
    as a call of ClientModel.  The frame made is the one of
    ClientApiModel.tx_step. *)
From stdpp Require Import gmap.
From Verif Require Import GoBase HeaderModel FrameModel NegotiationModel ClientApiModel ClientModel.

(** transaction.go:17-21; [x_begin]: the sendFrame call that sent its BEGIN. *)
Record tobj := mkTobj { x_id : str; x_begin : nat; x_done : bool }.
(** What a method returns: nil, ErrCompletedTransaction, the error of an option
    or of createAckNackFrame, the error of sendFrame. *)
Inductive vres := VNil | VCompleted | VBad | VErr (e : cerr).
(** Where a method call is: before the test of completed, in sendFrame,
    returned. *)
Inductive vpc := VStart | VWait (g : nat) | VDone (r : vres).
(** A method call; [v_g]: the sendFrame call it made, if any. *)
Record vcall := mkVcall { v_tx : nat; v_op : txop; v_pc : vpc; v_g : option nat }.
(** The program: client, last allocated identifier (id.go:8), transactions,
    method calls. *)
Record xprog := mkX { x_cl : cl; x_last : N; x_txs : list tobj; x_calls : list vcall }.
Definition x_init : xprog := mkX cl_init 0 [] [].

Definition finishing (op : txop) : bool := match op with TxCommit _ | TxAbort _ => true | _ => false end.
(** Has sendFrame call g returned? *)
Definition done_with (y : cl) (g : nat) : option cres :=
  match c_gs y !! g with Some r => match g_pc r with GDone x => Some x | _ => None end | None => None end.

(** Start of a method (transaction.go:48-57, 83-92, 114-123, 132-142, 160-170):
    the test of completed, the frame, the call of sendFrame. *)
Definition method_start (cfg : ccfg) (version : str) (u : xprog) (j : nat) (v : vcall) (o : tobj) : option xprog :=
  let set p g := <[j := mkVcall (v_tx v) (v_op v) p g]> (x_calls u) in
  if x_done o then Some (mkX (x_cl u) (x_last u) (x_txs u) (set (VDone VCompleted) None))
  else
    let '(t, fs, r) := tx_step (mkTx (x_id o) false (x_last u)) (v_op v) SendOk version in
    match fs with
    | f :: _ =>
        let g := length (c_gs (x_cl u)) in
        match cstep cfg (x_cl u) (XCall (OFrame f)) with
        | Some (COk y) => Some (mkX y (tx_last t) (x_txs u) (set (VWait g) (Some g)))
        | _ => None
        end
    | [] => Some (mkX (x_cl u) (tx_last t) (x_txs u) (set (VDone (match r with TxNil => VNil | _ => VBad end)) None))
    end.
(** Its end, after sendFrame returned (transaction.go:59-65, 94-100, 124,
    143-149, 171-177). *)
Definition method_end (u : xprog) (j : nat) (v : vcall) (o : tobj) (g : nat) : option xprog :=
  let set p := <[j := mkVcall (v_tx v) (v_op v) p (v_g v)]> (x_calls u) in
  match done_with (x_cl u) g with
  | Some (RErr e) => Some (mkX (x_cl u) (x_last u) (x_txs u) (set (VDone (VErr e))))
  | Some _ => Some (mkX (x_cl u) (x_last u)
                (if finishing (v_op v) then <[v_tx v := mkTobj (x_id o) (x_begin o) true]> (x_txs u) else x_txs u) (set (VDone VNil)))
  | None => None
  end.

(** WClient: any step of the connection and any other call of the program.
    WAlloc: an identifier is allocated for something else.  WBegin: Begin or
    BeginWithError is called; the object can be used as soon as its sendFrame
    has returned, with whatever result.  WCall k op: a method of transaction k
    is called. *)
Inductive wact := WClient (a : cact) | WAlloc | WBegin | WCall (k : nat) (op : txop) | WStep (j : nat).
Definition xstep (cfg : ccfg) (version : str) (u : xprog) (a : wact) : option xprog :=
  match a with
  | WClient a => match cstep cfg (x_cl u) a with Some (COk y) => Some (mkX y (x_last u) (x_txs u) (x_calls u)) | _ => None end
  | WAlloc => Some (mkX (x_cl u) (next_id (x_last u)) (x_txs u) (x_calls u))
  | WBegin =>
      let '(f, t) := begin_tx (x_last u) in
      match cstep cfg (x_cl u) (XCall (OFrame f)) with
      | Some (COk y) => Some (mkX y (tx_last t) (x_txs u ++ [mkTobj (tx_id t) (length (c_gs (x_cl u))) false]) (x_calls u))
      | _ => None
      end
  | WCall k op =>
      match x_txs u !! k with
      | Some o => match done_with (x_cl u) (x_begin o) with
                  | Some _ => Some (mkX (x_cl u) (x_last u) (x_txs u) (x_calls u ++ [mkVcall k op VStart None]))
                  | None => None
                  end
      | None => None
      end
  | WStep j =>
      match x_calls u !! j with
      | Some v => match x_txs u !! v_tx v with
                  | Some o => match v_pc v with
                              | VStart => method_start cfg version u j v o
                              | VWait g => method_end u j v o g
                              | VDone _ => None
                              end
                  | None => None
                  end
      | None => None
      end
  end.

(** States reached by steps that satisfy A. *)
Inductive xreach (A : xprog -> wact -> Prop) (cfg : ccfg) (version : str) : xprog -> Prop :=
| xr_init : xreach A cfg version x_init
| xr_step u a u' : xreach A cfg version u -> A u a -> xstep cfg version u a = Some u' -> xreach A cfg version u'.
Inductive xpath (A : xprog -> wact -> Prop) (cfg : ccfg) (version : str) (u : xprog) : xprog -> Prop :=
| xp_here : xpath A cfg version u u
| xp_step u1 a u2 : xpath A cfg version u u1 -> A u1 a -> xstep cfg version u1 a = Some u2 -> xpath A cfg version u u2.
(** Any program. *)
Definition all_steps (u : xprog) (a : wact) : Prop := True.
(** One call at a time for each transaction. *)
Definition v_over (v : vcall) : bool := match v_pc v with VDone _ => true | _ => false end.
Definition serial (u : xprog) (a : wact) : Prop :=
  forall k op, a = WCall k op -> Forall (fun v => v_tx v = k -> v_over v = true) (x_calls u).
Fixpoint xrun (cfg : ccfg) (version : str) (u : xprog) (l : list wact) : option xprog :=
  match l with [] => Some u | a :: l => match xstep cfg version u a with Some u => xrun cfg version u l | None => None end end.
