(** What the properties of the running client say, in terms of the calls, the
    frames exchanged with the server and the messages handed to the program. *)
From stdpp Require Import gmap.
From Verif Require Import GoBase HeaderModel FrameModel NegotiationModel ClientApiModel ClientModel.

(* ---------------- identifiers ---------------- *)
(** The name under which a SUBSCRIBE listens. *)
Definition sub_key (f : frame) : str := match hd_contains (f_hdr f) h_reply_to with Some rt => rt | None => match hd_contains (f_hdr f) h_id with Some i => i | None => [] end end.
(** The names a frame listens to, if a response channel comes with it. *)
Definition names (f : frame) (k : str) : Prop := hd_contains (f_hdr f) h_receipt = Some k \/ f_cmd f = SUBSCRIBE /\ sub_key f = k.
Global Instance names_dec f k : Decision (names f k).
Proof. unfold names. apply _. Defined.
(** The frame a call sends. *)
Definition op_frame (o : op) : option frame :=
  match o with
  | OSend f => f | OFrame f => Some f | OSubscribe (Some (f, _, _)) => Some f | OUnsub _ f => f
  | ODisconnect rid => Some (mkFrame DISCONNECT [(h_receipt, rid)] []) | _ => None
  end.
(** No other call uses the name k. *)
Definition sole (gs : list gor) (g : nat) (k : str) : Prop := forall j r f, gs !! j = Some r -> op_frame (g_op r) = Some f -> names f k -> j = g.

(* ---------------- receipts ---------------- *)
(** Calls of Send and sendFrame that want a receipt. *)
Definition receipt_call (o : op) (f : frame) : Prop := (o = OSend (Some f) \/ o = OFrame f) /\ wants_receipt f = true.
(** The log shows that call g's frame f was written and, later, a RECEIPT
    for it was read. *)
Definition receipted (l : list pev) (g : nat) (f : frame) : Prop := exists l1 q l2 fr l3,
  l = l1 ++ PvReq q (Some (f, true)) :: l2 ++ PvIn (Some fr) :: l3 /\ q_by q = g /\
  f_cmd fr = RECEIPT /\ hd_contains (f_hdr fr) h_receipt_id = hd_contains (f_hdr f) h_receipt.

(* ---------------- closed connections ---------------- *)
(** What calls made on a closed connection do. *)
Definition closed_result (o : op) (r : cres) : Prop :=
  match o with
  | OSend _ => r = RErr EAlreadyClosed
  | OFrame _ | OSubscribe _ => r = RErr EClosedUnexpectedly
  | ODisconnect _ | OMust => r = RNil
  | OUnsub _ _ => r = RErr ECompletedSub \/ r = RErr EOption \/ r = RErr EClosedUnexpectedly
  end.

(* ---------------- messages ---------------- *)
(** The MESSAGE frames among the messages of a channel C, and those among the
    frames handed over on response channel ch. *)
Definition msgs (l : list cmsg) : list frame := omap (fun m => match m with CmMsg f => Some f | CmErr _ => None end) l.
Definition told_to (ch : nat) (l : list pev) : list frame :=
  omap (fun e => match e with PvTold ch' f => if decide (ch' = ch /\ f_cmd f = MESSAGE) then Some f else None | _ => None end) l.
(** Frames that end a subscription listening to k: the RECEIPT of its
    UNSUBSCRIBE, or the (local) end of a reply-to subscription. *)
Definition stops (k : str) (e : pev) : Prop :=
  match e with
  | PvIn (Some f) => f_cmd f = RECEIPT /\ hd_contains (f_hdr f) h_receipt_id = Some k
  | PvReq q None => f_cmd (q_frame q) = UNSUBSCRIBE /\ hd_contains (f_hdr (q_frame q)) h_reply_to = Some k
  | _ => False
  end.
Global Instance stops_dec k e : Decision (stops k e).
Proof. destruct e as [q [[? ?]|]|[f|]|]; cbn; apply _. Defined.
Definition message_for (k : str) (f : frame) : Prop := f_cmd f = MESSAGE /\ hd_contains (f_hdr f) h_subscription = Some k.
Global Instance message_for_dec k f : Decision (message_for k f).
Proof. unfold message_for. apply _. Defined.
(** The MESSAGE frames for k read from the server up to the end of the
    subscription, in order. *)
Fixpoint due (k : str) (l : list pev) : list frame :=
  match l with
  | [] => []
  | e :: l' => if decide (stops k e) then [] else
               match e with
               | PvIn (Some f) => if decide (message_for k f) then f :: due k l' else due k l'
               | _ => due k l'
               end
  end.
(** Frames on their way to subscription b: held by its goroutine, and held by
    processLoop. *)
Definition transit (y : cl) (b : csub) : list frame :=
  match b_rl b with RlPut (CmMsg f) => [f] | _ => [] end ++
  match c_p y with PSend ch f KMessage => if decide (ch = b_ch b) then [f] else [] | _ => [] end.
