(** What a program sees on the channel C of a subscription, up to its end. *)
From stdpp Require Import gmap.
From Verif Require Import GoBase HeaderModel FrameModel NegotiationModel ClientApiModel ClientModel ClientSpec ClientEnd.

(** Frames that processLoop handed to the response channel ch. *)
Definition told (ch : nat) (l : list pev) : list frame := omap (fun e => match e with PvTold ch' f => if decide (ch' = ch) then Some f else None | _ => None end) l.
(** A frame that ends a subscription. *)
Definition final (f : frame) : Prop := f_cmd f = lit "ERROR" \/ f_cmd f = lit "RECEIPT".
(** What the program sees of them: the messages, up to an ERROR, of which it
    is told, or a RECEIPT. *)
Fixpoint shown (l : list frame) : list cmsg :=
  match l with
  | [] => []
  | f :: l => if decide (f_cmd f = lit "MESSAGE") then CmMsg f :: shown l else if decide (f_cmd f = lit "ERROR") then [CmErr (Some f)] else if decide (f_cmd f = lit "RECEIPT") then [] else shown l
  end.
(** A reply-to subscription listening on ch was ended by its UNSUBSCRIBE, which
    stays in the client. *)
Definition cut (l : list pev) (ch : nat) : Prop := exists l1 q l2 k, l = l1 ++ PvReq q None :: l2 /\ listens l1 k ch /\ f_cmd (q_frame q) = lit "UNSUBSCRIBE" /\
  hd_contains (f_hdr (q_frame q)) (lit "reply-to") = Some k /\ ~ (is_Some (q_chan q) /\ names (q_frame q) k).
(** What the subscription's goroutine is about to put on C. *)
Definition in_hand (x : rlpc) : list cmsg :=
  match x with RlPut m => [m] | RlClose (Cl1 (Some m)) | RlClose (Cl2 (Some m)) => [m] | _ => [] end.
(** After the messages: nothing, or an error of the client's own when a
    reply-to subscription was cut off. *)
Definition rest_ok (log : list pev) (ch : nat) (x : list cmsg) : Prop := x = [] \/ x = [CmErr None] /\ cut log ch /\ Forall (fun f => ~ final f) (told ch log).
