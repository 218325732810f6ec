(** Which calls' frames are written to the server, and in which order. *)
From stdpp Require Import gmap.
From Verif Require Import GoBase HeaderModel FrameModel NegotiationModel ClientApiModel ClientModel ClientSpec.

(** The frames given to the network connection, with the call each is for. *)
Definition written (y : cl) : list (nat * frame) := omap (fun e => match e with PvReq q (Some (f, _)) => Some (q_by q, f) | _ => None end) (c_log y).
(** The calls whose frames processLoop has come to, and those in the write
    channel, in order. *)
Definition served (y : cl) : list nat := omap (fun e => match e with PvReq q _ => Some (q_by q) | _ => None end) (c_log y).
Definition queued (y : cl) : list nat := q_by <$> c_wch y.
(** SUBSCRIBE and UNSUBSCRIBE frames with a reply-to header stay in the
    client. *)
Definition stays (f : frame) : Prop := (f_cmd f = lit "SUBSCRIBE" \/ f_cmd f = lit "UNSUBSCRIBE") /\ is_Some (hd_contains (f_hdr f) (lit "reply-to")).
(** f' is what is written for f: the same, but UNSUBSCRIBE asks for a receipt
    named like the subscription. *)
Definition sent_as (f f' : frame) : Prop :=
  if decide (f_cmd f = lit "UNSUBSCRIBE") then
    f_cmd f' = f_cmd f /\ f_body f' = f_body f /\ hd_contains (f_hdr f') (lit "receipt") = Some (default [] (hd_contains (f_hdr f) (lit "id"))) /\
    forall k, k <> lit "receipt" -> hd_contains (f_hdr f') k = hd_contains (f_hdr f) k
  else f' = f.
Definition gave (y : cl) (g : nat) (x : cres) : Prop := exists r, c_gs y !! g = Some r /\ g_pc r = GDone x.
(** Results that say that nothing was sent. *)
Definition refused (x : cres) : Prop := x = RErr EAlreadyClosed \/ x = RErr ESendTimeout \/ x = RErr EOption \/ x = RErr ECompletedSub.
(** Results that say that the frame is on its way or was answered: nil (but
    Disconnect and MustDisconnect return it for a closed connection, too), a
    subscription, an answer by the server, a timeout while waiting for it. *)
Definition accepted (o : op) (x : cres) : Prop :=
  match x with
  | RNil => match o with ODisconnect _ | OMust => False | _ => True end
  | RSub _ => True
  | RErr (EResponse _) | RErr EReceiptTimeout | RErr EUnsubTimeout => True
  | _ => False
  end.
