(** What the client does with the frames it reads from the server and when it
    ends a connection. *)
From stdpp Require Import gmap.
From Verif Require Import GoBase HeaderModel FrameModel NegotiationModel ClientApiModel ClientModel ClientSpec ClientEnd.

(** The name under which somebody may wait for a frame. *)
Definition routed (f : frame) : option str :=
  if decide (f_cmd f = lit "RECEIPT") then hd_contains (f_hdr f) (lit "receipt-id")
  else if decide (f_cmd f = lit "MESSAGE") then hd_contains (f_hdr f) (lit "subscription") else None.
(** An ERROR frame of the client's own. *)
Definition own_error (txt : str) : frame := mkFrame (lit "ERROR") [(lit "message", txt)] [].
(** What ends the connection, and what everybody is told then. *)
Definition ends (e : pev) : option frame :=
  match e with
  | PvIn (Some f) => if decide (f_cmd f = lit "ERROR") then Some f
                     else if decide (f_cmd f = lit "RECEIPT" /\ hd_contains (f_hdr f) (lit "receipt-id") = None) then Some (own_error (lit "missing receipt-id")) else None
  | PvReq _ (Some (_, false)) => Some (own_error (lit "write error"))
  | _ => None
  end.
(** Other reasons to end it: the network connection ended, the program
    disconnected, nothing was read for too long, or a heart-beat could not be
    written ([A]: what may happen). *)
Inductive own_reason (A : cact -> Prop) (cfg : ccfg) (y : cl) : str -> Prop :=
| or_closed : c_rclosed y = true -> own_reason A cfg y (lit "connection closed")
| or_disconnect : c_wclosed y = true -> own_reason A cfg y (lit "write channel closed")
| or_timeout : k_read_to cfg = true -> A XReadTimeout -> own_reason A cfg y (lit "read timeout")
| or_beat : k_write_to cfg = true -> A (XBeat false) -> own_reason A cfg y (lit "write error").
(** After the events l the connection ended and f is what everybody is told. *)
Inductive ended_by (A : cact -> Prop) (cfg : ccfg) (y : cl) (l : list pev) (f : frame) : Prop :=
| eb_event l0 e : l = l0 ++ [e] -> ends e = Some f -> Forall (fun e => ends e = None) l0 -> ended_by A cfg y l f
| eb_own txt : own_reason A cfg y txt -> f = own_error txt -> Forall (fun e => ends e = None) l -> ended_by A cfg y l f.
(** f is handed to the channels of ks, in this order. *)
Definition spread (f : frame) (ks : list (str * nat)) : list pev := (fun p => PvTold p.2 f) <$> ks.
(** ks: everybody who waits for something after the events l. *)
Definition waiters (l : list pev) (ks : list (str * nat)) : Prop := NoDup ks.*1 /\ forall k ch, (k, ch) ∈ ks <-> listens l k ch.
(** Nothing is handed over next, except that the connection may end. *)
Definition quiet (A : cact -> Prop) (cfg : ccfg) (y : cl) (l : list pev) : Prop := forall ch f l', l = PvTold ch f :: l' -> exists txt, own_reason A cfg y txt /\ f = own_error txt.
