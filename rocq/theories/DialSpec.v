(** Vocabulary for what Dial and Connect do with a network connection. *)
From stdpp Require Import gmap.
From Verif Require Import GoBase HeaderModel FrameModel NegotiationModel NegotiationSpec ClientApiModel ClientModel DialModel.

(** host:port and [host]:port. *)
Definition plain (s : str) : Prop := ":"%char ∉ s /\ "["%char ∉ s /\ "]"%char ∉ s.
Inductive address : str -> str -> str -> Prop :=
| addr_plain h p : plain h -> plain p -> address (h ++ ":"%char :: p) h p
| addr_bracket h p : "["%char ∉ h -> "]"%char ∉ h -> plain p -> address ("["%char :: h ++ "]"%char :: ":"%char :: p) h p.

(** The options of the handshake; the last option of a kind. *)
Definition hands (opts : list dopt) : list copt := omap (fun o => match o with DHand c => Some c | _ => None end) opts.
Definition asked {A} (sel : dopt -> option A) (d : A) (opts : list dopt) : A := default d (last (omap sel opts)).
Definition asked_msg := asked (fun o => match o with DMsgSendTimeout n => Some n | _ => None end).
Definition asked_rcv := asked (fun o => match o with DRcvReceiptTimeout n => Some n | _ => None end).
Definition asked_disc := asked (fun o => match o with DDisconnectReceiptTimeout n => Some n | _ => None end).
Definition asked_unsub := asked (fun o => match o with DUnsubscribeReceiptTimeout n => Some n | _ => None end).
Definition asked_rcap := asked (fun o => match o with DReadChannelCapacity n => Some n | _ => None end).
Definition asked_wcap := asked (fun o => match o with DWriteChannelCapacity n => Some n | _ => None end).
Definition asked_rbuf := asked (fun o => match o with DReadBufferSize n => Some n | _ => None end).
Definition asked_wbuf := asked (fun o => match o with DWriteBufferSize n => Some n | _ => None end).
Definition asked_stats := asked (fun o => match o with DWithStats => Some true | _ => None end).
Definition asked_callback := asked (fun o => match o with DResponseHeaders f => Some f | _ => None end).
Definition seconds (n : Z) : Z := (n * 1000000000)%Z.
(** A capacity or a size that is not positive means the default. *)
Definition or_default (d n : Z) : Z := if (n <=? 0)%Z then d else n.

(** The read deadline that is in force after a run; None: none. *)
Definition read_deadline (t : list ioev) : option Z := default None (last (omap (fun e => match e with VDeadline d => Some d | _ => None end) t)).
Definition writes (t : list ioev) : list (str * bool) := omap (fun e => match e with VWrite b ok => Some (b, ok) | _ => None end) t.
Definition reads (t : list ioev) : list rres := omap (fun e => match e with VRead r => Some r | _ => None end) t.
Definition starts (t : list ioev) : list ccfg := omap (fun e => match e with VStart c => Some c | _ => None end) t.
(** The network connection was made and is still open. *)
Definition open_after (t : list ioev) : Prop := VDial true ∈ t /\ VClose ∉ t.
(** The program waits for the network. *)
Definition waits {A} (p : io A) : Prop := match p with IDial _ | IWrite _ _ | IRead _ => True | _ => False end.
Definition waits_for_reply {A} (p : io A) : Prop := match p with IRead _ => True | _ => False end.
(** In the middle: neither waiting for the network nor returned. *)
Definition inner {A} (p : io A) : Prop := match p with IAddr _ | IDeadline _ _ | IClose _ | ICallback _ _ _ | IStart _ _ => True | _ => False end.
(** The callback was called. *)
Definition callbacks (t : list ioev) : list (nat * header) := omap (fun e => match e with VCallback n h => Some (n, h) | _ => None end) t.
