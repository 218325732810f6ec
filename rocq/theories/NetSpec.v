(** What client and server mean to each other, in terms of the frames that
    each end has written and read. *)
From stdpp Require Import gmap.
From Verif Require Import GoBase HeaderModel FrameModel GrammarSpec NegotiationModel ClientApiModel ClientModel ClientSpec.
From Verif Require Import BrokerModel BrokerSpec ServerConnModel ServerConnSpec SystemModel SystemSpec FlowSpec PeerSpec NetModel.

(** Frames a client's processLoop tried to write, and frames its readLoop read
    from the network (taken by processLoop, or still in readCh). *)
Definition wrote_in (log : list pev) : list frame := omap (fun e => match e with PvReq _ (Some (f, _)) => Some f | _ => None end) log.
Definition client_wrote (y : cl) : list frame := wrote_in (c_log y).
Definition client_read (y : cl) : list frame := omap (fun e => match e with PvIn o => o | _ => None end) (c_log y) ++ omap id (c_rch y).
(** ... including the handshake. *)
Definition peer_sent (p : peer) : list frame :=
  match p with
  | PeerOther => []
  | PeerDialing o | PeerFailed o => [connect_frame o]
  | PeerClient o _ _ y => connect_frame o :: client_wrote y
  end.
Definition peer_got (p : peer) : list frame := match p with PeerClient _ h _ y => h :: client_read y | _ => [] end.
(** Frames the server's readLoop read on this connection and frames its
    processLoop tried to write. *)
Definition server_got (n : sconn) : list frame := g_frame <$> frames_of (n_log n) ++ n_read n.
Definition server_sent (n : sconn) : list frame := g_frame <$> omap fst (written n).

(** processLoop has left its loop. *)
Definition ended (p : ppc) : bool :=
  match p with PLoop | PSend _ _ (KReceipt _) | PSend _ _ KMessage => false | _ => true end.

(** A frame that carries a message the processor was given. *)
Definition copy_of (m : msg) (f : frame) : Prop := f_cmd f = MESSAGE /\ carries (g_frame m) f.
(** Nothing is under way from the processor to the program. *)
Definition arrived (x : net) (l : link) (n : sconn) (y : cl) (b : csub) : Prop :=
  n_phase n = Running /\ n_write n = [] /\ y_pout (x_sys x) = [] /\ l_ok l = true /\ l_down l = [] /\ c_rch y = [] /\ transit y b = [] /\ b_buf b = [].
