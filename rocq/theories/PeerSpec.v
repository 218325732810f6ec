(** What client and server together should achieve. *)
From Verif Require Import GoBase HeaderModel FrameModel GrammarSpec NegotiationModel ClientApiModel BrokerModel ServerConnModel ServerConnSpec SystemModel SystemSpec
  PeerModel.

(** The frames that Conn.Send or Transaction.Send with these arguments hand to
    the connection. *)
Definition send_call (dest ctype body : str) (os : list sopt) (f : frame) : Prop :=
  (exists last l, create_send_frame last dest ctype body os = Some (l, f)) \/
  (exists t o version t' fs r, tx_step t (TxSend dest ctype body os) o version = (t', fs, r) /\ f ∈ fs).
(** Options that keep the frame readable and leave content-length in place. *)
Definition plain_opts (os : list sopt) : Prop := SoNoContentLength ∉ os /\ forall k v, SoHeader k v ∈ os -> k <> [].

(** Headers that the server consumes or writes itself. *)
Definition server_headers : list str := [lit "receipt"; lit "transaction"; lit "subscription"; lit "message-id"; lit "id"; lit "ack"].
(** Frame g carries everything else of frame f. *)
Definition carries (f g : frame) : Prop :=
  f_body g = f_body f /\
  filter (fun kv : str * str => kv.1 ∉ server_headers) (f_hdr g) = filter (fun kv : str * str => kv.1 ∉ server_headers) (f_hdr f).

(** Server connection c has accepted the client frame m. *)
Definition accepts (y : sys) (c : nat) (m : msg) : Prop :=
  exists n e, y_conns y !! c = Some n /\ e ∈ n_log n /\ accepted e = Some m.

(** The frames that Conn.Ack/Nack hand to the connection, or those that
    Transaction.Ack/Nack do; with the transaction named by the frame. *)
Definition ack_call (version : str) (msg : message) (ack : bool) (f : frame) (t : option str) : Prop :=
  match t with
  | None => create_ack_nack version msg ack = AFrame f
  | Some t => exists tx o tx' fs r, tx_step tx (if ack then TxAck msg else TxNack msg) o version = (tx', fs, r) /\ f ∈ fs /\ tx_id tx = t
  end.

(** The next frame that server connection c reads in state y is taken and does
    not end the connection. *)
Definition takes_frame (cfg : scfg) (y : sys) (c : nat) : Prop :=
  forall w1 w2, exists y' n' e, step cfg y (ATake c SelRead w1 w2) = Some (Fine y') /\ y_conns y' !! c = Some n' /\ n_phase n' = Running /\
    last (n_log n') = Some e /\ v_stop e = false /\ v_wr e = [].
(** Ack modes of the STOMP specification; the library's clients use no other
    (ack.go:12-23). *)
Definition known_acks (y : sys) (c : nat) : Prop :=
  forall s sb, y_heap y !! s = Some sb -> s_conn sb = c -> s_ack sb ∈ [lit "auto"; lit "client"; lit "client-individual"].
