(** Vocabulary of EndingProps: why the server leaves the processing loop of a
    connection, and what had been sent to it before. *)
From Verif Require Import GoBase HeaderModel FrameModel NegotiationModel BrokerModel ServerConnModel ServerConnSpec RefusalSpec SystemModel SystemSpec FlowSpec.

(** Reasons for iteration e, which came after the history pre, to be the last:
    there was nothing more to read and all that had been read was handled; a
    frame was refused (C65); a write failed. *)
Inductive ending (cfg : scfg) (n : sconn) (pre : list cev) (e : cev) : Prop :=
| en_closed : v_in e = InClosed -> v_wr e = [] -> n_eof n = true -> n_read n = [] -> ending cfg n pre e
| en_refused m txt : v_in e = InFrame m -> refused cfg pre m txt -> ending cfg n pre e
| en_write x : (x, false) ∈ v_wr e -> ending cfg n pre e.

(** Frames readLoop has passed on, handled or not, and those accepted. *)
Definition passed_on (n : sconn) : list msg := frames_of (n_log n) ++ n_read n.
Definition taken_up (n : sconn) : list msg := omap accepted (n_log n).
(** What a client sees of a session without complaints: every write of the
    server succeeded and none was an ERROR frame. *)
Definition untroubled (n : sconn) : Prop := forall x w, (x, w) ∈ written n -> w = true /\ forall m, x = Some m -> cmd_of m <> lit "ERROR".
(** A SEND as it reaches the broker: what the frame becomes. *)
Definition as_message (f : frame) : frame := mkFrame (lit "MESSAGE") (hd_del (hd_del (f_hdr f) (lit "receipt")) (lit "transaction")) (f_body f).
Definition is_send (f : frame) : Prop := f_cmd f = lit "SEND".
Global Instance is_send_dec f : Decision (is_send f).
Proof. unfold is_send. apply _. Defined.
