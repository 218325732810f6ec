(** When the goroutines of a connection are over. *)
From Verif Require Import GoBase HeaderModel FrameModel NegotiationModel ClientApiModel ClientModel StatsModel.
From Verif Require Import BrokerModel ServerConnModel ServerConnSpec SystemModel LeakModel.

(* ---------------- server ---------------- *)
(** processLoop of connection c has returned, everything cleaned up and the
    network connection closed. *)
Definition process_over (h : hsys) (c : nat) : Prop := exists n, y_conns (h_sys h) !! c = Some n /\ n_phase n = Dead /\ n_out n = [].
(** readLoop of connection c has returned. *)
Definition read_over (h : hsys) (c : nat) : Prop := exists n, y_conns (h_sys h) !! c = Some n /\ n_eof n = true.
(** It never will, whatever happens. *)
Definition stays_forever (cfg : scfg) (h : hsys) (c : nat) : Prop := forall l h', hrun cfg h l = Some h' -> ~ read_over h' c.
(** What is kept for connection c: the frames in readChannel and the one in
    readLoop's hand. *)
Definition kept_frames (h : hsys) (c : nat) : list frame :=
  match y_conns (h_sys h) !! c with Some n => g_frame <$> n_read n | None => [] end ++ match h_hold h !! c with Some f => [f] | None => [] end.
(** The steps of connection c's readLoop after the connection was closed: a
    frame it holds is passed on; Read fails. *)
Definition read_step (c : nat) (a : hact) : Prop := (exists f, a = HServer (ARecv c f)) \/ a = HServer (AEof c).
(** How many frames connection c's readLoop reads in a run. *)
Definition reads_of (c : nat) (l : list hact) : nat := sum_list_with (fun a => match a with HRead c' _ => if decide (c' = c) then 1 else 0 | _ => 0 end) l.

(* ---------------- client ---------------- *)
Definition c_process_over (t : tcl) : Prop := c_p (t_cl t) = PEnd.
Definition c_read_over (t : tcl) : Prop := c_rclosed (t_cl t) = true.
Definition c_stays_forever (cfg : ccfg) (t : tcl) : Prop := forall l t', turn cfg t l = Some t' -> ~ c_read_over t'.
Definition c_kept_frames (t : tcl) : list (option frame) := c_rch (t_cl t) ++ match t_hold t with Some f => [f] | None => [] end.
Definition c_read_step (a : tact) : Prop := (exists f, a = TClient (XRecv f)) \/ a = TClient XEof.
Definition c_reads (l : list tact) : nat := sum_list_with (fun a => match a with TRead _ => 1 | _ => 0 end) l.
