(** What the server as a whole must do, in terms of what clients send and
    receive and of where messages are. *)
From Verif Require Import GoBase HeaderModel FrameModel NegotiationModel BrokerModel BrokerSpec ServerConnModel ServerConnSpec SystemModel.

(** Headers the server chooses anew for every delivery. *)
Definition per_delivery : list str := [lit "subscription"; lit "message-id"; lit "id"; lit "ack"].
(** What a message carries: everything else.  [g_uid] is the ghost number of
    the client frame it was made from. *)
Definition payload (m : msg) : msg :=
  mkMsg (g_uid m) (mkFrame (cmd_of m) (filter (fun kv : str * str => kv.1 ∉ per_delivery) (f_hdr (g_frame m))) (f_body (g_frame m))).

(** Messages in requests and in the processor's pending channel sends. *)
Definition rmsgs (rs : list request) : list msg :=
  omap (fun r => match r with REnqueue m | RRequeue m => Some m | _ => None end) rs.
Definition pmsgs (os : list pout) : list msg := omap (fun o => match o with OutSub _ _ m => Some m | OutTopic _ _ => None end) os.
(** The message a subscription holds. *)
Definition holds (hp : sheap) (s : nat) : option msg := hp !! s ≫= s_frame.

(** All messages clients made the server accept, by connection and time. *)
Definition sent (y : sys) : list msg := concat ((fun n => concat ((fun e => enqueues (v_push e)) <$> n_log n)) <$> y_conns y).
(** All places where a message for destination d can be. *)
Definition assigned (y : sys) : list msg :=
  pmsgs (y_pout y) ++ concat ((fun n => omap (holds (y_heap y)) (n_sub n ++ k_sublist (n_c n))) <$> y_conns y).
Definition in_transit (y : sys) : list msg := concat ((fun n => rmsgs (n_out n)) <$> y_conns y) ++ rmsgs (y_req y).
Definition finished (y : sys) : list msg := y_fin y ++ y_lost y.
Definition to_dest (d : str) (m : msg) : Prop := hget_of m (lit "destination") = Some d.
Global Instance to_dest_dec d m : Decision (to_dest d m).
Proof. unfold to_dest. apply _. Defined.
Definition whereabouts (d : str) (y : sys) : list msg :=
  waiting (y_broker y) d ++ filter (to_dest d) (assigned y ++ in_transit y ++ finished y).

(** Everything a connection wrote. *)
Definition written (n : sconn) : list wr := wire (n_log n).

(** The server tried to write this message to a subscriber; [w]: it succeeded. *)
Definition transmitted (y : sys) (m : msg) (w : bool) : Prop :=
  exists c n e m' s, y_conns y !! c = Some n /\ e ∈ n_log n /\ v_in e = InSub s /\ v_wr e = [(Some m', w)] /\ payload m' = payload m.

(** A client frame other than SUBSCRIBE (an ACK, NACK or COMMIT) made a
    connection ask for the next message of subscription s. *)
Definition acknowledged (y : sys) (s : nat) : Prop :=
  exists c n e m, y_conns y !! c = Some n /\ e ∈ n_log n /\ v_in e = InFrame m /\ cmd_of m <> SUBSCRIBE /\ RSubscribe s ∈ v_push e.

(** Why a step can panic: an accepted message without a destination reaches
    the processor; a connection is about to apply an ACK while one of its
    outstanding deliveries belongs to a subscription with an unknown ack mode;
    a subscription whose message was acknowledged is about to be listed again. *)
Inductive crash_cause (y : sys) : panic -> Prop :=
| cause_destination m rs : y_req y = REnqueue m :: rs -> hget_of m h_destination = None -> crash_cause y PanicMissingDestination
| cause_ack c n m l s sb : y_conns y !! c = Some n -> n_read n = m :: l ->
    cmd_of m = ACK \/ cmd_of m = COMMIT /\ (exists t k a, k_tx (n_c n) !! t = Some k /\ a ∈ k /\ cmd_of a = ACK) ->
    s ∈ k_sublist (n_c n) -> y_heap y !! s = Some sb -> s_ack sb <> ack_auto -> s_ack sb <> ack_client -> s_ack sb <> ack_individual ->
    crash_cause y PanicBadAck
| cause_listed s : acknowledged y s -> crash_cause y PanicAlreadyInList.

(** States reached when every frame clients send satisfies P. *)
Inductive reach_if (P : frame -> Prop) (cfg : scfg) : sys -> Prop :=
| ri_init : reach_if P cfg sys_init
| ri_step y a y' : reach_if P cfg y -> step cfg y a = Some (Fine y') -> (forall c f, a = ARecv c f -> P f) -> reach_if P cfg y'.

(** SEND frames have a destination, and nothing is acknowledged: either there
    are no ACK and NACK frames, or every SUBSCRIBE asks for automatic
    acknowledgement. *)
Definition polite_send (f : frame) : Prop := f_cmd f = SEND -> is_Some (hd_contains (f_hdr f) h_destination).
Definition no_acks (f : frame) : Prop := f_cmd f <> ACK /\ f_cmd f <> NACK.
Definition auto_only (f : frame) : Prop := f_cmd f = SUBSCRIBE -> hd_contains (f_hdr f) h_ack = None \/ hd_contains (f_hdr f) h_ack = Some ack_auto.
Definition polite (b : bool) (f : frame) : Prop := polite_send f /\ (if b then no_acks f else auto_only f).

(** All requests put on the processor's channel so far, served or not. *)
Definition handed (y : sys) : list request := (y_blog y).*1 ++ y_req y.
(** Subscription objects whose message is with connection n: transmitted and
    not acknowledged, or on the way to it. *)
Definition with_conn (n : sconn) : list nat := n_sub n ++ k_sublist (n_c n).

(** Actions of the server itself (the others are the clients'). *)
Definition server_act (a : act) : Prop := match a with ATake _ _ _ _ | APush _ | AClean _ _ | AProc | AOut => True | _ => False end.
(** No goroutine of the server can move. *)
Definition stuck (cfg : scfg) (y : sys) : Prop := forall a, server_act a -> step cfg y a = None.
(** Actions of the server other than heart-beats, which a running connection
    can always send. *)
Definition work_act (a : act) : Prop :=
  match a with ATake _ SelTimer _ _ => False | ATake _ _ _ _ | APush _ | AClean _ _ | AProc | AOut => True | _ => False end.
(** No goroutine of the server can do anything but send heart-beats. *)
Definition stalled (cfg : scfg) (y : sys) : Prop := forall a, work_act a -> step cfg y a = None.
(** There is something left to do. *)
Definition pending (y : sys) : Prop :=
  y_req y <> [] \/ y_pout y <> [] \/
  exists c n, y_conns y !! c = Some n /\
    (n_out n <> [] \/ n_phase n <> Running /\ n_phase n <> Dead \/ n_phase n = Running /\ (n_read n <> [] \/ n_write n <> [] \/ n_sub n <> [])).
(** The processor waits for room in a channel of connection n. *)
Definition processor_waits (y : sys) (n : sconn) : Prop :=
  exists o os c, y_pout y = o :: os /\ y_conns y !! c = Some n /\
    match o with OutSub c' _ _ => c' = c /\ cap_write <= length (n_sub n) | OutTopic c' _ => c' = c /\ cap_write <= length (n_write n) end.

(** Requests served one after the other. *)
Fixpoint serve_all (b : broker) (hp : sheap) (rs : list request) : pres presult :=
  match rs with
  | [] => Fine (b, hp, [])
  | r :: rs' => match serve b hp r with
                | Panicked p => Panicked p
                | Fine (b1, hp1, o1) => match serve_all b1 hp1 rs' with
                                        | Panicked p => Panicked p
                                        | Fine (b2, hp2, o2) => Fine (b2, hp2, o1 ++ o2)
                                        end
                end
  end.
