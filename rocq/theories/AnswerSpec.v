(** What the server answers to a client and publishes for it, as a machine that
    sees nothing but the frames of that client (C101). *)
From stdpp Require Import gmap.
From Verif Require Import GoBase HeaderModel FrameModel NegotiationModel BrokerModel ServerConnModel ServerConnSpec SystemModel.

(** Is there a session, the frames of the open transactions, the ids of the
    subscriptions. *)
Record proto := mkProto { p_session : bool; p_tx : gmap str (list frame); p_subs : gset str }.
Definition proto_init : proto := mkProto false ∅ ∅.

Definition without (k : str) (f : frame) : frame := mkFrame (f_cmd f) (hd_del (f_hdr f) k) (f_body f).
Definition receipt_for (f : frame) : list frame :=
  match hd_contains (f_hdr f) (lit "receipt") with Some r => [mkFrame (lit "RECEIPT") [(lit "receipt-id", r)] []] | None => [] end.
Definition error_for (txt : str) (f : frame) : frame :=
  mkFrame (lit "ERROR") ((lit "message", txt) :: match hd_contains (f_hdr f) (lit "receipt") with Some r => [(lit "receipt-id", r)] | None => [] end) [].
Definition to_publish (l : list frame) : list frame :=
  omap (fun f => if decide (f_cmd f = lit "SEND") then Some (mkFrame (lit "MESSAGE") (f_hdr f) (f_body f)) else None) l.

(** The machine's reaction to a frame: new state, answers, messages published,
    whether the session is over.  What a first CONNECT gets is [handle_connect]
    (C30, C31, C65). *)
Definition reaction := (proto * list frame * list frame * bool)%type.
Definition refuse (p : proto) (f : frame) (txt : str) : reaction := (p, [error_for txt f], [], true).
Definition refuse_late (p : proto) (f : frame) (txt : str) : reaction :=
  (p, receipt_for f ++ [error_for txt (without (lit "receipt") f)], [], true).
Definition accept (p : proto) (f : frame) (pub : list frame) : reaction := (p, receipt_for f, pub, false).
Definition with_tx (p : proto) (m : gmap str (list frame)) : proto := mkProto (p_session p) m (p_subs p).

(** SEND, ACK, NACK: at once, or kept for the COMMIT. *)
Definition now_or_later (p : proto) (f : frame) : reaction :=
  match hd_contains (f_hdr f) (lit "transaction") with
  | None => accept p f (to_publish [without (lit "receipt") f])
  | Some t => match p_tx p !! t with
              | None => refuse_late p f (lit "unknown transaction")
              | Some l => accept (with_tx p (<[t := l ++ [without (lit "transaction") (without (lit "receipt") f)]]> (p_tx p))) f []
              end
  end.
Definition need_tx (p : proto) (f : frame) (k : str -> option (list frame) -> reaction) : reaction :=
  match hd_contains (f_hdr f) (lit "transaction") with
  | None => refuse p f (lit "missing header: transaction")
  | Some t => k t (p_tx p !! t)
  end.
Definition react (cfg : scfg) (p : proto) (f : frame) : reaction :=
  let is c := bool_decide (f_cmd f = lit c) in
  if negb (p_session p) then
    if is "CONNECT" || is "STOMP" then
      match handle_connect cfg f with
      | inl txt => refuse p f txt
      | inr r => (mkProto true (p_tx p) (p_subs p), [sc_response r], [], false)
      end
    else refuse p f (lit "expected CONNECT or STOMP frame")
  else if is "COMMIT" then
    need_tx p f (fun t o => match o with None => refuse_late p f (lit "unknown transaction") | Some l => accept (with_tx p (delete t (p_tx p))) f (to_publish l) end)
  else if is "CONNECT" || is "STOMP" then refuse p f (lit "unexpected frame command")
  else if is "DISCONNECT" then accept p f []
  else if is "BEGIN" then
    need_tx p f (fun t o => match o with Some _ => refuse_late p f (lit "transaction already in progress") | None => accept (with_tx p (<[t := []]> (p_tx p))) f [] end)
  else if is "ABORT" then
    need_tx p f (fun t o => match o with None => refuse_late p f (lit "unknown transaction") | Some _ => accept (with_tx p (delete t (p_tx p))) f [] end)
  else if is "SEND" then now_or_later p f
  else if is "SUBSCRIBE" then
    match hd_contains (f_hdr f) (lit "id"), hd_contains (f_hdr f) (lit "destination") with
    | None, _ => refuse p f (lit "missing header: id")
    | _, None => refuse p f (lit "missing header: destination")
    | Some id, Some _ => if bool_decide (id ∈ p_subs p) then refuse p f (lit "subscription already exists")
                         else (mkProto true (p_tx p) ({[id]} ∪ p_subs p), [], [], false)
    end
  else if is "UNSUBSCRIBE" then
    match hd_contains (f_hdr f) (lit "id") with
    | None => refuse p f (lit "missing header: id")
    | Some id => if bool_decide (id ∈ p_subs p) then (mkProto true (p_tx p) (p_subs p ∖ {[id]}), [], [], false)
                 else refuse p f (lit "subscription not found")
    end
  else if is "ACK" || is "NACK" then
    match match hd_contains (f_hdr f) (lit "ack") with Some v => Some v | None => hd_contains (f_hdr f) (lit "message-id") end with
    | None => refuse p f (lit "missing header: message-id")
    | Some v => match parse_uint 64 v with None => refuse p f (lit "strconv.ParseUint") | Some _ => now_or_later p f end
    end
  else if is "MESSAGE" || is "RECEIPT" || is "ERROR" then refuse p f (lit "unexpected frame command")
  else refuse p f (lit "unknown command").
(** A conversation: state, answers, messages published, whether it is over. *)
Fixpoint converse (cfg : scfg) (p : proto) (l : list frame) : reaction :=
  match l with
  | [] => (p, [], [], false)
  | f :: l => match react cfg p f with
              | (p, a, b, true) => (p, a, b, true)
              | (p, a, b, false) => let '(p', a', b', e) := converse cfg p l in (p', a ++ a', b ++ b', e)
              end
  end.

(** The same of a connection of the server: the frames handled; what was written
    except messages and heart-beats; the messages given to the broker; whether
    the loop ended at a frame. *)
Definition said (log : list cev) : list frame := omap (fun e => g_frame <$> client_frame e) log.
Definition answered (log : list cev) : list frame :=
  omap (fun x : wr => match fst x with Some m => if decide (cmd_of m = lit "MESSAGE") then None else Some (g_frame m) | None => None end) (wire log).
Definition published (log : list cev) : list frame := g_frame <$> enqueues (concat (v_push <$> log)).
Definition refused_at_end (log : list cev) : Prop := exists pre e m, log = pre ++ [e] /\ v_in e = InFrame m /\ v_stop e = true.
(** Every RECEIPT could be written. *)
Definition receipts_written (log : list cev) : Prop := forall x b, (Some x, b) ∈ wire log -> cmd_of x = lit "RECEIPT" -> b = true.
