(** The running client connection: readLoop, processLoop, the API calls and
    the subscription goroutines of conn.go and subscription.go, interleaved at
    the granularity of channel, mutex and atomic operations.

    What is simplified:
    - frames are values (the request frame is not shared after it was put on
      the write channel, except that Send keeps the caller's body slice);
    - options do not change a frame's command, so SUBSCRIBE and UNSUBSCRIBE
      frames only come from Subscribe and Unsubscribe; an option that returns
      an error is [None];
    - timers may fire at any moment at which they are armed; a timeout that is
      configured as 0 never fires;
    - Close of the network connection has no error and no effect of its own:
      reads may end and writes may fail at any moment anyway;
    - the texts of errors made by the network are a fixed placeholder;
    - a subscription's closeMutex is left out: only the one Unsubscribe call
      that wins the compare-and-swap and the goroutine it starts to wait ever
      lock it, never at the same time. *)
From stdpp Require Import gmap.
From Verif Require Import GoBase HeaderModel FrameModel NegotiationModel ClientApiModel.

(** Configuration: capacities of readCh and writeCh (conn.go:124-133), whether
    the timeouts are positive (msgSendTimeout, rcvReceiptTimeout,
    disconnectReceiptTimeout, unsubscribeReceiptTimeout, readTimeout,
    writeTimeout; conn.go:44-49); for unsubscribeReceiptTimeout: whether it is
    not zero (subscription.go:119). *)
Record ccfg := mkCcfg {
  k_rcap : nat; k_wcap : nat; k_msg_to : bool; k_rcv_to : bool; k_disc_to : bool; k_unsub_to : bool; k_read_to : bool; k_write_to : bool }.

(** conn.go:60-63 (writeRequest); [q_by] is a ghost: the call that made it. *)
Record wreq := mkReq { q_by : nat; q_frame : frame; q_chan : option nat }.

(** What arrives on Subscription.C: a message (subscription.go:187-194), or one
    with Err set, made from an ERROR frame (206-216) or not (164-170). *)
Inductive cmsg := CmMsg (f : frame) | CmErr (o : option frame).

Inductive substate := SubActive | SubClosing | SubClosed.      (* subscription.go:13-17 *)
Inductive once := OnceFree | OnceRunning | OnceDone.            (* sync.Once *)
(** Progress of closeChannel (subscription.go:153-162): at once.Do, sending the
    message, storing the state, closing C and broadcasting. *)
Inductive clpc := Cl1 (m : option cmsg) | Cl2 (m : option cmsg) | Cl3 | Cl4.
(** Progress of a subscription's readLoop (subscription.go:172-230). *)
Inductive rlpc := RlRecv | RlPut (m : cmsg) | RlClose (c : clpc) | RlDone.
(** subscription.go:23-35.  [b_ch]: the response channel the readLoop reads;
    [b_buf]: the buffer of C; [b_wait]: calls waiting on closeCond; ghosts:
    [b_by], the Subscribe call, and [b_read], what has been received from C. *)
Record csub := mkCsub {
  b_by : nat; b_id : str; b_reply : bool; b_ch : nat; b_state : substate; b_buf : list cmsg; b_cclosed : bool; b_once : once;
  b_rl : rlpc; b_wait : list nat; b_read : list cmsg }.
Definition cap_c := 16.                                         (* conn.go:747 *)

(** API calls.  Frames are what the options made of them. *)
Inductive op :=
| OSend (f : option frame)                     (* Conn.Send *)
| OFrame (f : frame)                           (* Conn.sendFrame: Ack, Nack, Begin and transactions *)
| OSubscribe (f : option (frame * str * bool)) (* Conn.Subscribe: frame, id, reply-to set *)
| OUnsub (s : nat) (f : option frame)          (* Subscription.Unsubscribe *)
| ODisconnect (rid : str) | OMust.             (* Disconnect (rid: the allocated receipt id), MustDisconnect *)
Inductive cerr := EAlreadyClosed | EClosedUnexpectedly | ESendTimeout | EReceiptTimeout | EResponse (f : frame) | ECompletedSub | EUnsubTimeout | EOption.
Inductive cres := RNil | RSub (s : nat) | RErr (e : cerr).

(** Where a request came from, i.e. how the call goes on. [FFrame u]: sendFrame,
    called by Unsubscribe of subscription s if [u = Some s]. *)
Inductive from := FSend | FFrame (u : option nat) | FSub (s : nat) | FDisc.
Inductive gpc :=
| GStart                                       (* before its first step *)
| GFrame (u : option nat) (f : frame)          (* about to lock in sendFrame *)
| GPut (k : from) (q : wreq)                   (* at writeCh <- request, mutex held *)
| GWait (k : from) (ch : nat)                  (* waits for the response; FSend and FDisc hold the mutex *)
| GClose (s : nat) (c : clpc) (r : cres)       (* in closeChannel, called by Unsubscribe *)
| GLoad (s : nat) (r : cres)                   (* about to load the state in Unsubscribe's loop *)
| GReg (s : nat)                               (* in waitWithTimeout, before cond.Wait has registered *)
| GBlocked (s : nat)                           (* in cond.Wait *)
| GExpired (s : nat)                           (* timed out, about to load the state *)
| GPutErr (s : nat)                            (* about to send the timeout message on C *)
| GDone (r : cres).
Record gor := mkGor { g_op : op; g_pc : gpc }.

(** Progress of processLoop (conn.go:306-461). [PSend]: blocked sending on a
    response channel; afterwards: *)
Inductive pk := KReceipt (id : str)                             (* conn.go:367-368 *)
| KMessage                                                      (* 393 *)
| KBcast (f : frame) (rest : list (str * nat)) (err : bool).    (* 378-381 (err) or sendError, 466-468 *)
Inductive ppc := PLoop | PSend (ch : nat) (f : frame) (k : pk) | PBcast (f : frame) (rest : list (str * nat)) (err : bool)
| PMust (err : bool)                                            (* about to lock: 383 (err), then MustDisconnect (314, 512) *)
| PEnd.

(** Who receives from a response channel. *)
Inductive owner := OwnG (g : nat) | OwnS (s : nat).
Record chan := mkChan { h_owner : owner; h_closed : bool }.

(** Ghost log of processLoop: requests taken from writeCh ([Some (f, w)]: f was
    written to the network, successfully or not), frames taken from readCh,
    frames handed over on response channels. *)
Inductive pev := PvReq (q : wreq) (w : option (frame * bool)) | PvIn (f : option frame) | PvTold (ch : nat) (f : frame).

Record cl := mkCl {
  c_mut : option nat; c_closed : bool; c_wch : list wreq; c_wclosed : bool; c_rch : list (option frame); c_rclosed : bool;
  c_map : gmap str nat;         (* channels *)
  c_chs : list chan; c_p : ppc; c_gs : list gor; c_subs : list csub; c_log : list pev }.
Definition cl_init : cl := mkCl None false [] false [] false ∅ [] PLoop [] [] [].

Inductive cpanic := PSendClosedWrite | PCloseClosedWrite | PSendClosedResp | PCloseClosedResp | PSendClosedC | PCloseClosedC | PNilResponse.
Inductive cout := CPanic (p : cpanic) | COk (y : cl).

(* ---------------- state updates ---------------- *)
Definition with_g (y : cl) (g : nat) (x : gpc) : cl :=
  mkCl (c_mut y) (c_closed y) (c_wch y) (c_wclosed y) (c_rch y) (c_rclosed y) (c_map y) (c_chs y) (c_p y)
    (alter (fun r => mkGor (g_op r) x) g (c_gs y)) (c_subs y) (c_log y).
Definition with_mut (y : cl) (m : option nat) : cl :=
  mkCl m (c_closed y) (c_wch y) (c_wclosed y) (c_rch y) (c_rclosed y) (c_map y) (c_chs y) (c_p y) (c_gs y) (c_subs y) (c_log y).
Definition with_closed (y : cl) : cl :=
  mkCl (c_mut y) true (c_wch y) (c_wclosed y) (c_rch y) (c_rclosed y) (c_map y) (c_chs y) (c_p y) (c_gs y) (c_subs y) (c_log y).
Definition with_wch (y : cl) (l : list wreq) : cl :=
  mkCl (c_mut y) (c_closed y) l (c_wclosed y) (c_rch y) (c_rclosed y) (c_map y) (c_chs y) (c_p y) (c_gs y) (c_subs y) (c_log y).
Definition with_wclosed (y : cl) : cl :=
  mkCl (c_mut y) (c_closed y) (c_wch y) true (c_rch y) (c_rclosed y) (c_map y) (c_chs y) (c_p y) (c_gs y) (c_subs y) (c_log y).
Definition with_rch (y : cl) (l : list (option frame)) (b : bool) : cl :=
  mkCl (c_mut y) (c_closed y) (c_wch y) (c_wclosed y) l b (c_map y) (c_chs y) (c_p y) (c_gs y) (c_subs y) (c_log y).
Definition with_map (y : cl) (m : gmap str nat) : cl :=
  mkCl (c_mut y) (c_closed y) (c_wch y) (c_wclosed y) (c_rch y) (c_rclosed y) m (c_chs y) (c_p y) (c_gs y) (c_subs y) (c_log y).
Definition with_chs (y : cl) (l : list chan) : cl :=
  mkCl (c_mut y) (c_closed y) (c_wch y) (c_wclosed y) (c_rch y) (c_rclosed y) (c_map y) l (c_p y) (c_gs y) (c_subs y) (c_log y).
Definition with_p (y : cl) (p : ppc) : cl :=
  mkCl (c_mut y) (c_closed y) (c_wch y) (c_wclosed y) (c_rch y) (c_rclosed y) (c_map y) (c_chs y) p (c_gs y) (c_subs y) (c_log y).
Definition with_subs (y : cl) (l : list csub) : cl :=
  mkCl (c_mut y) (c_closed y) (c_wch y) (c_wclosed y) (c_rch y) (c_rclosed y) (c_map y) (c_chs y) (c_p y) (c_gs y) l (c_log y).
Definition with_log (y : cl) (e : pev) : cl :=
  mkCl (c_mut y) (c_closed y) (c_wch y) (c_wclosed y) (c_rch y) (c_rclosed y) (c_map y) (c_chs y) (c_p y) (c_gs y) (c_subs y) (c_log y ++ [e]).

Definition b_with_state (b : csub) (x : substate) : csub :=
  mkCsub (b_by b) (b_id b) (b_reply b) (b_ch b) x (b_buf b) (b_cclosed b) (b_once b) (b_rl b) (b_wait b) (b_read b).
Definition b_with_buf (b : csub) (l : list cmsg) : csub :=
  mkCsub (b_by b) (b_id b) (b_reply b) (b_ch b) (b_state b) l (b_cclosed b) (b_once b) (b_rl b) (b_wait b) (b_read b).
Definition b_with_once (b : csub) (o : once) : csub :=
  mkCsub (b_by b) (b_id b) (b_reply b) (b_ch b) (b_state b) (b_buf b) (b_cclosed b) o (b_rl b) (b_wait b) (b_read b).
Definition b_with_rl (b : csub) (x : rlpc) : csub :=
  mkCsub (b_by b) (b_id b) (b_reply b) (b_ch b) (b_state b) (b_buf b) (b_cclosed b) (b_once b) x (b_wait b) (b_read b).
Definition b_with_wait (b : csub) (l : list nat) : csub :=
  mkCsub (b_by b) (b_id b) (b_reply b) (b_ch b) (b_state b) (b_buf b) (b_cclosed b) (b_once b) (b_rl b) l (b_read b).

Definition h_is_closed (y : cl) (ch : nat) : bool := match c_chs y !! ch with Some h => h_closed h | None => false end.
Definition close_ch (y : cl) (ch : nat) : cl := with_chs y (alter (fun h => mkChan (h_owner h) true) ch (c_chs y)).

(* ---------------- Subscription.closeChannel and C ---------------- *)

(** s.C <- m *)
Definition put_c (b : csub) (m : cmsg) : option (cpanic + csub) :=
  if b_cclosed b then Some (inl PSendClosedC)
  else if decide (length (b_buf b) < cap_c) then Some (inr (b_with_buf b (b_buf b ++ [m]))) else None.
(** One step of closeChannel (subscription.go:153-162); [None]: blocked; the
    second result: how to go on, [None] when it returns. *)
Definition close_step (b : csub) (c : clpc) : option (cpanic + (csub * option clpc)) :=
  match c with
  | Cl1 m => match b_once b with
             | OnceFree => Some (inr (b_with_once b OnceRunning, Some (Cl2 m)))
             | OnceRunning => None
             | OnceDone => Some (inr (b, None))
             end
  | Cl2 None => Some (inr (b, Some Cl3))
  | Cl2 (Some m) => match put_c b m with
                    | None => None
                    | Some (inl p) => Some (inl p)
                    | Some (inr b') => Some (inr (b', Some Cl3))
                    end
  | Cl3 => Some (inr (b_with_state b SubClosed, Some Cl4))
  | Cl4 => if b_cclosed b then Some (inl PCloseClosedC)
           else Some (inr (mkCsub (b_by b) (b_id b) (b_reply b) (b_ch b) (b_state b) (b_buf b) true OnceDone (b_rl b) [] (b_read b), None))
  end.

(** subscription.go:172-230, after receiving a frame, or [None] if the channel
    is closed.  The state is loaded in the same step (if it changes to closed
    in between, closeChannel is running or done elsewhere and only waits). *)
Definition rl_got (b : csub) (o : option frame) : rlpc :=
  let close m := match b_state b with SubClosed => RlDone | _ => RlClose (Cl1 m) end in
  match o with
  | None => close (Some (CmErr None))
  | Some f =>
      if decide (f_cmd f = MESSAGE) then RlPut (CmMsg f)
      else if decide (f_cmd f = ERROR) then close (Some (CmErr (Some f)))
      else if decide (f_cmd f = RECEIPT) then close None
      else RlRecv
  end.
(** A step of a subscription's readLoop other than receiving from an open
    channel. *)
Definition do_loop (y : cl) (s : nat) : option cout :=
  match c_subs y !! s with
  | None => None
  | Some b =>
      let set b' := COk (with_subs y (<[s := b']> (c_subs y))) in
      match b_rl b with
      | RlRecv => if h_is_closed y (b_ch b) then Some (set (b_with_rl b (rl_got b None))) else None
      | RlPut m => match put_c b m with
                   | None => None
                   | Some (inl p) => Some (CPanic p)
                   | Some (inr b') => Some (set (b_with_rl b' RlRecv))
                   end
      | RlClose c => match close_step b c with
                     | None => None
                     | Some (inl p) => Some (CPanic p)
                     | Some (inr (b', Some c')) => Some (set (b_with_rl b' (RlClose c')))
                     | Some (inr (b', None)) => Some (set (b_with_rl b' RlDone))
                     end
      | RlDone => None
      end
  end.
(** The program receives a message from C. *)
Definition do_consume (y : cl) (s : nat) : option cout :=
  match c_subs y !! s with
  | Some b => match b_buf b with
              | m :: l => Some (COk (with_subs y (<[s := mkCsub (b_by b) (b_id b) (b_reply b) (b_ch b) (b_state b) l (b_cclosed b) (b_once b) (b_rl b) (b_wait b) (b_read b ++ [m])]> (c_subs y))))
              | [] => None
              end
  | None => None
  end.

(* ---------------- API calls ---------------- *)

(** sendFrame returns r: to its caller, or to Unsubscribe (subscription.go:87-101). *)
Definition frame_done (u : option nat) (r : cres) : gpc :=
  match u with
  | None => GDone r
  | Some s => match r with RErr EClosedUnexpectedly => GClose s (Cl1 (Some (CmErr None))) r | _ => GLoad s r end
  end.
(** Put a request on the write channel: a new response channel if wanted. *)
Definition submit (y : cl) (g : nat) (k : from) (f : frame) (own : option owner) : cl :=
  let ch := length (c_chs y) in
  match own with
  | Some o => with_g (with_mut (with_chs y (c_chs y ++ [mkChan o false])) (Some g)) g (GPut k (mkReq g f (Some ch)))
  | None => with_g (with_mut y (Some g)) g (GPut k (mkReq g f None))
  end.
Definition wants_receipt (f : frame) : bool := match hd_contains (f_hdr f) h_receipt with Some _ => true | None => false end.
Definition receipt_owner (g : nat) (f : frame) : option owner := if wants_receipt f then Some (OwnG g) else None.

(** The first step of a call. *)
Definition do_start (y : cl) (g : nat) (o : op) : option cout :=
  let done r := Some (COk (with_g y g (GDone r))) in
  match o with
  | OUnsub s f =>                                              (* subscription.go:65-84 *)
      match c_subs y !! s with
      | None => None
      | Some b =>
          match b_state b with
          | SubActive =>
              let y' := with_subs y (<[s := b_with_state b SubClosing]> (c_subs y)) in
              match f with
              | None => Some (COk (with_g y' g (GDone (RErr EOption))))
              | Some f => Some (COk (with_g y' g (GFrame (Some s) f)))
              end
          | _ => done (RErr ECompletedSub)
          end
      end
  | OFrame f => Some (COk (with_g y g (GFrame None f)))
  | _ =>
      match c_mut y with
      | Some _ => None                                          (* waits for closeMutex *)
      | None =>
          match o with
          | OSend f =>                                          (* conn.go:534-577 *)
              if c_closed y then done (RErr EAlreadyClosed)
              else match f with
                   | None => done (RErr EOption)
                   | Some f => Some (COk (submit y g FSend f (receipt_owner g f)))
                   end
          | OSubscribe f =>                                     (* conn.go:697-761 *)
              if c_closed y then done (RErr EClosedUnexpectedly)
              else match f with
                   | None => done (RErr EOption)
                   | Some (f, id, rt) =>
                       let s := length (c_subs y) in
                       let y' := with_subs y (c_subs y ++ [mkCsub g id rt (length (c_chs y)) SubActive [] false OnceFree RlRecv [] []]) in
                       Some (COk (submit y' g (FSub s) f (Some (OwnS s))))
                   end
          | ODisconnect rid =>                                  (* conn.go:477-506 *)
              if c_closed y then done RNil
              else Some (COk (submit y g FDisc (mkFrame DISCONNECT [(h_receipt, rid)] []) (Some (OwnG g))))
          | _ =>                                                (* MustDisconnect, conn.go:511-523 *)
              if c_closed y then done RNil
              else if c_wclosed y then Some (CPanic PCloseClosedWrite)
              else Some (COk (with_g (with_closed (with_wclosed y)) g (GDone RNil)))
          end
      end
  end.
(** sendFrame takes the lock (conn.go:634-643). *)
Definition do_frame (y : cl) (g : nat) (u : option nat) (f : frame) : option cout :=
  match c_mut y with
  | Some _ => None
  | None => if c_closed y then Some (COk (with_g y g (frame_done u (RErr EClosedUnexpectedly))))
            else Some (COk (submit y g (FFrame u) f (receipt_owner g f)))
  end.
(** writeCh <- request, and what follows up to the next blocking operation. *)
Definition do_put (cfg : ccfg) (y : cl) (g : nat) (k : from) (q : wreq) : option cout :=
  if c_wclosed y then Some (CPanic PSendClosedWrite)
  else if decide (length (c_wch y) < k_wcap cfg) then
    let y' := with_wch y (c_wch y ++ [q]) in
    Some (COk (match k, q_chan q with
               | FSend, Some ch | FDisc, Some ch => with_g y' g (GWait k ch)
               | FFrame _, Some ch => with_g (with_mut y' None) g (GWait k ch)
               | FFrame u, None => with_g (with_mut y' None) g (frame_done u RNil)
               | FSub s, _ => with_g (with_mut y' None) g (GDone (RSub s))
               | _, None => with_g (with_mut y' None) g (GDone RNil)
               end))
  else None.
(** A response arrives ([None]: the channel was closed without one).
    readReceiptWithTimeout (conn.go:579-594) uses it without a check;
    sendFrame checks (conn.go:662-680). *)
Definition do_answer (y : cl) (g : nat) (k : from) (o : option frame) : cout :=
  match k, o with
  | FFrame u, None => COk (with_g y g (frame_done u (RErr EClosedUnexpectedly)))
  | FFrame u, Some f => COk (with_g y g (frame_done u (if decide (f_cmd f = RECEIPT) then RNil else RErr (EResponse f))))
  | _, None => CPanic PNilResponse
  | FDisc, Some f => COk (if decide (f_cmd f = RECEIPT) then with_g (with_mut (with_closed y) None) g (GDone RNil)
                          else with_g (with_mut y None) g (GDone (RErr (EResponse f))))
  | _, Some f => COk (with_g (with_mut y None) g (GDone (if decide (f_cmd f = RECEIPT) then RNil else RErr (EResponse f))))
  end.
(** The next step of call g, not counting timeouts and responses. *)
Definition do_run (cfg : ccfg) (y : cl) (g : nat) : option cout :=
  match c_gs y !! g with
  | None => None
  | Some r =>
      match g_pc r with
      | GStart => do_start y g (g_op r)
      | GFrame u f => do_frame y g u f
      | GPut k q => do_put cfg y g k q
      | GWait k ch => if h_is_closed y ch then Some (do_answer y g k None) else None
      | GClose s c res =>
          match c_subs y !! s with
          | None => None
          | Some b => match close_step b c with
                      | None => None
                      | Some (inl p) => Some (CPanic p)
                      | Some (inr (b', o)) =>
                          Some (COk (with_g (with_subs y (<[s := b']> (c_subs y))) g (match o with Some c' => GClose s c' res | None => GDone res end)))
                      end
          end
      | GLoad s res =>                                          (* subscription.go:101-114 *)
          match c_subs y !! s with
          | None => None
          | Some b => match b_state b with SubClosed => Some (COk (with_g y g (GDone res))) | _ => Some (COk (with_g y g (GReg s))) end
          end
      | GReg s => match c_subs y !! s with
                  | None => None
                  | Some b => Some (COk (with_g (with_subs y (<[s := b_with_wait b (g :: b_wait b)]> (c_subs y))) g (GBlocked s)))
                  end
      | GBlocked s => match c_subs y !! s with
                      | None => None
                      | Some b => if bool_decide (g ∈ b_wait b) then None else Some (COk (with_g y g (GLoad s RNil)))
                      end
      | GExpired s => match c_subs y !! s with
                      | None => None
                      | Some b => match b_state b with
                                  | SubClosed => Some (COk (with_g y g (GDone (RErr EUnsubTimeout))))
                                  | _ => Some (COk (with_g y g (GPutErr s)))
                                  end
                      end
      | GPutErr s => match c_subs y !! s with
                     | None => None
                     | Some b => match put_c b (CmErr None) with
                                 | None => None
                                 | Some (inl p) => Some (CPanic p)
                                 | Some (inr b') => Some (COk (with_g (with_subs y (<[s := b']> (c_subs y))) g (GDone (RErr EUnsubTimeout))))
                                 end
                     end
      | GDone _ => None
      end
  end.
(** A timeout of call g. *)
Definition do_timeout (cfg : ccfg) (y : cl) (g : nat) : option cout :=
  match c_gs y !! g with
  | None => None
  | Some r =>
      match g_pc r with
      | GPut FSend _ => if k_msg_to cfg then Some (COk (with_g (with_mut y None) g (GDone (RErr ESendTimeout)))) else None       (* 604 *)
      | GWait FSend _ => if k_rcv_to cfg then Some (COk (with_g (with_mut y None) g (GDone (RErr EReceiptTimeout)))) else None   (* 586 *)
      | GWait (FFrame u) _ => if k_write_to cfg then Some (COk (with_g y g (frame_done u (RErr EClosedUnexpectedly)))) else None (* 664 *)
      | GWait FDisc _ => if k_disc_to cfg then Some (COk (with_g (with_mut (with_closed y) None) g (GDone (RErr EReceiptTimeout)))) else None (* 500 *)
      | GReg s | GBlocked s => if k_unsub_to cfg then Some (COk (with_g y g (GExpired s))) else None                            (* subscription.go:131 *)
      | _ => None
      end
  end.

(* ---------------- processLoop ---------------- *)

(** The ERROR frame of sendError (conn.go:465). *)
Definition error_frame (txt : str) : frame := mkFrame ERROR [(h_message, txt)] [].
(** sendError(channels, ...) and return. *)
Definition fail (y : cl) (txt : str) : cl := with_p y (PBcast (error_frame txt) (map_to_list (c_map y)) false).
(** ch <- f *)
Definition p_send (y : cl) (ch : nat) (f : frame) (k : pk) : cout :=
  if h_is_closed y ch then CPanic PSendClosedResp else COk (with_p y (PSend ch f k)).
(** conn.go:343-398 *)
Definition do_take_read (y : cl) : option cout :=
  match c_p y with
  | PLoop =>
      match c_rch y with
      | [] => if c_rclosed y then Some (COk (fail y (lit "connection closed"))) else None
      | None :: l => Some (COk (with_log (with_rch y l (c_rclosed y)) (PvIn None)))
      | Some f :: l =>
          let y' := with_log (with_rch y l (c_rclosed y)) (PvIn (Some f)) in
          if decide (f_cmd f = RECEIPT) then
            match hd_contains (f_hdr f) h_receipt_id with
            | Some id => match c_map y' !! id with
                         | Some ch => Some (p_send y' ch f (KReceipt id))
                         | None => Some (COk y')
                         end
            | None => Some (COk (fail y' (lit "missing receipt-id")))
            end
          else if decide (f_cmd f = ERROR) then Some (COk (with_p y' (PBcast f (map_to_list (c_map y')) true)))
          else if decide (f_cmd f = MESSAGE) then
            match hd_contains (f_hdr f) h_subscription with
            | Some id => match c_map y' !! id with
                         | Some ch => Some (p_send y' ch f KMessage)
                         | None => Some (COk y')
                         end
            | None => Some (COk y')
            end
          else Some (COk y')
      end
  | _ => None
  end.
(** What processLoop registers for a request (conn.go:411-433): key and channel. *)
Definition first_of (h : header) (k : str) : str := match hd_contains h k with Some v => v | None => [] end.
Definition remember (m : gmap str nat) (q : wreq) : gmap str nat :=
  match q_chan q with
  | None => m
  | Some ch =>
      let m1 := match hd_contains (f_hdr (q_frame q)) h_receipt with Some r => <[r := ch]> m | None => m end in
      if decide (f_cmd (q_frame q) = SUBSCRIBE) then
        match hd_contains (f_hdr (q_frame q)) h_reply_to with
        | Some rt => <[rt := ch]> m1
        | None => <[first_of (f_hdr (q_frame q)) h_id := ch]> m1
        end
      else m1
  end.
(** The frame as written: UNSUBSCRIBE gets a receipt header (conn.go:443-447). *)
Definition outgoing (f : frame) : frame :=
  if decide (f_cmd f = UNSUBSCRIBE) then mkFrame (f_cmd f) (hd_set (f_hdr f) h_receipt (first_of (f_hdr f) h_id)) (f_body f) else f.
(** Requests that are not sent (conn.go:426-428, 435-441). *)
Definition local_only (f : frame) : bool :=
  (bool_decide (f_cmd f = SUBSCRIBE) || bool_decide (f_cmd f = UNSUBSCRIBE)) && match hd_contains (f_hdr f) h_reply_to with Some _ => true | None => false end.
(** conn.go:400-459; [w]: the write succeeds. *)
Definition do_take_write (y : cl) (w : bool) : option cout :=
  match c_p y with
  | PLoop =>
      match c_wch y with
      | [] => if c_wclosed y then Some (COk (fail y (lit "write channel closed"))) else None
      | q :: l =>
          let m := remember (c_map y) q in
          if local_only (q_frame q) then
            let y' := with_log (with_map (with_wch y l) m) (PvReq q None) in
            if decide (f_cmd (q_frame q) = UNSUBSCRIBE) then
              let rt := first_of (f_hdr (q_frame q)) h_reply_to in
              match m !! rt with
              | Some ch => if h_is_closed y' ch then Some (CPanic PCloseClosedResp)
                           else Some (COk (close_ch (with_map y' (delete rt m)) ch))
              | None => Some (COk y')
              end
            else Some (COk y')
          else
            let y' := with_log (with_map (with_wch y l) m) (PvReq q (Some (outgoing (q_frame q), w))) in
            if w then Some (COk y') else Some (COk (fail y' (lit "write error")))
      end
  | _ => None
  end.
(** conn.go:327-331: read timeout. *)
Definition do_read_timeout (cfg : ccfg) (y : cl) : option cout :=
  match c_p y with PLoop => if k_read_to cfg then Some (COk (fail y (lit "read timeout"))) else None | _ => None end.
(** conn.go:333-341: heart-beat; [w]: the write succeeds. *)
Definition do_beat (cfg : ccfg) (y : cl) (w : bool) : option cout :=
  match c_p y with PLoop => if k_write_to cfg then Some (COk (if w then y else fail y (lit "write error"))) else None | _ => None end.
(** Next channel of a broadcast, in any order (map iteration). *)
Definition do_pick (y : cl) (i : nat) : option cout :=
  match c_p y with
  | PBcast f rest err => match rest !! i with
                         | Some kc => Some (p_send y kc.2 f (KBcast f (take i rest ++ drop (S i) rest) err))
                         | None => None
                         end
  | _ => None
  end.
(** A pending send on a response channel meets its receiver. *)
Definition after_send (y : cl) (ch : nat) (k : pk) : cl :=
  match k with
  | KReceipt id => close_ch (with_map (with_p y PLoop) (delete id (c_map y))) ch
  | KMessage => with_p y PLoop
  | KBcast f rest err => let y' := with_p y (PBcast f rest err) in if err then close_ch y' ch else y'
  end.
Definition do_deliver (y : cl) : option cout :=
  match c_p y with
  | PSend ch f k =>
      match c_chs y !! ch with
      | None => None
      | Some h =>
          let y' := with_log (after_send y ch k) (PvTold ch f) in
          match h_owner h with
          | OwnG g => match c_gs y !! g with
                      | Some r => match g_pc r with
                                  | GWait w ch' => if decide (ch' = ch) then Some (do_answer y' g w (Some f)) else None
                                  | _ => None
                                  end
                      | None => None
                      end
          | OwnS s => match c_subs y !! s with
                      | Some b => match b_rl b with
                                  | RlRecv => Some (COk (with_subs y' (<[s := b_with_rl b (rl_got b (Some f))]> (c_subs y))))
                                  | _ => None
                                  end
                      | None => None
                      end
          end
      end
  | _ => None
  end.
(** The end of processLoop: closed = true in the ERROR case (conn.go:383-386),
    and the deferred MustDisconnect. *)
Definition do_finish (y : cl) : option cout :=
  match c_p y with
  | PBcast _ [] err => Some (COk (with_p y (PMust err)))
  | PMust err =>
      match c_mut y with
      | Some _ => None
      | None =>
          if err then Some (COk (with_p (with_closed y) (PMust false)))
          else if c_closed y then Some (COk (with_p y PEnd))
          else if c_wclosed y then Some (CPanic PCloseClosedWrite)
          else Some (COk (with_p (with_closed (with_wclosed y)) PEnd))
      end
  | _ => None
  end.

(* ---------------- everything ---------------- *)

Definition is_sub_cmd (f : frame) : bool := bool_decide (f_cmd f = SUBSCRIBE) || bool_decide (f_cmd f = UNSUBSCRIBE).
(** The command of a call's frame is the one the API gave it. *)
Definition op_ok (o : op) : bool :=
  match o with
  | OSend (Some f) => bool_decide (f_cmd f = SEND)
  | OFrame f => negb (is_sub_cmd f)
  | OSubscribe (Some (f, _, _)) => bool_decide (f_cmd f = SUBSCRIBE)
  | OUnsub _ (Some f) => bool_decide (f_cmd f = UNSUBSCRIBE)
  | _ => true
  end.
Inductive cact :=
| XCall (o : op) | XRun (g : nat) | XTimeout (g : nat)
| XRecv (f : option frame) | XEof                       (* readLoop (conn.go:290-302) *)
| XTakeRead | XTakeWrite (w : bool) | XReadTimeout | XBeat (w : bool) | XPick (i : nat) | XDeliver | XFinish
| XLoop (s : nat) | XConsume (s : nat).
Definition cstep (cfg : ccfg) (y : cl) (a : cact) : option cout :=
  match a with
  | XCall o => if op_ok o then Some (COk (mkCl (c_mut y) (c_closed y) (c_wch y) (c_wclosed y) (c_rch y) (c_rclosed y) (c_map y) (c_chs y) (c_p y)
                                            (c_gs y ++ [mkGor o GStart]) (c_subs y) (c_log y))) else None
  | XRun g => do_run cfg y g
  | XTimeout g => do_timeout cfg y g
  | XRecv f => if c_rclosed y then None else
               if decide (length (c_rch y) < k_rcap cfg) then Some (COk (with_rch y (c_rch y ++ [f]) false)) else None
  | XEof => if c_rclosed y then None else Some (COk (with_rch y (c_rch y) true))
  | XTakeRead => do_take_read y
  | XTakeWrite w => do_take_write y w
  | XReadTimeout => do_read_timeout cfg y
  | XBeat w => do_beat cfg y w
  | XPick i => do_pick y i
  | XDeliver => do_deliver y
  | XFinish => do_finish y
  | XLoop s => do_loop y s
  | XConsume s => do_consume y s
  end.

(** States reached by actions that satisfy A. *)
Inductive creach (A : cact -> Prop) (cfg : ccfg) : cl -> Prop :=
| cr_init : creach A cfg cl_init
| cr_step y a y' : creach A cfg y -> A a -> cstep cfg y a = Some (COk y') -> creach A cfg y'.
Definition anything (a : cact) : Prop := True.
Fixpoint crun (cfg : ccfg) (y : cl) (l : list cact) : option cout :=
  match l with
  | [] => Some (COk y)
  | a :: l' => match cstep cfg y a with
               | Some (COk y') => crun cfg y' l'
               | o => o
               end
  end.
