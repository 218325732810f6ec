(** The steps of the client model, one constructor per kind, for case analysis. *)
From stdpp Require Import gmap.
From Verif Require Import GoBase HeaderModel FrameModel NegotiationModel ClientApiModel ClientModel.

(** Result of a call that finds the connection closed. *)
Definition at_closed (o : op) : option cres :=
  match o with
  | OSend _ => Some (RErr EAlreadyClosed) | OSubscribe _ => Some (RErr EClosedUnexpectedly)
  | ODisconnect _ | OMust => Some RNil | _ => None
  end.
Definition bad_option (o : op) : Prop := o = OSend None \/ o = OSubscribe None.

(** Steps that only move a call's program counter; [t]: a timeout. *)
Inductive gmove (cfg : ccfg) (y : cl) (g : nat) (o : op) : bool -> gpc -> gpc -> Prop :=
| gm_closed r : c_mut y = None -> c_closed y = true -> at_closed o = Some r -> gmove cfg y g o false GStart (GDone r)
| gm_option : c_mut y = None -> c_closed y = false -> bad_option o -> gmove cfg y g o false GStart (GDone (RErr EOption))
| gm_frame f : o = OFrame f -> gmove cfg y g o false GStart (GFrame None f)
| gm_refused s f b : o = OUnsub s f -> c_subs y !! s = Some b -> b_state b <> SubActive -> gmove cfg y g o false GStart (GDone (RErr ECompletedSub))
| gm_fclosed u f : c_mut y = None -> c_closed y = true -> gmove cfg y g o false (GFrame u f) (frame_done u (RErr EClosedUnexpectedly))
| gm_nil u ch : h_is_closed y ch = true -> gmove cfg y g o false (GWait (FFrame u) ch) (frame_done u (RErr EClosedUnexpectedly))
| gm_wto u ch : k_write_to cfg = true -> gmove cfg y g o true (GWait (FFrame u) ch) (frame_done u (RErr EClosedUnexpectedly))
| gm_load_done s r b : c_subs y !! s = Some b -> b_state b = SubClosed -> gmove cfg y g o false (GLoad s r) (GDone r)
| gm_load s r b : c_subs y !! s = Some b -> b_state b <> SubClosed -> gmove cfg y g o false (GLoad s r) (GReg s)
| gm_woken s b : c_subs y !! s = Some b -> g ∉ b_wait b -> gmove cfg y g o false (GBlocked s) (GLoad s RNil)
| gm_expire_reg s : k_unsub_to cfg = true -> gmove cfg y g o true (GReg s) (GExpired s)
| gm_expire_blk s : k_unsub_to cfg = true -> gmove cfg y g o true (GBlocked s) (GExpired s)
| gm_expired_closed s b : c_subs y !! s = Some b -> b_state b = SubClosed -> gmove cfg y g o false (GExpired s) (GDone (RErr EUnsubTimeout))
| gm_expired s b : c_subs y !! s = Some b -> b_state b <> SubClosed -> gmove cfg y g o false (GExpired s) (GPutErr s).
(** A call that submits a request: operation, state before, kind, frame. *)
Inductive submits : op -> gpc -> from -> frame -> Prop :=
| sm_send f : submits (OSend (Some f)) GStart FSend f
| sm_disc rid : submits (ODisconnect rid) GStart FDisc (mkFrame DISCONNECT [(h_receipt, rid)] [])
| sm_frame o u f : submits o (GFrame u f) (FFrame u) f.
(** After the request was put: next state, and whether the mutex is kept. *)
Definition put_next (k : from) (o : option nat) : gpc * bool :=
  match k, o with
  | FSend, Some ch | FDisc, Some ch => (GWait k ch, true)
  | FFrame _, Some ch => (GWait k ch, false)
  | FFrame u, None => (frame_done u RNil, false)
  | FSub s, _ => (GDone (RSub s), false)
  | _, None => (GDone RNil, false)
  end.
(** Steps of closeChannel. *)
Inductive clmove (b : csub) : clpc -> csub -> option clpc -> Prop :=
| cm_enter m : b_once b = OnceFree -> clmove b (Cl1 m) (b_with_once b OnceRunning) (Some (Cl2 m))
| cm_skip m : b_once b = OnceDone -> clmove b (Cl1 m) b None
| cm_none : clmove b (Cl2 None) b (Some Cl3)
| cm_put m : b_cclosed b = false -> length (b_buf b) < cap_c -> clmove b (Cl2 (Some m)) (b_with_buf b (b_buf b ++ [m])) (Some Cl3)
| cm_state : clmove b Cl3 (b_with_state b SubClosed) (Some Cl4)
| cm_close : b_cclosed b = false ->
    clmove b Cl4 (mkCsub (b_by b) (b_id b) (b_reply b) (b_ch b) (b_state b) (b_buf b) true OnceDone (b_rl b) [] (b_read b)) None.

Definition new_sub (g : nat) (id : str) (rt : bool) (ch : nat) : csub := mkCsub g id rt ch SubActive [] false OnceFree RlRecv [] [].
Definition add_call (y : cl) (o : op) : cl :=
  mkCl (c_mut y) (c_closed y) (c_wch y) (c_wclosed y) (c_rch y) (c_rclosed y) (c_map y) (c_chs y) (c_p y) (c_gs y ++ [mkGor o GStart]) (c_subs y) (c_log y).
(** A frame that processLoop passes on: to which key, how. *)
Inductive routes (f : frame) : str -> pk -> Prop :=
| ro_receipt id : f_cmd f = RECEIPT -> hd_contains (f_hdr f) h_receipt_id = Some id -> routes f id (KReceipt id)
| ro_message id : f_cmd f = MESSAGE -> hd_contains (f_hdr f) h_subscription = Some id -> routes f id KMessage.
(** A frame that it ignores: no key, or a key that is not registered. *)
Definition ignored (m : gmap str nat) (o : option frame) : Prop :=
  match o with
  | None => True
  | Some f => f_cmd f <> ERROR /\ (f_cmd f = RECEIPT -> hd_contains (f_hdr f) h_receipt_id <> None) /\ forall id k, routes f id k -> m !! id = None
  end.
Definition taken (y : cl) (l : list (option frame)) (o : option frame) : cl := with_log (with_rch y l (c_rclosed y)) (PvIn o).
Definition requested (y : cl) (l : list wreq) (q : wreq) (w : option (frame * bool)) : cl :=
  with_log (with_map (with_wch y l) (remember (c_map y) q)) (PvReq q w).
(** What a call does with a response. *)
Inductive answers (y : cl) (g : nat) (f : frame) : from -> cl -> Prop :=
| an_frame u : answers y g f (FFrame u) (with_g y g (frame_done u (if decide (f_cmd f = RECEIPT) then RNil else RErr (EResponse f))))
| an_send k : k = FSend \/ (exists s, k = FSub s) ->
    answers y g f k (with_g (with_mut y None) g (GDone (if decide (f_cmd f = RECEIPT) then RNil else RErr (EResponse f))))
| an_disc_ok : f_cmd f = RECEIPT -> answers y g f FDisc (with_g (with_mut (with_closed y) None) g (GDone RNil))
| an_disc_err : f_cmd f <> RECEIPT -> answers y g f FDisc (with_g (with_mut y None) g (GDone (RErr (EResponse f)))).

Inductive cmv (cfg : ccfg) (y : cl) : cact -> cl -> Prop :=
| mv_call o : op_ok o = true -> cmv cfg y (XCall o) (add_call y o)
| mv_g g r t x' : c_gs y !! g = Some r -> gmove cfg y g (g_op r) t (g_pc r) x' -> cmv cfg y (if t then XTimeout g else XRun g) (with_g y g x')
| mv_send_to g r q : c_gs y !! g = Some r -> g_pc r = GPut FSend q -> k_msg_to cfg = true ->
    cmv cfg y (XTimeout g) (with_g (with_mut y None) g (GDone (RErr ESendTimeout)))
| mv_rcv_to g r ch : c_gs y !! g = Some r -> g_pc r = GWait FSend ch -> k_rcv_to cfg = true ->
    cmv cfg y (XTimeout g) (with_g (with_mut y None) g (GDone (RErr EReceiptTimeout)))
| mv_disc_to g r ch : c_gs y !! g = Some r -> g_pc r = GWait FDisc ch -> k_disc_to cfg = true ->
    cmv cfg y (XTimeout g) (with_g (with_mut (with_closed y) None) g (GDone (RErr EReceiptTimeout)))
| mv_must g r : c_gs y !! g = Some r -> g_pc r = GStart -> g_op r = OMust -> c_mut y = None -> c_closed y = false -> c_wclosed y = false ->
    cmv cfg y (XRun g) (with_g (with_closed (with_wclosed y)) g (GDone RNil))
| mv_unsub g r s f b : c_gs y !! g = Some r -> g_pc r = GStart -> g_op r = OUnsub s f -> c_subs y !! s = Some b -> b_state b = SubActive ->
    cmv cfg y (XRun g) (with_g (with_subs y (<[s := b_with_state b SubClosing]> (c_subs y))) g
                          (match f with None => GDone (RErr EOption) | Some f => GFrame (Some s) f end))
| mv_submit g r k f own : c_gs y !! g = Some r -> submits (g_op r) (g_pc r) k f -> own = receipt_owner g f -> c_mut y = None -> c_closed y = false ->
    cmv cfg y (XRun g) (submit y g k f own)
| mv_subscribe g r f id rt : c_gs y !! g = Some r -> g_pc r = GStart -> g_op r = OSubscribe (Some (f, id, rt)) -> c_mut y = None -> c_closed y = false ->
    cmv cfg y (XRun g) (submit (with_subs y (c_subs y ++ [new_sub g id rt (length (c_chs y))])) g (FSub (length (c_subs y))) f (Some (OwnS (length (c_subs y)))))
| mv_put g r k q : c_gs y !! g = Some r -> g_pc r = GPut k q -> c_wclosed y = false -> length (c_wch y) < k_wcap cfg ->
    cmv cfg y (XRun g) (with_g (if (put_next k (q_chan q)).2 then with_wch y (c_wch y ++ [q]) else with_mut (with_wch y (c_wch y ++ [q])) None) g
                          (put_next k (q_chan q)).1)
| mv_gclose g r s b c res b' o : c_gs y !! g = Some r -> g_pc r = GClose s c res -> c_subs y !! s = Some b -> clmove b c b' o ->
    cmv cfg y (XRun g) (with_g (with_subs y (<[s := b']> (c_subs y))) g (match o with Some c' => GClose s c' res | None => GDone res end))
| mv_reg g r s b : c_gs y !! g = Some r -> g_pc r = GReg s -> c_subs y !! s = Some b ->
    cmv cfg y (XRun g) (with_g (with_subs y (<[s := b_with_wait b (g :: b_wait b)]> (c_subs y))) g (GBlocked s))
| mv_puterr g r s b : c_gs y !! g = Some r -> g_pc r = GPutErr s -> c_subs y !! s = Some b -> b_cclosed b = false -> length (b_buf b) < cap_c ->
    cmv cfg y (XRun g) (with_g (with_subs y (<[s := b_with_buf b (b_buf b ++ [CmErr None])]> (c_subs y))) g (GDone (RErr EUnsubTimeout)))
| mv_recv f : c_rclosed y = false -> length (c_rch y) < k_rcap cfg -> cmv cfg y (XRecv f) (with_rch y (c_rch y ++ [f]) false)
| mv_eof : c_rclosed y = false -> cmv cfg y XEof (with_rch y (c_rch y) true)
| mv_rfail : c_p y = PLoop -> c_rch y = [] -> c_rclosed y = true -> cmv cfg y XTakeRead (fail y (lit "connection closed"))
| mv_wfail w : c_p y = PLoop -> c_wch y = [] -> c_wclosed y = true -> cmv cfg y (XTakeWrite w) (fail y (lit "write channel closed"))
| mv_rto : c_p y = PLoop -> k_read_to cfg = true -> cmv cfg y XReadTimeout (fail y (lit "read timeout"))
| mv_beat : c_p y = PLoop -> k_write_to cfg = true -> cmv cfg y (XBeat true) y
| mv_beatfail : c_p y = PLoop -> k_write_to cfg = true -> cmv cfg y (XBeat false) (fail y (lit "write error"))
| mv_in_skip o l : c_p y = PLoop -> c_rch y = o :: l -> ignored (c_map y) o -> cmv cfg y XTakeRead (taken y l o)
| mv_in_fail f l : c_p y = PLoop -> c_rch y = Some f :: l -> f_cmd f = RECEIPT -> hd_contains (f_hdr f) h_receipt_id = None ->
    cmv cfg y XTakeRead (fail (taken y l (Some f)) (lit "missing receipt-id"))
| mv_in_error f l : c_p y = PLoop -> c_rch y = Some f :: l -> f_cmd f = ERROR ->
    cmv cfg y XTakeRead (with_p (taken y l (Some f)) (PBcast f (map_to_list (c_map y)) true))
| mv_in_send f l id k ch : c_p y = PLoop -> c_rch y = Some f :: l -> routes f id k -> c_map y !! id = Some ch -> h_is_closed y ch = false ->
    cmv cfg y XTakeRead (with_p (taken y l (Some f)) (PSend ch f k))
| mv_req_write q l w : c_p y = PLoop -> c_wch y = q :: l -> local_only (q_frame q) = false ->
    cmv cfg y (XTakeWrite w) (let y1 := requested y l q (Some (outgoing (q_frame q), w)) in if w then y1 else fail y1 (lit "write error"))
| mv_req_local q l w : c_p y = PLoop -> c_wch y = q :: l -> local_only (q_frame q) = true ->
    f_cmd (q_frame q) <> UNSUBSCRIBE \/ remember (c_map y) q !! first_of (f_hdr (q_frame q)) h_reply_to = None ->
    cmv cfg y (XTakeWrite w) (requested y l q None)
| mv_req_unsub q l w ch : c_p y = PLoop -> c_wch y = q :: l -> local_only (q_frame q) = true -> f_cmd (q_frame q) = UNSUBSCRIBE ->
    remember (c_map y) q !! first_of (f_hdr (q_frame q)) h_reply_to = Some ch -> h_is_closed y ch = false ->
    cmv cfg y (XTakeWrite w) (close_ch (with_map (requested y l q None) (delete (first_of (f_hdr (q_frame q)) h_reply_to) (remember (c_map y) q))) ch)
| mv_pick i f rest err k ch : c_p y = PBcast f rest err -> rest !! i = Some (k, ch) -> h_is_closed y ch = false ->
    cmv cfg y (XPick i) (with_p y (PSend ch f (KBcast f (take i rest ++ drop (S i) rest) err)))
| mv_told_g ch f k h g r w y' : c_p y = PSend ch f k -> c_chs y !! ch = Some h -> h_owner h = OwnG g -> c_gs y !! g = Some r -> g_pc r = GWait w ch ->
    answers (with_log (after_send y ch k) (PvTold ch f)) g f w y' -> cmv cfg y XDeliver y'
| mv_told_s ch f k h s b : c_p y = PSend ch f k -> c_chs y !! ch = Some h -> h_owner h = OwnS s -> c_subs y !! s = Some b -> b_rl b = RlRecv ->
    cmv cfg y XDeliver (with_subs (with_log (after_send y ch k) (PvTold ch f)) (<[s := b_with_rl b (rl_got b (Some f))]> (c_subs y)))
| mv_bcast_end f err : c_p y = PBcast f [] err -> cmv cfg y XFinish (with_p y (PMust err))
| mv_err_closed : c_p y = PMust true -> c_mut y = None -> cmv cfg y XFinish (with_p (with_closed y) (PMust false))
| mv_must_done : c_p y = PMust false -> c_mut y = None -> c_closed y = true -> cmv cfg y XFinish (with_p y PEnd)
| mv_must_close : c_p y = PMust false -> c_mut y = None -> c_closed y = false -> c_wclosed y = false ->
    cmv cfg y XFinish (with_p (with_closed (with_wclosed y)) PEnd)
| mv_loop_closed s b : c_subs y !! s = Some b -> b_rl b = RlRecv -> h_is_closed y (b_ch b) = true ->
    cmv cfg y (XLoop s) (with_subs y (<[s := b_with_rl b (rl_got b None)]> (c_subs y)))
| mv_loop_put s b m : c_subs y !! s = Some b -> b_rl b = RlPut m -> b_cclosed b = false -> length (b_buf b) < cap_c ->
    cmv cfg y (XLoop s) (with_subs y (<[s := b_with_rl (b_with_buf b (b_buf b ++ [m])) RlRecv]> (c_subs y)))
| mv_loop_close s b c b' o : c_subs y !! s = Some b -> b_rl b = RlClose c -> clmove b c b' o ->
    cmv cfg y (XLoop s) (with_subs y (<[s := b_with_rl b' (match o with Some c' => RlClose c' | None => RlDone end)]> (c_subs y)))
| mv_consume s b m l : c_subs y !! s = Some b -> b_buf b = m :: l ->
    cmv cfg y (XConsume s) (with_subs y (<[s := mkCsub (b_by b) (b_id b) (b_reply b) (b_ch b) (b_state b) l (b_cclosed b) (b_once b) (b_rl b) (b_wait b) (b_read b ++ [m])]> (c_subs y))).

Lemma close_step_ok b c b' o : close_step b c = Some (inr (b', o)) -> clmove b c b' o.
Proof.
  destruct c as [m|[m|]| |]; cbn [close_step].
  - destruct (b_once b) eqn:E; intros [= <- <-]; by constructor.
  - unfold put_c. destruct (b_cclosed b) eqn:Ec; [done|]. destruct (decide _); [|done]. intros [= <- <-]. by constructor.
  - intros [= <- <-]. constructor.
  - intros [= <- <-]. constructor.
  - destruct (b_cclosed b) eqn:Ec; [done|]. intros [= <- <-]. by constructor.
Qed.
Lemma put_c_ok b m b' : put_c b m = Some (inr b') -> b_cclosed b = false /\ length (b_buf b) < cap_c /\ b' = b_with_buf b (b_buf b ++ [m]).
Proof. unfold put_c. destruct (b_cclosed b); [done|]. destruct (decide _); [|done]. by intros [= <-]. Qed.
Lemma run_cmv cfg y g y' : do_run cfg y g = Some (COk y') -> cmv cfg y (XRun g) y'.
Proof.
  unfold do_run. destruct (c_gs y !! g) as [r|] eqn:Hg; [|done].
  assert (HG : forall x', gmove cfg y g (g_op r) false (g_pc r) x' -> cmv cfg y (XRun g) (with_g y g x')) by (intros x' H; exact (mv_g cfg y g r false x' Hg H)).
  destruct (g_pc r) as [|u f|k q|k ch|s c res|s res|s|s|s|s|res] eqn:Hpc; rewrite <-Hpc in HG.
  - unfold do_start. destruct (g_op r) as [f|f|f|s f|rid|] eqn:Ho.
    + destruct (c_mut y) eqn:Hm; [done|]. destruct (c_closed y) eqn:Hc.
      * intros [= <-]. apply HG. rewrite Hpc. by apply gm_closed.
      * destruct f as [f|]; intros [= <-]; [|apply HG; rewrite Hpc; apply gm_option; [done..|by left]]. eapply mv_submit; try done. rewrite Ho, Hpc. constructor.
    + intros [= <-]. apply HG. rewrite Hpc. by apply gm_frame.
    + destruct (c_mut y) eqn:Hm; [done|]. destruct (c_closed y) eqn:Hc.
      * intros [= <-]. apply HG. rewrite Hpc. by apply gm_closed.
      * destruct f as [[[f id] rt]|]; [set (z := submit _ _ _ _ _)|]; intros [= <-]; [|apply HG; rewrite Hpc; apply gm_option; [done..|by right]]. by eapply mv_subscribe.
    + destruct (c_subs y !! s) as [b|] eqn:Hb; [|done]. destruct (b_state b) eqn:Hst.
      * intros H. assert (y' = with_g (with_subs y (<[s := b_with_state b SubClosing]> (c_subs y))) g (match f with None => GDone (RErr EOption) | Some f => GFrame (Some s) f end)) as ->
          by (destruct f; congruence). by eapply mv_unsub.
      * intros [= <-]. apply HG. rewrite Hpc. eapply gm_refused; [done..|congruence].
      * intros [= <-]. apply HG. rewrite Hpc. eapply gm_refused; [done..|congruence].
    + destruct (c_mut y) eqn:Hm; [done|]. destruct (c_closed y) eqn:Hc.
      * intros [= <-]. apply HG. rewrite Hpc. by apply gm_closed.
      * set (z := submit _ _ _ _ _). intros [= <-]. eapply mv_submit; try done. rewrite Ho, Hpc. constructor.
    + destruct (c_mut y) eqn:Hm; [done|]. destruct (c_closed y) eqn:Hc.
      * intros [= <-]. apply HG. rewrite Hpc. by apply gm_closed.
      * destruct (c_wclosed y) eqn:Hw; [done|]. intros [= <-]. by eapply mv_must.
  - unfold do_frame. destruct (c_mut y) eqn:Hm; [done|]. destruct (c_closed y) eqn:Hc; intros [= <-].
    + apply HG. rewrite Hpc. by apply gm_fclosed.
    + eapply mv_submit; try done. rewrite Hpc. constructor.
  - unfold do_put. destruct (c_wclosed y) eqn:Hw; [done|]. destruct (decide _); [|done]. intros [= <-].
    pose proof (mv_put cfg y g r k q Hg Hpc Hw) as Hp. destruct k; destruct (q_chan q); apply Hp; done.
  - destruct (h_is_closed y ch) eqn:Hh; [|done]. unfold do_answer. destruct k as [|u|s|]; try done. intros [= <-]. apply HG. rewrite Hpc. by constructor.
  - destruct (c_subs y !! s) as [b|] eqn:Hb; [|done]. destruct (close_step b c) as [[p|[b' o]]|] eqn:Hc; try done. intros [= <-]. apply close_step_ok in Hc. by eapply mv_gclose.
  - destruct (c_subs y !! s) as [b|] eqn:Hb; [|done]. destruct (b_state b) eqn:Hst; intros [= <-]; apply HG; rewrite Hpc.
    + eapply gm_load; [done|congruence].
    + eapply gm_load; [done|congruence].
    + by eapply gm_load_done.
  - destruct (c_subs y !! s) as [b|] eqn:Hb; [|done]. intros [= <-]. by eapply mv_reg.
  - destruct (c_subs y !! s) as [b|] eqn:Hb; [|done]. case_bool_decide as Hw; [done|]. intros [= <-]. apply HG. rewrite Hpc. by eapply gm_woken.
  - destruct (c_subs y !! s) as [b|] eqn:Hb; [|done]. destruct (b_state b) eqn:Hst; intros [= <-]; apply HG; rewrite Hpc.
    + eapply gm_expired; [done|congruence].
    + eapply gm_expired; [done|congruence].
    + by eapply gm_expired_closed.
  - destruct (c_subs y !! s) as [b|] eqn:Hb; [|done]. destruct (put_c b (CmErr None)) as [[p|b']|] eqn:Hp; try done. intros [= <-].
    apply put_c_ok in Hp as (H1 & H2 & ->). by eapply mv_puterr.
  - done.
Qed.
Lemma timeout_cmv cfg y g y' : do_timeout cfg y g = Some (COk y') -> cmv cfg y (XTimeout g) y'.
Proof.
  unfold do_timeout. destruct (c_gs y !! g) as [r|] eqn:Hg; [|done].
  assert (HG : forall x', gmove cfg y g (g_op r) true (g_pc r) x' -> cmv cfg y (XTimeout g) (with_g y g x')) by (intros x' H; exact (mv_g cfg y g r true x' Hg H)).
  destruct (g_pc r) as [|u f|[|u|s|] q|[|u|s|] ch|s c res|s res|s|s|s|s|res] eqn:Hpc; rewrite <-Hpc in HG; try done.
  - destruct (k_msg_to cfg) eqn:E; [|done]. intros [= <-]. by eapply mv_send_to.
  - destruct (k_rcv_to cfg) eqn:E; [|done]. intros [= <-]. by eapply mv_rcv_to.
  - destruct (k_write_to cfg) eqn:E; [|done]. intros [= <-]. apply HG. rewrite Hpc. by constructor.
  - destruct (k_disc_to cfg) eqn:E; [|done]. intros [= <-]. by eapply mv_disc_to.
  - destruct (k_unsub_to cfg) eqn:E; [|done]. intros [= <-]. apply HG. rewrite Hpc. by constructor.
  - destruct (k_unsub_to cfg) eqn:E; [|done]. intros [= <-]. apply HG. rewrite Hpc. by constructor.
Qed.
Lemma take_read_cmv cfg y y' : do_take_read y = Some (COk y') -> cmv cfg y XTakeRead y'.
Proof.
  unfold do_take_read. destruct (c_p y) eqn:Hp; try done. destruct (c_rch y) as [|[f|] l] eqn:Hr.
  - destruct (c_rclosed y) eqn:Hc; [|done]. intros [= <-]. by constructor.
  - change (with_log _ _) with (taken y l (Some f)). change (c_map (taken y l (Some f))) with (c_map y). change (h_is_closed (taken y l (Some f))) with (h_is_closed y).
    destruct (decide (f_cmd f = RECEIPT)) as [Ec|Ec].
    + destruct (hd_contains (f_hdr f) h_receipt_id) as [id|] eqn:Hid.
      * destruct (c_map y !! id) as [ch|] eqn:Hm.
        -- unfold p_send. change (h_is_closed (taken y l (Some f)) ch) with (h_is_closed y ch). destruct (h_is_closed y ch) eqn:Hh; [done|]. intros [= <-].
           eapply mv_in_send; try done. by constructor.
        -- intros [= <-]. eapply mv_in_skip; try done. split_and!; [by rewrite Ec|by rewrite Hid|]. intros id' k [? ? ?|? E ?]; [congruence|].
           by rewrite Ec in E.
      * intros [= <-]. by eapply mv_in_fail.
    + destruct (decide (f_cmd f = ERROR)) as [Ee|Ee].
      * intros [= <-]. by eapply mv_in_error.
      * destruct (decide (f_cmd f = MESSAGE)) as [Em|Em].
        -- destruct (hd_contains (f_hdr f) h_subscription) as [id|] eqn:Hid.
           ++ destruct (c_map y !! id) as [ch|] eqn:Hm.
              ** unfold p_send. change (h_is_closed (taken y l (Some f)) ch) with (h_is_closed y ch). destruct (h_is_closed y ch) eqn:Hh; [done|]. intros [= <-].
                 eapply mv_in_send; try done. by constructor.
              ** intros [= <-]. eapply mv_in_skip; try done. split_and!; [done..|]. intros id' k [? ? ?|? ? ?]; congruence.
           ++ intros [= <-]. eapply mv_in_skip; try done. split_and!; [done..|]. intros id' k [? ? ?|? ? ?]; congruence.
        -- intros [= <-]. eapply mv_in_skip; try done. split_and!; [done..|]. intros id' k [? ? ?|? ? ?]; congruence.
  - intros [= <-]. by eapply (mv_in_skip _ _ None).
Qed.
Lemma take_write_cmv cfg y w y' : do_take_write y w = Some (COk y') -> cmv cfg y (XTakeWrite w) y'.
Proof.
  unfold do_take_write. destruct (c_p y) eqn:Hp; try done. destruct (c_wch y) as [|q l] eqn:Hr.
  - destruct (c_wclosed y) eqn:Hc; [|done]. intros [= <-]. by constructor.
  - destruct (local_only (q_frame q)) eqn:Hl.
    + change (with_log _ _) with (requested y l q None). change (h_is_closed (requested y l q None)) with (h_is_closed y).
      destruct (decide (f_cmd (q_frame q) = UNSUBSCRIBE)) as [Eu|Eu].
      * destruct (remember (c_map y) q !! _) as [ch|] eqn:Hm.
        -- destruct (h_is_closed y ch) eqn:Hh; [done|]. intros [= <-]. by eapply mv_req_unsub.
        -- intros [= <-]. eapply mv_req_local; try done. by right.
      * intros [= <-]. eapply mv_req_local; try done. by left.
    + change (with_log _ _) with (requested y l q (Some (outgoing (q_frame q), w))). pose proof (mv_req_write cfg y q l w Hp Hr Hl) as H.
      destruct w; intros [= <-]; exact H.
Qed.
Lemma cstep_cmv cfg y a y' : cstep cfg y a = Some (COk y') -> cmv cfg y a y'.
Proof.
  destruct a as [o|g|g|f| | |w| |w|i| | |s|s]; cbn [cstep].
  - destruct (op_ok o) eqn:E; [|done]. intros [= <-]. by constructor.
  - apply run_cmv.
  - apply timeout_cmv.
  - destruct (c_rclosed y) eqn:E; [done|]. destruct (decide _); [|done]. intros [= <-]. by constructor.
  - destruct (c_rclosed y) eqn:E; [done|]. intros [= <-]. by constructor.
  - apply take_read_cmv.
  - apply take_write_cmv.
  - unfold do_read_timeout. destruct (c_p y) eqn:Hp; try done. destruct (k_read_to cfg) eqn:E; [|done]. intros [= <-]. by constructor.
  - unfold do_beat. destruct (c_p y) eqn:Hp; try done. destruct (k_write_to cfg) eqn:E; [|done]. destruct w; intros [= <-]; by constructor.
  - unfold do_pick. destruct (c_p y) as [| |f rest err| |] eqn:Hp; try done. destruct (rest !! i) as [[k ch]|] eqn:Hi; [|done]. unfold p_send. cbn [snd].
    destruct (h_is_closed y ch) eqn:Hh; [done|]. intros [= <-]. by eapply mv_pick.
  - unfold do_deliver. destruct (c_p y) as [|ch f k| | |] eqn:Hp; try done. destruct (c_chs y !! ch) as [h|] eqn:Hh; [|done]. destruct (h_owner h) as [g|s] eqn:Ho.
    + destruct (c_gs y !! g) as [r|] eqn:Hg; [|done]. destruct (g_pc r) as [| | |w ch'| | | | | | |] eqn:Hpc; try done. destruct (decide (ch' = ch)) as [->|]; [|done].
      intros H. eapply mv_told_g; try done. injection H as H. unfold do_answer in H. destruct w as [|u|s|].
      * injection H as <-. apply an_send. by left.
      * injection H as <-. constructor.
      * injection H as <-. apply an_send. right. by exists s.
      * destruct (decide (f_cmd f = RECEIPT)); injection H as <-; by constructor.
    + destruct (c_subs y !! s) as [b|] eqn:Hb; [|done]. destruct (b_rl b) eqn:Hrl; try done. intros [= <-]. by eapply mv_told_s.
  - unfold do_finish. destruct (c_p y) as [| |f [|] err|err|] eqn:Hp; try done.
    + intros [= <-]. by eapply mv_bcast_end.
    + destruct (c_mut y) eqn:Hm; [done|]. destruct err; [intros [= <-]; by apply mv_err_closed|].
      destruct (c_closed y) eqn:Hc; [intros [= <-]; by apply mv_must_done|]. destruct (c_wclosed y) eqn:Hw; [done|]. intros [= <-]. by apply mv_must_close.
  - unfold do_loop. destruct (c_subs y !! s) as [b|] eqn:Hb; [|done]. destruct (b_rl b) as [|m|c|] eqn:Hrl; try done.
    + destruct (h_is_closed y (b_ch b)) eqn:Hh; [|done]. intros [= <-]. by eapply mv_loop_closed.
    + destruct (put_c b m) as [[p|b']|] eqn:Hpc; try done. intros [= <-]. apply put_c_ok in Hpc as (H1 & H2 & ->). by eapply mv_loop_put.
    + destruct (close_step b c) as [[p|[b' o]]|] eqn:Hc; try done. destruct o as [c'|]; intros [= <-]; apply close_step_ok in Hc.
      * exact (mv_loop_close cfg y s b c b' (Some c') Hb Hrl Hc).
      * exact (mv_loop_close cfg y s b c b' None Hb Hrl Hc).
  - unfold do_consume. destruct (c_subs y !! s) as [b|] eqn:Hb; [|done]. destruct (b_buf b) as [|m l] eqn:Hbuf; [done|]. intros [= <-]. by eapply mv_consume.
Qed.
