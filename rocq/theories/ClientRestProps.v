(** C70, C71: how much a client does, and what is left when it stops. *)
From stdpp Require Import gmap.
From Verif Require Import GoBase HeaderModel FrameModel HeaderProofs NegotiationModel ClientApiModel ClientModel ClientSpec ClientLemmas ClientProofs ClientRequests ClientCalls
  ClientChannels ClientReceipts ClientDelivery ClientMessages ClientRouting ClientFinal ClientClosing ClientLive ClientReady ClientEnd ClientProps ClientRestSpec ClientRest.

(* ------------------------------------------------------------------ *)
(** C70.  In any run, whatever the program calls and the server sends and
    however the goroutines are scheduled, the client makes at most this many
    moves other than heart-beats. *)
Theorem C70_bounded : forall cfg l y, crun cfg cl_init l = Some (COk y) -> cmoves l <= 25 * calls l + 4 * arrivals l + 4.
Proof. exact run_bounded. Qed.
Print Assumptions C70_bounded.
(** So after the last call and the last frame the number of moves left is
    bounded, and after a move none of them is repeated forever. *)
Theorem C70_silence : forall cfg l0 y l y', crun cfg cl_init l0 = Some (COk y) -> Forall cwork l -> crun cfg y l = Some (COk y') ->
  cmoves l0 + length l <= 25 * calls l0 + 4 * arrivals l0 + 4.
Proof. exact run_silent. Qed.
Print Assumptions C70_silence.
(** A frame that goes to the program takes four moves: the bound's coefficient
    is attained. *)
Definition c70_run (n : nat) : list cact := subscribe 0 (fr_sub (lit "1") (lit "/queue/a")) (lit "1") ++ concat (replicate n (consumed 0 (fr_message (lit "1") (lit "x")))).
Definition runs (l : list cact) : bool := match crun k0 cl_init l with Some (COk _) => true | _ => false end.
Lemma runs_ok l : runs l = true -> exists y, crun k0 cl_init l = Some (COk y).
Proof. unfold runs. destruct (crun k0 cl_init l) as [[p|y]|]; try done. by exists y. Qed.
Example C70_case : exists y, crun k0 cl_init (c70_run 50) = Some (COk y) /\ calls (c70_run 50) = 1 /\ arrivals (c70_run 50) = 50 /\ cmoves (c70_run 50) = 3 + 4 * 50.
Proof.
  pose proof (runs_ok (c70_run 50)) as HA. witness HA. destruct HA as [y Hy]. exists y. split; [exact Hy|]. split_and!; vm_compute; reflexivity.
Qed.

(* ------------------------------------------------------------------ *)
(** C71.  From every state the client comes to rest (or panics), by moves of
    its own goroutines, expiring timeouts of its calls, and the program
    receiving from its subscriptions. *)
Theorem C71_settles : forall cfg y, creach anything cfg y -> exists l, Forall cplain l /\
  ((exists p, crun cfg y l = Some (CPanic p)) \/ exists y', crun cfg y l = Some (COk y') /\ at_rest cfg y').
Proof. exact settles. Qed.
Print Assumptions C71_settles.
(** At rest, every message has been received by the program, every
    subscription's goroutine waits or has ended, and either the connection is
    open, idle and every call has returned; or it is closed and every call has
    returned; or processLoop hangs on a response nobody waits for; or it hangs
    in MustDisconnect because of a call that waits for room in writeCh. *)
Theorem C71_rest_partial : forall A cfg y, creach A cfg y -> at_rest cfg y -> timeouts cfg -> real_subs y -> 0 < k_wcap cfg ->
  (forall s b, c_subs y !! s = Some b -> settled_sub y b) /\
  ((c_p y = PLoop /\ c_rch y = [] /\ c_rclosed y = false /\ c_wch y = [] /\ c_wclosed y = false /\ all_returned y) \/
   (c_p y = PEnd /\ c_closed y = true /\ all_returned y) \/
   (exists ch f k, c_p y = PSend ch f k) \/
   (exists err h, c_p y = PMust err /\ jammed cfg y h)).
Proof. intros A cfg y Hr HR HT HU Hw. split; [intros s b; by eapply rest_sub|by eapply rest_loop]. Qed.
Print Assumptions C71_rest_partial.
(** So every call returns, unless one of them waits for room in writeCh, with
    closeMutex held, and processLoop hangs. *)
Theorem C71_returns_partial : forall A cfg y, creach A cfg y -> at_rest cfg y -> timeouts cfg -> real_subs y -> 0 < k_wcap cfg ->
  all_returned y \/ exists h, jammed cfg y h /\ ((exists err, c_p y = PMust err) \/ exists ch f k, c_p y = PSend ch f k).
Proof.
  intros A cfg y Hr HR HT HU Hw. destruct (rest_returned _ _ _ _ Hr HR HT HU) as [?|[h Hj]]; [by left|]. right. exists h. split; [done|].
  destruct (rest_loop _ _ _ _ Hr HR HT HU Hw) as [(_ & _ & _ & E & _)|[(_ & E & _)|[?|(err & h' & ? & _)]]]; [| |by right|left; by exists err].
  - destruct Hj as (r & k & q & _ & _ & _ & _ & _ & Hl). rewrite E in Hl. cbn in Hl. lia.
  - destruct Hj as (r & k & q & Em & _). rewrite (lk_open _ (reach_lock _ _ _ Hr)) in E by congruence. done.
Qed.
Print Assumptions C71_returns_partial.
(** The hanging response was for a call whose timeout expired, unless a MESSAGE
    frame named a receipt id or a SUBSCRIBE asked for a receipt. *)
Theorem C71_hang_partial : forall A cfg y ch f k, creach A cfg y -> at_rest cfg y -> plain_subs (c_gs y) -> tidy y -> c_p y = PSend ch f k ->
  exists g r, c_gs y !! g = Some r /\ A (XTimeout g) /\ gave_up (g_pc r).
Proof.
  intros A cfg y ch f k Hr HR HP HT Hp. destruct (send_progress _ _ _ _ _ _ Hr HP HT Hp) as [(y' & Hs & _)|[(s & b & m & Hb & _ & Hrl)|?]]; [| |done].
  - exfalso. rewrite (HR XDeliver) in Hs; done.
  - exfalso. destruct (rest_sub _ _ _ _ Hr HR _ _ Hb) as [_ [[E _]|E]]; congruence.
Qed.
Print Assumptions C71_hang_partial.
(** Every message has arrived: at rest on an open connection a subscription has
    given the program exactly the messages due to it (see C21). *)
Theorem C71_messages_partial : forall A cfg y s b r f id rt, creach A cfg y -> at_rest cfg y -> c_p y = PLoop \/ c_p y = PEnd -> c_subs y !! s = Some b ->
  c_gs y !! b_by b = Some r -> g_op r = OSubscribe (Some (f, id, rt)) -> hd_contains (f_hdr f) h_receipt = None -> sole (c_gs y) (b_by b) (sub_key f) ->
  (exists l1 q w l2, c_log y = l1 ++ PvReq q w :: l2 /\ q_by q = b_by b /\ msgs (b_read b) = due (sub_key f) l2) \/
  (forall q w, PvReq q w ∈ c_log y -> q_by q <> b_by b) /\ msgs (b_read b) = [].
Proof.
  intros A cfg y s b r f id rt Hr HR Hp Hb Hg Ho Hrc Hso. destruct (rest_sub _ _ _ _ Hr HR _ _ Hb) as [Eb Erl].
  assert (transit y b = []) as Et. { unfold transit. destruct Hp as [-> | ->]; destruct Erl as [[-> _]| ->]; done. }
  pose proof (reach_messages _ _ _ _ _ _ _ _ _ Hr Hb Hg Ho Hrc Hso) as H. by rewrite Eb, Et, !app_nil_r in H.
Qed.
Print Assumptions C71_messages_partial.
(** When the server has gone, the connection ends: it is closed, or hangs in one
    of the two ways. *)
Theorem C71_closes_partial : forall A cfg y, creach A cfg y -> at_rest cfg y -> timeouts cfg -> real_subs y -> 0 < k_wcap cfg -> c_rclosed y = true ->
  (c_p y = PEnd /\ c_closed y = true /\ all_returned y) \/ (exists ch f k, c_p y = PSend ch f k) \/ (exists err h, c_p y = PMust err /\ jammed cfg y h).
Proof. intros A cfg y Hr HR HT HU Hw Hc. destruct (rest_loop _ _ _ _ Hr HR HT HU Hw) as [(_ & _ & E & _)|?]; [congruence|done]. Qed.
Print Assumptions C71_closes_partial.

Definition restb (y : cl) : bool := bool_decide (Forall (fun a => cstep k0 y a = None) (cands y)).
Lemma restb_rest y : restb y = true -> at_rest k0 y.
Proof. intros H. apply cands_rest. by apply bool_decide_eq_true in H. Qed.
Definition jamb (y : cl) (h : nat) : bool :=
  match c_mut y, c_gs y !! h with
  | Some h', Some r => bool_decide (h' = h) && match g_pc r with GPut FSend _ => false | GPut _ _ => true | _ => false end && negb (c_wclosed y) && bool_decide (k_wcap k0 <= length (c_wch y))
  | _, _ => false
  end.
Lemma jamb_jammed y h : jamb y h = true -> jammed k0 y h.
Proof.
  unfold jamb. destruct (c_mut y) as [h'|] eqn:Em; [|done]. destruct (c_gs y !! h) as [r|] eqn:Hg; [|done]. rewrite !andb_true_iff, !bool_decide_eq_true, negb_true_iff. intros [[[-> Hp] Hw] Hl].
  destruct (g_pc r) as [| |k q| | | | | | | |] eqn:Ep; try done. exists r, k, q. split_and!; try done. by destruct k.
Qed.
(** Two subscriptions, messages, a receipt and the end of the connection: all
    the calls return. *)
Example C71_example : exists y, creach anything k0 y /\ at_rest k0 y /\ timeouts k0 /\ real_subs y /\ c_rclosed y = true /\ length (c_gs y) = 3 /\ c_p y = PEnd /\
  got y 0 = [CmMsg (fr_message (lit "1") (lit "x")); CmErr (Some (error_frame (lit "connection closed")))].
Proof.
  pose proof (cafter_reach (subscribe 0 (fr_sub (lit "1") (lit "/queue/a")) (lit "1") ++ [XCall (OFrame (fr_ack (lit "5"))); XRun 1; XRun 1; XRun 1; XTakeWrite true] ++ sending 2 (fr_send_receipt (lit "6") (lit "b")) ++ handed (fr_message (lit "1") (lit "x")) ++
      [XLoop 0; XEof; XTakeRead; XPick 1; XDeliver; XPick 0; XDeliver; XPick 0; XDeliver; XLoop 0; XLoop 0; XLoop 0; XLoop 0; XFinish; XFinish; XConsume 0; XConsume 0])
    (fun y => restb y = true /\ c_rclosed y = true /\ length (c_gs y) = 3 /\ match c_p y with PEnd => true | _ => false end = true /\
       forallb (fun r => match g_op r with OUnsub _ _ => false | _ => true end) (c_gs y) = true /\
       match got y 0 with [CmMsg f; CmErr (Some e)] => bool_decide (f = fr_message (lit "1") (lit "x") /\ e = error_frame (lit "connection closed")) | _ => false end = true)) as HA.
  witness HA. destruct HA as (y & Hr & H1 & H2 & H3 & H4 & H5 & H6). exists y. split_and!; try done.
  - by apply restb_rest.
  - intros g r s f Hg Ho. apply forallb_forall with (x := r) in H5; [by rewrite Ho in H5|]. by eapply elem_of_list_In, elem_of_list_lookup_2.
  - by destruct (c_p y).
  - destruct (got y 0) as [|[f|?] [|[?|[e|]] [|? ?]]]; try done. apply bool_decide_eq_true in H6 as [-> ->]. done.
Qed.

(** The server stops reading, writeCh fills up, a Subscribe call waits for room;
    then the connection fails.  processLoop wants the mutex that the call
    holds: neither ever goes on, and every other call waits for the mutex. *)
Definition fill (from n : nat) : list cact := concat ((fun g => [XCall (OSend (Some (fr_send (lit "m")))); XRun g; XRun g]) <$> seq from n).
Theorem C71_refuted : exists y, creach anything k0 y /\ timeouts k0 /\ real_subs y /\ at_rest k0 y /\ c_rclosed y = true /\ c_closed y = false /\
  (exists r f, c_gs y !! 20 = Some r /\ g_op r = OSubscribe (Some (f, lit "1", false))) /\
  (exists r f, c_gs y !! 21 = Some r /\ g_op r = OSend (Some f)) /\ 
  forall l y', crun k0 y l = Some (COk y') -> ~ returned y' 20 /\ ~ returned y' 21 /\ c_closed y' = false.
Proof.
  pose proof (cafter_reach (fill 0 20 ++ [XCall (OSubscribe (Some (fr_sub (lit "1") (lit "/queue/a"), lit "1", false))); XRun 20; XCall (OSend (Some (fr_send (lit "n")))); XEof; XTakeRead; XFinish])
    (fun y => restb y = true /\ c_rclosed y = true /\ c_closed y = false /\ match c_p y with PMust false => true | _ => false end = true /\ jamb y 20 = true /\
       forallb (fun r => match g_op r with OUnsub _ _ => false | _ => true end) (c_gs y) = true /\
       match c_gs y !! 20 with Some r => match g_op r with OSubscribe (Some (_, i, false)) => bool_decide (i = lit "1") | _ => false end | None => false end = true /\
       match c_gs y !! 21 with Some r => match g_op r, g_pc r with OSend (Some _), GStart => true | _, _ => false end | None => false end = true)) as HA.
  witness HA. destruct HA as (y & Hr & H1 & H2 & H3 & H4 & H5 & H6 & H7 & H8). exists y.
  assert (c_p y = PMust false) as Hp by (by destruct (c_p y) as [| | |[]|]).
  assert (exists r21, c_gs y !! 21 = Some r21 /\ (exists f, g_op r21 = OSend (Some f)) /\ g_pc r21 = GStart) as (r21 & G1 & [f21 G2] & G3).
  { destruct (c_gs y !! 21) as [r|]; [|done]. exists r. split; [done|]. destruct (g_op r) as [[f|]| | | | |]; try done. destruct (g_pc r); try done. split; [by exists f|done]. }
  split_and!; try done.
  - intros g r s f Hg Ho. apply forallb_forall with (x := r) in H6; [by rewrite Ho in H6|]. by eapply elem_of_list_In, elem_of_list_lookup_2.
  - by apply restb_rest.
  - destruct (c_gs y !! 20) as [r|]; [|done]. exists r. destruct (g_op r) as [| |[[[f i] []]|]| | |]; try done. apply bool_decide_eq_true in H7 as ->. by exists f.
  - by exists r21, f21.
  - intros l y' Hl. apply jamb_jammed in H5.
    destruct (run_keeps (fun z => (c_p z = PMust false /\ jammed k0 z 20) /\ c_gs z !! 21 = Some r21) anything k0 y l y') as [[K1 K2] K3]; try done; [|apply Forall_any|].
    + intros z a z' Hz [[Z1 Z2] Z3] _ Hm. split; [by eapply jam_end_step|]. destruct Z2 as (r & k & q & Em & _).
      eapply waits_step; [exact Hm|congruence|exact Z3|exact G3|rewrite G2; done..].
    + destruct K2 as (r & k & q & Em & Hg & Hpc & _). split_and!.
      * intros (r' & x & Hg' & Hx). congruence.
      * intros (r' & x & Hg' & Hx). congruence.
      * apply (lk_open _ (reach_lock anything k0 y' ltac:(eapply crun_reach; [exact Hr|apply Forall_any|exact Hl]))). congruence.
Qed.
Print Assumptions C71_refuted.
(** The other way: after a late receipt (C26) writeCh fills up and Disconnect
    never returns. *)
Theorem C71_hang_refuted : exists y, creach anything k0 y /\ timeouts k0 /\ real_subs y /\ at_rest k0 y /\ c_closed y = false /\
  (exists r rid, c_gs y !! 21 = Some r /\ g_op r = ODisconnect rid) /\ forall l y', crun k0 y l = Some (COk y') -> ~ returned y' 21 /\ c_closed y' = false.
Proof.
  pose proof (cafter_reach (sending 0 (fr_send_receipt (lit "4") (lit "b")) ++ [XTimeout 0] ++ arrives (fr_receipt (lit "4")) ++ fill 1 20 ++ [XCall (ODisconnect (lit "9")); XRun 21])
    (fun y => restb y = true /\ c_closed y = false /\ match c_p y with PSend 0 _ _ => true | _ => false end = true /\ jamb y 21 = true /\
       forallb (fun r => match g_op r with OUnsub _ _ => false | _ => true end) (c_gs y) = true /\
       match c_gs y !! 21 with Some r => match g_op r with ODisconnect _ => true | _ => false end | None => false end = true /\
       match c_chs y !! 0, c_gs y !! 0 with Some h, Some r => match h_owner h, g_pc r with OwnG 0, GDone _ => true | _, _ => false end | _, _ => false end = true)) as HA.
  witness HA. destruct HA as (y & Hr & H1 & H2 & H3 & H4 & H5 & H6 & H7). exists y. split_and!; try done.
  - intros g r s f Hg Ho. apply forallb_forall with (x := r) in H5; [by rewrite Ho in H5|]. by eapply elem_of_list_In, elem_of_list_lookup_2.
  - by apply restb_rest.
  - destruct (c_gs y !! 21) as [r|]; [|done]. exists r. destruct (g_op r) as [| | | |rid|]; try done. by exists rid.
  - intros l y' Hl. apply jamb_jammed in H4. assert (exists f k, c_p y = PSend 0 f k) as (f & k & Hp) by (destruct (c_p y) as [|[] f k| | |]; try done; by exists f, k).
    assert (deaf y 0) as Hd.
    { destruct (c_chs y !! 0) as [h|] eqn:Eh; [|done]. destruct (c_gs y !! 0) as [r|] eqn:Eg; [|done]. destruct (h_owner h) as [[|]|] eqn:Eo; try done. destruct (g_pc r) as [| | | | | | | | | |x] eqn:Ep; try done.
      by exists h, 0, r, x. }
    destruct (run_keeps (fun z => c_p z = PSend 0 f k /\ deaf z 0 /\ jammed k0 z 21) anything k0 y l y') as (K1 & K2 & K3); try done; [|apply Forall_any|].
    + intros z a z' Hz (Z1 & Z2 & Z3) _ Hm. destruct (deaf_step _ _ _ _ _ _ _ _ Hz Hm Z1 Z2) as (E1 & _ & E3). split_and!; [done|done|]. eapply jam_step; [exact Hz|exact Hm|congruence|exact Z3].
    + destruct K3 as (r & k' & q & Em & Hg & Hpc & _). split.
      * intros (r' & x & Hg' & Hx). congruence.
      * apply (lk_open _ (reach_lock anything k0 y' ltac:(eapply crun_reach; [exact Hr|apply Forall_any|exact Hl]))). congruence.
Qed.
Print Assumptions C71_hang_refuted.
