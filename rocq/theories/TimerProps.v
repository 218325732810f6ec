(** C51: heart-beats. *)
From stdpp Require Import gmap.
From Verif Require Import GoBase HeaderModel FrameModel NegotiationModel NegotiationSpec NegotiationLemmas BrokerModel ServerConnModel ServerConnSpec ServerConnProofs ServerConnProps
  TimerModel TimerSpec TimerProofs.
From Verif Require ClientModel ClientCalls ClientProps.
Local Open Scope Z.

(** C51, the part that holds.  Server: between two consecutive transmissions
    pass at most one interval, plus one for every queue delivery that was
    dropped because its subscription is gone, plus the time the processing
    loop was blocked.  So at most the interval when there are neither. *)
Theorem C51_server_partial : forall cfg cid id_of ack_of s st pre e1 mid e2 post, tsexec cfg cid id_of ack_of s st ->
  ts_log s = pre ++ e1 :: mid ++ e2 :: post -> transmits e1 = true -> Forall (fun e => transmits e = false) mid -> 0 < se_wt e1 ->
  se_time e2 - se_time e1 <= se_wt e1 * (1 + silents mid) + (se_busy e2 - se_busy e1) /\
  forall e, e ∈ mid -> silent e = true -> exists sb m, v_in (se_ev e) = InSub sb /\ v_push (se_ev e) = [RRequeue m].
Proof.
  intros cfg cid id_of ack_of s st pre e1 mid e2 post H Hl H1 Hm Hw. split.
  - rewrite app_comm_cons, app_assoc in Hl. destruct (ts_prefix _ _ _ _ _ _ H _ _ _ Hl) as (s' & Hs & Hl' & <- & <-). exact (server_beats _ _ _ _ _ _ Hs _ _ _ Hl' H1 Hm Hw).
  - intros e He. apply (silent_cause _ _ _ _ _ _ e H). rewrite Hl. set_solver.
Qed.
Print Assumptions C51_server_partial.
(** ... and the same until now, so a heart-beat does come. *)
Theorem C51_server_now_partial : forall cfg cid id_of ack_of s st, tsexec cfg cid id_of ack_of s st -> beats s.
Proof. exact server_beats. Qed.
Print Assumptions C51_server_now_partial.

(** Client: likewise, where the silent restarts are requests with a reply-to
    header, which are not transmitted. *)
Theorem C51_client_partial : forall A cfg W s pre e1 mid e2 post, 0 < W -> tcreach A cfg W s ->
  tc_log s = pre ++ e1 :: mid ++ e2 :: post -> sent_entry e1 -> Forall (fun e => ~ sent_entry e) mid ->
  e_time e2 - e_time e1 <= W * (1 + Z.of_nat (length mid)) + (e_busy e2 - e_busy e1) /\
  forall e, e ∈ mid -> exists q, e_what e = BSilent q /\ forall q0, q = Some q0 -> ClientModel.local_only (ClientModel.q_frame q0) = true.
Proof.
  intros A cfg W s pre e1 mid e2 post HW H Hl H1 Hm. split.
  - rewrite app_comm_cons, app_assoc in Hl. destruct (tc_prefix _ _ _ _ H _ _ _ Hl) as (s' & Hs & Hl' & <- & <-). exact (client_beats _ _ _ _ HW Hs _ _ _ Hl' H1 Hm).
  - intros e He. apply (csilent_cause _ _ _ _ _ H); [rewrite Hl; set_solver|]. rewrite Forall_forall in Hm. auto.
Qed.
Print Assumptions C51_client_partial.
Theorem C51_client_now_partial : forall A cfg W s, 0 < W -> tcreach A cfg W s -> cbeats W s.
Proof. exact client_beats. Qed.
Print Assumptions C51_client_now_partial.

(* ------------------------------------------------------------------ *)
(** Concrete runs. *)
Local Instance select_dec y : Decision (at_select y).
Proof. unfold at_select. destruct (ClientModel.c_p y); [left; done|right; done..]. Defined.
Inductive tact := TWait (d : Z) | TDo (a : ClientModel.cact).
Definition tcdo (cfg : ClientModel.ccfg) (W : Z) (s : tcl) (a : tact) : option tcl :=
  match a with
  | TWait d => if 0 <=? d then
      if decide (at_select (tc_y s)) then
        if tc_now s + d <=? tc_timer s then Some (mkTcl (tc_now s + d) (tc_busy s) (tc_timer s) (tc_y s) (tc_log s)) else None
      else Some (mkTcl (tc_now s + d) (tc_busy s + d) (tc_timer s) (tc_y s) (tc_log s))
      else None
  | TDo a => match ClientModel.cstep cfg (tc_y s) a with
      | Some (ClientModel.COk y') =>
          match a with
          | ClientModel.XBeat w => if tc_timer s <=? tc_now s then
              Some (mkTcl (tc_now s) (tc_busy s) (tc_now s + W) y' (tc_log s ++ [mkEntry (tc_now s) (tc_busy s) BSent])) else None
          | ClientModel.XTakeWrite w => Some (mkTcl (tc_now s) (tc_busy s) (tc_now s + W) y' (tc_log s ++ [mkEntry (tc_now s) (tc_busy s) (write_beat (tc_y s))]))
          | _ => Some (mkTcl (tc_now s) (tc_busy s) (tc_timer s) y' (tc_log s))
          end
      | _ => None
      end
  end.
Fixpoint tcrun (cfg : ClientModel.ccfg) (W : Z) (s : tcl) (l : list tact) : option tcl :=
  match l with [] => Some s | a :: l' => match tcdo cfg W s a with Some s' => tcrun cfg W s' l' | None => None end end.
Lemma tcdo_reach cfg W s a s' : tcreach ClientModel.anything cfg W s -> tcdo cfg W s a = Some s' -> tcreach ClientModel.anything cfg W s'.
Proof.
  intros H. destruct a as [d|a]; cbn [tcdo].
  - destruct (0 <=? d) eqn:E; [|done]. destruct (decide (at_select (tc_y s))) as [Hs|Hs]; [|intros [= <-]; apply tr_busy; [done|lia|done]].
    destruct (tc_now s + d <=? tc_timer s) eqn:E2; [|done]. intros [= <-]. apply tr_wait; [done|lia|done|lia].
  - destruct (ClientModel.cstep cfg (tc_y s) a) as [[p|y']|] eqn:Es; [done| |done].
    destruct a as [o|g|g|f| | |w| |w|i| | |x|x]; try (intros [= <-]; (eapply (tr_other _ _ _ s); [exact H| | | |exact Es]; done)).
    + intros [= <-]. exact (tr_request _ _ _ s w y' H I Es).
    + destruct (tc_timer s <=? tc_now s) eqn:E2; [|done]. intros [= <-]. exact (tr_beat _ _ _ s w y' H I ltac:(lia) Es).
Qed.
Lemma tcrun_reach cfg W l : forall s s', tcreach ClientModel.anything cfg W s -> tcrun cfg W s l = Some s' -> tcreach ClientModel.anything cfg W s'.
Proof.
  induction l as [|a l IH]; intros s s' H; cbn [tcrun]; [by intros [= <-]|]. destruct (tcdo cfg W s a) as [s1|] eqn:E; [|done]. apply IH. by eapply tcdo_reach.
Qed.
Definition start : tcl := mkTcl 0 0 1000 ClientModel.cl_init [].
Definition tafter (l : list tact) (P : tcl -> bool) : bool := match tcrun ClientProps.k0 1000 start l with Some s => P s | None => false end.
Lemma tafter_reach l P : tafter l P = true -> exists s, tcreach ClientModel.anything ClientProps.k0 1000 s /\ P s = true.
Proof. unfold tafter. destruct (tcrun _ _ _ _) as [s|] eqn:E; [|done]. intros H. exists s. split; [|done]. eapply tcrun_reach; [apply (tr_init _ _ 1000 0)|exact E]. Qed.
Definition dos (l : list ClientModel.cact) : list tact := TDo <$> l.
Definition what_b (b : beat) : bool := match b with BSent => true | _ => false end.
Definition times (s : tcl) : list (Z * bool) := (fun e => (e_time e, what_b (e_what e))) <$> tc_log s.

(** A send after 600, then heart-beats while messages come in. *)
Definition fr_sub_reply (id : str) : frame := mkFrame SUBSCRIBE [(lit "destination", lit "/temp-queue/a"); (lit "ack", lit "auto"); (lit "reply-to", id); (lit "id", id)] [].
Definition quiet : list tact :=
  [TWait 600] ++ dos (ClientProps.subscribe 0 (ClientProps.fr_sub (lit "7") (lit "/queue/a")) (lit "7")) ++ [TWait 700] ++
  dos (ClientProps.consumed 0 (ClientProps.fr_message (lit "7") (lit "one"))) ++ [TWait 300; TDo (ClientModel.XBeat true); TWait 1000; TDo (ClientModel.XBeat true); TWait 999].
Example C51_client_case : exists s, tcreach ClientModel.anything ClientProps.k0 1000 s /\
  (times s = [(600, true); (1600, true); (2600, true)] /\ tc_now s = 3599 /\ tc_busy s = 0).
Proof.
  pose proof (tafter_reach quiet (fun s => bool_decide (times s = [(600, true); (1600, true); (2600, true)] /\ tc_now s = 3599 /\ tc_busy s = 0))) as HA.
  ClientProps.witness HA. destruct HA as (s & Hr & Hs). apply bool_decide_eq_true in Hs. by exists s.
Qed.
(** C51 fails for the client: a subscription with a reply-to header restarts
    the timer, ... *)
Theorem C51_refuted_client_reply : exists s, tcreach ClientModel.anything ClientProps.k0 1000 s /\
  (times s = [(600, true); (1500, false); (2500, true)] /\ tc_now s = 2500 /\ tc_busy s = 0).
Proof.
  pose proof (tafter_reach ([TWait 600] ++ dos (ClientProps.sending 0 (ClientProps.fr_send (lit "one"))) ++ [TWait 900] ++
    dos [ClientModel.XCall (ClientModel.OSubscribe (Some (fr_sub_reply (lit "7"), lit "7", true))); ClientModel.XRun 1; ClientModel.XRun 1; ClientModel.XTakeWrite true] ++
    [TWait 1000; TDo (ClientModel.XBeat true)])
   (fun s => bool_decide (times s = [(600, true); (1500, false); (2500, true)] /\ tc_now s = 2500 /\ tc_busy s = 0))) as HA.
  ClientProps.witness HA. destruct HA as (s & Hr & Hs). apply bool_decide_eq_true in Hs. by exists s.
Qed.
Print Assumptions C51_refuted_client_reply.
(** ... and while the program does not read its messages, the loop waits for
    it and nothing is transmitted, for any length of time.  (16 messages fill
    the subscription's channel C.) *)
Definition stuck : list tact :=
  [TWait 600] ++ dos (ClientProps.subscribe 0 (ClientProps.fr_sub (lit "7") (lit "/queue/a")) (lit "7")) ++
  dos (concat (replicate 16 (ClientProps.handed (ClientProps.fr_message (lit "7") (lit "one")) ++ [ClientModel.XLoop 0%nat]))) ++
  dos (ClientProps.handed (ClientProps.fr_message (lit "7") (lit "one")) ++ ClientProps.arrives (ClientProps.fr_message (lit "7") (lit "one"))).
Theorem C51_refuted_client_slow : forall d, 0 <= d -> exists s, tcreach ClientModel.anything ClientProps.k0 1000 s /\
  times s = [(600, true)] /\ tc_now s = 600 + d.
Proof.
  intros d Hd. pose proof (tafter_reach stuck (fun s => bool_decide (times s = [(600, true)] /\ tc_now s = 600 /\ ~ at_select (tc_y s)))) as HA.
  ClientProps.witness HA. destruct HA as (s & Hr & Hs). apply bool_decide_eq_true in Hs as (H1 & H2 & H3).
  exists (mkTcl (tc_now s + d) (tc_busy s + d) (tc_timer s) (tc_y s) (tc_log s)). split_and!; [by apply tr_busy|done|cbn; lia].
Qed.
Print Assumptions C51_refuted_client_slow.

(** Server runs: wait, then one input. *)
Fixpoint tsrun (cfg : scfg) (cid : nat) (id_of ack_of : nat -> str) (s : tsv) (hp : sheap) (nx : nat) (l : list (Z * cinput)) : option tsv :=
  match l with
  | [] => Some s
  | (d, (a, w, i)) :: l' =>
      let s1 := mkTsv (ts_now s + d) (ts_busy s) (ts_timer s) (ts_c s) (ts_log s) in
      let hp1 := assign a hp in
      if (0 <=? d) && match ts_timer s with Some dl => ts_now s + d <=? dl | None => true end &&
         match i with InTimer => match ts_timer s with Some dl => dl <=? ts_now s + d | None => false end | _ => true end then
      match conn_iter cfg cid w w (ts_c s1) hp1 nx i with
      | Fine o =>
          if keeps_b id_of ack_of hp1 && from_broker_b hp1 i && keeps_b id_of ack_of (i_hp o) && negb (i_stop o) then
            tsrun cfg cid id_of ack_of (mkTsv (ts_now s1) (ts_busy s1) (next_timer (ts_now s1) (ts_timer s1) (i_c o) i) (i_c o)
              (ts_log s1 ++ [mkSentry (ts_now s1) (ts_busy s1) (k_wt (i_c o)) (mkCev i (i_wr o) (i_push o) (i_stop o))])) (i_hp o) (i_next o) l'
          else None
      | Panicked _ => None
      end else None
  end.
Lemma tsrun_exec cfg cid id_of ack_of l : forall s hp nx s', tsexec cfg cid id_of ack_of s false -> tsrun cfg cid id_of ack_of s hp nx l = Some s' ->
  tsexec cfg cid id_of ack_of s' false.
Proof.
  induction l as [|[d [[a w] i]] l IH]; intros s hp nx s' H; cbn [tsrun]; [by intros [= <-]|].
  set (s1 := mkTsv (ts_now s + d) _ _ _ _). destruct (_ && _ && _) eqn:Hg; [|done]. apply andb_prop in Hg as [Hg Ht]. apply andb_prop in Hg as [Hd Hw].
  assert (tsexec cfg cid id_of ack_of s1 false) as H1.
  { apply ts_wait; [done|lia|]. intros dl E. rewrite E in Hw. lia. }
  destruct (conn_iter cfg cid w w (ts_c s1) (assign a hp) nx i) as [p|o] eqn:Hi; [done|]. destruct (_ && _) eqn:Hc; [|done].
  apply andb_prop in Hc as [Hc Hst]. apply andb_prop in Hc as [Hc Hk']. apply andb_prop in Hc as [Hk Hb]. apply negb_true_iff in Hst.
  assert (forall hp0, keeps_b id_of ack_of hp0 = true -> keeps id_of ack_of hp0) as Hkeep.
  { intros hp0 E. apply bool_decide_eq_true in E. intros x sb Hx. by apply (map_Forall_lookup_1 _ _ _ _ E). }
  assert (from_broker (assign a hp) i) as Hfb.
  { unfold from_broker_b in Hb. unfold from_broker. destruct i as [m| |m|x|]; try done; [by apply bool_decide_eq_true in Hb|]. intros sb m Hx Hm. rewrite Hx, Hm in Hb. by apply bool_decide_eq_true in Hb. }
  intros E. eapply IH; [|exact E].
  assert (i = InTimer -> exists dl, ts_timer s1 = Some dl /\ dl <= ts_now s1) as HT.
  2: { pose proof (ts_step cfg cid id_of ack_of s1 (assign a hp) nx w w i o H1 HT (Hkeep _ Hk) Hfb Hi (Hkeep _ Hk')) as H2. by rewrite Hst in *. }
  intros ->. cbn [s1 ts_timer ts_now]. destruct (ts_timer s) as [dl|]; [|done]. exists dl. split; [done|]. lia.
Qed.
Definition tsafter (id_of ack_of : nat -> str) (l : list (Z * cinput)) (P : tsv -> bool) : bool :=
  match tsrun any_cfg 1 id_of ack_of (mkTsv 0 0 None cst_init []) ∅ 0 l with Some s => P s | None => false end.
Lemma tsafter_exec id_of ack_of l P : tsafter id_of ack_of l P = true -> exists s, tsexec any_cfg 1 id_of ack_of s false /\ P s = true.
Proof. unfold tsafter. destruct (tsrun _ _ _ _ _ _ _ _) as [s|] eqn:E; [|done]. intros H. exists s. split; [|done]. eapply tsrun_exec; [apply ts_init|exact E]. Qed.
Definition stimes (s : tsv) : list (Z * bool) := (fun e => (se_time e / 1000000, transmits e)) <$> ts_log s.
Definition ms (n : Z) : Z := n * 1000000.
Definition hello_beats (u : nat) : cinput := fr u CONNECT [(lit "accept-version", lit "1.2"); (lit "heart-beat", lit "0,1000")] [].
Definition sub_auto (u s : nat) : cinput := fr u SUBSCRIBE [(lit "id", ids s); (lit "destination", lit "/queue/a"); (lit "ack", lit "auto")] [].
Definition timer : cinput := (None, true, InTimer).

(** A session with heart-beats every 60 s: a delivery at 102 s postpones
    the next heart-beat to 162 s. *)
Example C51_server_case : exists s, tsexec any_cfg 1 ids autos s false /\
  (stimes s = [(0, true); (18000, false); (60000, true); (102000, true); (162000, true)] /\ k_wt (ts_c s) = ms 60000 /\ ts_busy s = 0).
Proof.
  pose proof (tsafter_exec ids autos [(0, hello_beats 1); (ms 18000, sub_auto 2 0); (ms 42000, timer); (ms 42000, give 0 3 (ids 0)); (ms 60000, timer)]
    (fun s => bool_decide (stimes s = [(0, true); (18000, false); (60000, true); (102000, true); (162000, true)] /\ k_wt (ts_c s) = ms 60000 /\ ts_busy s = 0))) as HA.
  ClientProps.witness HA. destruct HA as (s & Hr & Hs). apply bool_decide_eq_true in Hs. by exists s.
Qed.
(** C51 fails for the server: a delivery that arrives after its subscription
    has ended restarts the timer although nothing is transmitted, so that 114 s
    pass between transmissions. *)
Theorem C51_refuted_server : exists s, tsexec any_cfg 1 ids autos s false /\
  (stimes s = [(0, true); (6000, false); (12000, false); (54000, false); (114000, true)] /\ k_wt (ts_c s) = ms 60000 /\ ts_busy s = 0).
Proof.
  pose proof (tsafter_exec ids autos [(0, hello_beats 1); (ms 6000, sub_auto 2 0); (ms 6000, fr 3 UNSUBSCRIBE [(lit "id", ids 0)] []); (ms 42000, give 0 4 (ids 0)); (ms 60000, timer)]
    (fun s => bool_decide (stimes s = [(0, true); (6000, false); (12000, false); (54000, false); (114000, true)] /\ k_wt (ts_c s) = ms 60000 /\ ts_busy s = 0))) as HA.
  ClientProps.witness HA. destruct HA as (s & Hr & Hs). apply bool_decide_eq_true in Hs. by exists s.
Qed.
Print Assumptions C51_refuted_server.
