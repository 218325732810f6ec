(** C90: what Dial and Connect do with the network connection; C91: what their
    options do. *)
From stdpp Require Import gmap.
From Coq Require Import Lia.
From Verif Require Import GoBase HeaderModel FrameModel NegotiationModel NegotiationSpec NegotiationLemmas ClientApiModel ClientModel ClientRestSpec DialModel DialSpec DialProofs.

(* ------------------------------------------------------------------ *)
(** C90.  Connect writes at most once, reads at most once, and only after it has
    written; the goroutines are started only after a reply that was accepted;
    the connection is not closed. *)
Theorem C90_connect : forall deadline isnet opts t p, runs (connect deadline isnet opts) t p ->
  length (writes t) <= 1 /\ length (reads t) <= 1 /\ length (starts t) <= 1 /\ VClose ∉ t /\
  (forall r, r ∈ reads t -> exists b, writes t = [(b, true)]) /\
  (forall k, k ∈ starts t -> exists r o remote c, reads t = [r] /\ new_conn_options remote (hands opts) = Some o /\ client_connect o r = CConnected c).
Proof.
  intros deadline isnet opts t p [(_ & -> & _)|[[-> _]|(s & o & remote & t1 & Hs & Ho & Hk & Ht)]]%connect_runs; [cbn; split_and!; try lia; intros; set_solver..|].
  apply shaken_facts in Hk. assert (writes t = writes t1 /\ reads t = reads t1 /\ starts t = starts t1 /\ (VClose ∈ t <-> VClose ∈ t1)) as (E1 & E2 & E3 & E4).
  { destruct Ht as [(_ & _ & a & -> & _)|(-> & _)]; [|done]. split_and!; try done. rewrite elem_of_cons. split; [by intros [?|?]|auto]. }
  rewrite E1, E2, E3, E4. destruct Hk as [H1 H2 H3 H4 _ _ _ _]. split_and!; try done.
  - destruct H1 as [->|[ok ->]]; cbn; lia.
  - destruct H2 as [->|[[r ->] _]]; cbn; lia.
  - destruct H3 as [->|(r & c & _ & _ & ->)]; cbn; lia.
  - intros r Hr. destruct H2 as [E|[_ ->]]; [rewrite E in Hr; by apply elem_of_nil in Hr|eauto].
  - intros k Hk. destruct H3 as [E|(r & c & H5 & H6 & _)]; [rewrite E in Hk; by apply elem_of_nil in Hk|]. exists r, o, remote, c. done.
Qed.
Print Assumptions C90_connect.
(** What is written is the CONNECT frame asked for (C59 says which that is).
    Its host header has the last Host option's value; without one, or if that
    is empty, the host of the connection's address, if it has one. *)
Theorem C90_connect_bytes : forall deadline isnet opts t p b ok, runs (connect deadline isnet opts) t p -> (b, ok) ∈ writes t ->
  exists o remote, new_conn_options remote (hands opts) = Some o /\ b = write_frame (connect_frame o) /\
    hd_contains (f_hdr (connect_frame o)) (lit "host") = Some (if decide (asked_host (hands opts) = []) then if decide (remote = []) then lit "default" else remote else asked_host (hands opts)) /\
    (asked_host (hands opts) = [] -> if isnet then exists a, VAddr a ∈ t /\ ((exists q, address a remote q) \/ (forall h q, ~ address a h q) /\ remote = []) else remote = []).
Proof.
  intros deadline isnet opts t p b ok [(_ & -> & _)|[[-> _]|(s & o & remote & t1 & Hs & Ho & Hk & Ht)]]%connect_runs Hb; [by apply elem_of_nil in Hb..|].
  apply shaken_facts in Hk. exists o, remote. split; [done|]. split; [|split].
  - assert (writes t = writes t1) as E by (by destruct Ht as [(_ & _ & a & -> & _)|(-> & _)]). rewrite E in Hb.
    destruct (sf_writes _ _ _ _ _ _ Hk) as [E1|[ok' E1]]; rewrite E1 in Hb; [by apply elem_of_nil in Hb|]. apply elem_of_list_singleton in Hb. by injection Hb as ->.
  - destruct (connect_frame_asked remote (hands opts)) as [H1 H2]. destruct (decide (Forall supported (asked_versions (hands opts)))) as [Hv|Hv]; [|rewrite H2 in Ho; done].
    destruct (H1 Hv) as (o' & Ho' & E & _). rewrite Ho in Ho'. injection Ho' as <-. by rewrite E.
  - intros Hn. destruct Ht as [(-> & _ & a & -> & ->)|(-> & -> & [->|?])]; [|done|done]. exists a. split; [apply elem_of_list_here|]. unfold host_in. destruct (split_host_port a) as [[h q]|] eqn:E.
    + left. exists q. by apply split_address.
    + right. split; [|done]. intros h q Ha%split_address. congruence.
Qed.
Print Assumptions C90_connect_bytes.
(** A connection that Connect returns: the write succeeded, the reply was a
    frame that C14 allows, the goroutines run with the configuration returned,
    and no read deadline is left. *)
Theorem C90_connected : forall deadline isnet opts t c, runs (connect deadline isnet opts) t (IRet (inr c)) ->
  exists o remote b f rest, new_conn_options remote (hands opts) = Some o /\ writes t = [(b, true)] /\ reads t = [RFrame f rest] /\ client_connect o (RFrame f rest) = CConnected (d_conn c) /\
    starts t = [d_cfg c] /\ read_deadline t = None.
Proof.
  intros deadline isnet opts t c [(_ & _ & H)|[[_ H]|(s & o & remote & t1 & Hs & Ho & Hk & Ht)]]%connect_runs; [done|done|]. apply shaken_facts in Hk.
  assert (writes t = writes t1 /\ reads t = reads t1 /\ starts t = starts t1 /\ read_deadline t = read_deadline t1) as (-> & -> & -> & ->) by (by destruct Ht as [(_ & _ & a & -> & _)|(-> & _)]).
  destruct (sf_good _ _ _ _ _ _ Hk c eq_refl) as (r & H1 & H2 & H3 & H4 & H5 & H6). destruct r as [|f rest| | |]; try done. eauto 15.
Qed.
Print Assumptions C90_connected.
(** If it returns an error, nothing was started: an option failed before
    anything was done, the write failed, or the reply was not accepted. *)
Theorem C90_failed : forall deadline isnet opts t e, runs (connect deadline isnet opts) t (IRet (inl e)) -> starts t = [] /\
  ((e = EBadOption /\ t = [] /\ ~ Forall supported (asked_versions (hands opts))) \/
   exists o remote, new_conn_options remote (hands opts) = Some o /\
     (e = EWriteFailed /\ writes t = [(write_frame (connect_frame o), false)] \/ exists r, reads t = [r] /\ e = EReply (client_connect o r) /\ forall c, client_connect o r <> CConnected c)).
Proof.
  intros deadline isnet opts t e Hr. apply connect_runs in Hr as [(Hn & -> & [= ->])|[[_ H]|(s & o & remote & t1 & Hs & Ho & Hk & Ht)]]; [|done|].
  - split; [done|]. left. split_and!; try done. intros Hf. destruct (connect_frame_asked [] (hands opts)) as [H1 _]. destruct (H1 Hf) as (o & Ho & _).
    apply apply_hand_none in Hn. change (e_hand default_dset) with default_copts in Hn. unfold new_conn_options in Ho. by rewrite Hn in Ho.
  - apply shaken_facts in Hk. assert (writes t = writes t1 /\ reads t = reads t1 /\ starts t = starts t1) as (-> & -> & ->) by (by destruct Ht as [(_ & _ & a & -> & _)|(-> & _)]).
    destruct (sf_bad _ _ _ _ _ _ Hk e eq_refl) as [E [[-> Hw]|(r & Hr & -> & Hc)]]; (split; [done|]); right; exists o, remote; (split; [done|]); [by left|]. right. by exists r.
Qed.
Print Assumptions C90_failed.
(** While it waits for the reply, the context's deadline is in force if there
    is one and the connection is a net.Conn. Otherwise deadlines are never
    touched. *)
Theorem C90_deadline : forall deadline isnet opts t p, runs (connect deadline isnet opts) t p ->
  (waits_for_reply p -> read_deadline t = if isnet then deadline else None) /\ (deadline = None \/ isnet = false -> forall d, VDeadline d ∉ t).
Proof.
  intros deadline isnet opts t p [(_ & -> & ->)|[[-> Hi]|(s & o & remote & t1 & Hs & Ho & Hk & Ht)]]%connect_runs.
  - split; [done|]. intros; apply not_elem_of_nil.
  - split; [by destruct p|]. intros; apply not_elem_of_nil.
  - apply shaken_facts in Hk. split.
    + intros Hw. pose proof (sf_waits _ _ _ _ _ _ Hk Hw) as H. by destruct Ht as [(_ & _ & a & -> & _)|(-> & _)].
    + intros Hd d. assert (limit_of deadline isnet = None) as HL by (destruct Hd as [-> | ->]; [by destruct isnet|done]). pose proof (sf_limits _ _ _ _ _ _ Hk HL d) as H.
      destruct Ht as [(_ & _ & a & -> & _)|(-> & _)]; [|done]. by apply not_elem_of_cons.
Qed.
Print Assumptions C90_deadline.

(** Dial: one connection is made; then the same as Connect on it with the host
    of its address as first Host option; or the address is not host:port and
    the connection is closed. *)
Theorem C90_dial : forall deadline opts t p, runs (dial deadline opts) t p ->
  match t with
  | [] => True
  | [VDial true] => inner p
  | VDial ok :: VAddr a :: t1 => ok = true /\ ((exists h q, address a h q /\ runs (connect deadline true (DHand (OptHost h) :: opts)) t1 p) \/
      (forall h q, ~ address a h q) /\ (t1 = [] /\ inner p \/ t1 = [VClose] /\ p = IRet (inl EBadAddress)))
  | [VDial false] => p = IRet (inl EDialFailed)
  | _ => False
  end.
Proof.
  intros deadline opts t p [(-> & _)|[(-> & ->)|[(-> & Hi)|[(a & Ha & Ht)|(a & h & q & t1 & Ha & -> & Hr)]]]]%dial_runs; try done.
  - assert (forall h q, ~ address a h q) as Hn by (intros h q H%split_address; congruence). destruct Ht as [[-> Hi]|[-> ->]]; (split; [done|]); right; auto.
  - split; [done|]. left. exists h, q. split; [by apply split_address|done].
Qed.
Print Assumptions C90_dial.
(** The host header of the CONNECT frame, if the connection's address stays the
    same. *)
Theorem C90_dial_host : forall deadline opts t p a b ok, runs (dial deadline opts) t p -> (forall a', VAddr a' ∈ t -> a' = a) -> (b, ok) ∈ writes t ->
  exists h q o, address a h q /\ b = write_frame (connect_frame o) /\ (exists remote, new_conn_options remote (OptHost h :: hands opts) = Some o) /\
    hd_contains (f_hdr (connect_frame o)) (lit "host") = Some (if decide (asked_host (hands opts) = []) then if decide (h = []) then lit "default" else h else asked_host (hands opts)).
Proof.
  intros deadline opts t p a b ok Hr Ha Hb. apply dial_runs in Hr as [(-> & _)|[(-> & _)|[(-> & _)|[(a0 & _ & Ht)|(a0 & h & q & t1 & Ha0 & -> & Hr)]]]]; try (by apply elem_of_nil in Hb).
  - destruct Ht as [[-> _]|[-> _]]; by apply elem_of_nil in Hb.
  - assert (a0 = a) as -> by (apply Ha; set_solver). change (writes (VDial true :: VAddr a :: t1)) with (writes t1) in Hb.
    destruct (C90_connect_bytes _ _ _ _ _ _ _ Hr Hb) as (o & remote & Ho & -> & Hc & Hrem). change (hands (DHand (OptHost h) :: opts)) with (OptHost h :: hands opts) in *.
    exists h, q, o. split_and!; [by apply split_address|done|by exists remote|]. rewrite Hc. f_equal. clear Hc.
    assert (Hl : forall l, asked_host (OptHost h :: l) = if decide (existsb (fun x => match x with OptHost _ => true | _ => false end) l) then asked_host l else h).
    { unfold asked_host. cbn [last_opt]. induction l as [|x l IH] using rev_ind; [done|]. assert (forall A (sel : copt -> option A) d l x, last_opt sel d (l ++ [x]) = default (last_opt sel d l) (sel x)) as Hsn.
      { clear. intros A sel d l. revert d. induction l as [|y l IH]; intros d x; cbn; [by destruct (sel x)|]. apply IH. }
      rewrite !Hsn, existsb_app. cbn. destruct x; cbn; try (rewrite IH; rewrite orb_false_r; done). rewrite orb_true_r. done. }
    rewrite Hl in Hrem |- *. case_decide as E.
    + case_decide as En; [|done]. destruct (Hrem En) as (a' & Ha' & [[q' Hq']|[Hn _]]).
      * assert (a' = a) as -> by (apply Ha; set_solver). apply split_address in Hq'. rewrite Ha0 in Hq'. by injection Hq' as -> _.
      * assert (a' = a) as -> by (apply Ha; set_solver). destruct (Hn h q). by apply split_address.
    + assert (asked_host (hands opts) = []) as ->.
      { clear -E. unfold asked_host. induction (hands opts) as [|x l IH]; [done|]. cbn in E |- *. destruct x; cbn in E |- *; try (by apply IH). by destruct E. }
      rewrite (decide_True (P := @nil ascii = [])) by done. destruct (decide (h = [])) as [->|Hh]; [|done].
      destruct (Hrem eq_refl) as (a' & Ha' & [[q' Hq']|[Hn ->]]); [|done]. assert (a' = a) as -> by (apply Ha; set_solver). apply split_address in Hq'. rewrite Ha0 in Hq'. by injection Hq' as <- _.
Qed.
Print Assumptions C90_dial_host.

(** A failed Dial leaves nothing open: false, the connection is only closed if
    its address could not be understood. *)
Theorem C90_closed_refuted : ~ forall deadline opts t e, runs (dial deadline opts) t (IRet (inl e)) -> ~ open_after t.
Proof.
  intros H. set (o := mkCopts CONNECT (lit "h") (60000 * ms) (60000 * ms) (5000 * ms) [] [] [V10; V11; V12] []).
  apply (H None [] [VDial true; VAddr (lit "h:1"); VWrite (write_frame (connect_frame o)) true; VRead (RFrame (mkFrame ERROR [] []) [])] (EReply (CUnexpected (mkFrame ERROR [] [])))).
  - apply rn_dial, rn_addr. cbn [negb]. change (split_host_port (lit "h:1")) with (Some (lit "h", lit "1")). cbv beta iota.
    change (connect None true [DHand (OptHost (lit "h"))]) with (shake None true (mkDset (mkCopts CONNECT (lit "h") (60000 * ms) (60000 * ms) (5000 * ms) [] [] [] []) (10 * second) (30 * second) (30 * second) (30 * second) 0 0 0 0 None false) o).
    apply rn_write. cbn [negb]. cbv beta iota zeta. apply rn_read. apply rn_here.
  - split; set_solver.
Qed.
Print Assumptions C90_closed_refuted.
Theorem C90_closed_partial : forall deadline opts t e, runs (dial deadline opts) t (IRet (inl e)) -> open_after t <-> e <> EDialFailed /\ e <> EBadAddress.
Proof.
  intros deadline opts t e [(-> & H & _)|[(-> & [= ->])|[(-> & Hi)|[(a & Ha & [[-> Hi]|[-> [= ->]]])|(a & h & q & t1 & Ha & -> & Hr)]]]]%dial_runs; try done.
  - split; [|tauto]. intros [H _]. by apply elem_of_list_singleton in H.
  - split; [|tauto]. intros [_ H]. set_solver.
  - assert (VClose ∉ t1) as Hn by (apply C90_connect in Hr; tauto). apply C90_failed in Hr as [_ He]. split; intros _.
    + destruct He as [(-> & _)|(? & ? & _ & [(-> & _)|(? & _ & -> & _)])]; done.
    + split; set_solver.
Qed.
Print Assumptions C90_closed_partial.
(** With a deadline, Dial always waits under it: false, dialling and writing do
    not have one; only the wait for the reply has. *)
Theorem C90_limited_refuted : ~ forall d opts t p, runs (dial (Some d) opts) t p -> waits p -> read_deadline t = Some d.
Proof.
  intros H. by specialize (H 1%Z [] [] (dial (Some 1%Z) []) (rn_here _) I).
Qed.
Print Assumptions C90_limited_refuted.
Theorem C90_limited_partial : forall d opts t p, runs (dial (Some d) opts) t p -> waits_for_reply p -> read_deadline t = Some d.
Proof.
  intros d opts t p [(-> & _ & Hn)|[(-> & ->)|[(-> & Hi)|[(a & Ha & [[-> Hi]|[-> ->]])|(a & h & q & t1 & Ha & -> & Hr)]]]]%dial_runs Hw; try done; try (by destruct p).
  by apply C90_deadline in Hr as [Hr _]; apply Hr in Hw.
Qed.
Print Assumptions C90_limited_partial.
(** The whole of a successful Dial with a deadline, computed. *)
Inductive ans := AnsBool (b : bool) | AnsStr (s : str) | AnsRead (r : rres).
Fixpoint play {A} (p : io A) (l : list ans) : list ioev * option A :=
  match p with
  | IRet a => ([], match l with [] => Some a | _ => None end)
  | IDial k => match l with AnsBool b :: l => let '(t, r) := play (k b) l in (VDial b :: t, r) | _ => ([], None) end
  | IAddr k => match l with AnsStr s :: l => let '(t, r) := play (k s) l in (VAddr s :: t, r) | _ => ([], None) end
  | IWrite b k => match l with AnsBool ok :: l => let '(t, r) := play (k ok) l in (VWrite b ok :: t, r) | _ => ([], None) end
  | IRead k => match l with AnsRead x :: l => let '(t, r) := play (k x) l in (VRead x :: t, r) | _ => ([], None) end
  | IDeadline d k => let '(t, r) := play k l in (VDeadline d :: t, r)
  | IClose k => let '(t, r) := play k l in (VClose :: t, r)
  | ICallback c h k => let '(t, r) := play k l in (VCallback c h :: t, r)
  | IStart c k => let '(t, r) := play k l in (VStart c :: t, r)
  end.
Lemma play_runs {A} (p : io A) l t a : play p l = (t, Some a) -> runs p t (IRet a).
Proof.
  revert l t. induction p as [x|k IH|k IH|b k IH|d k IH|k IH|k IH|c h k IH|c k IH]; intros l t; cbn.
  - destruct l; [|done]. intros [= <- <-]. constructor.
  - destruct l as [|[b| |] l]; try done. destruct (play (k b) l) eqn:E. intros [= <- ->]. constructor. by eapply IH.
  - destruct l as [|[|s|] l]; try done. destruct (play (k s) l) eqn:E. intros [= <- ->]. constructor. by eapply IH.
  - destruct l as [|[ok| |] l]; try done. destruct (play (k ok) l) eqn:E. intros [= <- ->]. constructor. by eapply IH.
  - destruct (play k l) eqn:E. intros [= <- ->]. constructor. by eapply IH.
  - destruct l as [|[| |r] l]; try done. destruct (play (k r) l) eqn:E. intros [= <- ->]. constructor. by eapply IH.
  - destruct (play k l) eqn:E. intros [= <- ->]. constructor. by eapply IH.
  - destruct (play k l) eqn:E. intros [= <- ->]. constructor. by eapply IH.
  - destruct (play k l) eqn:E. intros [= <- ->]. constructor. by eapply IH.
Qed.
Definition good_reply : frame := mkFrame CONNECTED [(h_version, lit "1.2"); (h_heart_beat, lit "0,0")] [].
Definition tuned : list dopt := [DWithStats; DHand (OptHost (lit "v")); DResponseHeaders (Some 3); DWriteChannelCapacity 5; DHand (OptHeartBeat 0 0)].
Example C90_case : runs (dial (Some 7%Z) tuned)
  [VDial true; VAddr (lit "[::1]:61613"); VWrite (write_frame (mkFrame CONNECT [(h_host, lit "v"); (h_heart_beat, lit "0,0"); (h_accept_version, lit "1.0,1.1,1.2")] [])) true;
   VDeadline (Some 7%Z); VRead (RFrame good_reply []); VDeadline None; VCallback 3 (f_hdr good_reply); VStart (mkCcfg 20 5 true true true true false false)]
  (IRet (inr (mkDconn (mkCconn (lit "1.2") [] [] 0 0) (mkCcfg 20 5 true true true true false false) 4096 4096 true))).
Proof. apply (play_runs _ [AnsBool true; AnsStr (lit "[::1]:61613"); AnsBool true; AnsRead (RFrame good_reply [])]). vm_compute. reflexivity. Qed.
(** Without a Host option, the host of the address. *)
Example C90_case_host : exists c, runs (dial None [])
  [VDial true; VAddr (lit "[::1]:61613"); VWrite (write_frame (mkFrame CONNECT [(h_host, lit "::1"); (h_heart_beat, lit "60000,60000"); (h_accept_version, lit "1.0,1.1,1.2")] [])) true;
   VRead (RFrame good_reply []); VStart (mkCcfg 20 20 true true true true true false)] (IRet (inr c)).
Proof. eexists. apply (play_runs _ [AnsBool true; AnsStr (lit "[::1]:61613"); AnsBool true; AnsRead (RFrame good_reply [])]). vm_compute. reflexivity. Qed.

(* ------------------------------------------------------------------ *)
(** C91.  A connection runs with what its options asked for: of each kind the
    last one counts; capacities that are not positive mean 20, a read buffer
    size that is not positive 4096 (bufio uses at least 16); a timeout exists
    if the duration is positive (Unsubscribe's also if it is negative); 10 seconds for Send and 30 seconds for
    receipts if nothing was asked for. *)
Theorem C91_settings : forall deadline isnet opts t c, runs (connect deadline isnet opts) t (IRet (inr c)) ->
  d_cfg c = mkCcfg (Z.to_nat (or_default 20 (asked_rcap 0%Z opts))) (Z.to_nat (or_default 20 (asked_wcap 0%Z opts)))
    (0 <? asked_msg (seconds 10) opts)%Z (0 <? asked_rcv (seconds 30) opts)%Z (0 <? asked_disc (seconds 30) opts)%Z (negb (asked_unsub (seconds 30) opts =? 0)%Z)
    (0 <? cc_read (d_conn c))%Z (0 <? cc_write (d_conn c))%Z /\
  d_rbuf c = Z.max 16 (or_default 4096 (asked_rbuf 0%Z opts)) /\ d_stats c = asked_stats false opts.
Proof.
  intros deadline isnet opts t c [(_ & _ & H)|[[_ H]|(s & o & remote & t1 & Hs & Ho & Hk & Ht)]]%connect_runs; [done|done|]. apply shaken_facts in Hk.
  destruct (sf_good _ _ _ _ _ _ Hk c eq_refl) as (r & _ & _ & _ & _ & E & _). apply settings in Hs as (Hs1 & Hs2 & Hs3 & Hs4 & Hs5 & Hs6 & Hs7 & _ & Hs9 & _).
  rewrite E. cbn [conn_of d_conn d_cfg d_rbuf d_stats]. unfold client_cfg, positive, rbuf_of, or_default, reader_size. rewrite Hs1, Hs2, Hs3, Hs4, Hs5, Hs6, Hs7, Hs9.
  assert (forall n, cap_of n = Z.to_nat (if (n <=? 0)%Z then 20%Z else n)) as Hc by (intros n; unfold cap_of; destruct (Z.leb_spec n 0), (Z.ltb_spec 0 n); try lia; done).
  split_and!; [by rewrite !Hc| |done]. destruct (Z.leb_spec (asked_rbuf 0%Z opts) 0), (Z.ltb_spec 0 (asked_rbuf 0%Z opts)); lia.
Qed.
Print Assumptions C91_settings.

(** Both channels have room whatever is asked for, and without tuning options
    all four calls have a timeout. *)
Theorem C91_room : forall deadline isnet opts t c, runs (connect deadline isnet opts) t (IRet (inr c)) -> 0 < k_rcap (d_cfg c) /\ 0 < k_wcap (d_cfg c).
Proof.
  intros deadline isnet opts t c [-> _]%C91_settings. cbn [k_rcap k_wcap]. unfold or_default. split; case_match; lia.
Qed.
Print Assumptions C91_room.
Theorem C91_default : forall deadline isnet hopts t c, runs (connect deadline isnet (map DHand hopts)) t (IRet (inr c)) ->
  d_cfg c = mkCcfg 20 20 true true true true (0 <? cc_read (d_conn c))%Z (0 <? cc_write (d_conn c))%Z /\ d_rbuf c = 4096%Z /\ d_wbuf c = 4096%Z /\ d_stats c = false.
Proof.
  intros deadline isnet hopts t c Hr. pose proof (C91_settings _ _ _ _ _ Hr) as (H1 & H2 & H3).
  assert (Hn : forall A (sel : dopt -> option A) d, (forall x, sel (DHand x) = None) -> asked sel d (map DHand hopts) = d).
  { intros A sel d Hsel. unfold asked. assert (omap sel (map DHand hopts) = []) as ->; [|done]. clear -Hsel. induction hopts as [|x l IH]; [done|]. cbn. by rewrite Hsel. }
  unfold asked_msg, asked_rcv, asked_disc, asked_unsub, asked_rcap, asked_wcap in H1. unfold asked_rbuf in H2. unfold asked_stats in H3. rewrite !Hn in H1 by done. rewrite Hn in H2, H3 by done. split_and!; try done.
  apply connect_runs in Hr as [(_ & _ & H)|[[_ H]|(s & o & remote & t1 & Hs & Ho & Hk & Ht)]]; [done|done|]. apply shaken_facts in Hk.
  destruct (sf_good _ _ _ _ _ _ Hk c eq_refl) as (r & _ & _ & _ & _ & -> & _). cbn [conn_of d_wbuf]. apply settings in Hs as (_ & _ & _ & _ & _ & _ & _ & Hs8 & _).
  unfold wbuf_of. rewrite Hs8. unfold asked_wbuf. by rewrite Hn.
Qed.
Print Assumptions C91_default.

(** Only an unsupported version makes an option fail, and then nothing is done. *)
Theorem C91_rejected : forall deadline isnet opts, runs (connect deadline isnet opts) [] (IRet (inl EBadOption)) <-> ~ Forall supported (asked_versions (hands opts)).
Proof.
  intros deadline isnet opts. split.
  - intros Hr. apply C90_failed in Hr as (_ & [(_ & _ & H)|(o & remote & _ & [[H _]|(r & _ & H & _)])]); done.
  - intros Hf. destruct (connect_frame_asked [] (hands opts)) as [_ H2]. apply H2 in Hf.
    assert (apply_dopts default_dset opts = None) as E.
    { apply apply_hand_none. change (e_hand default_dset) with default_copts. unfold new_conn_options in Hf. by destruct (apply_copts default_copts (hands opts)). }
    unfold connect. rewrite E. apply rn_here.
Qed.
Print Assumptions C91_rejected.

(** The last callback that was given is called once with the headers of the
    CONNECTED frame, before the connection starts; it is not called if the
    connection is refused. *)
Theorem C91_callback : forall deadline isnet opts t p, runs (connect deadline isnet opts) t p ->
  callbacks t = [] /\ (starts t <> [] -> asked_callback None opts = None) \/
  exists n f rest, asked_callback None opts = Some n /\ reads t = [RFrame f rest] /\ f_cmd f = CONNECTED /\ callbacks t = [(n, f_hdr f)] /\ (forall e, p <> IRet (inl e)).
Proof.
  intros deadline isnet opts t p Hr. pose proof Hr as Hr0. apply connect_runs in Hr as [(_ & -> & _)|[[-> _]|(s & o & remote & t1 & Hs & Ho & Hk & Ht)]]; [left; split; [done|by intros []]..|].
  assert (callbacks t = callbacks t1 /\ starts t = starts t1 /\ reads t = reads t1) as (-> & -> & ->) by (by destruct Ht as [(_ & _ & a & -> & _)|(-> & _)]).
  apply settings in Hs as (_ & _ & _ & _ & _ & _ & _ & _ & _ & <-). pose proof Hk as Hf. apply shaken_facts in Hf. apply shaken_calls in Hk as [?|(n & f & rest & c & H1 & H2 & H3 & H4)]; [by left|]. right.
  exists n, f, rest. split_and!; try done.
  - unfold client_connect in H3. by destruct (decide (f_cmd f = CONNECTED)).
  - intros e ->. destruct (sf_bad _ _ _ _ _ _ Hf e eq_refl) as [_ [[_ Hw]|(r & Hr & _ & Hn)]].
    + destruct (sf_reads _ _ _ _ _ _ Hf) as [E|[_ E]]; [by rewrite E in H2|]. by rewrite E in Hw.
    + rewrite H2 in Hr. injection Hr as <-. by apply (Hn c).
Qed.
Print Assumptions C91_callback.

(** The size asked for by WriteBufferSize is not used: the writer is given the
    read buffer's size. *)
Theorem C91_wbuf_refuted : ~ forall deadline isnet opts t c, runs (connect deadline isnet opts) t (IRet (inr c)) -> d_wbuf c = or_default 4096 (asked_wbuf 0%Z opts).
Proof.
  intros H.
  assert (Hr : runs (connect None false [DWriteBufferSize 65536; DReadBufferSize 100; DHand (OptHeartBeat 0 0)])
    [VWrite (write_frame (mkFrame CONNECT [(h_host, lit "default"); (h_heart_beat, lit "0,0"); (h_accept_version, lit "1.0,1.1,1.2")] [])) true; VRead (RFrame good_reply []); VStart (mkCcfg 20 20 true true true true false false)]
    (IRet (inr (mkDconn (mkCconn (lit "1.2") [] [] 0 0) (mkCcfg 20 20 true true true true false false) 100 100 false)))).
  { apply (play_runs _ [AnsBool true; AnsRead (RFrame good_reply [])]). vm_compute. reflexivity. }
  specialize (H _ _ _ _ _ Hr). vm_compute in H. discriminate H.
Qed.
Print Assumptions C91_wbuf_refuted.
(** What it is instead. *)
Theorem C91_wbuf_partial : forall deadline isnet opts t c, runs (connect deadline isnet opts) t (IRet (inr c)) ->
  d_wbuf c = (if (0 <? asked_wbuf 0 opts)%Z then or_default 4096 (asked_rbuf 0%Z opts) else 4096%Z).
Proof.
  intros deadline isnet opts t c [(_ & _ & H)|[[_ H]|(s & o & remote & t1 & Hs & Ho & Hk & Ht)]]%connect_runs; [done|done|]. apply shaken_facts in Hk.
  destruct (sf_good _ _ _ _ _ _ Hk c eq_refl) as (r & _ & _ & _ & _ & -> & _). cbn [conn_of d_wbuf]. apply settings in Hs as (_ & _ & _ & _ & _ & _ & Hs7 & Hs8 & _).
  unfold wbuf_of, writer_size, or_default. rewrite Hs7, Hs8. destruct (0 <? asked_wbuf 0 opts)%Z; [|done]. destruct (Z.leb_spec (asked_rbuf 0%Z opts) 0), (Z.ltb_spec 0 (asked_rbuf 0%Z opts)); lia.
Qed.
Print Assumptions C91_wbuf_partial.
Definition retuned : list dopt := [DReadChannelCapacity 3; DMsgSendTimeout 0; DWriteChannelCapacity (-1); DReadChannelCapacity 7; DUnsubscribeReceiptTimeout (-5); DDisconnectReceiptTimeout (-5); DReadBufferSize 4; DHand (OptHeartBeat 0 0); DResponseHeaders (Some 1); DResponseHeaders (Some 2)].
Example C91_case : runs (connect None false retuned)
  [VWrite (write_frame (mkFrame CONNECT [(h_host, lit "default"); (h_heart_beat, lit "0,0"); (h_accept_version, lit "1.0,1.1,1.2")] [])) true; VRead (RFrame good_reply []);
   VCallback 2 (f_hdr good_reply); VStart (mkCcfg 7 20 false true false true false false)]
  (IRet (inr (mkDconn (mkCconn (lit "1.2") [] [] 0 0) (mkCcfg 7 20 false true false true false false) 16 4096 false))).
Proof. apply (play_runs _ [AnsBool true; AnsRead (RFrame good_reply [])]). vm_compute. reflexivity. Qed.
