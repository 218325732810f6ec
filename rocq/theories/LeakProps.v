(** C98: the goroutines of a connection that is over. *)
From Verif Require Import GoBase HeaderModel FrameModel NegotiationModel ClientApiModel ClientModel ClientSpec ClientProps StatsModel StatsProps.
From Verif Require Import BrokerModel ServerConnModel ServerConnSpec SystemModel LeakModel LeakSpec LeakProofs.

Lemma hrun_reach cfg h l h' : hreach cfg h -> hrun cfg h l = Some h' -> hreach cfg h'.
Proof. revert h. induction l as [|a l IH]; intros h Hr; cbn [hrun]; [by intros [= <-]|]. destruct (hstep cfg h a) as [h1|] eqn:E; [|done]. apply IH. by eapply hr_step. Qed.
Lemma hrun_app cfg h l1 l2 : hrun cfg h (l1 ++ l2) = match hrun cfg h l1 with Some h1 => hrun cfg h1 l2 | None => None end.
Proof. revert h. induction l1 as [|a l1 IH]; intros h; [done|]. cbn [hrun app]. destruct (hstep cfg h a); [apply IH|done]. Qed.

(* ---------------- leaving readLoops behind ---------------- *)
Section leak.
Context (cfg : scfg) (hp : sheap) (nx : nat) (b : broker) (fin lost : list msg) (conns : list sconn).
Definition st (n : sconn) (uid : nat) (req : list request) (bl : list (request * list pout)) (hold : gmap nat frame) : hsys :=
  mkH (mkSys (conns ++ [n]) hp nx uid req b [] bl fin lost) hold.
Lemma at_last (n : sconn) : (conns ++ [n]) !! length conns = Some n.
Proof. by rewrite list_lookup_middle. Qed.
Lemma set_last (n n' : sconn) : <[length conns := n']> (conns ++ [n]) = conns ++ [n'].
Proof. rewrite insert_app_r_alt by lia. by rewrite Nat.sub_diag. Qed.
Notation c := (length conns).
Definition read_one (f : frame) : list hact := [HRead c f; HServer (ARecv c f)].
Lemma hread_last f k p r w s o lg uid req bl hold : hold !! c = None ->
  hstep cfg (st (mkSconn k p r false w s o lg) uid req bl hold) (HRead c f) = Some (st (mkSconn k p r false w s o lg) uid req bl (<[c := f]> hold)).
Proof. intros Hh. unfold hstep, st. cbn [h_sys h_hold y_conns]. rewrite at_last, Hh. done. Qed.
Lemma recv_last f k p r w s o lg uid req bl hold : hold !! c = None -> length r < cap_read ->
  hstep cfg (st (mkSconn k p r false w s o lg) uid req bl (<[c := f]> hold)) (HServer (ARecv c f)) = Some (st (mkSconn k p (r ++ [mkMsg uid f]) false w s o lg) (S uid) req bl hold).
Proof.
  intros Hh Hl. unfold hstep, st, step, do_recv. cbn [h_sys h_hold y_conns y_uid y_heap y_next y_req y_broker y_pout y_blog y_fin y_lost]. rewrite at_last. cbn [n_eof n_read n_c n_phase n_write n_sub n_out n_log].
  rewrite (decide_True _ _ Hl). cbn [fine]. rewrite decide_True by apply lookup_insert. rewrite delete_insert by done. by rewrite set_last.
Qed.
Lemma read_some fs k p r w s o lg uid req bl hold : hold !! c = None -> length r + length fs <= cap_read ->
  exists r', hrun cfg (st (mkSconn k p r false w s o lg) uid req bl hold) (concat (read_one <$> fs)) = Some (st (mkSconn k p r' false w s o lg) (uid + length fs) req bl hold) /\ g_frame <$> r' = (g_frame <$> r) ++ fs.
Proof.
  intros Hh. revert r uid. induction fs as [|f fs IH]; intros r uid Hl.
  - exists r. cbn [fmap list_fmap concat hrun length]. by rewrite Nat.add_0_r, app_nil_r.
  - cbn [length] in Hl. destruct (IH (r ++ [mkMsg uid f]) (S uid)) as (r' & H1 & H2); [rewrite app_length; cbn; lia|]. exists r'. split; [|rewrite H2, fmap_app, <- app_assoc; done].
    cbn [fmap list_fmap concat]. unfold read_one at 1. cbn [app hrun]. rewrite hread_last by done. rewrite recv_last by (done || lia). etrans; [exact H1|]. unfold st. do 3 f_equal. cbn [length]. lia.
Qed.
(** A frame that is refused before CONNECT. *)
Definition bad : frame := mkFrame (lit "SEND") [] [].
Lemma take_bad u r uid bl hold : exists lg, hstep cfg (st (mkSconn cst_init Running (mkMsg u bad :: r) false [] [] [] []) uid [] bl hold) (HServer (ATake c SelRead true true)) = Some (st (mkSconn cst_init CDiscard1 r false [] [] [] lg) uid [] bl hold).
Proof.
  unfold hstep, st, step, do_take. cbn [h_sys h_hold y_conns]. rewrite at_last. cbn [n_phase n_out idle take_input n_read n_c n_eof n_write n_sub n_log y_heap y_next].
  destruct (conn_iter cfg c true true cst_init hp nx (InFrame (mkMsg u bad))) as [p|o] eqn:E; [vm_compute in E; discriminate E|].
  assert (i_c o = cst_init /\ i_hp o = hp /\ i_next o = nx /\ i_push o = [] /\ i_stop o = true) as (-> & -> & -> & -> & ->) by (injection E as <-; done).
  cbn [finals losses y_uid y_req y_broker y_pout y_blog y_fin y_lost]. rewrite !app_nil_r, set_last. eexists. reflexivity.
Qed.
Lemma clean_last k p r w s lg uid req bl hold n' : clean_step c (mkSconn k p r false w s [] lg) hp [] = Some (Fine (n', hp)) ->
  hstep cfg (st (mkSconn k p r false w s [] lg) uid req bl hold) (HServer (AClean c [])) = Some (st n' uid req bl hold).
Proof. intros E. unfold hstep, st, step, do_clean. cbn [h_sys h_hold y_conns]. rewrite at_last. cbn [idle n_out y_heap]. rewrite E. cbn [y_heap y_next y_uid y_req y_broker y_pout y_blog y_fin y_lost]. by rewrite set_last. Qed.
(** A client sends a frame before CONNECT and 17 more. *)
Definition leak_run (fs : list frame) : list hact :=
  concat (read_one <$> [bad]) ++ HServer (ATake c SelRead true true) :: concat (read_one <$> take cap_read fs) ++ (match fs !! cap_read with Some f => [HRead c f] | None => [] end) ++
  (HServer <$> [AClean c []; AClean c []; AClean c []; AClean c []; AClean c []; AClean c []; APush c; AClean c []; AClean c []; AProc]).
Lemma leak_one fs uid bl hold : hold !! c = None -> length fs = S cap_read -> exists n uid' bl' f, hrun cfg (st sconn_init uid [] bl hold) (leak_run fs) = Some (st n uid' [] bl' (<[c := f]> hold)) /\
  n_phase n = Dead /\ n_out n = [] /\ n_eof n = false /\ (g_frame <$> n_read n) ++ [f] = fs.
Proof.
  intros Hh Hl. destruct (lookup_lt_is_Some_2 fs cap_read) as [f Hf]; [lia|].
  destruct (read_some [bad] cst_init Running [] [] [] [] [] uid [] bl hold Hh) as (r0 & R0 & G0); [cbn; unfold cap_read; lia|].
  cbn in G0. destruct r0 as [|[u m] [|]]; try done. cbn in G0. injection G0 as ->.
  destruct (take_bad u [] (uid + length [bad]) bl hold) as (lg & T).
  destruct (read_some (take cap_read fs) cst_init CDiscard1 [] [] [] [] lg (uid + length [bad]) [] bl hold Hh) as (r1 & R1 & G1); [rewrite take_length; cbn [length]; lia|].
  eexists (mkSconn cst_init Dead r1 false [] [] [] lg), _, _, f. split.
  - unfold leak_run. rewrite hrun_app. change sconn_init with (mkSconn cst_init Running [] false [] [] [] []). rewrite R0. cbn [hrun]. rewrite T, hrun_app, R1, Hf. cbn [app fmap list_fmap hrun]. rewrite hread_last by done.
    rewrite (clean_last _ _ _ _ _ _ _ _ _ _ (mkSconn cst_init CUnsub r1 false [] [] [] lg)) by reflexivity.
    rewrite (clean_last _ _ _ _ _ _ _ _ _ _ (mkSconn cst_init CRequeue r1 false [] [] [] lg)) by reflexivity.
    rewrite (clean_last _ _ _ _ _ _ _ _ _ _ (mkSconn cst_init CDiscard2 r1 false [] [] [] lg)) by reflexivity.
    rewrite (clean_last _ _ _ _ _ _ _ _ _ _ (mkSconn cst_init CDrain1 r1 false [] [] [] lg)) by reflexivity.
    rewrite (clean_last _ _ _ _ _ _ _ _ _ _ (mkSconn cst_init CTell r1 false [] [] [] lg)) by reflexivity.
    rewrite (clean_last _ _ _ _ _ _ _ _ _ _ (mkSconn cst_init CDiscard3 r1 false [] [] [RDisconnected c] lg)) by reflexivity.
    unfold hstep at 1, st at 1, step, do_push. cbn [h_sys h_hold y_conns]. rewrite at_last. cbn [n_out y_req length]. rewrite decide_True by (unfold cap_req; lia). cbn [fine y_heap y_next y_uid y_req y_broker y_pout y_blog y_fin y_lost]. rewrite set_last. change (mkH _ _) with (st (mkSconn cst_init CDiscard3 r1 false [] [] [] lg) (uid + length [bad] + length (take cap_read fs)) [RDisconnected c] bl (<[c := f]> hold)).
    rewrite (clean_last _ _ _ _ _ _ _ _ _ _ (mkSconn cst_init CDrain2 r1 false [] [] [] lg)) by reflexivity.
    rewrite (clean_last _ _ _ _ _ _ _ _ _ _ (mkSconn cst_init Dead r1 false [] [] [] lg)) by reflexivity.
    reflexivity.
  - cbn [n_phase n_out n_eof n_read]. split_and!; [done..|]. rewrite G1. cbn [fmap list_fmap app]. rewrite <- take_S_r by done. apply take_ge. lia.
Qed.
End leak.

(** Whatever seventeen frames each of any number of clients chooses: none of
    them has to log in, and the server keeps them all. *)
Lemma leak_many cfg fs : Forall (fun l => length l = S cap_read) fs ->
  exists h, hreach cfg h /\ y_req (h_sys h) = [] /\ y_pout (h_sys h) = [] /\ length (y_conns (h_sys h)) = length fs /\ (forall c, length fs <= c -> h_hold h !! c = None) /\
    forall c l, fs !! c = Some l -> process_over h c /\ ~ read_over h c /\ kept_frames h c = l.
Proof.
  induction fs as [|l fs IH] using rev_ind; intros Hf.
  { exists h_init. split_and!; [constructor|done..]. }
  apply Forall_app in Hf as [Hf Hl]. apply Forall_cons in Hl as [Hl _]. destruct (IH Hf) as (h & Hr & Hq & Hp & Hn & Hh & HA). destruct h as [[conns hp nx uid req b po bl fin lost] hold]. cbn [h_sys h_hold y_req y_pout y_conns] in *. subst req po.
  destruct (leak_one cfg hp nx b fin lost conns l uid bl hold) as (n & uid' & bl' & f & R & N1 & N2 & N3 & N4); [apply Hh; lia|done|].
  exists (st hp nx b fin lost conns n uid' [] bl' (<[length conns := f]> hold)). split.
  { eapply hrun_reach; [exact Hr|]. instantiate (1 := HServer AAccept :: leak_run conns l). cbn [hrun hstep h_sys h_hold step y_conns y_heap y_next y_uid y_req y_broker y_pout y_blog y_fin y_lost]. exact R. }
  cbn [st h_sys h_hold y_req y_pout y_conns]. rewrite !app_length. cbn [length]. split_and!; [done|done|lia| |].
  { intros c Hc. rewrite lookup_insert_ne by lia. apply Hh. lia. }
  intros c l' Hc. unfold process_over, read_over, kept_frames. cbn [st h_sys h_hold y_conns]. destruct (decide (c = length fs)) as [->|Hne].
  - rewrite list_lookup_middle in Hc by done. injection Hc as <-. rewrite <- Hn. rewrite at_last, lookup_insert, N4. split_and!; [eauto| |done]. intros (n' & [= <-] & ?). congruence.
  - pose proof (lookup_lt_Some _ _ _ Hc) as Hlt. rewrite app_length in Hlt. cbn in Hlt. rewrite lookup_app_l in Hc by lia. destruct (HA _ _ Hc) as (P1 & P2 & P3). unfold process_over, read_over, kept_frames in P1, P2, P3. cbn [h_sys h_hold y_conns] in P1, P2, P3.
    rewrite lookup_app_l by lia. rewrite lookup_insert_ne by lia. done.
Qed.

(* ---------------- server ---------------- *)
(** When processLoop is over readLoop could end as well: false. *)
Theorem C98_server_refuted : ~ forall cfg h c, hreach cfg h -> process_over h c -> exists l h', hrun cfg h l = Some h' /\ read_over h' c.
Proof.
  intros H. set (cfg := mkScfg 0%Z None). destruct (leak_many cfg [replicate (S cap_read) bad]) as (h & Hr & _ & _ & _ & _ & HA); [repeat constructor|]. destruct (HA 0 _ eq_refl) as (Hp & _ & Hk).
  destruct (H _ _ _ Hr Hp) as (l & h' & H1 & H2). destruct (stays_iff cfg _ _ Hr Hp) as [_ Hs]. apply (Hs ltac:(by rewrite Hk) _ _ H1 H2).
Qed.
Print Assumptions C98_server_refuted.
(** It happens to any number of connections, with any frames. *)
Theorem C98_server_unbounded cfg fs : Forall (fun l => length l = S cap_read) fs ->
  exists h, hreach cfg h /\ forall c l, fs !! c = Some l -> process_over h c /\ forall run h', hrun cfg h run = Some h' -> ~ read_over h' c /\ kept_frames h' c = l.
Proof.
  intros Hf. destruct (leak_many cfg fs Hf) as (h & Hr & _ & _ & _ & _ & HA). exists h. split; [done|]. intros c l Hc. destruct (HA _ _ Hc) as (Hp & _ & Hk). split; [done|]. intros run h' Hrun.
  assert (Hl : length l = S cap_read) by (rewrite Forall_forall in Hf; eapply Hf, elem_of_list_lookup_2, Hc).
  assert (HL : leaked h c) by (eapply kept_leaked; [done..|]; rewrite Hk; lia). split; [by apply (leaked_stays cfg _ _ Hp HL _ _ Hrun)|].
  destruct (leaked_run _ _ _ _ _ Hrun Hp HL) as (_ & _ & ->). done.
Qed.
Print Assumptions C98_server_unbounded.
(** It happens exactly when readChannel is full and readLoop has a frame in its
    hand, and then the frames are kept. *)
Theorem C98_server_forever cfg h c : hreach cfg h -> process_over h c ->
  length (kept_frames h c) <= 17 /\ (stays_forever cfg h c <-> length (kept_frames h c) = 17) /\
  (stays_forever cfg h c -> forall l h', hrun cfg h l = Some h' -> process_over h' c /\ kept_frames h' c = kept_frames h c).
Proof.
  intros Hr Hp. pose proof (stays_iff cfg h c Hr Hp) as Hs. split_and!; [apply (kept_bound _ _ _ Hr)|exact Hs|].
  intros HS l h' Hrun. assert (HL : leaked h c) by (eapply kept_leaked; [done..|]; apply Hs in HS; lia). destruct (leaked_run _ _ _ _ _ Hrun Hp HL) as (H1 & _ & H2). done.
Qed.
Print Assumptions C98_server_forever.
(** As long as not more than sixteen frames are kept, readLoop needs at most two
    steps of its own, which nothing holds up. *)
Theorem C98_server_partial cfg h c l h' : process_over h c -> hrun cfg h l = Some h' -> length (kept_frames h c) + reads_of c l <= 16 ->
  exists l2 h2, Forall (read_step c) l2 /\ length l2 <= 2 /\ hrun cfg h' l2 = Some h2 /\ read_over h2 c.
Proof. intros Hp Hr Hl. destruct (kept_run _ _ _ _ _ Hr Hp) as [Hp' Hk]. apply ends_soon; [done|]. rewrite Hk. exact Hl. Qed.
Print Assumptions C98_server_partial.
(** A client that sends something before CONNECT and three frames more: at the
    end of processLoop two of them are in readChannel and one in readLoop's
    hand, and readLoop ends. *)
Definition cfg0 : scfg := mkScfg 0%Z None.
Definition late_frame : frame := mkFrame (lit "COMMIT") [] [].
Definition short_run : list hact := [HServer AAccept; HRead 0 bad; HServer (ARecv 0 bad); HRead 0 late_frame; HServer (ATake 0 SelRead true true); HServer (ARecv 0 late_frame); HRead 0 late_frame; HServer (ARecv 0 late_frame)] ++
  (HServer <$> [AClean 0 []; AClean 0 []; AClean 0 []; AClean 0 []; AClean 0 []; AClean 0 []; APush 0; AClean 0 []; AClean 0 []]) ++ [HRead 0 late_frame].
Definition over_b (h : hsys) (c : nat) : bool := match y_conns (h_sys h) !! c with Some n => match n_phase n, n_out n with Dead, [] => true | _, _ => false end | None => false end.
Lemma over_ok h c : over_b h c = true -> process_over h c.
Proof. unfold over_b, process_over. destruct (y_conns (h_sys h) !! c) as [n|]; [|done]. intros H. exists n. destruct (n_phase n); try done. by destruct (n_out n). Qed.
Lemma hafter_reach cfg l (P : hsys -> Prop) {D : forall h, Decision (P h)} : match hrun cfg h_init l with Some h => bool_decide (P h) | None => false end = true -> exists h, hreach cfg h /\ P h.
Proof. destruct (hrun cfg h_init l) as [h|] eqn:E; [|done]. intros H%bool_decide_eq_true. exists h. split; [|done]. eapply hrun_reach; [constructor|done]. Qed.
Example C98_server_example : exists h, hreach cfg0 h /\ process_over h 0 /\ kept_frames h 0 = [late_frame; late_frame; late_frame].
Proof.
  pose proof (hafter_reach cfg0 short_run (fun h => over_b h 0 = true /\ kept_frames h 0 = [late_frame; late_frame; late_frame])) as HA. witness HA. destruct HA as (h & Hr & Ho%over_ok & Hk). eauto.
Qed.
Example C98_server_ends : exists h, hreach cfg0 h /\ over_b h 0 = true /\ (match y_conns (h_sys h) !! 0 with Some n => n_eof n | None => false end) = true /\ length (kept_frames h 0) = 3.
Proof.
  pose proof (hafter_reach cfg0 (short_run ++ [HServer (ARecv 0 late_frame); HServer (AEof 0)]) (fun h => over_b h 0 = true /\ (match y_conns (h_sys h) !! 0 with Some n => n_eof n | None => false end) = true /\ length (kept_frames h 0) = 3)) as HA. witness HA. exact HA.
Qed.
(** Two connections with frames of their own. *)
Example C98_unbounded_example : exists h, hreach cfg0 h /\ (forall run h', hrun cfg0 h run = Some h' -> kept_frames h' 0 = replicate 17 bad /\ kept_frames h' 1 = replicate 17 late_frame).
Proof.
  destruct (C98_server_unbounded cfg0 [replicate 17 bad; replicate 17 late_frame]) as (h & Hr & HA); [repeat constructor|]. exists h. split; [done|]. intros run h' Hrun.
  destruct (HA 0 _ eq_refl) as (_ & H0). destruct (HA 1 _ eq_refl) as (_ & H1). split; [by apply (H0 run)|by apply (H1 run)].
Qed.

(* ---------------- client ---------------- *)
Definition an_error : frame := mkFrame (lit "ERROR") [] [].
Definition c_over_b (t : tcl) : bool := match c_p (t_cl t) with PEnd => true | _ => false end.
Lemma c_over_ok t : c_over_b t = true -> c_process_over t.
Proof. unfold c_over_b, c_process_over. by destruct (c_p (t_cl t)). Qed.
(** The server ends the connection with an ERROR frame and has sent 21
    heart-beats behind it. *)
Definition filled : list tact := [TRead (Some an_error); TClient (XRecv (Some an_error)); TClient XTakeRead; TClient XFinish; TClient XFinish; TClient XFinish] ++ concat (replicate 20 [TRead None; TClient (XRecv None)]) ++ [TRead None].
Theorem C98_client_refuted : ~ forall cfg on t, treach cfg on t -> c_process_over t -> exists l t', turn cfg t l = Some t' /\ c_read_over t'.
Proof.
  intros H. pose proof (tafter_reach k0 filled (fun t => c_over_b t = true /\ length (c_kept_frames t) = 21)) as HA. witness HA. destruct HA as (t & Hr & Hp%c_over_ok & Hk).
  destruct (H _ _ _ Hr Hp) as (l & t' & H1 & H2). destruct (c_stays_iff k0 _ _ Hr Hp) as [_ Hs]. apply (Hs Hk _ _ H1 H2).
Qed.
Print Assumptions C98_client_refuted.
Theorem C98_client_forever cfg on t : treach cfg on t -> c_process_over t ->
  (c_stays_forever cfg t <-> length (c_kept_frames t) = S (k_rcap cfg)) /\
  (c_stays_forever cfg t -> forall l t', turn cfg t l = Some t' -> c_process_over t' /\ c_kept_frames t' = c_kept_frames t).
Proof.
  intros Hr Hp. split; [by eapply c_stays_iff|]. intros HS l t' Hrun. destruct (c_leaked_run _ _ _ _ Hrun Hp (c_stays_leaked _ _ _ Hr Hp HS)) as (H1 & _ & H2). done.
Qed.
Print Assumptions C98_client_forever.
Theorem C98_client_partial cfg t l t' : c_process_over t -> turn cfg t l = Some t' -> length (c_kept_frames t) + c_reads l <= k_rcap cfg ->
  exists l2 t2, Forall c_read_step l2 /\ length l2 <= 2 /\ turn cfg t' l2 = Some t2 /\ c_read_over t2.
Proof. intros Hp Hr Hl. destruct (c_kept_run _ _ _ _ Hr Hp) as [_ Hk]. apply c_ends_soon. by rewrite Hk. Qed.
Print Assumptions C98_client_partial.
(** Two frames behind the ERROR frame. *)
Example C98_client_example : exists t, treach k0 true t /\ c_process_over t /\ length (c_kept_frames t) = 2.
Proof.
  pose proof (tafter_reach k0 ([TRead (Some an_error); TClient (XRecv (Some an_error)); TRead None; TClient XTakeRead; TClient (XRecv None); TRead None; TClient XFinish; TClient XFinish; TClient XFinish])
    (fun t => c_over_b t = true /\ length (c_kept_frames t) = 2)) as HA. witness HA. destruct HA as (t & Hr & Hp%c_over_ok & Hk). eauto.
Qed.
