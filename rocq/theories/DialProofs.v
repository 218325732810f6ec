From stdpp Require Import gmap.
From Coq Require Import Lia.
From Verif Require Import GoBase HeaderModel FrameModel NegotiationModel NegotiationSpec ClientApiModel ClientModel DialModel DialSpec.

(** * Addresses *)
Lemma index_none c s : index_of c s = None <-> c ∉ s.
Proof.
  unfold index_of. destruct (list_find (eq c) s) as [[i x]|] eqn:E; cbn; split; try done.
  - intros Hn. apply list_find_Some in E as (E & -> & _). destruct Hn. by eapply elem_of_list_lookup_2.
  - intros _ Hc. apply list_find_None in E. eapply Forall_forall in E; [|exact Hc]. done.
Qed.
Lemma index_some c s i : index_of c s = Some i <-> exists s1 s2, s = s1 ++ c :: s2 /\ c ∉ s1 /\ length s1 = i.
Proof.
  unfold index_of. rewrite fmap_Some. split.
  - intros ([j x] & E & ->). apply list_find_Some in E as (E & <- & Hn). cbn. exists (take j s), (drop (S j) s). split_and!.
    + symmetry. by apply take_drop_middle.
    + intros Hc. apply elem_of_list_lookup in Hc as [k Hk]. apply lookup_take_Some in Hk as [Hk Hlt]. by apply (Hn k c).
    + apply take_length_le. apply lookup_lt_Some in E. lia.
  - intros (s1 & s2 & -> & Hn & <-). exists (length s1, c). split; [|done]. apply list_find_Some. split_and!; [|done|].
    + by rewrite list_lookup_middle.
    + intros j y Hj Hlt <-. apply Hn. rewrite lookup_app_l in Hj by done. by eapply elem_of_list_lookup_2.
Qed.
Lemma last_index_none c s : last_index_of c s = None <-> c ∉ s.
Proof. unfold last_index_of. rewrite fmap_None, index_none. by rewrite elem_of_reverse. Qed.
Lemma last_index_some c s i : last_index_of c s = Some i <-> exists s1 s2, s = s1 ++ c :: s2 /\ c ∉ s2 /\ length s1 = i.
Proof.
  unfold last_index_of. rewrite fmap_Some. split.
  - intros (j & E & ->). apply index_some in E as (s1 & s2 & E & Hn & <-). exists (reverse s2), (reverse s1). assert (s = reverse s2 ++ c :: reverse s1) as ->.
    { rewrite <-(reverse_involutive s), E, reverse_app, reverse_cons, <-app_assoc. done. }
    split_and!; [done|by rewrite elem_of_reverse|]. rewrite app_length. cbn. rewrite !reverse_length. lia.
  - intros (s1 & s2 & -> & Hn & <-). exists (length s2). split; [|rewrite app_length; cbn; lia]. apply index_some. exists (reverse s2), (reverse s1). split_and!.
    + by rewrite reverse_app, reverse_cons, <-app_assoc.
    + by rewrite elem_of_reverse.
    + by rewrite reverse_length.
Qed.
Lemma split_plain h p : plain h -> plain p -> split_host_port (h ++ COLON :: p) = Some (h, p).
Proof.
  intros (H1 & H2 & H3) (P1 & P2 & P3). unfold split_host_port. assert (last_index_of COLON (h ++ COLON :: p) = Some (length h)) as -> by (apply last_index_some; eauto 10).
  rewrite decide_False.
  - rewrite take_app, (drop_app_ge _ _ (S (length h))) by lia. replace (S (length h) - length h) with 1 by lia. cbn [drop].
    rewrite (proj2 (index_none COLON h)) by done.
    rewrite (proj2 (index_none LBRACK _)), (proj2 (index_none RBRACK _)); [done| |]; rewrite elem_of_app, elem_of_cons; intros [?|[E|?]]; try done.
  - destruct h as [|x h]; cbn; [done|]. intros [= ->]. apply H2. apply elem_of_list_here.
Qed.
Lemma split_bracket h p : LBRACK ∉ h -> RBRACK ∉ h -> plain p -> split_host_port (LBRACK :: h ++ RBRACK :: COLON :: p) = Some (h, p).
Proof.
  intros H2 H3 (P1 & P2 & P3). unfold split_host_port. assert (last_index_of COLON (LBRACK :: h ++ RBRACK :: COLON :: p) = Some (S (S (length h)))) as ->.
  { apply last_index_some. exists (LBRACK :: h ++ [RBRACK]), p. split_and!; [cbn; by rewrite <-app_assoc|done|]. cbn. rewrite app_length. cbn. lia. }
  rewrite decide_True by done. assert (index_of RBRACK (LBRACK :: h ++ RBRACK :: COLON :: p) = Some (S (length h))) as ->.
  { apply index_some. exists (LBRACK :: h), (COLON :: p). split_and!; [done| |done]. rewrite elem_of_cons. intros [E|?]; done. }
  rewrite decide_True by done. cbn [drop take]. rewrite take_app.
  assert (drop (S (length h)) (h ++ RBRACK :: COLON :: p) = COLON :: p) as E1.
  { rewrite (drop_app_ge _ _ (S (length h))) by lia. by replace (S (length h) - length h) with 1 by lia. }
  assert (drop (S (S (length h))) (h ++ RBRACK :: COLON :: p) = p) as E2.
  { rewrite (drop_app_ge _ _ (S (S (length h)))) by lia. by replace (S (S (length h)) - length h) with 2 by lia. }
  rewrite E1, E2. rewrite (proj2 (index_none LBRACK _)), (proj2 (index_none RBRACK _)); [done| |].
  - rewrite elem_of_cons. intros [E|?]; done.
  - rewrite drop_0, elem_of_app, !elem_of_cons. intros [?|[E|[E|?]]]; done.
Qed.
Lemma split_address s h p : split_host_port s = Some (h, p) <-> address s h p.
Proof.
  split.
  - unfold split_host_port. destruct (last_index_of COLON s) as [i|] eqn:Ei; [|done]. apply last_index_some in Ei as (s1 & s2 & Es & Hc & <-). case_decide as Hb.
    + destruct (index_of RBRACK s) as [e|] eqn:Ee; [|done]. case_decide as He; [|done].
      destruct (index_of LBRACK (drop 1 s)) eqn:EL; [done|]. destruct (index_of RBRACK (drop (S e) s)) eqn:ER; [done|]. intros [= <- <-].
      apply index_some in Ee as (u1 & u2 & Eu & Hu & <-). apply index_none in EL, ER. destruct u1 as [|x u1]; [by rewrite Eu in Hb|].
      rewrite Eu in Hb. injection Hb as ->. rewrite Eu in Es, EL, ER |- *. cbn [length] in *.
      rewrite (drop_app_ge _ _ (S (S (length u1)))) in ER by (cbn; lia). replace (S (S (length u1)) - length (LBRACK :: u1)) with 1 in ER by (cbn; lia). cbn [drop] in ER.
      assert (s1 = LBRACK :: u1 ++ [RBRACK] /\ u2 = COLON :: s2) as [-> ->].
      { assert (LBRACK :: u1 ++ [RBRACK] = s1 /\ u2 = COLON :: s2) as [<- ->]; [|done]. apply app_inj_1; [cbn; rewrite app_length; cbn; lia|]. cbn. cbn in Es. by rewrite <-app_assoc. }
      cbn [app take drop]. rewrite take_app. rewrite (drop_app_ge u1 _ (S (length (u1 ++ [RBRACK])))) by (rewrite app_length; cbn; lia).
      replace (S (length (u1 ++ [RBRACK])) - length u1) with 2 by (rewrite app_length; cbn; lia). cbn [drop].
      cbn [app drop] in EL. rewrite !drop_0 in *. rewrite elem_of_app, !elem_of_cons in EL. rewrite elem_of_cons in ER. rewrite elem_of_cons in Hu.
      apply addr_bracket; [tauto|tauto|]. split_and!; [done|tauto|tauto].
    + destruct (index_of COLON (take (length s1) s)) eqn:EC; [done|]. destruct (index_of LBRACK s) eqn:EL; [done|]. destruct (index_of RBRACK s) eqn:ER; [done|]. intros [= <- <-].
      apply index_none in EC, EL, ER. subst s. rewrite take_app in EC |- *. rewrite (drop_app_ge _ _ (S (length s1))) by lia. replace (S (length s1) - length s1) with 1 by lia. cbn [drop].
      rewrite elem_of_app, elem_of_cons in EL, ER. apply addr_plain; split_and!; try done; tauto.
  - intros [h0 p0 Hh Hp|h0 p0 H1 H2 Hp]; [by apply split_plain|by apply split_bracket].
Qed.

(** * Options *)
Lemma apply_hand opts s s' : apply_dopts s opts = Some s' -> apply_copts (e_hand s) (hands opts) = Some (e_hand s').
Proof.
  revert s. induction opts as [|o opts IH]; intros s; cbn; [by intros [= ->]|]. destruct o as [c| | | | | | | | | | | |]; cbn; try (by intros H; apply IH in H).
  destruct (apply_copt (e_hand s) c) as [h|] eqn:E; [|done]. intros H. by apply IH in H.
Qed.
Lemma apply_hand_none opts s : apply_dopts s opts = None <-> apply_copts (e_hand s) (hands opts) = None.
Proof.
  revert s. induction opts as [|o opts IH]; intros s; cbn; [done|]. destruct o as [c| | | | | | | | | | | |]; cbn; try (by rewrite IH).
  destruct (apply_copt (e_hand s) c) as [h|] eqn:E; [|done]. by rewrite IH.
Qed.
Lemma asked_cons {A} (sel : dopt -> option A) d o opts : asked sel d (o :: opts) = asked sel (default d (sel o)) opts.
Proof. unfold asked. cbn. destruct (sel o) as [a|]; [|done]. destruct (last (omap sel opts)) eqn:E; [by rewrite last_cons, E|]. apply last_None in E. by rewrite E. Qed.
Lemma apply_field {A} (get : dset -> A) sel : (forall s o s', apply_dopt s o = Some s' -> get s' = default (get s) (sel o)) ->
  forall opts s s', apply_dopts s opts = Some s' -> get s' = asked sel (get s) opts.
Proof.
  intros H opts. induction opts as [|o opts IH]; intros s s'; cbn [apply_dopts]; [by intros [= ->]|]. destruct (apply_dopt s o) as [s1|] eqn:E; [|done]. intros Hs.
  rewrite (IH _ _ Hs), asked_cons. by rewrite (H _ _ _ E).
Qed.
Lemma settings opts s : apply_dopts default_dset opts = Some s ->
  e_msg s = asked_msg (seconds 10) opts /\ e_rcv s = asked_rcv (seconds 30) opts /\ e_disc s = asked_disc (seconds 30) opts /\ e_unsub s = asked_unsub (seconds 30) opts /\
  e_rcap s = asked_rcap 0%Z opts /\ e_wcap s = asked_wcap 0%Z opts /\ e_rbuf s = asked_rbuf 0%Z opts /\ e_wbuf s = asked_wbuf 0%Z opts /\
  e_stats s = asked_stats false opts /\ e_callback s = asked_callback None opts.
Proof.
  intros H.
  assert (E_msg : e_msg s = asked_msg (e_msg default_dset) opts) by (refine (apply_field e_msg _ _ opts default_dset s H); clear; intros s o s' H; destruct o; cbn in H; try destruct (apply_copt _ _); by simplify_eq).
  assert (E_rcv : e_rcv s = asked_rcv (e_rcv default_dset) opts) by (refine (apply_field e_rcv _ _ opts default_dset s H); clear; intros s o s' H; destruct o; cbn in H; try destruct (apply_copt _ _); by simplify_eq).
  assert (E_disc : e_disc s = asked_disc (e_disc default_dset) opts) by (refine (apply_field e_disc _ _ opts default_dset s H); clear; intros s o s' H; destruct o; cbn in H; try destruct (apply_copt _ _); by simplify_eq).
  assert (E_unsub : e_unsub s = asked_unsub (e_unsub default_dset) opts) by (refine (apply_field e_unsub _ _ opts default_dset s H); clear; intros s o s' H; destruct o; cbn in H; try destruct (apply_copt _ _); by simplify_eq).
  assert (E_rcap : e_rcap s = asked_rcap (e_rcap default_dset) opts) by (refine (apply_field e_rcap _ _ opts default_dset s H); clear; intros s o s' H; destruct o; cbn in H; try destruct (apply_copt _ _); by simplify_eq).
  assert (E_wcap : e_wcap s = asked_wcap (e_wcap default_dset) opts) by (refine (apply_field e_wcap _ _ opts default_dset s H); clear; intros s o s' H; destruct o; cbn in H; try destruct (apply_copt _ _); by simplify_eq).
  assert (E_rbuf : e_rbuf s = asked_rbuf (e_rbuf default_dset) opts) by (refine (apply_field e_rbuf _ _ opts default_dset s H); clear; intros s o s' H; destruct o; cbn in H; try destruct (apply_copt _ _); by simplify_eq).
  assert (E_wbuf : e_wbuf s = asked_wbuf (e_wbuf default_dset) opts) by (refine (apply_field e_wbuf _ _ opts default_dset s H); clear; intros s o s' H; destruct o; cbn in H; try destruct (apply_copt _ _); by simplify_eq).
  assert (E_stats : e_stats s = asked_stats (e_stats default_dset) opts) by (refine (apply_field e_stats _ _ opts default_dset s H); clear; intros s o s' H; destruct o; cbn in H; try destruct (apply_copt _ _); by simplify_eq).
  assert (E_callback : e_callback s = asked_callback (e_callback default_dset) opts) by (refine (apply_field e_callback _ _ opts default_dset s H); clear; intros s o s' H; destruct o; cbn in H; try destruct (apply_copt _ _); by simplify_eq).
  done.
Qed.

(** * Runs *)
Definition lim (limit : option Z) (x : option Z) : list ioev := match limit with Some _ => [VDeadline x] | None => [] end.
Definition limit_of (deadline : option Z) (isnet : bool) : option Z := if isnet then deadline else None.
Definition called (s : dset) (r : rres) : list ioev := match e_callback s, r with Some n, RFrame f _ => [VCallback n (f_hdr f)] | _, _ => [] end.
Definition conn_of (s : dset) (c : cconn) : dconn := mkDconn c (client_cfg s c) (rbuf_of s) (wbuf_of s) (e_stats s).
Definition after_read (limit : option Z) (s : dset) (o : copts) (r : rres) : list ioev * (derr + dconn) :=
  match client_connect o r with
  | CConnected c => (lim limit None ++ called s r ++ [VStart (client_cfg s c)], inr (conn_of s c))
  | e => (match r with RHeartbeat _ | RFrame _ _ => lim limit None | _ => [] end, inl (EReply e))
  end.
Inductive shaken (deadline : option Z) (isnet : bool) (s : dset) (o : copts) : list ioev -> io (derr + dconn) -> Prop :=
| sh_start p : waits p -> ~ waits_for_reply p -> shaken deadline isnet s o [] p
| sh_write_err b : b = write_frame (connect_frame o) -> shaken deadline isnet s o [VWrite b false] (IRet (inl EWriteFailed))
| sh_written b p : b = write_frame (connect_frame o) -> inner p -> shaken deadline isnet s o [VWrite b true] p
| sh_reading b p : b = write_frame (connect_frame o) -> waits_for_reply p -> shaken deadline isnet s o (VWrite b true :: lim (limit_of deadline isnet) deadline) p
| sh_read b r t p : b = write_frame (connect_frame o) -> t `prefix_of` (after_read (limit_of deadline isnet) s o r).1 ->
    inner p \/ t = (after_read (limit_of deadline isnet) s o r).1 /\ p = IRet (after_read (limit_of deadline isnet) s o r).2 ->
    shaken deadline isnet s o (VWrite b true :: lim (limit_of deadline isnet) deadline ++ VRead r :: t) p.
Lemma runs_ret {A} (a : A) t p : runs (IRet a) t p -> t = [] /\ p = IRet a.
Proof. inversion 1; by subst. Qed.
(** A program without choices. *)
Fixpoint straight (l : list ioev) {A} (k : io A) : io A :=
  match l with
  | VDeadline d :: l => IDeadline d (straight l k)
  | VCallback c h :: l => ICallback c h (straight l k)
  | VStart c :: l => IStart c (straight l k)
  | _ => k
  end.
Definition silent (e : ioev) : Prop := match e with VDeadline _ | VCallback _ _ | VStart _ => True | _ => False end.
Lemma runs_straight l {A} (a : A) t p : Forall silent l -> runs (straight l (IRet a)) t p -> t `prefix_of` l /\ (inner p \/ t = l /\ p = IRet a).
Proof.
  intros Hl. revert t p. induction Hl as [|e l He Hl IH]; intros t p; [intros [-> ->]%runs_ret; split; [done|by right]|].
  destruct e; try done; cbn [straight]; inversion 1 as [| | | |? ? ? ? Hr | | |? ? ? ? ? Hr|? ? ? ? Hr]; subst; try (split; [apply prefix_nil|by left]);
    apply IH in Hr as [Hp Hq]; (split; [by apply prefix_cons|]); (destruct Hq as [?|[-> ->]]; [by left|by right]).
Qed.
Lemma after_silent limit s o r : Forall silent (after_read limit s o r).1.
Proof.
  unfold after_read. assert (forall x, Forall silent (lim limit x)) as Hlim by (intros x; unfold lim; destruct limit; repeat constructor).
  destruct (client_connect o r) eqn:E; cbn [fst]; try (destruct r; [apply Hlim|apply Hlim|constructor|constructor|constructor]).
  apply Forall_app. split; [done|]. apply Forall_app. split; [|repeat constructor]. unfold called. destruct (e_callback s), r; repeat constructor.
Qed.
Lemma straight_app l1 l2 {A} (k : io A) : Forall silent l1 -> straight (l1 ++ l2) k = straight l1 (straight l2 k).
Proof. induction 1 as [|e l He _ IH]; [done|]. destruct e; try done; cbn; by rewrite IH. Qed.
Lemma shake_shaken deadline isnet s o t p : runs (shake deadline isnet s o) t p -> shaken deadline isnet s o t p.
Proof.
  unfold shake. inversion 1 as [| | |? ? ok t1 ? Hr| | | | |]; subst; [apply sh_start; [exact I|intros []]|]. destruct ok; cbn [negb] in Hr.
  2:{ apply runs_ret in Hr as [-> ->]. by apply sh_write_err. }
  match type of Hr with runs (match _ with Some d => IDeadline (Some d) ?k | None => _ end) _ _ => set (read := k) in Hr end.
  assert (Hread : forall t p, runs read t p -> shaken deadline isnet s o (VWrite (write_frame (connect_frame o)) true :: lim (limit_of deadline isnet) deadline ++ t) p).
  { clear. intros t p. unfold read. inversion 1 as [| | | | |? r t1 ? Hr| | |]; subst; [rewrite app_nil_r; by apply sh_reading|]. clear H.
    match type of Hr with runs ?q _ _ => assert (q = straight (after_read (limit_of deadline isnet) s o r).1 (IRet (after_read (limit_of deadline isnet) s o r).2)) as E end.
    { unfold after_read, lim, limit_of, called, conn_of. destruct r; cbn [client_connect]; try done.
      - by destruct isnet, deadline.
      - destruct (decide (f_cmd f = CONNECTED)) as [Hc|Hc]; [|by destruct isnet, deadline]. destruct (_ && _); [by destruct isnet, deadline|].
        destruct (hd_contains (f_hdr f) h_heart_beat) as [hb|]; [|by destruct isnet, deadline, (e_callback s)]. destruct (parse_heart_beat hb) as [[rt wt]|]; [|by destruct isnet, deadline].
        destruct (client_timeouts o rt wt). by destruct isnet, deadline, (e_callback s). }
    rewrite E in Hr. apply runs_straight in Hr as [Hp Hq]; [|apply after_silent]. by apply sh_read. }
  unfold lim, limit_of in Hread. destruct isnet.
  - destruct deadline as [d|]; [|by apply Hread]. inversion Hr as [| | | |? ? ? ? Hr'| | | |]; subst; [by apply sh_written|]. by apply Hread.
  - by apply Hread.
Qed.
Definition host_in (a : str) : str := match split_host_port a with Some (h, _) => h | None => [] end.
Lemma connect_runs deadline isnet opts t p : runs (connect deadline isnet opts) t p ->
  apply_dopts default_dset opts = None /\ t = [] /\ p = IRet (inl EBadOption) \/
  t = [] /\ inner p \/
  exists s o remote t1, apply_dopts default_dset opts = Some s /\ new_conn_options remote (hands opts) = Some o /\ shaken deadline isnet s o t1 p /\
    (isnet = true /\ asked_host (hands opts) = [] /\ (exists a, t = VAddr a :: t1 /\ remote = host_in a) \/ t = t1 /\ remote = [] /\ (isnet = false \/ asked_host (hands opts) <> [])).
Proof.
  unfold connect. destruct (apply_dopts default_dset opts) as [s|] eqn:E; [|intros [-> ->]%runs_ret; by left].
  pose proof (apply_hand _ _ _ E) as Eh. change (e_hand default_dset) with default_copts in Eh.
  assert (Hhost : o_host (e_hand s) = asked_host (hands opts)).
  { clear -Eh. change (o_host (e_hand s) = last_opt (fun x => match x with OptHost h => Some h | _ => None end) (o_host default_copts) (hands opts)). revert Eh. generalize default_copts. induction (hands opts) as [|c l IH]; intros o0; cbn; [by intros [= ->]|].
    destruct (apply_copt o0 c) as [o1|] eqn:E; [|done]. intros H%IH. rewrite H. f_equal. destruct c; cbn in E; simplify_eq; try done. by destruct (add_versions _ _); simplify_eq. }
  cbv zeta. rewrite Hhost. destruct (decide (asked_host (hands opts) = [])) as [Hn|Hn]; [destruct isnet|].
  - inversion 1 as [| |? a t1 ? Hr| | | | | |]; subst; [right; left; done|]. right; right. apply shake_shaken in Hr. eexists s, _, (host_in a), t1. split_and!; [done| |exact Hr|left; eauto].
    unfold new_conn_options. rewrite Eh, Hhost. rewrite decide_True by done. done.
  - intros Hr%shake_shaken. right; right. eexists s, _, [], t. split_and!; [done| |exact Hr|right; auto]. unfold new_conn_options. rewrite Eh, Hhost. rewrite !decide_True by done. done.
  - intros Hr%shake_shaken. right; right. eexists s, _, [], t. split_and!; [done| |exact Hr|right; auto]. unfold new_conn_options. rewrite Eh, Hhost. rewrite (decide_False (P := asked_host _ = [])) by done. done.
Qed.
Lemma dial_runs deadline opts t p : runs (dial deadline opts) t p ->
  t = [] /\ waits p /\ ~ waits_for_reply p \/
  t = [VDial false] /\ p = IRet (inl EDialFailed) \/
  t = [VDial true] /\ inner p \/
  (exists a, split_host_port a = None /\ (t = [VDial true; VAddr a] /\ inner p \/ t = [VDial true; VAddr a; VClose] /\ p = IRet (inl EBadAddress))) \/
  exists a h q t1, split_host_port a = Some (h, q) /\ t = VDial true :: VAddr a :: t1 /\ runs (connect deadline true (DHand (OptHost h) :: opts)) t1 p.
Proof.
  unfold dial. inversion 1 as [|? ok t1 ? Hr| | | | | | |]; subst; [left; split_and!; [done|exact I|intros []]|]. clear H. destruct ok; cbn in Hr; [|apply runs_ret in Hr as [-> ->]; auto 10].
  inversion Hr as [| |? a t2 ? Hr2| | | | | |]; subst; [right; right; left; done|]. clear Hr. destruct (split_host_port a) as [[h q]|] eqn:E; [eauto 15|].
  right; right; right; left. exists a. split; [done|]. inversion Hr2 as [| | | | | |? t3 ? Hr3| |]; subst; [left; done|]. apply runs_ret in Hr3 as [-> ->]. right; done.
Qed.

(** * Consequences *)
Lemma silent_none t : Forall silent t -> writes t = [] /\ reads t = [] /\ VClose ∉ t.
Proof.
  induction 1 as [|e t He _ (H1 & H2 & H3)]; [split_and!; [done|done|apply not_elem_of_nil]|]. unfold writes, reads in *. cbn. rewrite H1, H2.
  split_and!; [by destruct e|by destruct e|]. rewrite not_elem_of_cons. split; [by destruct e|done].
Qed.
Lemma writes_app t1 t2 : writes (t1 ++ t2) = writes t1 ++ writes t2.
Proof. apply omap_app. Qed.
Lemma reads_app t1 t2 : reads (t1 ++ t2) = reads t1 ++ reads t2.
Proof. apply omap_app. Qed.
Lemma starts_app t1 t2 : starts (t1 ++ t2) = starts t1 ++ starts t2.
Proof. apply omap_app. Qed.
Lemma starts_prefix t1 t2 : t1 `prefix_of` t2 -> starts t1 `prefix_of` starts t2.
Proof. intros [k ->]. rewrite starts_app. apply prefix_app_r. done. Qed.
Lemma lim_silent l x : Forall silent (lim l x).
Proof. unfold lim. destruct l; repeat constructor. Qed.
Lemma prefix_silent t l : t `prefix_of` l -> Forall silent l -> Forall silent t.
Proof. intros [k ->]. rewrite Forall_app. tauto. Qed.
Lemma starts_after limit s o r : starts (after_read limit s o r).1 = match client_connect o r with CConnected c => [client_cfg s c] | _ => [] end.
Proof.
  unfold after_read, lim, called, starts. destruct (client_connect o r) eqn:E; cbn [fst]; try (by destruct r, limit). by destruct limit, (e_callback s), r.
Qed.
Lemma deadline_snoc t d : read_deadline (t ++ [VDeadline d]) = d.
Proof. unfold read_deadline. rewrite omap_app. cbn. by rewrite last_snoc. Qed.
Lemma deadline_app t1 t2 : omap (fun e => match e with VDeadline d => Some d | _ => None end) t2 = [] -> read_deadline (t1 ++ t2) = read_deadline t1.
Proof. intros H. unfold read_deadline. by rewrite omap_app, H, app_nil_r. Qed.
Lemma deadline_pre t1 t2 : omap (fun e => match e with VDeadline d => Some d | _ => None end) t1 = [] -> read_deadline (t1 ++ t2) = read_deadline t2.
Proof. intros H. unfold read_deadline. by rewrite omap_app, H. Qed.

Record shake_facts (deadline : option Z) (isnet : bool) (s : dset) (o : copts) (t : list ioev) (p : io (derr + dconn)) : Prop := {
  sf_writes : writes t = [] \/ exists ok, writes t = [(write_frame (connect_frame o), ok)];
  sf_reads : reads t = [] \/ (exists r, reads t = [r]) /\ writes t = [(write_frame (connect_frame o), true)];
  sf_starts : starts t = [] \/ exists r c, reads t = [r] /\ client_connect o r = CConnected c /\ starts t = [client_cfg s c];
  sf_open : VClose ∉ t;
  sf_waits : waits_for_reply p -> read_deadline t = limit_of deadline isnet;
  sf_limits : limit_of deadline isnet = None -> forall d, VDeadline d ∉ t;
  sf_good : forall c, p = IRet (inr c) -> exists r, reads t = [r] /\ writes t = [(write_frame (connect_frame o), true)] /\ client_connect o r = CConnected (d_conn c) /\
    starts t = [d_cfg c] /\ c = conn_of s (d_conn c) /\ read_deadline t = None;
  sf_bad : forall e, p = IRet (inl e) -> starts t = [] /\ (e = EWriteFailed /\ writes t = [(write_frame (connect_frame o), false)] \/ exists r, reads t = [r] /\ e = EReply (client_connect o r) /\ forall c, client_connect o r <> CConnected c) }.
Lemma shaken_facts deadline isnet s o t p : shaken deadline isnet s o t p -> shake_facts deadline isnet s o t p.
Proof.
  intros [p' Hw Hn|b ->|b p' -> Hi|b p' -> Hw|b r t2 p' -> Hp Hq].
  - constructor; try (by left); try done; try (by intros ? ->); intros; apply not_elem_of_nil.
  - constructor; try done; try (by left).
    + right. by exists false.
    + rewrite elem_of_list_singleton. done.
    + intros _ d. rewrite elem_of_list_singleton. done.
    + intros e [= <-]. split; [done|]. left. done.
  - constructor; try (by left); try (by intros ? ->).
    + right. by exists true.
    + rewrite elem_of_list_singleton. done.
    + intros H. by destruct p'.
    + intros _ d. rewrite elem_of_list_singleton. done.
  - assert (Hs : Forall silent (lim (limit_of deadline isnet) deadline)) by apply lim_silent. pose proof (silent_none _ Hs) as (H1 & H2 & H3).
    assert (E1 : writes (VWrite (write_frame (connect_frame o)) true :: lim (limit_of deadline isnet) deadline) = [(write_frame (connect_frame o), true)]) by (unfold writes in *; cbn; by rewrite H1).
    assert (E2 : reads (VWrite (write_frame (connect_frame o)) true :: lim (limit_of deadline isnet) deadline) = []) by (unfold reads in *; cbn; by rewrite H2).
    constructor; try (by intros ? ->).
    + right. eauto.
    + by left.
    + left. unfold lim. by destruct (limit_of deadline isnet).
    + by apply not_elem_of_cons.
    + intros _. unfold lim, limit_of. destruct isnet, deadline; done.
    + intros -> d. cbn. rewrite elem_of_list_singleton. done.
  - set (L := limit_of deadline isnet) in *. set (b := write_frame (connect_frame o)) in *. pose proof (prefix_silent _ _ Hp (after_silent L s o r)) as Hs2. pose proof (silent_none _ Hs2) as (H1 & H2 & H3).
    pose proof (silent_none _ (lim_silent L deadline)) as (G1 & G2 & G3).
    assert (E1 : writes (VWrite b true :: lim L deadline ++ VRead r :: t2) = [(b, true)]).
    { change (VWrite b true :: lim L deadline ++ VRead r :: t2) with ([VWrite b true] ++ lim L deadline ++ [VRead r] ++ t2). rewrite !writes_app, G1, H1. done. }
    assert (E2 : reads (VWrite b true :: lim L deadline ++ VRead r :: t2) = [r]).
    { change (VWrite b true :: lim L deadline ++ VRead r :: t2) with ([VWrite b true] ++ lim L deadline ++ [VRead r] ++ t2). rewrite !reads_app, G2, H2. done. }
    assert (E3 : starts (VWrite b true :: lim L deadline ++ VRead r :: t2) = starts t2).
    { change (VWrite b true :: lim L deadline ++ VRead r :: t2) with ([VWrite b true] ++ lim L deadline ++ [VRead r] ++ t2). rewrite !starts_app. unfold lim. by destruct L. }
    constructor.
    + right. eauto.
    + right. eauto.
    + rewrite E3, E2. apply starts_prefix in Hp. rewrite starts_after in Hp. destruct (client_connect o r) as [c| | | | | |] eqn:E; try (left; by apply prefix_nil_inv).
      destruct (starts t2) as [|x l]; [by left|]. right. exists r, c. split_and!; [done|done|]. destruct Hp as [k Hk]. injection Hk as -> Hk. symmetry in Hk. apply app_nil in Hk as [-> _]. done.
    + rewrite not_elem_of_cons, not_elem_of_app, not_elem_of_cons. done.
    + intros Hw. destruct Hq as [Hi|[_ ->]]; [by destruct p'|done].
    + intros HL d. change (L = None) in HL. rewrite not_elem_of_cons, not_elem_of_app, not_elem_of_cons. split_and!; [done|rewrite HL; apply not_elem_of_nil|done|].
      intros Hin. assert (Hin' : VDeadline d ∈ (after_read L s o r).1) by (destruct Hp as [k ->]; apply elem_of_app; by left). rewrite HL in Hin'. unfold after_read, lim, called in Hin'.
      destruct (client_connect o r), r, (e_callback s); cbn in Hin'; repeat (apply elem_of_cons in Hin' as [Hin'|Hin']; [done|]); by apply elem_of_nil in Hin'.
    + intros c ->. destruct Hq as [[]|[-> [= Hc]]]. exists r. rewrite E1, E2, E3, starts_after. unfold after_read in Hc. destruct (client_connect o r) as [c'| | | | | |] eqn:E; cbn in Hc; simplify_eq.
      split_and!; try done. unfold after_read. rewrite E. cbn [fst]. unfold L, limit_of, lim, called. destruct isnet, deadline, (e_callback s), r; done.
    + intros e ->. destruct Hq as [[]|[-> [= Hc]]]. rewrite E3, starts_after. split.
      * unfold after_read in Hc. destruct (client_connect o r); done.
      * right. exists r. split; [done|]. unfold after_read in Hc. by destruct (client_connect o r); cbn in Hc; simplify_eq.
Qed.

(** * The callback *)
Lemma callbacks_app t1 t2 : callbacks (t1 ++ t2) = callbacks t1 ++ callbacks t2.
Proof. apply omap_app. Qed.
Lemma callbacks_lim l x : callbacks (lim l x) = [].
Proof. by destruct l. Qed.
Lemma shaken_calls deadline isnet s o t p : shaken deadline isnet s o t p ->
  callbacks t = [] /\ (starts t <> [] -> e_callback s = None) \/
  exists n f rest c, e_callback s = Some n /\ reads t = [RFrame f rest] /\ client_connect o (RFrame f rest) = CConnected c /\ callbacks t = [(n, f_hdr f)].
Proof.
  intros [p' _ _|b ->|b p' -> _|b p' -> _|b r t2 p' -> Hp _]; try (left; split; [done|by intros []]).
  - left. change (callbacks (lim (limit_of deadline isnet) deadline) = [] /\ (starts (lim (limit_of deadline isnet) deadline) <> [] -> e_callback s = None)). split; [apply callbacks_lim|]. by destruct (limit_of _ _).
  - change (callbacks (VWrite ?b true :: ?l)) with (callbacks l). change (starts (VWrite ?b true :: ?l)) with (starts l). change (reads (VWrite ?b true :: ?l)) with (reads l).
    rewrite callbacks_app, starts_app, reads_app, callbacks_lim. cbn [app].
    assert (starts (lim (limit_of deadline isnet) deadline) = [] /\ reads (lim (limit_of deadline isnet) deadline) = []) as [-> ->] by (by destruct (limit_of _ _)). cbn [app].
    change (callbacks (VRead ?b :: ?l)) with (callbacks l). change (starts (VRead ?b :: ?l)) with (starts l). change (reads (VRead r :: t2)) with (r :: reads t2).
    assert (reads t2 = []) as -> by (apply silent_none; eapply prefix_silent; [exact Hp|apply after_silent]).
    destruct (client_connect o r) as [c| | | | | |] eqn:E.
    { destruct r as [|f rest| | |]; try done. destruct Hp as [k Hk]. unfold after_read in Hk. rewrite E in Hk. cbn [fst] in Hk. unfold called in Hk.
      destruct (e_callback s) as [n|] eqn:Ec.
      - unfold lim in Hk. destruct (limit_of deadline isnet); cbn [app] in Hk.
        + destruct t2 as [|e1 [|e2 t2]]; cbn [app] in Hk; simplify_eq; try (left; split; [done|by intros []]). right. exists n, f, rest, c. match goal with H : [VStart _] = _ |- _ => rename H into Hk end. destruct t2 as [|e3 t2]; [done|]. cbn [app] in Hk. injection Hk as <- Hk. symmetry in Hk. by apply app_nil in Hk as [-> _].
        + destruct t2 as [|e1 t2]; cbn [app] in Hk; simplify_eq; try (left; split; [done|by intros []]). right. exists n, f, rest, c. match goal with H : [VStart _] = _ |- _ => rename H into Hk end. destruct t2 as [|e3 t2]; [done|]. cbn [app] in Hk. injection Hk as <- Hk. symmetry in Hk. by apply app_nil in Hk as [-> _].
      - left. split; [|done]. apply (f_equal callbacks) in Hk. rewrite !callbacks_app in Hk. rewrite callbacks_lim in Hk. cbn in Hk. symmetry in Hk. by apply app_nil in Hk as [? _]. }
    all: left; destruct Hp as [k Hk]; unfold after_read in Hk; rewrite E in Hk; cbn [fst] in Hk;
      assert (callbacks t2 ++ callbacks k = [] /\ starts t2 ++ starts k = []) as [Hc Hs] by (rewrite <- callbacks_app, <- starts_app, <- Hk; by destruct r, (limit_of deadline isnet));
      apply app_nil in Hc as [-> _]; apply app_nil in Hs as [-> _]; split; [done|by intros []].
Qed.
