(** Requests and response channels of the client model. *)
From stdpp Require Import gmap.
From Verif Require Import GoBase HeaderModel FrameModel HeaderProofs NegotiationModel ClientApiModel ClientModel ClientSpec ClientLemmas ClientProofs.

(* ---------------- tables only grow ---------------- *)
Definition same_key (b b' : csub) : Prop := b_by b' = b_by b /\ b_id b' = b_id b /\ b_reply b' = b_reply b /\ b_ch b' = b_ch b.
Inductive schange (y y' : cl) : Prop :=
| sc_same : c_subs y' = c_subs y -> schange y y'
| sc_new g r f id rt : c_gs y !! g = Some r -> g_pc r = GStart -> g_op r = OSubscribe (Some (f, id, rt)) ->
    c_subs y' = c_subs y ++ [new_sub g id rt (length (c_chs y))] -> c_chs y' = c_chs y ++ [mkChan (OwnS (length (c_subs y))) false] ->
    c_gs y' = c_gs (with_g y g (GPut (FSub (length (c_subs y))) (mkReq g f (Some (length (c_chs y)))))) -> schange y y'
| sc_upd s b b' : c_subs y !! s = Some b -> same_key b b' -> c_subs y' = <[s := b']> (c_subs y) -> schange y y'.
Inductive hchange (hs : list chan) : list chan -> Prop :=
| hc_same : hchange hs hs
| hc_new o : hchange hs (hs ++ [mkChan o false])
| hc_close ch : hchange hs (alter (fun h => mkChan (h_owner h) true) ch hs).
Lemma clmove_key b c b' o : clmove b c b' o -> same_key b b'.
Proof. by destruct 1. Qed.
Lemma answers_same y g f k y' : answers y g f k y' -> c_subs y' = c_subs y /\ c_chs y' = c_chs y /\ c_map y' = c_map y /\ c_log y' = c_log y /\ c_wch y' = c_wch y /\ c_p y' = c_p y.
Proof. by destruct 1. Qed.
Lemma after_send_same y ch k : c_subs (after_send y ch k) = c_subs y /\ c_wch (after_send y ch k) = c_wch y /\ c_log (after_send y ch k) = c_log y /\ c_mut (after_send y ch k) = c_mut y.
Proof. by destruct k as [id| |f rest []]. Qed.
Lemma after_send_chs y ch k : hchange (c_chs y) (c_chs (after_send y ch k)).
Proof. destruct k as [id| |f rest []]; constructor. Qed.
Lemma submit_chs y g k f own : hchange (c_chs y) (c_chs (submit y g k f own)).
Proof. unfold submit. destruct own; constructor. Qed.
Lemma submit_same y g k f own : c_subs (submit y g k f own) = c_subs y /\ c_wch (submit y g k f own) = c_wch y /\ c_log (submit y g k f own) = c_log y
  /\ c_map (submit y g k f own) = c_map y /\ c_p (submit y g k f own) = c_p y.
Proof. unfold submit. by destruct own. Qed.
Lemma cmv_subs cfg y a y' : cmv cfg y a y' -> schange y y'.
Proof.
  destruct 1; try (apply sc_same; reflexivity); try (by eapply sc_upd; [| |reflexivity]).
  - apply sc_same. apply (proj1 (submit_same _ _ _ _ _)).
  - by eapply sc_new.
  - apply sc_same. match goal with |- context [if ?b then _ else _] => destruct b end; reflexivity.
  - eapply sc_upd; [| |reflexivity]; [done|by eapply clmove_key].
  - apply sc_same. destruct w; reflexivity.
  - apply sc_same. match goal with H : answers _ _ _ _ _ |- _ => apply answers_same in H as (-> & _) end. cbn [with_log c_subs]. apply (proj1 (after_send_same _ _ _)).
  - match goal with H : clmove _ _ _ _ |- _ => apply clmove_key in H end. by eapply sc_upd; [| |reflexivity].
Qed.
Lemma cmv_chs cfg y a y' : cmv cfg y a y' -> hchange (c_chs y) (c_chs y').
Proof.
  destruct 1; try (exact (hc_same (c_chs y))); try apply hc_close.
  - apply submit_chs.
  - eapply (submit_chs (with_subs y _)).
  - match goal with |- context [if ?b then _ else _] => destruct b end; exact (hc_same (c_chs y)).
  - destruct w; exact (hc_same (c_chs y)).
  - match goal with H : answers _ _ _ _ _ |- _ => apply answers_same in H as (_ & -> & _) end. apply after_send_chs.
  - apply after_send_chs.
Qed.
Lemma schange_mono y y' s b : schange y y' -> c_subs y !! s = Some b -> exists b', c_subs y' !! s = Some b' /\ same_key b b'.
Proof.
  intros H Hs. destruct H as [E|g r f id rt _ _ _ E _ _|j b0 b' Hj Hk E]; rewrite E.
  - by exists b.
  - exists b. split; [by apply lookup_app_l_Some|done].
  - destruct (decide (s = j)) as [->|Hne].
    + rewrite list_lookup_insert by (by eapply lookup_lt_Some). eexists. split; [done|]. by simplify_eq.
    + rewrite list_lookup_insert_ne by done. by exists b.
Qed.
Lemma schange_back y y' s b' : schange y y' -> c_subs y' !! s = Some b' ->
  (exists b, c_subs y !! s = Some b /\ same_key b b') \/
  s = length (c_subs y) /\ exists g r f id rt, b' = new_sub g id rt (length (c_chs y)) /\ c_gs y !! g = Some r /\ g_pc r = GStart /\ g_op r = OSubscribe (Some (f, id, rt)) /\
    c_subs y' = c_subs y ++ [b'] /\ c_chs y' = c_chs y ++ [mkChan (OwnS s) false] /\
    c_gs y' = c_gs (with_g y g (GPut (FSub s) (mkReq g f (Some (length (c_chs y)))))).
Proof.
  intros H Hs. destruct H as [E|g r f id rt Hg Hst Ho E E' E''|j b0 b1 Hj Hk E]; rewrite E in Hs.
  - left. by exists b'.
  - apply snoc_lookup in Hs as [[_ Hs]|[-> ->]]; [left; by exists b'|]. right. split; [done|]. by exists g, r, f, id, rt.
  - left. destruct (decide (s = j)) as [->|Hne].
    + rewrite list_lookup_insert in Hs by (by eapply lookup_lt_Some). simplify_eq. by exists b0.
    + rewrite list_lookup_insert_ne in Hs by done. by exists b'.
Qed.
Lemma hchange_mono hs hs' ch h : hchange hs hs' -> hs !! ch = Some h -> exists h', hs' !! ch = Some h' /\ h_owner h' = h_owner h.
Proof.
  intros H Hh. destruct H as [|o|j].
  - eauto.
  - exists h. split; [by apply lookup_app_l_Some|done].
  - destruct (decide (ch = j)) as [->|Hne].
    + rewrite list_lookup_alter, Hh. by eexists.
    + rewrite list_lookup_alter_ne by done. eauto.
Qed.

(* ---------------- requests ---------------- *)
Definition log_reqs (l : list pev) : list wreq := omap (fun e => match e with PvReq q _ => Some q | _ => None end) l.
Lemma kind_frame o k f : kind_ok o k f -> op_frame o = Some f.
Proof. destruct k as [|[s|]|s|]; cbn; intros H; naive_solver. Qed.
Definition is_subscribe (o : op) : bool := match o with OSubscribe _ => true | _ => false end.
(** Requests made and not yet dropped. *)
Definition known (y : cl) (q : wreq) : Prop :=
  q ∈ c_wch y \/ q ∈ log_reqs (c_log y) \/ exists g r k, c_gs y !! g = Some r /\ g_pc r = GPut k q.
(** A request belongs to a call, and its channel to that call or to the
    subscription made by it. *)
Definition req_ok (y : cl) (q : wreq) : Prop :=
  exists r, c_gs y !! q_by q = Some r /\ op_frame (g_op r) = Some (q_frame q) /\
    (if is_subscribe (g_op r) then is_Some (q_chan q) else is_Some (q_chan q) -> wants_receipt (q_frame q) = true) /\
    forall ch, q_chan q = Some ch -> exists h, c_chs y !! ch = Some h /\
      (if is_subscribe (g_op r) then exists s b, h_owner h = OwnS s /\ c_subs y !! s = Some b /\ b_ch b = ch /\ b_by b = q_by q /\
          exists f, g_op r = OSubscribe (Some (f, b_id b, b_reply b))
       else h_owner h = OwnG (q_by q)).
Record reqinv (y : cl) : Prop := {
  rq_ok : forall q, known y q -> req_ok y q;
  rq_put : forall g r k q, c_gs y !! g = Some r -> g_pc r = GPut k q -> q_by q = g;
  rq_wait : forall g r k ch, c_gs y !! g = Some r -> g_pc r = GWait k ch -> exists h, c_chs y !! ch = Some h /\ h_owner h = OwnG g;
  rq_sub : forall s b, c_subs y !! s = Some b -> exists h r f, c_chs y !! b_ch b = Some h /\ h_owner h = OwnS s /\
    c_gs y !! b_by b = Some r /\ g_op r = OSubscribe (Some (f, b_id b, b_reply b)) }.

Lemma req_ok_step y y' q : gchange (c_gs y) (c_gs y') -> schange y y' -> hchange (c_chs y) (c_chs y') -> req_ok y q -> req_ok y' q.
Proof.
  intros HG HS HH (r & Hr & Hf & Hc1 & Hc2). destruct (gchange_op _ _ _ _ HG Hr) as (r' & Hr' & Ho). exists r'. rewrite Ho. split_and!; [done..|].
  intros ch Hch. destruct (Hc2 _ Hch) as (h & Hh & Hown). destruct (hchange_mono _ _ _ _ HH Hh) as (h' & Hh' & Eo). exists h'. rewrite Eo. split; [done|].
  destruct (is_subscribe (g_op r)); [|done]. destruct Hown as (s & b & H1 & H2 & H3 & H4 & f & H5).
  destruct (schange_mono _ _ _ _ HS H2) as (b' & Hb' & (K1 & K2 & K3 & K4)). exists s, b'. rewrite K1, K2, K3, K4. split_and!; try done. by exists f.
Qed.

(** What is put newly on the way. *)
Inductive new_req (y : cl) (q : wreq) (y' : cl) : Prop :=
| nr_plain g r k f own : c_gs y !! g = Some r -> submits (g_op r) (g_pc r) k f -> own = receipt_owner g f -> c_closed y = false -> y' = submit y g k f own ->
    q = mkReq g f (match own with Some _ => Some (length (c_chs y)) | None => None end) -> new_req y q y'
| nr_sub g r f id rt : c_gs y !! g = Some r -> g_pc r = GStart -> g_op r = OSubscribe (Some (f, id, rt)) -> c_closed y = false ->
    y' = submit (with_subs y (c_subs y ++ [new_sub g id rt (length (c_chs y))])) g (FSub (length (c_subs y))) f (Some (OwnS (length (c_subs y)))) ->
    q = mkReq g f (Some (length (c_chs y))) -> new_req y q y'.

(** Where requests are after a step in which only call g moves to pc x. *)
Lemma known_g y g x q : known (with_g y g x) q -> known y q \/ exists k, x = GPut k q.
Proof.
  intros [H|[H|(j & r & k & Hj & Hp)]]; [left; by left|left; right; by left|].
  apply with_g_lookup in Hj as [[_ Hj]|(-> & r0 & _ & ->)]; [left; right; right; by exists j, r, k|]. right. exists k. done.
Qed.
Lemma known_weaken y y' q : c_gs y' = c_gs y -> c_wch y' = c_wch y -> c_log y' = c_log y -> known y' q -> known y q.
Proof. unfold known. by intros -> -> ->. Qed.
Lemma known_log y y' e q : c_gs y' = c_gs y -> c_wch y' = c_wch y -> c_log y' = c_log y ++ [e] -> (match e with PvReq _ _ => False | _ => True end) -> known y' q -> known y q.
Proof.
  unfold known. intros -> -> ->. unfold log_reqs. rewrite omap_app. intros He [?|[[H|H]%elem_of_app|?]]; [by left|right; by left| |by right; right].
  destruct e; cbn in H; [done|by apply elem_of_nil in H..].
Qed.
Lemma known_submit y g k f own q : known (submit y g k f own) q -> known y q \/ q = mkReq g f (match own with Some _ => Some (length (c_chs y)) | None => None end).
Proof. unfold submit. destruct own; intros [Hq|[k0 [= _ <-]]]%known_g; auto. Qed.
Lemma cmv_known cfg y a y' q : cmv cfg y a y' -> known y' q -> known y q \/ new_req y q y'.
Proof.
  intros Hm Hq.
  destruct Hm; try (left; exact Hq);
    try (left; by (eapply known_weaken; [..|exact Hq]));
    try (left; by (eapply known_log; [..|exact Hq]));
    try (apply known_g in Hq as [Hq|[k0 [=]]]; left; exact Hq).
  - left. destruct Hq as [Hw|[Hw|(j & r & k & Hj & Hp)]]; [by left|right; by left|]. right; right.
    apply snoc_lookup in Hj as [[_ Hj]|[-> ->]]; [|done]. by exists j, r, k.
  - apply known_g in Hq as [Hq|[k0 Hx]]; [by left|]. subst x'. exfalso.
    match goal with H : gmove _ _ _ _ _ _ _ |- _ => apply gmove_free in H as [_ H]; by apply H end.
  - apply known_g in Hq as [Hq|[k0 Hx]]; [left; exact Hq|]. by destruct f.
  - apply known_submit in Hq as [Hq| ->]; [by left|]. right. by eapply nr_plain.
  - apply known_submit in Hq as [Hq| ->]; [left; exact Hq|]. right. by eapply nr_sub.
  - left. apply known_g in Hq as [Hq|[k0 Hx]].
    + assert (known (with_wch y (c_wch y ++ [q0])) q) as Hq' by (by destruct (put_next k (q_chan q0)).2). clear Hq.
      destruct Hq' as [[Hw| ->%elem_of_list_singleton]%elem_of_app|Hq']; [by left| |right; exact Hq']. right; right. by exists g, r, k.
    + exfalso. destruct k as [|[s|]|s|]; destruct (q_chan q0); done.
  - apply known_g in Hq as [Hq|[k0 Hx]]; [left; exact Hq|]. by destruct o.
  - left. assert (known (requested y l q0 (Some (outgoing (q_frame q0), w))) q) as [Hw|[Hl|Hg]] by (by destruct w); clear Hq.
    + left. match goal with H : c_wch y = _ |- _ => rewrite H end. right. exact Hw.
    + cbn in Hl. unfold log_reqs in Hl. rewrite omap_app in Hl. apply elem_of_app in Hl as [Hl|Hl]; [right; by left|]. cbn in Hl. apply elem_of_list_singleton in Hl as ->.
      left. match goal with H : c_wch y = _ |- _ => rewrite H end. left.
    + right; right. exact Hg.
  - left. destruct Hq as [Hw|[Hl|Hg]].
    + left. match goal with H : c_wch y = _ |- _ => rewrite H end. right. exact Hw.
    + cbn in Hl. unfold log_reqs in Hl. rewrite omap_app in Hl. apply elem_of_app in Hl as [Hl|Hl]; [right; by left|]. cbn in Hl. apply elem_of_list_singleton in Hl as ->.
      left. match goal with H : c_wch y = _ |- _ => rewrite H end. left.
    + right; right. exact Hg.
  - left. destruct Hq as [Hw|[Hl|Hg]].
    + left. match goal with H : c_wch y = _ |- _ => rewrite H end. right. exact Hw.
    + cbn in Hl. unfold log_reqs in Hl. rewrite omap_app in Hl. apply elem_of_app in Hl as [Hl|Hl]; [right; by left|]. cbn in Hl. apply elem_of_list_singleton in Hl as ->.
      left. match goal with H : c_wch y = _ |- _ => rewrite H end. left.
    + right; right. exact Hg.
  - left. set (y1 := with_log (after_send y ch k) (PvTold ch f)) in *.
    assert (known y1 q) as Hq1.
    { match goal with H : answers _ _ _ _ _ |- _ => destruct H as [u|w Hw|Hc|Hc] end; apply known_g in Hq as [Hq|[k0 Hx]]; try exact Hq; try done.
      exfalso. eapply frame_done_free. rewrite Hx. exact I. }
    destruct (after_send_same y ch k) as (_ & E1 & E2 & _). apply (known_log y y1 (PvTold ch f)); try done; subst y1; cbn [with_log c_gs c_wch c_log]; [apply after_send_gs|by rewrite E2].
  - left. destruct (after_send_same y ch k) as (_ & E1 & E2 & _). eapply (known_log y _ (PvTold ch f)); [..|exact Hq]; cbn [with_subs with_log c_gs c_wch c_log]; try done; [apply after_send_gs|by rewrite E2].
Qed.
(** How a call gets to put a request, or to wait for a response. *)
Definition special (x : gpc) : Prop := match x with GPut _ _ | GWait _ _ => True | _ => False end.
Lemma frame_done_plain u r : ~ special (frame_done u r).
Proof. destruct u as [s|]; cbn; [|tauto]. destruct r as [| |[]]; cbn; tauto. Qed.
Lemma special_g y g x j r' : c_gs (with_g y g x) !! j = Some r' -> special (g_pc r') -> c_gs y !! j = Some r' \/ j = g /\ exists r, c_gs y !! g = Some r /\ g_op r' = g_op r /\ g_pc r' = x.
Proof. intros [[_ Hj]|(-> & r0 & Hr0 & ->)]%with_g_lookup _; [by left|]. right. split; [done|]. by exists r0. Qed.
Lemma cmv_special cfg y a y' g r' : cmv cfg y a y' -> c_gs y' !! g = Some r' -> special (g_pc r') ->
  c_gs y !! g = Some r' \/
  (exists k q, g_pc r' = GPut k q /\ new_req y q y' /\ q_by q = g) \/
  (exists r k q ch, c_gs y !! g = Some r /\ g_op r' = g_op r /\ g_pc r = GPut k q /\ q_chan q = Some ch /\ g_pc r' = GWait k ch /\ q ∈ c_wch y').
Proof.
  intros Hm Hg Hs.
  destruct Hm as [o Ho|g0 r t x' H H0| | | | | | | | | | | | | | | | | | | | | | |q l w| | | |ch f k h g0 r w y' H H0 H1 H2 H3 H4|ch f k h s b| | | | | | | |]; try (left; exact Hg);
    try (apply special_g in Hg as [Hg|(-> & r0 & _ & _ & Hx)]; [left; exact Hg|rewrite Hx in Hs; done|done]).
  - left. apply snoc_lookup in Hg as [[_ Hg]|[-> ->]]; done.
  - apply special_g in Hg as [Hg|(-> & r0 & _ & _ & Hx)]; [by left| |done]. rewrite Hx in Hs. exfalso. destruct H0; try done; by apply frame_done_plain in Hs.
  - apply special_g in Hg as [Hg|(-> & r1 & _ & _ & Hx)]; [left; exact Hg| |done]. rewrite Hx in Hs. by destruct f.
  - rewrite submit_gs' in Hg. apply special_g in Hg as [Hg|(-> & r1 & _ & _ & Hx)]; [left; exact Hg| |done]. right; left. do 2 eexists. split; [exact Hx|]. split; [|done]. by eapply nr_plain.
  - rewrite submit_gs' in Hg. apply special_g in Hg as [Hg|(-> & r1 & _ & _ & Hx)]; [left; exact Hg| |done]. right; left. do 2 eexists. split; [exact Hx|]. split; [|done]. by eapply nr_sub.
  - apply special_g in Hg as [Hg|(-> & r1 & Hr1 & Ho & Hx)]; [left; by destruct (put_next k (q_chan q)).2| |done].
    assert (c_gs y !! g0 = Some r1) as Hr2 by (by destruct (put_next k (q_chan q)).2). assert (r1 = r) as -> by congruence.
    right; right. destruct (q_chan q) as [ch|] eqn:Ec; [|rewrite Hx in Hs; destruct k as [|u|s|]; cbn in Hs; try done; by apply frame_done_plain in Hs].
    exists r, k, q, ch. split_and!; try done.
    + rewrite Hx in Hs |- *. by destruct k.
    + destruct (put_next k (Some ch)).2; cbn [with_g c_wch with_wch with_mut]; apply elem_of_app; right; by left.
  - apply special_g in Hg as [Hg|(-> & r1 & _ & _ & Hx)]; [left; exact Hg| |done]. rewrite Hx in Hs. by destruct o.
  - left. by destruct w.
  - left. assert (forall z, c_gs (with_log (after_send y ch k) (PvTold ch f)) !! z = c_gs y !! z) as Ez by (intros; cbn [with_log c_gs]; by rewrite after_send_gs).
    destruct H4 as [u|w Hw|Hc|Hc]; apply special_g in Hg as [Hg|(-> & r1 & _ & _ & Hx)]; try done; try (by rewrite <-Ez); rewrite Hx in Hs; try done. by apply frame_done_plain in Hs.
  - left. cbn [with_subs with_log c_gs] in Hg. by rewrite after_send_gs in Hg.
Qed.

Lemma plain_op o x k f : submits o x k f -> pc_ok o x -> is_subscribe o = false.
Proof. destruct 1; cbn; try done. destruct u as [s|]; by intros ->. Qed.
Lemma submit_new_chan y g k f o : c_chs (submit y g k f (Some o)) !! length (c_chs y) = Some (mkChan o false).
Proof. unfold submit. cbn. rewrite lookup_app_r by lia. by rewrite Nat.sub_diag. Qed.
Lemma new_req_ok y q y' : calls_ok y -> new_req y q y' -> gchange (c_gs y) (c_gs y') -> req_ok y' q.
Proof.
  intros HC Hn HG. destruct Hn as [g r k f own Hg Hs Hown _ -> ->|g r f id rt Hg Hpc Ho _ -> ->].
  - destruct (gchange_op _ _ _ _ HG Hg) as (r' & Hr' & Eo). pose proof (HC _ _ Hg) as Hp. exists r'. rewrite Eo. cbn [q_by q_frame q_chan]. rewrite (plain_op _ _ _ _ Hs Hp).
    split_and!; [done|by eapply kind_frame, submits_kind| |].
    + subst own. unfold receipt_owner. destruct (wants_receipt f); [done|]. by intros [? ?].
    + intros ch. subst own. unfold receipt_owner in *. destruct (wants_receipt f); [|done]. intros [= <-]. eexists. split; [apply submit_new_chan|done].
  - destruct (gchange_op _ _ _ _ HG Hg) as (r' & Hr' & Eo). exists r'. rewrite Eo, Ho. cbn [q_by q_frame q_chan is_subscribe op_frame].
    split_and!; [done|done|by eexists|]. intros ch [= <-]. eexists. split; [apply (submit_new_chan (with_subs y _))|]. exists (length (c_subs y)), (new_sub g id rt (length (c_chs y))).
    split_and!; [done| |done..|by exists f]. rewrite (proj1 (submit_same _ _ _ _ _)). cbn [with_subs c_subs]. rewrite lookup_app_r by lia. by rewrite Nat.sub_diag.
Qed.
Lemma reqinv_step cfg y a y' : cmv cfg y a y' -> calls_ok y -> reqinv y -> reqinv y'.
Proof.
  intros Hm HC [R1 R2 R3 R4]. pose proof (cmv_gs _ _ _ _ Hm) as HG. pose proof (cmv_subs _ _ _ _ Hm) as HS. pose proof (cmv_chs _ _ _ _ Hm) as HH.
  assert (HK : forall q, known y' q -> req_ok y' q).
  { intros q Hq. destruct (cmv_known _ _ _ _ _ Hm Hq) as [Hq'|Hn]; [by eapply req_ok_step, R1|by eapply new_req_ok]. }
  constructor; [done| | |].
  - intros g r k q Hg Hp. destruct (cmv_special _ _ _ _ _ _ Hm Hg) as [Hg'|[(k' & q' & E & Hn & Hb)|(r0 & k' & q' & ch & _ & _ & _ & _ & E & _)]]; [by rewrite Hp|by eapply R2| |].
    + rewrite E in Hp. injection Hp as -> ->. done.
    + by rewrite E in Hp.
  - intros g r k ch Hg Hp. destruct (cmv_special _ _ _ _ _ _ Hm Hg) as [Hg'|[(k' & q' & E & Hn & Hb)|(r0 & k' & q' & ch' & Hr0 & Eop & Hput & Hc & E & _)]]; [by rewrite Hp| | |].
    + destruct (R3 _ _ _ _ Hg' Hp) as (h & Hh & Ho). destruct (hchange_mono _ _ _ _ HH Hh) as (h' & ? & Eo). exists h'. split; [done|]. by rewrite Eo.
    + by rewrite E in Hp.
    + rewrite E in Hp. injection Hp as -> ->. pose proof (R2 _ _ _ _ Hr0 Hput) as Hby. destruct (R1 q') as (r1 & Hr1 & Hf & Hs & Hch); [right; right; by exists g, r0, k|].
      rewrite Hby in Hr1. simplify_eq. destruct (Hch _ Hc) as (h & Hh & Hown). destruct (hchange_mono _ _ _ _ HH Hh) as (h' & ? & Eo). exists h'. split; [done|]. rewrite Eo.
      pose proof (HC _ _ Hr0) as Hk. rewrite Hput in Hk. destruct Hk as [Hk _]. destruct (is_subscribe (g_op r0)) eqn:Es; [|done].
      exfalso. pose proof (calls_step _ _ _ _ Hm HC _ _ Hg) as Hk'. rewrite E, Eop in Hk'. destruct Hk' as [(f & Hf' & _) Hk']. destruct (g_op r0); try done. destruct k as [|[|]| |]; naive_solver.
  - intros s b Hb. destruct (schange_back _ _ _ _ HS Hb) as [(b0 & Hb0 & (K1 & K2 & K3 & K4))|(Es & g & r & f & id & rt & -> & Hg & _ & Ho & _ & El & _)].
    + destruct (R4 _ _ Hb0) as (h & r & f & H1 & H2 & H3 & H4). destruct (hchange_mono _ _ _ _ HH H1) as (h' & ? & Eo). destruct (gchange_op _ _ _ _ HG H3) as (r' & ? & Er).
      exists h', r', f. rewrite K1, K2, K3, K4, Eo, Er. done.
    + destruct (gchange_op _ _ _ _ HG Hg) as (r' & Hr' & Er). exists (mkChan (OwnS s) false), r', f. cbn [new_sub b_ch b_by b_id b_reply]. rewrite Er, El.
      split_and!; [|done..]. rewrite lookup_app_r by lia. by rewrite Nat.sub_diag.
Qed.
Lemma reach_req A cfg y : creach A cfg y -> reqinv y.
Proof.
  induction 1 as [|y a y' Hr IH _ Hs].
  - constructor; [|done..]. intros q [H|[H|(g & r & k & H & _)]]; [by apply elem_of_nil in H..|done].
  - eapply reqinv_step; [by apply cstep_cmv|by eapply reach_calls|done].
Qed.
