(** The write channel and the closed flag of the client model. *)
From stdpp Require Import gmap.
From Verif Require Import GoBase HeaderModel FrameModel HeaderProofs NegotiationModel ClientApiModel ClientModel ClientSpec ClientLemmas ClientProofs ClientRequests.

(* ---------------- no panic on the write channel ---------------- *)
Lemma put_open A cfg y g r k q : creach A cfg y -> c_gs y !! g = Some r -> g_pc r = GPut k q -> c_wclosed y = false.
Proof.
  intros Hr Hg Hp. pose proof (reach_lock _ _ _ Hr) as HL. assert (c_mut y = Some g) as Hm by (apply (lk_mut _ HL _ _ Hg); by rewrite Hp).
  destruct (c_wclosed y) eqn:E; [|done]. apply (lk_w _ HL) in E. rewrite (lk_open _ HL) in E; [done|]. by rewrite Hm.
Qed.
Lemma close_step_panic b c p : close_step b c = Some (inl p) -> p = PSendClosedC \/ p = PCloseClosedC.
Proof.
  destruct c as [m|[m|]| |]; cbn [close_step].
  - by destruct (b_once b).
  - unfold put_c. destruct (b_cclosed b); [intros [= <-]; by left|]. by destruct (decide _).
  - done.
  - done.
  - destruct (b_cclosed b); [|done]. intros [= <-]. by right.
Qed.
Lemma put_c_panic b m p : put_c b m = Some (inl p) -> p = PSendClosedC.
Proof. unfold put_c. destruct (b_cclosed b); [by intros [= <-]|]. by destruct (decide _). Qed.
(** Every panic a step can raise, with the place. *)
Inductive panics (cfg : ccfg) (y : cl) : cact -> cpanic -> Prop :=
| pa_put g r k q : c_gs y !! g = Some r -> g_pc r = GPut k q -> c_wclosed y = true -> panics cfg y (XRun g) PSendClosedWrite
| pa_must g r : c_gs y !! g = Some r -> g_pc r = GStart -> c_mut y = None -> c_closed y = false -> c_wclosed y = true -> panics cfg y (XRun g) PCloseClosedWrite
| pa_end : c_p y = PMust false -> c_closed y = false -> c_wclosed y = true -> panics cfg y XFinish PCloseClosedWrite
| pa_nil g r k ch : c_gs y !! g = Some r -> g_pc r = GWait k ch -> h_is_closed y ch = true -> (forall u, k <> FFrame u) -> panics cfg y (XRun g) PNilResponse
| pa_gclose g r s c res b p : c_gs y !! g = Some r -> g_pc r = GClose s c res -> c_subs y !! s = Some b -> close_step b c = Some (inl p) -> panics cfg y (XRun g) p
| pa_puterr g r s b : c_gs y !! g = Some r -> g_pc r = GPutErr s -> c_subs y !! s = Some b -> b_cclosed b = true -> panics cfg y (XRun g) PSendClosedC
| pa_in f l id k ch : c_p y = PLoop -> c_rch y = Some f :: l -> routes f id k -> c_map y !! id = Some ch -> h_is_closed y ch = true -> panics cfg y XTakeRead PSendClosedResp
| pa_unsub q l w ch : c_p y = PLoop -> c_wch y = q :: l -> local_only (q_frame q) = true -> f_cmd (q_frame q) = UNSUBSCRIBE ->
    remember (c_map y) q !! first_of (f_hdr (q_frame q)) h_reply_to = Some ch -> h_is_closed y ch = true -> panics cfg y (XTakeWrite w) PCloseClosedResp
| pa_pick i f rest err k ch : c_p y = PBcast f rest err -> rest !! i = Some (k, ch) -> h_is_closed y ch = true -> panics cfg y (XPick i) PSendClosedResp
| pa_loop_put s b m : c_subs y !! s = Some b -> b_rl b = RlPut m -> b_cclosed b = true -> panics cfg y (XLoop s) PSendClosedC
| pa_loop_close s b c p : c_subs y !! s = Some b -> b_rl b = RlClose c -> close_step b c = Some (inl p) -> panics cfg y (XLoop s) p.
Lemma put_c_closed b m p : put_c b m = Some (inl p) -> b_cclosed b = true.
Proof. unfold put_c. destruct (b_cclosed b); [done|]. by destruct (decide _). Qed.
Lemma cstep_panics cfg y a p : cstep cfg y a = Some (CPanic p) -> panics cfg y a p.
Proof.
  destruct a as [o|g|g|f| | |w| |w|i| | |s|s]; cbn [cstep].
  - by destruct (op_ok o).
  - unfold do_run. destruct (c_gs y !! g) as [r|] eqn:Hg; [|done]. destruct (g_pc r) as [|u f|k q|k ch|s c res|s res|s|s|s|s|res] eqn:Hpc.
    + unfold do_start. destruct (g_op r) as [f|f|f|s f|rid|] eqn:Ho; try done.
      * destruct (c_mut y); [done|]. destruct (c_closed y); [done|]. by destruct f.
      * destruct (c_mut y); [done|]. destruct (c_closed y); [done|]. by destruct f as [[[? ?] ?]|].
      * destruct (c_subs y !! s) as [b|]; [|done]. destruct (b_state b); try done. by destruct f.
      * destruct (c_mut y); [done|]. by destruct (c_closed y).
      * destruct (c_mut y) eqn:Hm; [done|]. destruct (c_closed y) eqn:Hc; [done|]. destruct (c_wclosed y) eqn:Hw; [|done]. intros [= <-]. by eapply pa_must.
    + unfold do_frame. destruct (c_mut y); [done|]. by destruct (c_closed y).
    + unfold do_put. destruct (c_wclosed y) eqn:Hw; [intros [= <-]; by eapply pa_put|]. by destruct (decide _).
    + destruct (h_is_closed y ch) eqn:Hh; [|done]. unfold do_answer. destruct k; try done; intros [= <-]; by eapply pa_nil.
    + destruct (c_subs y !! s) as [b|] eqn:Hb; [|done]. destruct (close_step b c) as [[p'|[b' o]]|] eqn:Hc; try done. intros [= <-]. by eapply pa_gclose.
    + destruct (c_subs y !! s) as [b|]; [|done]. by destruct (b_state b).
    + by destruct (c_subs y !! s) as [b|].
    + destruct (c_subs y !! s) as [b|]; [|done]. by case_bool_decide.
    + destruct (c_subs y !! s) as [b|]; [|done]. by destruct (b_state b).
    + destruct (c_subs y !! s) as [b|] eqn:Hb; [|done]. destruct (put_c b (CmErr None)) as [[p'|b']|] eqn:Hp; try done. intros [= <-].
      rewrite (put_c_panic _ _ _ Hp). eapply pa_puterr; [done..|by eapply put_c_closed].
    + done.
  - unfold do_timeout. destruct (c_gs y !! g) as [r|]; [|done]. destruct (g_pc r) as [| |[]|[]| | | | | | |]; try done; by repeat match goal with |- context [if ?b then _ else _] => destruct b end.
  - destruct (c_rclosed y); [done|]. by destruct (decide _).
  - by destruct (c_rclosed y).
  - unfold do_take_read. destruct (c_p y) eqn:Hp; try done. destruct (c_rch y) as [|[f|] l] eqn:Hr; [by destruct (c_rclosed y)| |done].
    cbn [with_log with_rch c_map]. destruct (decide (f_cmd f = RECEIPT)) as [Ec|Ec].
    + destruct (hd_contains (f_hdr f) h_receipt_id) as [id|] eqn:Hid; [|done]. destruct (c_map y !! id) as [ch|] eqn:Hm; [|done].
      unfold p_send. match goal with |- context [h_is_closed ?z ch] => change (h_is_closed z ch) with (h_is_closed y ch) end.
      destruct (h_is_closed y ch) eqn:Hh; [|done]. intros [= <-]. eapply pa_in; try done. by constructor.
    + destruct (decide (f_cmd f = ERROR)); [done|]. destruct (decide (f_cmd f = MESSAGE)); [|done].
      destruct (hd_contains (f_hdr f) h_subscription) as [id|] eqn:Hid; [|done]. destruct (c_map y !! id) as [ch|] eqn:Hm; [|done].
      unfold p_send. match goal with |- context [h_is_closed ?z ch] => change (h_is_closed z ch) with (h_is_closed y ch) end.
      destruct (h_is_closed y ch) eqn:Hh; [|done]. intros [= <-]. eapply pa_in; try done. by constructor.
  - unfold do_take_write. destruct (c_p y) eqn:Hp; try done. destruct (c_wch y) as [|q l] eqn:Hw; [by destruct (c_wclosed y)|].
    destruct (local_only (q_frame q)) eqn:Hl; [|by destruct w]. destruct (decide (f_cmd (q_frame q) = UNSUBSCRIBE)) as [Eu|]; [|done].
    destruct (remember (c_map y) q !! _) as [ch|] eqn:Hm; [|done].
    match goal with |- context [h_is_closed ?z ch] => change (h_is_closed z ch) with (h_is_closed y ch) end.
    destruct (h_is_closed y ch) eqn:Hh; [|done]. intros [= <-]. by eapply pa_unsub.
  - unfold do_read_timeout. destruct (c_p y); try done. by destruct (k_read_to cfg).
  - unfold do_beat. destruct (c_p y); try done. by destruct (k_write_to cfg).
  - unfold do_pick. destruct (c_p y) as [| |f rest err| |] eqn:Hp; try done. destruct (rest !! i) as [[k ch]|] eqn:Hi; [|done]. unfold p_send. cbn [snd].
    destruct (h_is_closed y ch) eqn:Hh; [|done]. intros [= <-]. by eapply pa_pick.
  - unfold do_deliver. destruct (c_p y) as [|ch f k| | |]; try done. destruct (c_chs y !! ch) as [h|]; [|done]. destruct (h_owner h) as [g|s].
    + destruct (c_gs y !! g) as [r|]; [|done]. destruct (g_pc r) as [| | |w ch'| | | | | | |]; try done. destruct (decide (ch' = ch)); [|done]. by destruct w.
    + destruct (c_subs y !! s) as [b|]; [|done]. by destruct (b_rl b).
  - unfold do_finish. destruct (c_p y) as [| |f [|] err|err|] eqn:Hp; try done. destruct (c_mut y); [done|]. destruct err; [done|].
    destruct (c_closed y) eqn:Hc; [done|]. destruct (c_wclosed y) eqn:Hw; [|done]. intros [= <-]. by apply pa_end.
  - unfold do_loop. destruct (c_subs y !! s) as [b|] eqn:Hb; [|done]. destruct (b_rl b) as [|m|c|] eqn:Hrl; try done.
    + by destruct (h_is_closed y (b_ch b)).
    + destruct (put_c b m) as [[p'|b']|] eqn:Hp; try done. intros [= <-]. rewrite (put_c_panic _ _ _ Hp). eapply pa_loop_put; [done..|by eapply put_c_closed].
    + destruct (close_step b c) as [[p'|[b' [o|]]]|] eqn:Hc; try done. intros [= <-]. by eapply pa_loop_close.
  - unfold do_consume. destruct (c_subs y !! s) as [b|]; [|done]. by destruct (b_buf b).
Qed.
Lemma no_write_panic A cfg y a : creach A cfg y -> cstep cfg y a <> Some (CPanic PSendClosedWrite) /\ cstep cfg y a <> Some (CPanic PCloseClosedWrite).
Proof.
  intros Hr. pose proof (reach_lock _ _ _ Hr) as HL. split; intros H%cstep_panics.
  - inversion H as [g r k q Hg Hp Hw| | | |g r s c res b p Hg Hp Hb Hc| | | | | |s b c p Hb Hrl Hc]; subst.
    + by rewrite (put_open _ _ _ _ _ _ _ Hr Hg Hp) in Hw.
    + by apply close_step_panic in Hc as [?|?].
    + by apply close_step_panic in Hc as [?|?].
  - inversion H as [|g r Hg Hp Hm Hc Hw|Hp Hc Hw| |g r s c res b p Hg Hp Hb Hc| | | | | |s b c p Hb Hrl Hc]; subst.
    + apply (lk_w _ HL) in Hw. congruence.
    + apply (lk_w _ HL) in Hw. congruence.
    + by apply close_step_panic in Hc as [?|?].
    + by apply close_step_panic in Hc as [?|?].
Qed.

(* ---------------- closed ---------------- *)
(** Disconnect that returned nil or timed out, or MustDisconnect that returned:
    the flag is set. *)
Definition ends_closed (o : op) (x : gpc) : Prop := match o, x with ODisconnect _, GDone RNil | ODisconnect _, GDone (RErr EReceiptTimeout) | OMust, GDone _ => True | _, _ => False end.
Definition closedinv (y : cl) : Prop := forall g r, c_gs y !! g = Some r -> ends_closed (g_op r) (g_pc r) -> c_closed y = true.
Lemma cmv_closed cfg y a y' : cmv cfg y a y' -> c_closed y = true -> c_closed y' = true.
Proof.
  destruct 1; cbn; try done.
  - unfold submit. by destruct own.
  - by destruct (put_next k (q_chan q)).2.
  - by destruct w.
  - assert (c_closed (after_send y ch k) = c_closed y) as E by (by destruct k as [| |? ? []]). intros Hc. rewrite <-E in Hc. match goal with H : answers _ _ _ _ _ |- _ => by destruct H end.
  - by destruct k as [| |? ? []].
Qed.
Lemma closedinv_g y g r x : closedinv y -> c_gs y !! g = Some r -> (ends_closed (g_op r) x -> c_closed y = true) -> closedinv (with_g y g x).
Proof. intros HI Hg Hx j r' [[_ Hj]|(-> & r0 & Hr0 & ->)]%with_g_lookup; cbn; [by apply (HI _ _ Hj)|]. by simplify_eq. Qed.
Lemma frame_done_ends o u f r : kind_ok o (FFrame u) f -> ~ ends_closed o (frame_done u r).
Proof. destruct u as [s|]; cbn; intros ->; cbn; tauto. Qed.
Lemma closed_step cfg y a y' : cmv cfg y a y' -> calls_ok y -> closedinv y -> closedinv y'.
Proof.
  intros Hm HC HI. destruct Hm; try exact HI; try (by intros g0 r0 Hg0 He).
  - intros g r [[_ Hg]|[-> ->]]%snoc_lookup; [by apply (HI _ _ Hg)|]. cbn. by destruct o.
  - apply (closedinv_g _ _ _ _ HI H). pose proof (HC _ _ H) as Hp. destruct H0; cbn; try done; try (by destruct (g_op r)).
    + intros He. match goal with H : bad_option _ |- _ => destruct H as [E|E] end; by rewrite E in He.
    + intros He. destruct Hp as [(f & Hf & _) _]. by apply (frame_done_ends _ _ _ _ Hf) in He.
    + intros He. destruct Hp as [(f & Hf & _) _]. by apply (frame_done_ends _ _ _ _ Hf) in He.
    + intros He. destruct Hp as [f Hf]. by rewrite Hf in He.
    + intros He. destruct Hp as [f Hf]. by rewrite Hf in He.
  - eapply closedinv_g; [exact HI|exact H|]. pose proof (HC _ _ H) as Hp. rewrite H0 in Hp. destruct Hp as [-> _]. done.
  - eapply closedinv_g; [exact HI|exact H|]. pose proof (HC _ _ H) as Hp. rewrite H0 in Hp. destruct Hp as [(f & -> & _) _]. done.
  - eapply (closedinv_g (with_subs y _)); [exact HI|exact H|]. rewrite H1. by destruct f.
  - assert (closedinv (with_g y g (GPut k (mkReq g f (match own with Some _ => Some (length (c_chs y)) | None => None end))))) as HX by (eapply closedinv_g; [exact HI|exact H|by destruct (g_op r)]).
    unfold submit. by destruct own.
  - eapply (closedinv_g (with_mut (with_chs (with_subs y _) _) _)); [exact HI|exact H|]. by rewrite H1.
  - pose proof (HC _ _ H) as Hp. rewrite H0 in Hp. destruct Hp as [Hk Hq].
    assert (closedinv (with_g y g (put_next k (q_chan q)).1)) as HX; [|by destruct (put_next k (q_chan q)).2].
    apply (closedinv_g _ _ _ _ HI H). intros He. exfalso. destruct k as [|u|s|]; cbn in Hk, He.
    + rewrite Hk in He. by destruct (q_chan q).
    + destruct (q_chan q); [by destruct (g_op r)|]. eapply frame_done_ends; [exact Hk|done].
    + destruct Hk as (id & rt & E). by rewrite E in He.
    + destruct Hk as (rid & E & Ef). rewrite E in He. destruct (q_chan q) as [ch|] eqn:Ech; [done|].
      assert (is_Some (None : option nat)) as [? ?] by (apply Hq; rewrite Ef; by vm_compute). done.
  - eapply (closedinv_g (with_subs y _)); [exact HI|exact H|]. pose proof (HC _ _ H) as Hp. rewrite H0 in Hp. destruct Hp as [(f & ->) ->]. by destruct o.
  - eapply (closedinv_g (with_subs y _)); [exact HI|exact H|]. by destruct (g_op r).
  - eapply (closedinv_g (with_subs y _)); [exact HI|exact H|]. pose proof (HC _ _ H) as Hp. rewrite H0 in Hp. destruct Hp as (f & ->). done.
  - by destruct w.
  - pose proof (HC _ _ H2) as Hp. rewrite H3 in Hp. set (y1 := with_log (after_send y ch k) (PvTold ch f)) in *.
    assert (closedinv y1) as HI1 by (subst y1; by destruct k as [id| |fe rest []]).
    assert (c_gs y1 !! g = Some r) as Hg1 by (subst y1; cbn [with_log c_gs]; by rewrite after_send_gs).
    destruct Hp as [(f0 & Hf & _) Hns]. destruct H4 as [u|w Hw|Hc|Hc].
    + apply (closedinv_g _ _ _ _ HI1 Hg1). intros He. by apply (frame_done_ends _ _ _ _ Hf) in He.
    + eapply (closedinv_g (with_mut y1 None)); [exact HI1|exact Hg1|]. destruct Hw as [->|[s ->]]; [|done]. cbn in Hf. by rewrite Hf.
    + intros ? ? ? ?. done.
    + eapply (closedinv_g (with_mut y1 None)); [exact HI1|exact Hg1|]. destruct Hf as (rid & -> & _). done.
  - destruct k as [id| |fe rest []]; exact HI.
Qed.
Lemma reach_closed A cfg y : creach A cfg y -> closedinv y.
Proof. induction 1 as [|y a y' Hr IH _ Hs]; [done|]. eapply closed_step; [by apply cstep_cmv|by eapply reach_calls|done]. Qed.

Definition closed_pc (o : op) (x : gpc) : Prop := match x with GStart | GFrame _ _ | GClose _ _ _ => True | GDone r => closed_result o r | _ => False end.
Record latter (n : nat) (y : cl) : Prop := {
  la_closed : c_closed y = true;
  la_pc : forall j r, n <= j -> c_gs y !! j = Some r -> closed_pc (g_op r) (g_pc r);
  la_req : forall q, known y q -> q_by q < n }.
Lemma latter_pc_g n y g r x : (forall j r, n <= j -> c_gs y !! j = Some r -> closed_pc (g_op r) (g_pc r)) -> c_gs y !! g = Some r ->
  (n <= g -> closed_pc (g_op r) x) -> forall j r', n <= j -> c_gs (with_g y g x) !! j = Some r' -> closed_pc (g_op r') (g_pc r').
Proof. intros HI Hg Hx j r' Hj [[_ Hj']|(-> & r0 & Hr0 & ->)]%with_g_lookup; cbn; [by apply (HI _ _ Hj Hj')|]. simplify_eq. by apply Hx. Qed.
Lemma frame_done_closed o u f : kind_ok o (FFrame u) f -> closed_pc o (frame_done u (RErr EClosedUnexpectedly)).
Proof. destruct u as [s|]; cbn; [done|]. by intros ->. Qed.
Lemma latter_step n cfg y a y' : cmv cfg y a y' -> calls_ok y -> reqinv y -> latter n y -> latter n y'.
Proof.
  intros Hm HC HR [L1 L2 L3]. constructor.
  - by eapply cmv_closed.
  - assert (HN : forall g r, n <= g -> c_gs y !! g = Some r -> closed_pc (g_op r) (g_pc r)) by exact L2.
    destruct Hm; try exact L2; try congruence.
    + intros j r Hj [[_ Hg]|[-> ->]]%snoc_lookup; [by apply (L2 _ _ Hj Hg)|done].
    + apply (latter_pc_g _ _ _ _ _ L2 H). intros Hn. specialize (HN _ _ Hn H). pose proof (HC _ _ H) as Hp. destruct H0; cbn in HN |- *; try done; try congruence.
      * destruct (g_op r); cbn in *; try done; congruence.
      * rewrite H0. by left.
      * by eapply frame_done_closed.
    + eapply (latter_pc_g n (with_mut y None)); [exact L2|exact H|]. intros Hn. specialize (HN _ _ Hn H). by rewrite H0 in HN.
    + eapply (latter_pc_g n (with_mut y None)); [exact L2|exact H|]. intros Hn. specialize (HN _ _ Hn H). by rewrite H0 in HN.
    + eapply (latter_pc_g n (with_mut (with_closed y) None)); [exact L2|exact H|]. intros Hn. specialize (HN _ _ Hn H). by rewrite H0 in HN.
    + eapply (latter_pc_g n (with_subs y _)); [exact L2|exact H|]. intros Hn. rewrite H1. destruct f; cbn; auto.
    + eapply (latter_pc_g n (if (put_next k (q_chan q)).2 then with_wch y (c_wch y ++ [q]) else with_mut (with_wch y (c_wch y ++ [q])) None)).
      * by destruct (put_next k (q_chan q)).2.
      * by destruct (put_next k (q_chan q)).2.
      * intros Hn. specialize (HN _ _ Hn H). by rewrite H0 in HN.
    + eapply (latter_pc_g n (with_subs y _)); [exact L2|exact H|]. intros Hn. pose proof (HC _ _ H) as Hp. rewrite H0 in Hp. destruct Hp as [(f & ->) ->]. destruct o; cbn; auto.
    + eapply (latter_pc_g n (with_subs y _)); [exact L2|exact H|]. intros Hn. specialize (HN _ _ Hn H). by rewrite H0 in HN.
    + eapply (latter_pc_g n (with_subs y _)); [exact L2|exact H|]. intros Hn. specialize (HN _ _ Hn H). by rewrite H0 in HN.
    + by destruct w.
    + assert (n <= g -> False) as Hlt by (intros Hn; specialize (HN _ _ Hn H2); by rewrite H3 in HN).
      set (y1 := with_log (after_send y ch k) (PvTold ch f)) in *.
      assert (c_gs y1 = c_gs y) as E1 by (subst y1; cbn [with_log c_gs]; apply after_send_gs).
      assert (forall j r, n <= j -> c_gs y1 !! j = Some r -> closed_pc (g_op r) (g_pc r)) as L2' by (by rewrite E1). assert (c_gs y1 !! g = Some r) as Hg1 by (by rewrite E1).
      destruct H4; (eapply latter_pc_g; [exact L2'|exact Hg1|by intros ?%Hlt]).
    + destruct k as [id| |fe rest []]; exact L2.
  - intros q Hq. destruct (cmv_known _ _ _ _ _ Hm Hq) as [Hq'|[]]; [by apply L3|congruence..].
Qed.
Lemma latter_run n cfg y l y' : creach anything cfg y -> latter n y -> crun cfg y l = Some (COk y') -> latter n y'.
Proof.
  revert y. induction l as [|a l IH]; intros y Hr HL; cbn [crun]; [by intros [= <-]|]. destruct (cstep cfg y a) as [[p|y1]|] eqn:E; try done.
  apply IH; [by eapply cr_step|]. eapply latter_step; [by apply cstep_cmv|by eapply reach_calls|by eapply reach_req|done].
Qed.
Lemma latter_start cfg y : creach anything cfg y -> c_closed y = true -> latter (length (c_gs y)) y.
Proof.
  intros Hr Hc. constructor; [done| |].
  - intros j r Hj Hg%lookup_lt_Some. lia.
  - intros q Hq. destruct (rq_ok _ (reach_req _ _ _ Hr) _ Hq) as (r & Hg%lookup_lt_Some & _). done.
Qed.
