(** Proofs about silent peers. *)
From stdpp Require Import gmap.
From Verif Require Import GoBase HeaderModel FrameModel GrammarSpec NegotiationModel TimerModel AliveModel AliveProofs SilentModel SilentSpec.
From Verif Require CodecProofs ClientModel ClientLemmas ClientChannels.
Local Open Scope Z.

Lemma runs_reach A cfg R t0 s h : runs A cfg R t0 s h -> rcreach A cfg R s.
Proof.
  induction 1; [apply rr_init|by apply rr_wait|by apply rr_busy|by eapply rr_writing|by eapply rr_written|by apply rr_step].
Qed.
Lemma reach_runs A cfg R s : rcreach A cfg R s -> exists t0 h, runs A cfg R t0 s h.
Proof.
  induction 1 as [t0|s d _ (t0 & h & IH)|s d _ (t0 & h & IH)|s st d _ (t0 & h & IH)|s st _ (t0 & h & IH)|s a y' slow _ (t0 & h & IH)].
  - exists t0, 0. constructor.
  - exists t0, h. by apply ru_wait.
  - exists t0, (h + d). by apply ru_busy.
  - exists t0, (h + d). by apply ru_writing.
  - exists t0, h. by apply ru_written.
  - exists t0, h. by apply ru_step.
Qed.

(** Taking something from readCh, or noticing that it is closed. *)
Lemma take_read cfg y y' : ClientLemmas.cmv cfg y ClientModel.XTakeRead y' -> ClientModel.c_rch y <> [] \/ ClientModel.c_rch y' = [] /\ ~ at_select y' /\ ~ handing y'.
Proof.
  inversion 1; subst; try (left; congruence); [by destruct t|]. right. split_and!; [by cbn|by cbn|].
  intros (ch & f & k & Hp & _). done.
Qed.

Record hinv (R t0 : Z) (s : rcl) (h : Z) : Prop := mkHinv {
  hi_held : 0 <= h;
  hi_sign : last_sign t0 s <= rc_now s;
  hi_timer : forall dl, rc_timer s = Some dl -> dl <= last_sign t0 s + R + h;
  hi_now : rc_now s <= last_sign t0 s + R + h;
  hi_fresh : ClientModel.c_rch (rc_y s) <> [] \/ handing (rc_y s) -> rc_now s <= last_sign t0 s + h }.
Lemma hinv_runs A cfg R t0 s h : 0 < R -> runs A cfg R t0 s h -> hinv R t0 s h.
Proof.
  intros HR. induction 1 as [|s h d Hr [I1 I2 I3 I4 I5] Hd Hs Hw Hrch Hdl|s h d Hr [I1 I2 I3 I4 I5] Hd Hs|s h st d Hr [I1 I2 I3 I4 I5] Hd Hw|s h st Hr [I1 I2 I3 I4 I5] Hw|s h a y' slow Hr [I1 I2 I3 I4 I5] HA Hla Hrt Hslow Hc].
  - split; cbn; [lia|lia|intros dl [= <-]; lia|lia|]. intros _. lia.
  - destruct (ri_timer _ _ (rinv_reach _ _ _ _ HR (runs_reach _ _ _ _ _ _ Hr)) Hs) as (dl & Et & _). specialize (Hdl dl Et). pose proof (I3 dl Et) as H3.
    set (s' := mkRcl _ _ _ _ _ _). assert (last_sign t0 s' = last_sign t0 s) as EL by done. split; rewrite ?EL; cbn [s' rc_now rc_timer rc_heard rc_y]; [done|lia|done|lia|]. intros [H|H]; [done|].
    destruct H as (ch & f & k & Hp & _). unfold at_select in Hs. congruence.
  - set (s' := mkRcl _ _ _ _ _ _). assert (last_sign t0 s' = last_sign t0 s) as EL by done. split; rewrite ?EL; cbn [s' rc_now rc_timer rc_heard rc_y]; [lia|lia| |lia|]; [intros dl H; specialize (I3 dl H); lia|intros H; specialize (I5 H); lia].
  - set (s' := mkRcl _ _ _ _ _ _). assert (last_sign t0 s' = last_sign t0 s) as EL by done. split; rewrite ?EL; cbn [s' rc_now rc_timer rc_heard rc_y]; [lia|lia| |lia|]; [intros dl H; specialize (I3 dl H); lia|intros H; specialize (I5 H); lia].
  - by split.
  - pose proof (ClientLemmas.cstep_cmv _ _ _ _ Hc) as Hm. pose proof (rinv_reach _ _ _ _ HR (runs_reach _ _ _ _ _ _ Hr)) as RI.
    set (s' := mkRcl _ _ _ _ _ _).
    assert (HL : last_sign t0 s <= last_sign t0 s' <= rc_now s).
    { assert (last_sign t0 s' = last_sign t0 s \/ last_sign t0 s' = rc_now s) as [-> | ->]; [|lia|lia].
      unfold last_sign, s'. cbn [rc_heard]. destruct a; rewrite ?app_nil_r; try (by left). right. by rewrite last_snoc. }
    assert (HV : (exists f, a = ClientModel.XRecv f) -> last_sign t0 s' = rc_now s). { intros [f ->]. unfold last_sign, s'. cbn [rc_heard]. by rewrite last_snoc. }
    split.
    + done.
    + change (last_sign t0 s' <= rc_now s). lia.
    + change (forall dl, read_timer R (rc_now s) (rc_timer s) a y' = Some dl -> dl <= last_sign t0 s' + R + h). intros dl Hdl. assert (Hread : a = ClientModel.XTakeRead \/ a <> ClientModel.XTakeRead) by (destruct a; (by left) || (by right)).
      assert (G : read_timer R (rc_now s) (rc_timer s) a y' = Some dl) by exact Hdl. clear Hdl. unfold read_timer in G.
      destruct Hread as [->|Hna].
      * destruct (ClientModel.c_p y') eqn:Hp; try done. injection G as <-. destruct (take_read _ _ _ Hm) as [H|(_ & H & _)]; [|done].
        specialize (I5 (or_introl H)). lia.
      * assert (match rc_timer s with Some dl => Some dl | None => match ClientModel.c_p y' with ClientModel.PLoop => Some (rc_now s + R) | _ => None end end = Some dl) as G' by (by destruct a). clear G.
        destruct (rc_timer s) as [dl0|] eqn:Et; [injection G' as <-; specialize (I3 dl0 eq_refl); lia|].
        destruct (ClientModel.c_p y') eqn:Hp; try done. injection G' as <-.
        assert (Hn : ~ at_select (rc_y s)). { intros Hs. destruct (ri_timer _ _ RI Hs) as (dl & E & _). congruence. }
        assert (Hh : handing (rc_y s)) by (apply (pmove_handing _ y'); [exact (ClientChannels.cmv_pmove _ _ _ _ Hm)|done|done]).
        specialize (I5 (or_intror Hh)). lia.
    + change (rc_now s <= last_sign t0 s' + R + h). lia.
    + change (ClientModel.c_rch y' <> [] \/ handing y' -> rc_now s <= last_sign t0 s' + h). intros H.
      assert (Hread : a = ClientModel.XTakeRead \/ a <> ClientModel.XTakeRead) by (destruct a; (by left) || (by right)).
      destruct Hread as [->|Hna].
      * destruct (take_read _ _ _ Hm) as [H0|(H0 & _ & H1)]; [specialize (I5 (or_introl H0)); lia|]. by destruct H.
      * destruct H as [H|H].
        -- destruct (cmv_rch _ _ _ _ Hm Hna) as [E|(f & -> & _)]; [rewrite E in H; specialize (I5 (or_introl H)); lia|]. rewrite HV by (by eexists). lia.
        -- destruct (cmv_hands _ _ _ _ Hm H) as [H0|]; [|done]. specialize (I5 (or_intror H0)). lia.
Qed.

(** The server. *)
Lemma silent_late s : sr_wait s <> 0 -> silent_until (sr_start s + sr_wait s * 2) (sr_left s) -> too_late s (sr_start s + sr_wait s * 2).
Proof.
  intros Hw Hs. unfold too_late, sr_deadline. rewrite decide_False by done. split; [done|]. intros it t rest (pre & c & E & _)%next_item_text.
  apply (Hs t c). rewrite E. apply elem_of_app. right. left.
Qed.
