(** closeChannel: once per subscription, and who may be in the way. *)
From stdpp Require Import gmap.
From Verif Require Import GoBase HeaderModel FrameModel HeaderProofs NegotiationModel ClientApiModel ClientModel ClientSpec ClientLemmas ClientProofs ClientRequests ClientCalls ClientChannels ClientReceipts ClientDelivery ClientMessages ClientFinal.

(** The call is past the compare-and-swap of Unsubscribe for s, and not done. *)
Definition unsubbing (s : nat) (x : gpc) : Prop :=
  match x with
  | GFrame (Some s') _ | GPut (FFrame (Some s')) _ | GWait (FFrame (Some s')) _ | GClose s' _ _ | GLoad s' _ | GReg s' | GBlocked s' | GExpired s' | GPutErr s' => s' = s
  | _ => False
  end.
Definition hot (c : clpc) : Prop := match c with Cl1 _ => False | _ => True end.
Definition rl_hot (x : rlpc) : Prop := match x with RlClose c => hot c | _ => False end.
Definition g_hot (s : nat) (x : gpc) : Prop := match x with GClose s' c _ => s' = s /\ hot c | _ => False end.
(** An Unsubscribe call that closed C itself. *)
Definition closed_it (y : cl) (s : nat) : Prop := exists g r f, c_gs y !! g = Some r /\ g_op r = OUnsub s (Some f) /\ g_pc r = GDone (RErr EClosedUnexpectedly).

Record closing (gs : list gor) (s : nat) (b : csub) : Prop := {
  cg_active : b_state b = SubActive -> forall g r, gs !! g = Some r -> ~ unsubbing s (g_pc r);
  cg_one : forall g g' r r', gs !! g = Some r -> gs !! g' = Some r' -> unsubbing s (g_pc r) -> unsubbing s (g_pc r') -> g = g';
  cg_idle : b_once b <> OnceRunning -> ~ rl_hot (b_rl b) /\ forall g r, gs !! g = Some r -> ~ g_hot s (g_pc r);
  cg_two : rl_hot (b_rl b) -> forall g r, gs !! g = Some r -> ~ g_hot s (g_pc r);
  cg_flag : b_cclosed b = true <-> b_once b = OnceDone;
  cg_state : b_cclosed b = true -> b_state b = SubClosed;
  cg_late : b_once b = OnceRunning -> rl_hot (b_rl b) \/ exists g r, gs !! g = Some r /\ g_hot s (g_pc r);
  cg_last : (b_rl b = RlClose Cl4 \/ exists g r x, gs !! g = Some r /\ g_pc r = GClose s Cl4 x) -> b_state b = SubClosed }.
Lemma hot_unsub s x : g_hot s x -> unsubbing s x.
Proof. destruct x; cbn; tauto. Qed.
Lemma frame_done_unsub s u r : unsubbing s (frame_done u r) -> u = Some s.
Proof. destruct u as [s'|]; cbn; [|tauto]. destruct r as [| |[]]; cbn; congruence. Qed.
Lemma frame_done_cold s u r : ~ g_hot s (frame_done u r).
Proof. destruct u as [s'|]; cbn; [|tauto]. destruct r as [| |[]]; cbn; tauto. Qed.
Lemma gstep_unsub cfg y a g o x x' s : gstep cfg y a g o x x' -> unsubbing s x' -> unsubbing s x /\ ~ g_hot s x'.
Proof.
  intros H HU. destruct H as [t x x' _ Hm|q _|ch _|ch _|_|x k f q Hs _|k q|ch f k w _ _]; try done.
  - destruct Hm; cbn in HU |- *; try done; try tauto; (apply frame_done_unsub in HU as ->; split; [done|apply (frame_done_cold _ (Some _))]).
  - destruct Hs; cbn in HU |- *; try done. destruct u; tauto.
  - destruct k as [|u|n|]; cbn in HU |- *; try (by destruct (q_chan q)). destruct (q_chan q) as [ch|]; cbn in HU |- *; [destruct u; tauto|].
    apply frame_done_unsub in HU as ->. split; [done|apply (frame_done_cold _ (Some _))].
  - unfold answer_pc in *. destruct w as [|u|n|]; try done. apply frame_done_unsub in HU as E. subst u. split; [done|apply frame_done_cold].
Qed.
Lemma gstep_cold cfg y a g o x x' s : gstep cfg y a g o x x' -> ~ g_hot s x.
Proof. intros H. destruct H as [t x x' _ Hm|q _|ch _|ch _|_|x k f q Hs _|k q|ch f k w _ _]; cbn; try tauto; [destruct Hm|destruct Hs]; cbn; tauto. Qed.

(** Changes of the calls that do not concern s. *)
Record aside (gs gs' : list gor) (s : nat) : Prop := {
  as_unsub : forall g r', gs' !! g = Some r' -> unsubbing s (g_pc r') -> exists r, gs !! g = Some r /\ unsubbing s (g_pc r);
  as_hot : forall g r', gs' !! g = Some r' -> g_hot s (g_pc r') -> exists r, gs !! g = Some r /\ g_pc r = g_pc r';
  as_keep : forall g r, gs !! g = Some r -> g_hot s (g_pc r) -> exists r', gs' !! g = Some r' /\ g_pc r' = g_pc r }.
Lemma closing_gs gs gs' s b : aside gs gs' s -> closing gs s b -> closing gs' s b.
Proof.
  intros [A1 A2 A3] [C1 C2 C3 C4 C5 C6 C7 C8]. constructor; try done.
  - intros Hst g r' Hg HU. destruct (A1 _ _ Hg HU) as (r & Hr & HU0). by eapply C1.
  - intros g g' r r' Hg Hg' HU HU'. destruct (A1 _ _ Hg HU) as (r1 & Hr1 & HU1). destruct (A1 _ _ Hg' HU') as (r2 & Hr2 & HU2). by eapply C2.
  - intros Ho. destruct (C3 Ho) as [HA HB]. split; [done|]. intros g r' Hg Hh. destruct (A2 _ _ Hg Hh) as (r & Hr & E). eapply HB; [done|by rewrite E].
  - intros Ho g r' Hg Hh. destruct (A2 _ _ Hg Hh) as (r & Hr & E). eapply C4; [done..|by rewrite E].
  - intros Ho. destruct (C7 Ho) as [?|(g & r & Hg & Hh)]; [by left|]. destruct (A3 _ _ Hg Hh) as (r' & Hr' & E). right. exists g, r'. by rewrite E.
  - intros [?|(g & r' & x & Hg & E)]; [apply C8; by left|]. destruct (A2 _ _ Hg) as (r & Hr & E'); [by rewrite E|]. apply C8. right. exists g, r, x. split; [done|congruence].
Qed.
Lemma aside_g y g r x s : c_gs y !! g = Some r -> (unsubbing s x -> unsubbing s (g_pc r)) -> ~ g_hot s x -> ~ g_hot s (g_pc r) -> aside (c_gs y) (c_gs (with_g y g x)) s.
Proof.
  intros Hg H1 H2 H3. constructor.
  - intros j r' [[_ Hj]|(-> & r0 & Hr0 & ->)]%with_g_lookup HU; [by exists r'|]. simplify_eq. exists r. eauto.
  - intros j r' [[_ Hj]|(-> & r0 & Hr0 & ->)]%with_g_lookup HU; [by exists r'|]. done.
  - intros j r' Hj HU. destruct (decide (j = g)) as [->|Hn]; [by simplify_eq|]. exists r'. by rewrite with_g_other.
Qed.
Lemma aside_call gs o s : aside gs (gs ++ [mkGor o GStart]) s.
Proof.
  constructor.
  - intros g r' [[_ Hg]|[-> ->]]%snoc_lookup HU; [eauto|done].
  - intros g r' [[_ Hg]|[-> ->]]%snoc_lookup HU; [eauto|done].
  - intros g r Hg HU. exists r. split; [by apply lookup_app_l_Some|done].
Qed.
Lemma aside_gstep cfg y a g r x s : c_gs y !! g = Some r -> gstep cfg y a g (g_op r) (g_pc r) x -> aside (c_gs y) (c_gs (with_g y g x)) s.
Proof.
  intros Hg Hs. apply (aside_g _ _ r); [done| | |by eapply gstep_cold].
  - intros HU. by apply (gstep_unsub _ _ _ _ _ _ _ _ Hs) in HU as [? _].
  - intros Hh. pose proof (hot_unsub _ _ Hh) as HU. by apply (gstep_unsub _ _ _ _ _ _ _ _ Hs) in HU as [_ ?].
Qed.
Lemma ustep_other g o s b x b' x' s' : ustep g o s b x b' x' -> s' <> s -> (unsubbing s' x' -> unsubbing s' x) /\ ~ g_hot s' x' /\ ~ g_hot s' x.
Proof.
  intros H Hn. destruct H as [f _ _|c res b' oc _| |_ _]; cbn; try (split_and!; (done || tauto || congruence)).
  - destruct f; cbn; split_and!; try done; congruence.
  - destruct oc; cbn; split_and!; try done; try congruence; intros [? _]; congruence.
Qed.
Lemma rstep_closing y a gs s b b' : rstep y a s b b' -> closing gs s b -> closing gs s b'.
Proof.
  intros H C. destruct H as [f k _ _ Hrl|_ Hrl _|m _ Hrl _ _|c b' oc _ Hrl Hc|m l _ _].
  1,2: assert (forall o, ~ rl_hot (rl_got b o) /\ rl_got b o <> RlClose Cl4) as Hx by
    (intros o; unfold rl_got; destruct o as [f'|]; repeat (destruct (decide _)); destruct (b_state b); split; cbn; (done || tauto)).
  - destruct C as [C1 C2 C3 C4 C5 C6 C7 C8], (Hx (Some f)) as [X1 X2]. constructor; cbn [b_with_rl b_state b_once b_rl b_cclosed]; try done.
    + intros Ho. split; [done|]. by apply C3.
    + intros Ho. destruct (C7 Ho) as [Hh|?]; [by rewrite Hrl in Hh|by right].
    + intros [?|?]; [done|]. apply C8. by right.
  - destruct C as [C1 C2 C3 C4 C5 C6 C7 C8], (Hx None) as [X1 X2]. constructor; cbn [b_with_rl b_state b_once b_rl b_cclosed]; try done.
    + intros Ho. split; [done|]. by apply C3.
    + intros Ho. destruct (C7 Ho) as [Hh|?]; [by rewrite Hrl in Hh|by right].
    + intros [?|?]; [done|]. apply C8. by right.
  - destruct C as [C1 C2 C3 C4 C5 C6 C7 C8]. constructor; cbn [b_with_rl b_with_buf b_state b_once b_rl b_cclosed]; try done.
    + intros Ho. split; [cbn; tauto|]. by apply C3.
    + intros Ho. destruct (C7 Ho) as [Hh|?]; [by rewrite Hrl in Hh|by right].
    + intros [?|?]; [done|]. apply C8. by right.
  - destruct C as [C1 C2 C3 C4 C5 C6 C7 C8]. rewrite Hrl in *. destruct Hc as [m Ho|m Ho| |m Hcl Hlen| |Hcl]; constructor; cbn [b_with_rl b_with_buf b_with_once b_with_state b_state b_once b_rl b_cclosed]; try done; try (by intros; eapply C4; try done; cbn); try (by left); try (by intros [?|?]; [done|]; apply C8; by right).
    + intros _. apply C3. by rewrite Ho.
    + split; [|done]. intros Hx. apply C5 in Hx. by rewrite Ho in Hx.
    + intros _. split; [cbn; tauto|]. by apply C4.
    + intros _. apply C8. by left.
  - by destruct C as [C1 C2 C3 C4 C5 C6 C7 C8]; constructor.
Qed.

Lemma ustep_closing y g r s b b' x : c_gs y !! g = Some r -> ustep g (g_op r) s b (g_pc r) b' x -> closing (c_gs y) s b -> closing (c_gs (with_g y g x)) s b'.
Proof.
  intros Hg H C. remember (g_pc r) as x0 eqn:Hx0. destruct H as [f Ho Hst|c res b' oc Hc| |Hcl Hlen].
  - assert (aside (c_gs y) (c_gs (with_g y g (GDone (RErr EOption)))) s) as HA by (apply (aside_g _ _ r); [done|cbn; tauto..|rewrite <-Hx0; cbn; tauto]).
    destruct C as [C1 C2 C3 C4 C5 C6 C7 C8]. assert (b_cclosed b = false) as Hcf by (destruct (b_cclosed b); [by rewrite C6 in Hst|done]).
    assert (forall j r', c_gs (with_g y g (match f with None => GDone (RErr EOption) | Some f => GFrame (Some s) f end)) !! j = Some r' -> unsubbing s (g_pc r') -> j = g) as HU.
    { intros j r' [[_ Hj]|(-> & _)]%with_g_lookup HU; [|done]. exfalso. by eapply C1. }
    assert (forall j r', c_gs (with_g y g (match f with None => GDone (RErr EOption) | Some f => GFrame (Some s) f end)) !! j = Some r' -> ~ g_hot s (g_pc r')) as HH.
    { intros j r' [[_ Hj]|(-> & r0 & _ & ->)]%with_g_lookup Hh; [|by destruct f]. apply hot_unsub in Hh. by eapply C1. }
    constructor; cbn [b_with_state b_state b_once b_rl b_cclosed]; try done.
    + intros j j' r1 r2 H1 H2 U1 U2. rewrite (HU _ _ H1 U1). by rewrite (HU _ _ H2 U2).
    + intros Hn. split; [by apply C3|done].
    + congruence.
    + intros Hn. destruct (C7 Hn) as [?|(j & r' & Hj & Hh)]; [by left|]. apply hot_unsub in Hh. exfalso. by eapply C1.
    + intros [?|(j & r' & z & Hj & Hh)]; [|exfalso; eapply HH; [exact Hj|by rewrite Hh]]. rewrite C8 in Hst; [done|by left].
  - destruct C as [C1 C2 C3 C4 C5 C6 C7 C8].
    assert (unsubbing s (g_pc r)) as HUg by (by rewrite <-Hx0).
    assert (forall j r', c_gs y !! j = Some r' -> unsubbing s (g_pc r') -> j = g) as Honly by (intros j r' Hj HU; by eapply C2).
    assert (b_state b <> SubActive) as Hna by (intros Hst; by eapply C1).
    set (x := match oc with Some c' => GClose s c' res | None => GDone res end).
    assert (forall j r', c_gs (with_g y g x) !! j = Some r' -> unsubbing s (g_pc r') -> j = g) as HU.
    { intros j r' [[_ Hj]|(-> & _)]%with_g_lookup HU; [|done]. by eapply Honly. }
    assert (forall j r', c_gs (with_g y g x) !! j = Some r' -> g_hot s (g_pc r') -> j = g /\ g_pc r' = x) as HH.
    { intros j r' Hj Hh. pose proof (HU _ _ Hj (hot_unsub _ _ Hh)) as ->. rewrite (with_g_same _ _ _ _ Hg) in Hj. by injection Hj as <-. }
    assert (c_gs (with_g y g x) !! g = Some (mkGor (g_op r) x)) as Hg' by (by apply with_g_same).
    assert (hot c -> ~ rl_hot (b_rl b) /\ b_once b = OnceRunning) as Hhot.
    { intros Hc0. assert (g_hot s (g_pc r)) as Hgh by (by rewrite <-Hx0). split; [intros Hr; by eapply C4|]. destruct (b_once b) eqn:E; [|done|]; (exfalso; destruct C3 as [_ C3]; [done|by eapply C3]). }
    assert (forall j j' r1 r2, c_gs (with_g y g x) !! j = Some r1 -> c_gs (with_g y g x) !! j' = Some r2 -> unsubbing s (g_pc r1) -> unsubbing s (g_pc r2) -> j = j') as HO.
    { intros j j' r1 r2 H1 H2 U1 U2. rewrite (HU _ _ H1 U1). by rewrite (HU _ _ H2 U2). }
    assert (forall z, (exists j r' w, c_gs (with_g y g x) !! j = Some r' /\ g_pc r' = GClose s z w) -> hot z -> exists w, x = GClose s z w) as H4.
    { intros z (j & r' & w & Hj & E) Hz. destruct (HH _ _ Hj) as [-> E']; [by rewrite E|]. exists w. congruence. }
    destruct Hc as [m Ho|m Ho| |m Hcl Hlen| |Hcl]; (constructor; cbn [b_with_buf b_with_once b_with_state b_state b_once b_rl b_cclosed]; try done).
    + intros Hr. destruct C3 as [C3 _]; [by rewrite Ho|done].
    + split; [|done]. intros Hx. apply C5 in Hx. by rewrite Ho in Hx.
    + intros _. right. by exists g, (mkGor (g_op r) x).
    + intros [?|Hj]; [apply C8; by left|]. destruct (H4 Cl4 Hj I) as [? [=]].
    + intros Hn. split; [by apply C3|]. intros j r' Hj Hh. by destruct (HH _ _ Hj Hh) as [_ E]; rewrite E in Hh.
    + intros Hr j r' Hj Hh. by destruct (HH _ _ Hj Hh) as [_ E]; rewrite E in Hh.
    + intros Hn. by rewrite Ho in Hn.
    + intros [?|Hj]; [apply C8; by left|]. destruct (H4 Cl4 Hj I) as [? [=]].
    + intros Hn. by destruct (Hhot I) as [_ ?].
    + intros Hr. by destruct (Hhot I) as [? _].
    + intros _. right. by exists g, (mkGor (g_op r) x).
    + intros [?|Hj]; [apply C8; by left|]. destruct (H4 Cl4 Hj I) as [? [=]].
    + intros Hn. by destruct (Hhot I) as [_ ?].
    + intros Hr. by destruct (Hhot I) as [? _].
    + intros _. right. by exists g, (mkGor (g_op r) x).
    + intros [?|Hj]; [apply C8; by left|]. destruct (H4 Cl4 Hj I) as [? [=]].
    + intros Hn. by destruct (Hhot I) as [_ ?].
    + intros Hr. by destruct (Hhot I) as [? _].
    + intros _. right. by exists g, (mkGor (g_op r) x).
    + intros _. split; [by destruct (Hhot I)|]. intros j r' Hj Hh. by destruct (HH _ _ Hj Hh) as [_ E]; rewrite E in Hh.
    + intros Hr. by destruct (Hhot I) as [? _].
    + intros _. apply C8. right. exists g, r, res. done.
    + intros [?|Hj]; [apply C8; by left|]. destruct (H4 Cl4 Hj I) as [? [=]].
  - eapply closing_gs; [apply (aside_g _ _ r); [done|rewrite <-Hx0; done|cbn; tauto|rewrite <-Hx0; cbn; tauto]|]. by destruct C; constructor.
  - eapply closing_gs; [apply (aside_g _ _ r); [done|cbn; tauto..|rewrite <-Hx0; cbn; tauto]|]. by destruct C; constructor.
Qed.

(** Unsubscribe only runs on subscriptions that exist. *)
Definition placed (y : cl) : Prop := forall g r s, c_gs y !! g = Some r -> unsubbing s (g_pc r) -> is_Some (c_subs y !! s).
Lemma aside_placed y y' : placed y -> (forall s, is_Some (c_subs y !! s) -> is_Some (c_subs y' !! s)) -> (forall s, aside (c_gs y) (c_gs y') s) -> placed y'.
Proof. intros HP HS HA g r' s Hg HU. destruct (as_unsub _ _ _ (HA s) _ _ Hg HU) as (r & Hr & HU'). apply HS. by eapply HP. Qed.
Lemma reach_closing A cfg y : creach A cfg y -> placed y /\ forall s b, c_subs y !! s = Some b -> closing (c_gs y) s b.
Proof.
  induction 1 as [|y a y' Hr [HP HC] _ Hs]; [split; [by intros g r s ?|done]|]. apply cstep_cmv in Hs as Hm. pose proof (reach_wmove _ _ _ _ _ Hr Hm) as Hw.
  assert (forall s, is_Some (c_subs y !! s) -> is_Some (c_subs y' !! s)) as Hmono.
  { intros s [b Hb]. destruct (schange_mono _ _ _ _ (cmv_subs _ _ _ _ Hm) Hb) as (b' & Hb' & _). by exists b'. }
  destruct Hw as [E1 E2|o Ho E1 E2|g r x Hg Hx E1 E2|g r f id rt Hg Hst Ho E1 E2|s b b' Hb Hx E1 E2|g r x s b b' Hg Hb Ha Hx E1 E2].
  - unfold placed. rewrite E1, E2. done.
  - split; [eapply aside_placed; try done; intros s; rewrite E1; apply aside_call|]. intros s b. rewrite E1, E2. intros Hb. eapply closing_gs; [apply aside_call|by apply HC].
  - split; [eapply aside_placed; try done; intros s; rewrite E1; by eapply aside_gstep|]. intros s b. rewrite E1, E2. intros Hb. eapply closing_gs; [by eapply aside_gstep|by apply HC].
  - assert (forall s, aside (c_gs y) (c_gs y') s) as HA by (intros s; rewrite E1; apply (aside_g _ _ r); [done|cbn; tauto..|rewrite Hst; cbn; tauto]).
    split; [by eapply aside_placed|]. intros s b. rewrite E2. intros [[_ Hb]|[-> ->]]%snoc_lookup; [eapply closing_gs; [by apply HA|by apply HC]|].
    assert (forall j r', c_gs y' !! j = Some r' -> ~ unsubbing (length (c_subs y)) (g_pc r')) as HN.
    { intros j r' Hj HU. destruct (as_unsub _ _ _ (HA _) _ _ Hj HU) as (r0 & Hr0 & HU0). destruct (HP _ _ _ Hr0 HU0) as [? ?%lookup_lt_Some]. lia. }
    constructor; cbn; try done.
    + intros j j' r1 r2 H1 H2 U1. exfalso. exact (HN _ _ H1 U1).
    + intros _. split; [tauto|]. intros j r' Hj Hh%hot_unsub. exact (HN _ _ Hj Hh).
    + intros [?|(j & r' & z & Hj & E)]; [done|]. exfalso. eapply HN; [exact Hj|by rewrite E].
  - split; [unfold placed; rewrite E1; intros; apply Hmono; by eapply HP|]. intros j b0. rewrite E1, E2. intros [(-> & -> & _)|[Hne Hj]]%upd_sub; [eapply rstep_closing; [done|by apply HC]|by apply HC].
  - split.
    + intros j r' s' Hj HU. apply Hmono. rewrite E1 in Hj. apply with_g_lookup in Hj as [[_ Hj]|(-> & r0 & Hr0 & ->)]; [by eapply HP|].
      destruct (decide (s' = s)) as [->|Hne]; [by exists b|]. cbn in HU. eapply HP; [exact Hg|]. by eapply (ustep_other _ _ _ _ _ _ _ _ Hx Hne).
    + intros j b0. rewrite E1, E2. intros [(-> & -> & _)|[Hne Hj]]%upd_sub; [eapply ustep_closing; [done..|by apply HC]|].
      eapply closing_gs; [|by apply HC]. destruct (ustep_other _ _ _ _ _ _ _ _ Hx Hne) as (? & ? & ?). by apply (aside_g _ _ r).
Qed.

(* ---------------- who closed C ---------------- *)
Lemma closed_it_step cfg y a y' s : wmove cfg y a y' -> closed_it y s -> closed_it y' s.
Proof. intros Hw (g & r & f & Hg & Ho & Hd). exists g, r, f. split_and!; try done. by eapply done_stays. Qed.
Lemma clmove_flag b c b' o : clmove b c b' o -> b_cclosed b' = b_cclosed b \/ c = Cl4 /\ o = None /\ b_wait b' = [].
Proof. destruct 1; cbn; eauto. Qed.
Lemma reach_who A cfg y : creach A cfg y -> forall s b, c_subs y !! s = Some b -> b_cclosed b = true -> b_rl b = RlDone \/ closed_it y s.
Proof.
  induction 1 as [|y a y' Hr IH _ Hs]; [done|]. apply cstep_cmv in Hs as Hm. pose proof (reach_wmove _ _ _ _ _ Hr Hm) as Hw. pose proof (fun s => closed_it_step _ _ _ _ s Hw) as HI.
  pose proof (reach_calls _ _ _ Hr) as HC.
  assert (Hkeep : forall s b, c_subs y !! s = Some b -> b_cclosed b = true -> b_rl b = RlDone \/ closed_it y' s) by (intros s b Hb Hc; destruct (IH _ _ Hb Hc); eauto).
  intros s b'. destruct Hw as [E1 E2|o Ho E1 E2|g r x Hg Hx E1 E2|g r f id rt Hg Hst Ho E1 E2|j b b1 Hb Hx E1 E2|g r x j b b1 Hg Hb Ha Hx E1 E2]; rewrite E2; try (intros Hb; by apply Hkeep).
  - intros [[_ Hb]|[-> ->]]%snoc_lookup; [by apply Hkeep|done].
  - intros [(-> & -> & _)|[Hne Hj]]%upd_sub; [|by apply Hkeep]. destruct Hx as [f k _ _ Hrl|_ Hrl _|m _ Hrl Hcl _|c b1 oc _ Hrl Hc|m l _ Hbuf]; cbn [b_with_rl b_with_buf b_cclosed b_rl].
    + intros Hc. destruct (Hkeep _ _ Hb Hc); [congruence|by right].
    + intros Hc. destruct (Hkeep _ _ Hb Hc); [congruence|by right].
    + congruence.
    + intros Hcl. destruct (clmove_flag _ _ _ _ Hc) as [E|(-> & -> & _)]; [|by left]. rewrite E in Hcl. destruct (Hkeep _ _ Hb Hcl); [congruence|by right].
    + apply (Hkeep _ _ Hb).
  - intros [(-> & -> & _)|[Hne Hj]]%upd_sub; [|by apply Hkeep]. remember (g_pc r) as x0 eqn:Hx0. destruct Hx as [f Ho Hst|c res b1 oc Hc| |Hcl Hlen]; cbn [b_with_state b_with_wait b_with_buf b_cclosed b_rl]; try (by apply (Hkeep _ _ Hb)).
    + intros Hcl. destruct (clmove_flag _ _ _ _ Hc) as [E|(-> & -> & _)].
      * rewrite E in Hcl. rewrite (proj1 (clmove_rl _ _ _ _ Hc)). by apply (Hkeep _ _ Hb).
      * right. pose proof (HC _ _ Hg) as Hp. rewrite <-Hx0 in Hp. destruct Hp as [[f Ho] ->]. exists g, (mkGor (g_op r) (GDone (RErr EClosedUnexpectedly))), f. split_and!; try done. rewrite E1. by apply with_g_same.
Qed.

(* ---------------- C is closed once ---------------- *)
Lemma close_step_closed b c p : close_step b c = Some (inl p) -> hot c /\ b_cclosed b = true.
Proof.
  destruct c as [m|[m|]| |]; cbn [close_step hot]; try done.
  - by destruct (b_once b).
  - destruct (put_c b m) as [[p'|b']|] eqn:E; try done. intros _. split; [done|]. by eapply put_c_closed.
  - by destruct (b_cclosed b).
Qed.
Lemma hot_open A cfg y s b : creach A cfg y -> c_subs y !! s = Some b -> rl_hot (b_rl b) \/ (exists g r, c_gs y !! g = Some r /\ g_hot s (g_pc r)) -> b_cclosed b = false.
Proof.
  intros Hr Hb Hh. destruct (reach_closing _ _ _ Hr) as [_ HC]. destruct (HC _ _ Hb) as [C1 C2 C3 C4 C5 C6 C7 C8]. destruct (b_cclosed b); [|done]. exfalso.
  pose proof (proj1 C5 eq_refl) as Ho. destruct C3 as [HA HB]; [by rewrite Ho|]. destruct Hh as [Hh|(g & r & Hg & Hh)]; [done|by eapply HB].
Qed.
Lemma closers_safe A cfg y : creach A cfg y ->
  (forall g r s c x b p, c_gs y !! g = Some r -> g_pc r = GClose s c x -> c_subs y !! s = Some b -> close_step b c <> Some (inl p)) /\
  (forall s b c p, c_subs y !! s = Some b -> b_rl b = RlClose c -> close_step b c <> Some (inl p)).
Proof.
  intros Hr. split.
  - intros g r s c x b p Hg Hp Hb [Hh Hc]%close_step_closed. rewrite (hot_open _ _ _ _ _ Hr Hb) in Hc; [done|]. right. exists g, r. split; [done|]. by rewrite Hp.
  - intros s b c p Hb Hrl [Hh Hc]%close_step_closed. rewrite (hot_open _ _ _ _ _ Hr Hb) in Hc; [done|]. left. by rewrite Hrl.
Qed.
Lemma no_second_close A cfg y a : creach A cfg y -> cstep cfg y a <> Some (CPanic PCloseClosedC).
Proof.
  intros Hr H%cstep_panics. destruct (closers_safe _ _ _ Hr) as [H1 H2]. inversion H; subst; [by eapply H1|by eapply H2].
Qed.
(** Sends on a closed C come from a reading goroutine that still has a message
    after an Unsubscribe call closed C, or from an Unsubscribe call whose
    timeout expired. *)
Lemma late_sends A cfg y a : creach A cfg y -> cstep cfg y a = Some (CPanic PSendClosedC) ->
  exists s b, c_subs y !! s = Some b /\ b_cclosed b = true /\
    (closed_it y s /\ (exists m, b_rl b = RlPut m) \/ exists g r f, c_gs y !! g = Some r /\ g_op r = OUnsub s (Some f) /\ g_pc r = GPutErr s).
Proof.
  intros Hr H%cstep_panics. destruct (closers_safe _ _ _ Hr) as [H1 H2].
  inversion H as [| | | |g r s c res b p Hg Hp Hb Hc|g r s b Hg Hp Hb Hc| | | |s b m Hb Hrl Hc|s b c p Hb Hrl Hc]; subst.
  - exfalso. exact (H1 _ _ _ _ _ _ _ Hg Hp Hb Hc).
  - exists s, b. split_and!; try done. right. pose proof (reach_calls _ _ _ Hr _ _ Hg) as Hk. rewrite Hp in Hk. destruct Hk as [f Hf]. by exists g, r, f.
  - exists s, b. split_and!; try done. left. destruct (reach_who _ _ _ Hr _ _ Hb Hc) as [E|?]; [congruence|]. split; [done|by exists m].
  - exfalso. exact (H2 _ _ _ _ Hb Hrl Hc).
Qed.

(* ---------------- errors come last ---------------- *)
Definition no_err (l : list cmsg) : Prop := Forall (fun m => exists f, m = CmMsg f) l.
(** An Unsubscribe call of s that sends on C itself. *)
Definition meddles (y : cl) (s : nat) : Prop := exists g r f, c_gs y !! g = Some r /\ g_op r = OUnsub s (Some f) /\
  (g_hot s (g_pc r) \/ g_pc r = GDone (RErr EClosedUnexpectedly) \/ g_pc r = GDone (RErr EUnsubTimeout)).
Definition err_last (b : csub) : Prop :=
  no_err (b_read b ++ b_buf b) \/
  exists l o, b_read b ++ b_buf b = l ++ [CmErr o] /\ no_err l /\ (b_rl b = RlClose Cl3 \/ b_rl b = RlClose Cl4 \/ b_rl b = RlDone).
Lemma meddles_step A cfg y a y' s : creach A cfg y -> wmove cfg y a y' -> meddles y s -> meddles y' s.
Proof.
  intros Hr Hw (g & r & f & Hg & Ho & Hx).
  assert (forall x, g_pc r = GDone x -> c_gs y' !! g = Some r) as Hd by (intros x E; by eapply done_stays).
  destruct Hx as [Hh|[E|E]]; [|exists g, r, f; split_and!; try done; [by eapply Hd|auto]..].
  destruct (wmove_g _ _ _ _ _ _ Hw Hg) as [Hg'|[(z & Hz & _)|[(f' & id & rt & _ & Hz & _)|(z & s' & b & b' & Hz & _ & Hg' & _)]]].
  - exists g, r, f. auto.
  - by apply gstep_cold with (s := s) in Hz.
  - by rewrite Hz in Hh.
  - pose proof (reach_calls _ _ _ Hr _ _ Hg) as Hk. destruct (g_pc r) as [| | | |s0 c res| | | | | |] eqn:Hpc; try done. destruct Hh as [-> Hh]. destruct Hk as [_ ->].
    exists g, (mkGor (g_op r) z), f. split_and!; try done. cbn [g_pc]. inversion Hz as [|c0 res0 b0 oc Hc| |]; subst.
    destruct oc as [c'|]; [|by right; left]. left. split; [done|]. by inversion Hc; subst.
Qed.
Lemma no_err_snoc l m : no_err l -> (exists f, m = CmMsg f) -> no_err (l ++ [m]).
Proof. intros H1 H2. apply Forall_app. split; [done|]. by apply Forall_singleton. Qed.
Lemma reach_err_last A cfg y : creach A cfg y -> forall s b, c_subs y !! s = Some b -> err_last b \/ meddles y s.
Proof.
  induction 1 as [|y a y' Hr IH _ Hs]; [done|]. apply cstep_cmv in Hs as Hm. pose proof (reach_wmove _ _ _ _ _ Hr Hm) as Hw. pose proof (fun s => meddles_step _ _ _ _ _ s Hr Hw) as HI.
  assert (Hkeep : forall s b, c_subs y !! s = Some b -> err_last b \/ meddles y' s) by (intros s b Hb; destruct (IH _ _ Hb); eauto).
  intros s b'. destruct Hw as [E1 E2|o Ho E1 E2|g r x Hg Hx E1 E2|g r f id rt Hg Hst Ho E1 E2|j b b1 Hb Hx E1 E2|g r x j b b1 Hg Hb Ha Hx E1 E2]; rewrite E2; try (intros Hb; by apply Hkeep).
  - intros [[_ Hb]|[-> ->]]%snoc_lookup; [by apply Hkeep|]. left. left. by constructor.
  - intros [(-> & -> & _)|[Hne Hj]]%upd_sub; [|by apply Hkeep]. pose proof (reach_rl _ _ _ Hr _ _ Hb) as Hok.
    destruct (Hkeep _ _ Hb) as [HE|?]; [left|by right].
    destruct Hx as [f k _ _ Hrl|_ Hrl _|m _ Hrl Hcl _|c b1 oc _ Hrl Hc|m l _ Hbuf].
    + destruct HE as [?|(l & o & _ & _ & [?|[?|?]])]; [by left|congruence..].
    + destruct HE as [?|(l & o & _ & _ & [?|[?|?]])]; [by left|congruence..].
    + destruct HE as [?|(l & o & _ & _ & [?|[?|?]])]; [|congruence..]. left. cbn [b_with_rl b_with_buf b_read b_buf]. rewrite app_assoc. apply no_err_snoc; [done|].
      rewrite Hrl in Hok. destruct Hok as (f & -> & _). by exists f.
    + rewrite Hrl in Hok. destruct Hc as [m Ho|m Ho| |m Hcl Hlen| |Hcl].
      * destruct HE as [?|(l & o & _ & _ & [?|[?|?]])]; [by left|congruence..].
      * destruct HE as [?|(l & o & _ & _ & [?|[?|?]])]; [by left|congruence..].
      * destruct HE as [?|(l & o & _ & _ & [?|[?|?]])]; [by left|congruence..].
      * destruct HE as [?|(l & o & _ & _ & [?|[?|?]])]; [|congruence..]. right. destruct m as [f|o]; [done|]. exists (b_read b ++ b_buf b), o. cbn [b_with_rl b_with_buf b_read b_buf b_rl]. rewrite app_assoc. auto.
      * destruct HE as [?|(l & o & E & Hl & _)]; [by left|]. right. exists l, o. cbn. auto.
      * destruct HE as [?|(l & o & E & Hl & _)]; [by left|]. right. exists l, o. cbn. auto.
    + assert ((b_read b ++ [m]) ++ l = b_read b ++ b_buf b) as E by (rewrite Hbuf; by rewrite <-app_assoc).
      destruct HE as [?|(l' & o & E' & Hl & Hrl)]; [left|right; exists l', o]; cbn [b_read b_buf b_rl]; by rewrite E.
  - intros [(-> & -> & _)|[Hne Hj]]%upd_sub; [|by apply Hkeep]. pose proof (reach_calls _ _ _ Hr _ _ Hg) as Hk. remember (g_pc r) as x0 eqn:Hx0. destruct Hx as [f Ho Hst|c res b1 oc Hc| |Hcl Hlen]; try (by apply (Hkeep _ _ Hb)).
    + destruct Hk as [[f Ho] ->]. destruct Hc as [m Ho'|m Ho'| |m Hcl Hlen| |Hcl]; try (by apply (Hkeep _ _ Hb)).
      right. eexists g, _, f. rewrite E1. split_and!; [by apply with_g_same|done|]. left. done.
    + destruct Hk as [f Ho]. right. eexists g, _, f. rewrite E1. split_and!; [by apply with_g_same|done|]. right; right. done.
Qed.

(* ---------------- waking up ---------------- *)
(** Call g waits for s to close, C has been closed, and g was told. *)
Definition awake (y : cl) (g s : nat) (res : cres) : Prop := exists b r, c_subs y !! s = Some b /\ c_gs y !! g = Some r /\ b_cclosed b = true /\ b_state b = SubClosed /\
  (g_pc r = GBlocked s /\ g ∉ b_wait b /\ res = RNil \/ g_pc r = GLoad s res \/ g_pc r = GDone res).
(** ... and g was not told. *)
Definition asleep (y : cl) (g s : nat) : Prop := exists b r, c_subs y !! s = Some b /\ c_gs y !! g = Some r /\ b_cclosed b = true /\ g_pc r = GBlocked s /\ g ∈ b_wait b.
(** Once C is closed: *)
Lemma clmove_closed b c b' o : clmove b c b' o -> b_cclosed b = true -> b_cclosed b' = true /\ b_wait b' = b_wait b /\ (b_state b = SubClosed -> b_state b' = SubClosed).
Proof. destruct 1; cbn; try done. congruence. Qed.
Lemma sub_closed_step cfg y a y' s b : wmove cfg y a y' -> c_subs y !! s = Some b -> b_cclosed b = true ->
  exists b', c_subs y' !! s = Some b' /\ b_cclosed b' = true /\ (b_state b = SubClosed -> b_state b' = SubClosed) /\
    (b_wait b' = b_wait b \/ exists h r, c_gs y !! h = Some r /\ g_pc r = GReg s /\ b_wait b' = h :: b_wait b /\ a = XRun h).
Proof.
  intros Hw Hb Hc. destruct Hw as [E1 E2|o Ho E1 E2|g r x Hg Hx E1 E2|g r f id rt Hg Hst Ho E1 E2|j b0 b1 Hj Hx E1 E2|g r x j b0 b1 Hg Hj Ha Hx E1 E2]; rewrite E2; try (exists b; eauto 10; done).
  - exists b. split_and!; try done; [by apply lookup_app_l_Some|by left].
  - destruct (decide (j = s)) as [->|Hne]; [|rewrite list_lookup_insert_ne by done; exists b; split_and!; try done; by left].
    assert (b0 = b) as -> by congruence. rewrite list_lookup_insert by (by eapply lookup_lt_Some). exists b1. split; [done|].
    destruct Hx as [f k _ _ Hrl|_ Hrl _|m _ Hrl Hcl _|c b1 oc _ Hrl Hm|m l _ Hbuf]; try (by split_and!; auto). destruct (clmove_closed _ _ _ _ Hm Hc) as (? & ? & ?). split_and!; try done. by left.
  - destruct (decide (j = s)) as [->|Hne]; [|rewrite list_lookup_insert_ne by done; exists b; split_and!; try done; by left].
    assert (b0 = b) as -> by congruence. rewrite list_lookup_insert by (by eapply lookup_lt_Some). exists b1. split; [done|]. remember (g_pc r) as x0 eqn:Hx0.
    destruct Hx as [f Ho Hst|c res b1 oc Hm| |Hcl Hlen]; cbn [b_with_state b_with_wait b_with_buf b_cclosed b_state b_wait]; try (by split_and!; auto).
    + split_and!; [done|by rewrite Hst|by left].
    + destruct (clmove_closed _ _ _ _ Hm Hc) as (? & ? & ?). split_and!; try done. by left.
    + split_and!; [done..|]. right. exists g, r. done.
Qed.
Lemma blocked_moves cfg y a g o s x : gstep cfg y a g o (GBlocked s) x ->
  (exists b, c_subs y !! s = Some b /\ g ∉ b_wait b /\ x = GLoad s RNil /\ a = XRun g) \/ a = XTimeout g.
Proof.
  intros H. inversion H as [t x0 x' Ha Hm| | | | |x0 k f q Hs| |]; subst; [|inversion Hs]. inversion Hm; subst; [left|by right]. eauto 10.
Qed.
Lemma load_moves cfg y a g o s res x : gstep cfg y a g o (GLoad s res) x ->
  exists b, c_subs y !! s = Some b /\ (b_state b = SubClosed /\ x = GDone res \/ b_state b <> SubClosed /\ x = GReg s).
Proof. intros H. inversion H as [t x0 x' Ha Hm| | | | |x0 k f q Hs| |]; subst; [|inversion Hs]. inversion Hm; subst; eauto 10. Qed.
Lemma awake_step A cfg y a y' g s res : creach A cfg y -> cmv cfg y a y' -> a <> XTimeout g -> awake y g s res -> awake y' g s res.
Proof.
  intros Hr Hm Hna (b & r & Hb & Hg & Hc & Hst & Hpc). pose proof (reach_wmove _ _ _ _ _ Hr Hm) as Hw.
  destruct (sub_closed_step _ _ _ _ _ _ Hw Hb Hc) as (b' & Hb' & Hc' & Hst' & Hwait). specialize (Hst' Hst).
  destruct (wmove_g _ _ _ _ _ _ Hw Hg) as [Hg'|[(z & Hz & Hg' & _)|[(f & id & rt & _ & Hz & _)|(z & s' & b0 & b1 & Hz & _)]]].
  - exists b', r. split_and!; try done. destruct Hpc as [(Hp & Hnw & Hres)|[?|?]]; auto. left. split_and!; try done.
    destruct Hwait as [->|(h & rh & Hh & Hph & -> & _)]; [done|]. apply not_elem_of_cons. split; [|done]. congruence.
  - exists b'. eexists. split_and!; [done|exact Hg'|done..|]. cbn [g_pc]. destruct Hpc as [(Hp & Hnw & ->)|[Hp|Hp]]; rewrite Hp in Hz.
    + apply blocked_moves in Hz as [(b0 & _ & _ & -> & _)|?]; [auto|done].
    + apply load_moves in Hz as (b0 & Hb0 & Hx). assert (b0 = b) as -> by congruence. destruct Hx as [[_ ->]|[? _]]; [auto|done].
    + by apply gstep_done in Hz.
  - by destruct Hpc as [(Hp & _)|[Hp|Hp]]; rewrite Hp in Hz.
  - destruct Hpc as [(Hp & _)|[Hp|Hp]]; rewrite Hp in Hz; inversion Hz.
Qed.
Lemma awake_finish cfg y g s res : awake y g s res ->
  exists l y' r, Forall (fun a => a = XRun g) l /\ length l <= 2 /\ crun cfg y l = Some (COk y') /\ c_gs y' !! g = Some r /\ g_pc r = GDone res.
Proof.
  intros (b & r & Hb & Hg & Hc & Hst & Hpc).
  assert (forall y0 r0, c_subs y0 = c_subs y -> c_gs y0 !! g = Some r0 -> g_pc r0 = GLoad s res -> cstep cfg y0 (XRun g) = Some (COk (with_g y0 g (GDone res)))) as HL.
  { intros y0 r0 Es Hg0 Hp0. cbn [cstep]. unfold do_run. rewrite Hg0, Hp0, Es, Hb, Hst. done. }
  destruct Hpc as [(Hp & Hnw & ->)|[Hp|Hp]].
  - assert (cstep cfg y (XRun g) = Some (COk (with_g y g (GLoad s RNil)))) as E1.
    { cbn [cstep]. unfold do_run. rewrite Hg, Hp, Hb. by rewrite bool_decide_eq_false_2. }
    exists [XRun g; XRun g], (with_g (with_g y g (GLoad s RNil)) g (GDone RNil)). eexists. split_and!; [by repeat constructor|done| |by apply with_g_same, with_g_same|done].
    cbn [crun]. rewrite E1. erewrite HL; [done|done|by apply with_g_same|done].
  - exists [XRun g], (with_g y g (GDone res)). eexists. split_and!; [by repeat constructor|cbn; lia| |by apply with_g_same|done]. cbn [crun]. by erewrite HL.
  - exists [], y, r. split_and!; try done. cbn. lia.
Qed.
Lemma closing_wakes A cfg y a y' s b b' g r res : creach A cfg y -> cmv cfg y a y' -> c_subs y !! s = Some b -> b_cclosed b = false -> c_subs y' !! s = Some b' -> b_cclosed b' = true ->
  c_gs y !! g = Some r -> g_pc r = GBlocked s /\ res = RNil \/ g_pc r = GLoad s res -> awake y' g s res.
Proof.
  intros Hr Hm Hb Hc Hb' Hc' Hg Hpc. pose proof (reach_wmove _ _ _ _ _ Hr Hm) as Hw. destruct (reach_closing _ _ _ Hr) as [_ HC]. pose proof (HC _ _ Hb) as [C1 C2 C3 C4 C5 C6 C7 C8].
  assert (c_gs y' !! g = Some r /\ b_wait b' = [] /\ b_state b' = SubClosed) as (Hg' & Hwt & Hst).
  { destruct Hw as [E1 E2|o Ho E1 E2|h rh x Hh Hx E1 E2|h rh f id rt Hh Hst Ho E1 E2|j b0 b1 Hj Hx E1 E2|h rh x j b0 b1 Hh Hj Ha Hx E1 E2]; rewrite E2 in Hb'; try congruence.
    - apply snoc_lookup in Hb' as [[_ ?]|[-> ->]]; [congruence|done].
    - apply upd_sub in Hb' as [(-> & -> & _)|[_ ?]]; [|congruence]. assert (b0 = b) as -> by congruence. rewrite E1. split; [done|].
      destruct Hx as [f k _ _ Hrl|_ Hrl _|m _ Hrl Hcl _|c b1 oc _ Hrl Hcm|m l _ Hbuf]; cbn in Hc'; try congruence. destruct Hcm; cbn in Hc' |- *; try congruence. split; [done|]. apply C8. by left.
    - apply upd_sub in Hb' as [(-> & -> & _)|[_ ?]]; [|congruence]. assert (b0 = b) as -> by congruence. remember (g_pc rh) as x0 eqn:Hx0.
      destruct Hx as [f Ho Hst|c xr b1 oc Hcm| |Hcl Hlen]; cbn in Hc'; try congruence. destruct Hcm; cbn in Hc' |- *; try congruence.
      assert (g <> h) as Hne by (intros ->; destruct Hpc as [[Hp _]|Hp]; congruence). rewrite E1. split_and!; [by rewrite with_g_other|done|]. apply C8. right. by exists h, rh, xr. }
  exists b', r. split_and!; try done. rewrite Hwt. destruct Hpc as [[Hp ->]|Hp]; [left|right; by left]. split_and!; try done. apply not_elem_of_nil.
Qed.
Lemma asleep_step A cfg y a y' g s : creach A cfg y -> cmv cfg y a y' -> a <> XTimeout g -> asleep y g s -> asleep y' g s.
Proof.
  intros Hr Hm Hna (b & r & Hb & Hg & Hc & Hp & Hin). pose proof (reach_wmove _ _ _ _ _ Hr Hm) as Hw.
  destruct (sub_closed_step _ _ _ _ _ _ Hw Hb Hc) as (b' & Hb' & Hc' & _ & Hwait).
  assert (g ∈ b_wait b') as Hin' by (destruct Hwait as [->|(h & rh & _ & _ & -> & _)]; [done|by right]).
  destruct (wmove_g _ _ _ _ _ _ Hw Hg) as [Hg'|[(z & Hz & Hg' & _)|[(f & id & rt & _ & Hz & _)|(z & s' & b0 & b1 & Hz & _)]]].
  - by exists b', r.
  - rewrite Hp in Hz. apply blocked_moves in Hz as [(b0 & Hb0 & Hn & _)|?]; [|done]. congruence.
  - congruence.
  - rewrite Hp in Hz. inversion Hz.
Qed.
