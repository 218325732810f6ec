(** Proofs about how long calls take (C99). *)
From stdpp Require Import gmap.
From Verif Require Import GoBase HeaderModel FrameModel NegotiationModel ClientApiModel ClientModel ClientSpec ClientLemmas ClientProofs LimitModel LimitSpec.

(* ---------------- steps of calls ---------------- *)
Definition calm (r : cres) : Prop := match r with RErr ESendTimeout | RErr EReceiptTimeout | RErr EUnsubTimeout => False | _ => True end.
Inductive edge (cfg : ccfg) (y : cl) (g : nat) (o : op) : bool -> gpc -> gpc -> Prop :=
| ed_gm t x x' : gmove cfg y g o t x x' -> edge cfg y g o t x x'
| ed_sto q : edge cfg y g o true (GPut FSend q) (GDone (RErr ESendTimeout))
| ed_rto ch : edge cfg y g o true (GWait FSend ch) (GDone (RErr EReceiptTimeout))
| ed_dto ch : edge cfg y g o true (GWait FDisc ch) (GDone (RErr EReceiptTimeout))
| ed_must : o = OMust -> edge cfg y g o false GStart (GDone RNil)
| ed_unsub s f : o = OUnsub s f -> edge cfg y g o false GStart (match f with None => GDone (RErr EOption) | Some f => GFrame (Some s) f end)
| ed_submit x k f q : submits o x k f -> edge cfg y g o false x (GPut k q)
| ed_subscribe f s q : o = OSubscribe f -> edge cfg y g o false GStart (GPut (FSub s) q)
| ed_put k q : edge cfg y g o false (GPut k q) (put_next k (q_chan q)).1
| ed_gclose s c res x' : x' = GDone res \/ (exists c', x' = GClose s c' res) -> edge cfg y g o false (GClose s c res) x'
| ed_reg s : edge cfg y g o false (GReg s) (GBlocked s)
| ed_puterr s : edge cfg y g o false (GPutErr s) (GDone (RErr EUnsubTimeout))
| ed_ans_frame u ch r : calm r -> edge cfg y g o false (GWait (FFrame u) ch) (frame_done u r)
| ed_ans k ch r : calm r -> (forall u, k <> FFrame u) -> edge cfg y g o false (GWait k ch) (GDone r).

Inductive onestep (cfg : ccfg) (y : cl) (a : cact) (y' : cl) : Prop :=
| os_same : c_gs y' = c_gs y -> onestep cfg y a y'
| os_call o : c_gs y' = c_gs y ++ [mkGor o GStart] -> onestep cfg y a y'
| os_edge g r t x' : c_gs y !! g = Some r -> c_gs y' = c_gs (with_g y g x') -> edge cfg y g (g_op r) t (g_pc r) x' -> (t = true -> a = XTimeout g) -> onestep cfg y a y'.
Lemma calm_if (f : frame) : calm (if decide (f_cmd f = RECEIPT) then RNil else RErr (EResponse f)).
Proof. by destruct (decide _). Qed.
Lemma onestep_intro cfg y a y' : cstep cfg y a = Some (COk y') -> onestep cfg y a y'.
Proof.
  intros Hs%cstep_cmv. destruct Hs; try (by apply os_same).
  - by eapply os_call.
  - eapply os_edge; [exact H|reflexivity|by apply ed_gm|by intros ->].
  - eapply os_edge; [exact H|reflexivity|rewrite H0; apply ed_sto|done].
  - eapply os_edge; [exact H|reflexivity|rewrite H0; apply ed_rto|done].
  - eapply os_edge; [exact H|reflexivity|rewrite H0; apply ed_dto|done].
  - eapply os_edge; [exact H|reflexivity|rewrite H0; by apply ed_must|done].
  - eapply os_edge; [exact H|reflexivity|rewrite H0; by apply ed_unsub|done].
  - eapply os_edge; [exact H|apply submit_gs'|by eapply ed_submit|done].
  - eapply os_edge; [exact H|rewrite submit_gs'; reflexivity|rewrite H0; by eapply ed_subscribe|done].
  - eapply os_edge; [exact H| |rewrite H0; apply ed_put|done]. by destruct (put_next k (q_chan q)).2.
  - eapply os_edge; [exact H|reflexivity|rewrite H0; apply ed_gclose|done]. destruct o; eauto.
  - eapply os_edge; [exact H|reflexivity|rewrite H0; apply ed_reg|done].
  - eapply os_edge; [exact H|reflexivity|rewrite H0; apply ed_puterr|done].
  - apply os_same. by destruct w.
  - set (y1 := with_log (after_send y ch k) (PvTold ch f)) in *. assert (c_gs y1 = c_gs y) as E by (subst y1; cbn [with_log c_gs]; apply after_send_gs).
    assert (forall x, c_gs (with_g y1 g x) = c_gs (with_g y g x)) as E2 by (intros x; unfold with_g; cbn [c_gs]; by rewrite E).
    destruct H4 as [u|w Hw|Hc|Hc].
    + eapply (os_edge _ _ _ _ g r false); [exact H2|apply E2|rewrite H3; apply ed_ans_frame, calm_if|done].
    + eapply (os_edge _ _ _ _ g r false); [exact H2|apply E2|rewrite H3; apply ed_ans; [apply calm_if|]|done]. by destruct Hw as [->|[s ->]].
    + eapply (os_edge _ _ _ _ g r false); [exact H2|apply E2|rewrite H3; by apply ed_ans|done].
    + eapply (os_edge _ _ _ _ g r false); [exact H2|apply E2|rewrite H3; by apply ed_ans|done].
  - apply os_same. cbn [with_subs with_log c_gs]. apply after_send_gs.
Qed.

(* ---------------- the clock and the calls ---------------- *)
Lemma reach_creach c ok t : lreach c ok t -> creach anything (untimed c) (l_cl t).
Proof.
  induction 1 as [|t a t' _ IH Hs _]; [constructor|]. destruct a as [|a]; cbn [lstep] in Hs.
  - destruct (forallb _ _); [|done]. by injection Hs as <-.
  - destruct (match a with XTimeout g => _ | _ => _ end); [|done]. destruct (cstep (untimed c) (l_cl t) a) as [[p|y]|] eqn:E; [done| |done]. injection Hs as <-. cbn [l_cl]. by eapply cr_step.
Qed.
(** The facts a step of the client leaves: which call moved. *)
Record moved (c : lcfg) (t t' : lcl) (a : cact) : Prop := {
  mo_now : l_now t' = l_now t;
  mo_step : onestep (untimed c) (l_cl t) a (l_cl t');
  mo_due : forall g, a = XTimeout g -> due c t g = true;
  mo_since : forall g, l_since t' g = if decide (timer_at (l_cl t') g = timer_at (l_cl t) g) then l_since t g else l_now t;
  mo_call : forall g, l_call t' g = if bool_decide (g < length (c_gs (l_cl t))) then l_call t g else l_now t;
  mo_end : forall g, l_end t' g = if is_done (l_cl t) g then l_end t g else l_now t }.
Lemma lstep_cases c t a t' : lstep c t a = Some t' ->
  (a = LTick /\ (forall g, g < length (c_gs (l_cl t)) -> waits c t g = true) /\ t' = mkL (l_cl t) (S (l_now t)) (l_since t) (l_call t) (l_end t)) \/ (exists b, a = LAct b /\ moved c t t' b).
Proof.
  destruct a as [|a]; cbn [lstep]; intros Hs.
  - left. destruct (forallb _ _) eqn:E; [|done]. injection Hs as <-. split_and!; try done. intros g Hg. rewrite forallb_forall in E. apply E, in_seq. lia.
  - right. exists a. split; [done|]. destruct (match a with XTimeout g => _ | _ => _ end) eqn:Ed; [|done]. destruct (cstep (untimed c) (l_cl t) a) as [[p|y]|] eqn:E; [done| |done]. injection Hs as <-.
    constructor; cbn [l_now l_cl l_since l_call l_end]; try done; [by apply onestep_intro|by intros g ->].
Qed.
Lemma edge_open cfg y g o b x x' : edge cfg y g o b x x' -> match x with GDone _ => False | _ => True end.
Proof. destruct 1 as [? ? ? []| | | | | |? ? ? ? []| | | | | | |]; done. Qed.
Inductive change (c : lcfg) (t t' : lcl) (g : nat) (r' : gor) : Prop :=
| ch_new : g = length (c_gs (l_cl t)) -> g_pc r' = GStart -> l_call t' g = l_now t -> change c t t' g r'
| ch_same : c_gs (l_cl t) !! g = Some r' -> l_call t' g = l_call t g -> l_since t' g = l_since t g -> (is_done (l_cl t) g = true -> l_end t' g = l_end t g) -> change c t t' g r'
| ch_edge r b : c_gs (l_cl t) !! g = Some r -> g_op r' = g_op r -> edge (untimed c) (l_cl t) g (g_op r) b (g_pc r) (g_pc r') -> (b = true -> due c t g = true) ->
    l_call t' g = l_call t g -> l_since t' g = (if decide (timer (g_pc r') = timer (g_pc r)) then l_since t g else l_now t) -> l_end t' g = l_now t -> change c t t' g r'.
Lemma pc_of_some y g r : c_gs y !! g = Some r -> pc_of y g = Some (g_pc r).
Proof. unfold pc_of. by intros ->. Qed.
Lemma done_of y g r : c_gs y !! g = Some r -> is_done y g = match g_pc r with GDone _ => true | _ => false end.
Proof. unfold is_done. by intros ->%pc_of_some. Qed.
Lemma timer_of y g r : c_gs y !! g = Some r -> timer_at y g = timer (g_pc r).
Proof. unfold timer_at. by intros ->%pc_of_some. Qed.
Lemma moved_change c t t' a g r' : moved c t t' a -> c_gs (l_cl t') !! g = Some r' -> change c t t' g r'.
Proof.
  intros [M1 M2 M3 M4 M5 M6] Hg.
  assert (Hsame : c_gs (l_cl t) !! g = Some r' -> change c t t' g r').
  { intros Hg0. apply ch_same; [done|..].
    - rewrite M5. by rewrite bool_decide_true by (by eapply lookup_lt_Some).
    - rewrite M4. by rewrite decide_True by (by rewrite (timer_of _ _ _ Hg), (timer_of _ _ _ Hg0)).
    - intros Hd. by rewrite M6, Hd. }
  destruct M2 as [E|o E|g0 r b x' Hg0 E He Hb].
  - rewrite E in Hg. by apply Hsame.
  - rewrite E in Hg. apply snoc_lookup in Hg as [[_ Hg]|[-> ->]]; [by apply Hsame|]. apply ch_new; [done|done|]. rewrite M5. by rewrite bool_decide_false by lia.
  - rewrite E in Hg. pose proof Hg as Hg'. rewrite <- E in Hg'. apply with_g_lookup in Hg as [[_ Hg]|(-> & r0 & Hr0 & ->)]; [by apply Hsame|]. assert (r0 = r) as -> by congruence. clear Hr0. eapply (ch_edge _ _ _ _ _ r b); cbn [g_op g_pc]; try done.
    + intros ->. by apply M3, Hb.
    + rewrite M5. by rewrite bool_decide_true by (by eapply lookup_lt_Some).
    + rewrite M4. by rewrite (timer_of _ _ _ Hg'), (timer_of _ _ _ Hg0).
    + rewrite M6, (done_of _ _ _ Hg0). apply edge_open in He. by destruct (g_pc r).
Qed.

(* ---------------- not too early ---------------- *)
(** The timer whose expiry a state or a result reports. *)
Definition rmark (o : op) (r : cres) : option tk :=
  match r with
  | RErr ESendTimeout => Some TkMsg
  | RErr EReceiptTimeout => match o with ODisconnect _ => Some TkDisc | _ => Some TkRcv end
  | RErr EUnsubTimeout => Some TkUnsub
  | _ => None
  end.
Definition mark (o : op) (x : gpc) : option tk :=
  match x with GExpired _ | GPutErr _ => Some TkUnsub | GDone r | GLoad _ r | GClose _ _ r => rmark o r | _ => None end.
Lemma calm_mark o r : calm r -> rmark o r = None.
Proof. by destruct r as [| |[]]. Qed.
Lemma frame_done_mark o u r : calm r -> mark o (frame_done u r) = None.
Proof. intros H%(calm_mark o). destruct u as [s|]; cbn; [|done]. by destruct r as [| |[]]. Qed.
Lemma edge_mark cfg y g o b x x' : edge cfg y g o b x x' -> pc_ok o x -> mark o x' = None \/ mark o x' = mark o x \/ (b = true /\ exists k, timer x = Some k /\ mark o x' = Some k).
Proof.
  destruct 1 as [t x x' Hm|q|ch|ch|Ho|s f Ho|x k f q Hm|f s q Ho|k q|s c res x' [->|[c' ->]]|s|s|u ch r Hr|k ch r Hr Hk]; intros Hp; try (by left); try (by right; left); try (by right; right; eauto).
  - destruct Hm as [r Hm Hc Ha|Hm Hc Hb|f Ho|s f b Ho Hs Hb|u f Hm Hc|u ch Hh|u ch Hk|s r b Hs Hb|s r b Hs Hb|s b Hs Hb|s Hk|s Hk|s b Hs Hb|s b Hs Hb]; try (by left); try (by right; left); try (by right; right; eauto); try (by left; apply frame_done_mark).
    left. destruct o; cbn in Ha; simplify_eq; done.
  - right; right. split; [done|]. exists TkRcv. split; [done|]. destruct Hp as [(f & -> & _) _]. done.
  - right; right. split; [done|]. exists TkDisc. split; [done|]. destruct Hp as [(f & (rid & -> & _) & _) _]. done.
  - left. by destruct f.
  - left. destruct k as [|u|s|], (q_chan q); cbn; try done. by apply frame_done_mark.
  - left. by apply frame_done_mark.
  - left. by apply calm_mark.
Qed.
Definition finish (t : lcl) (g : nat) : nat := if is_done (l_cl t) g then l_end t g else l_now t.
Record earlyinv (c : lcfg) (t : lcl) (g : nat) (r : gor) : Prop := {
  ea_call : l_call t g <= finish t g;
  ea_end : finish t g <= l_now t;
  ea_since : timer (g_pc r) <> None -> l_call t g <= l_since t g <= l_now t;
  ea_mark : forall k, mark (g_op r) (g_pc r) = Some k -> l_call t g + duration c k <= finish t g }.
Lemma reach_early c ok t : lreach c ok t -> forall g r, c_gs (l_cl t) !! g = Some r -> earlyinv c t g r.
Proof.
  induction 1 as [|t a t' Hr IH Hs _]; intros g r' Hg; [done|]. pose proof (reach_calls _ _ _ (reach_creach _ _ _ Hr)) as HC. apply lstep_cases in Hs as [(-> & _ & ->)|(b & -> & Hm)].
  - cbn [l_cl] in Hg. destruct (IH _ _ Hg) as [I1 I2 I3 I4]. unfold finish in *. constructor; cbn [l_cl l_now l_since l_call l_end]; unfold finish; cbn [l_cl l_now l_since l_call l_end].
    + destruct (is_done _ _); lia.
    + destruct (is_done _ _); lia.
    + intros H. specialize (I3 H). lia.
    + intros k H. specialize (I4 k H). destruct (is_done _ _); lia.
  - pose proof (mo_now _ _ _ _ Hm) as En. destruct (moved_change _ _ _ _ _ _ Hm Hg) as [H1 H2 H3|H1 H2 H3 H4|r b0 H1 H2 H3 H4 H5 H6 H7].
    + assert (Hf : finish t' g = l_now t) by (unfold finish; rewrite (done_of _ _ _ Hg), H2; lia). constructor; rewrite ?Hf, ?H3, ?En, ?H2; try lia; done.
    + destruct (IH _ _ H1) as [I1 I2 I3 I4]. assert (Hf : finish t' g = finish t g).
      { unfold finish. rewrite (done_of _ _ _ Hg), <- (done_of _ _ _ H1). destruct (is_done (l_cl t) g); [by apply H4|done]. }
      constructor; rewrite ?Hf, ?H2, ?H3, ?En; done.
    + destruct (IH _ _ H1) as [I1 I2 I3 I4]. assert (Hnd : finish t g = l_now t) by (unfold finish; rewrite (done_of _ _ _ H1); apply edge_open in H3; by destruct (g_pc r)).
      assert (Hf : finish t' g = l_now t) by (unfold finish; rewrite H7, En; by destruct (is_done _ _)). rewrite Hnd in *. constructor; rewrite ?Hf, ?H5, ?H6, ?En.
      * done.
      * done.
      * intros Ht. destruct (decide _) as [E|]; [|lia]. apply I3. congruence.
      * intros k Hk. rewrite H2 in Hk. destruct (edge_mark _ _ _ _ _ _ _ H3 (HC _ _ H1)) as [E|[E|(-> & k' & E1 & E2)]]; [congruence|apply I4; congruence|].
        assert (k' = k) as -> by congruence. specialize (H4 eq_refl). unfold due in H4. rewrite (timer_of _ _ _ H1), E1 in H4. apply bool_decide_eq_true in H4 as [_ H4]. assert (timer (g_pc r) <> None) as Hn by congruence. specialize (I3 Hn). lia.
Qed.

(* ---------------- not too late ---------------- *)
Fixpoint sumn (f : nat -> nat) (n : nat) : nat := match n with 0 => 0 | S k => sumn f k + f k end.
Lemma sumn_seq f n : sum_list_with f (seq 0 n) = sumn f n.
Proof. induction n as [|n IH]; [done|]. rewrite seq_S, sum_list_with_app, IH. cbn. lia. Qed.
Lemma sumn_le f f' n : (forall h, h < n -> f h <= f' h) -> sumn f n <= sumn f' n.
Proof. induction n as [|n IH]; intros H; [done|]. cbn. assert (f n <= f' n) by (apply H; lia). assert (sumn f n <= sumn f' n) by (apply IH; intros; apply H; lia). lia. Qed.
Lemma sumn_lt f f' n h : h < n -> (forall h, f h <= f' h) -> f h < f' h -> sumn f n < sumn f' n.
Proof.
  induction n as [|n IH]; intros Hn Hle Hh; [lia|]. cbn. destruct (decide (h = n)) as [->|].
  - pose proof (sumn_le f f' n (fun k _ => Hle k)). lia.
  - assert (sumn f n < sumn f' n) by (apply IH; [lia|done|done]). pose proof (Hle n). lia.
Qed.
Lemma sumn_more f n n' : n <= n' -> sumn f n <= sumn f n'.
Proof. induction 1; cbn; lia. Qed.

(** How long a call has kept the mutex, depending on where it is. *)
Definition heldok (c : lcfg) (o : op) (x : gpc) (held since now : nat) : Prop :=
  match x with
  | GStart | GFrame _ _ => held = 0
  | GPut FSend _ => held + since = now /\ held <= l_msg c
  | GPut _ _ => held = 0
  | GWait FSend _ => held + since <= l_msg c + now /\ now <= since + l_rcv c
  | GWait FDisc _ => held + since <= now /\ now <= since + l_disc c
  | GWait (FFrame _) _ => held = 0 /\ now <= since + l_write c
  | _ => held <= limit c o
  end.
Lemma heldok_limit c o x held since now : heldok c o x held since now -> pc_ok o x -> held <= limit c o.
Proof.
  destruct x as [| |k q|k ch| | | | | | |]; cbn; try lia.
  - destruct k as [|u|s|]; intros H [H1 H2]; [|lia..]. cbn in H1. subst o. cbn. destruct (wants_receipt _); lia.
  - intros H [(f & H1 & H2) H3]. destruct k as [|u|s|]; cbn in *; [subst o; cbn; rewrite H2; lia|lia|done|]. destruct H1 as (rid & -> & _). cbn. lia.
Qed.
(** How long a call has been waiting or has had the mutex. *)
Definition sumok (c : lcfg) (o : op) (x : gpc) (sum call since fin now : nat) : Prop :=
  match x with
  | GDone _ => fin <= call + sum + rest_limit c o
  | GWait (FFrame _) _ => since <= call + sum
  | _ => now <= call + sum
  end.
Definition not_unsub (o : op) : Prop := forall s f, o <> OUnsub s f.
Record lateinv (c : lcfg) (t : lcl) (U : nat -> nat -> nat) (held : nat -> nat) : Prop := {
  la_held : forall g r, c_gs (l_cl t) !! g = Some r -> heldok c (g_op r) (g_pc r) (held g) (l_since t g) (l_now t);
  la_sum : forall g r, c_gs (l_cl t) !! g = Some r -> not_unsub (g_op r) -> sumok c (g_op r) (g_pc r) (sumn (U g) (length (c_gs (l_cl t)))) (l_call t g) (l_since t g) (l_end t g) (l_now t);
  la_U : forall g h, U g h <= held h;
  la_dom : forall h, length (c_gs (l_cl t)) <= h -> held h = 0;
  la_new : forall g h, length (c_gs (l_cl t)) <= g -> U g h = 0;
  la_over : forall g h, 0 < U g h -> l_call t g < l_now t /\ l_call t h < l_now t /\ (is_done (l_cl t) h = true -> l_call t g < l_end t h) /\ (is_done (l_cl t) g = true -> l_call t h < l_end t g) }.

Lemma waits_mut c t g r : waits c t g = true -> c_gs (l_cl t) !! g = Some r -> not_unsub (g_op r) -> (g_pc r = GStart \/ exists u f, g_pc r = GFrame u f) -> c_mut (l_cl t) <> None.
Proof.
  unfold waits, do_run. intros Hw Hg Hu Hx. rewrite Hg in Hw. destruct Hx as [Hx|(u & f & Hx)]; rewrite Hx in Hw.
  - unfold do_start in Hw. destruct (g_op r) as [f|f|f|s f|rid|] eqn:Eo; try (by destruct (Hu s f)); try done; destruct (c_mut (l_cl t)); try done; exfalso.
    + destruct (c_closed _); [done|]. by destruct f.
    + destruct (c_closed _); [done|]. by destruct f as [[[f id] rt]|].
    + by destruct (c_closed _).
    + destruct (c_closed _); [done|]. by destruct (c_wclosed _).
  - unfold do_frame in Hw. destruct (c_mut (l_cl t)); [done|]. exfalso. by destruct (c_closed _).
Qed.
Lemma waits_due c t g r k : waits c t g = true -> c_gs (l_cl t) !! g = Some r -> timer (g_pc r) = Some k -> 0 < duration c k -> l_now t < l_since t g + duration c k.
Proof.
  unfold waits, due. intros Hw Hg Hk Hd. rewrite (timer_of _ _ _ Hg), Hk in Hw. destruct (do_run _ _ _); [done|]. apply negb_true_iff, bool_decide_eq_false in Hw. destruct (decide (l_since t g + duration c k <= l_now t)); [|lia]. destruct Hw. lia.
Qed.
Lemma edge_held c cfg y g o b x x' held since now : edge cfg y g o b x x' -> pc_ok o x -> heldok c o x held since now ->
  heldok c o x' held (if decide (timer x' = timer x) then since else now) now.
Proof.
  intros He Hp Hh. pose proof (heldok_limit _ _ _ _ _ _ Hh Hp) as Hl. destruct He as [t x x' Hm|q|ch|ch|Ho|s f Ho|x k f q Hm|f s q Ho|k q|s c0 res x' [->|[c' ->]]|s|s|u ch r Hr|k ch r Hr Hk]; try exact Hl.
  - destruct Hm as [r Hm Hc Ha|Hm Hc Hb|f Ho|s f b Ho Hs Hb|u f Hm Hc|u ch Hx|u ch Hk|s r b Hs Hb|s r b Hs Hb|s b Hs Hb|s Hk|s Hk|s b Hs Hb|s b Hs Hb]; try exact Hl; try done; destruct u as [u|]; exact Hl.
  - destruct f; [exact Hh|exact Hl].
  - assert (held = 0) as -> by (by destruct Hm). destruct k; cbn; try done. rewrite decide_False by (by inversion Hm). split; lia.
  - exact Hh.
  - destruct k as [|u|s|], (q_chan q) as [ch|]; cbn [put_next fst]; try exact Hl; cbn in Hh.
    + rewrite decide_False by done. cbn. lia.
    + rewrite decide_False by done. cbn. lia.
    + by destruct u as [u|].
    + rewrite decide_False by done. cbn. lia.
  - destruct u as [u|]; [|exact Hl]. by destruct r as [| |[]].
Qed.
Lemma edge_from cfg y g o b x x' : edge cfg y g o b x x' ->
  match x' with GStart => False | GFrame _ _ => x = GStart | GPut _ _ => x = GStart \/ exists u f, x = GFrame u f | GWait k _ => exists q, x = GPut k q | _ => True end.
Proof.
  assert (Hfd : forall u r, match frame_done u r with GStart => False | GFrame _ _ => x = GStart | GPut _ _ => x = GStart \/ exists u f, x = GFrame u f | GWait k _ => exists q, x = GPut k q | _ => True end).
  { intros [u|] r; [|done]. by destruct r as [| |[]]. }
  intros He. destruct He as [t x x' Hm|q|ch|ch|Ho|s f Ho|x k f q Hm|f s q Ho|k q|s c0 res x' [->|[c' ->]]|s|s|u ch r Hr|k ch r Hr Hk]; try done; try apply Hfd.
  - destruct Hm; try done; apply Hfd.
  - by destruct f.
  - inversion Hm; eauto.
  - by left.
  - destruct k as [|u|s|], (q_chan q) as [ch|]; cbn [put_next fst]; try done; eauto. apply Hfd.
Qed.
Lemma edge_sum c cfg y g o b x x' sum call since fin now held : edge cfg y g o b x x' -> pc_ok o x -> pc_ok o x' -> not_unsub o -> heldok c o x held since now -> call <= now -> sumok c o x sum call since fin now ->
  sumok c o x' sum call (if decide (timer x' = timer x) then since else now) now now.
Proof.
  intros He Hp Hp' Hu Hh Hc Hs.
  assert (Hfin : now <= call + sum + rest_limit c o).
  { destruct x as [| | |k ch| | | | | | |]; cbn in Hs, Hp; try lia.
    - destruct k as [|u|s|]; cbn in Hs, Hh; try lia. destruct Hp as [(f & Hf & Hw) _]. destruct u as [u|]; [by destruct (Hu _ _ Hf)|]. cbn in Hf. subst o. cbn. rewrite Hw. lia.
    - exfalso. by apply edge_open in He. }
  destruct x' as [|u f|k q|k ch|s c0 r|s r|s|s|s|s|r]; cbn in Hp'; try (by destruct Hp' as (f & ->); by destruct (Hu s (Some f))); try exact Hfin.
  - apply edge_from in He. done.
  - apply edge_from in He as ->. exact Hs.
  - apply edge_from in He as [->|(u & f & ->)]; exact Hs.
  - apply edge_from in He as (q & ->). cbn in Hs. destruct k as [|u|s|]; cbn; try exact Hs.
  - destruct Hp' as [(f & ->) _]. by destruct (Hu s (Some f)).
Qed.
Lemma reach_late c t : all_set c -> lreach c room t -> exists U held, lateinv c t U held.
Proof.
  intros (Sm & Sr & Sd & _ & Sw). induction 1 as [|t a t' Hr IH Hs Hok].
  { exists (fun _ _ => 0), (fun _ => 0). constructor; try done; try lia. }
  destruct IH as (U & held & [I1 I2 I3 I4 I5 I6]). pose proof (reach_calls _ _ _ (reach_creach _ _ _ Hr)) as HC. pose proof (reach_early _ _ _ Hr) as HE. pose proof (reach_lock _ _ _ (reach_creach _ _ _ Hr)) as [L1 L2 _ _ _].
  pose proof (reach_calls _ _ _ (reach_creach _ _ _ (lr_step _ _ _ _ _ Hr Hs Hok))) as HC'.
  apply lstep_cases in Hs as [(-> & Hw & ->)|(b & -> & Hm)].
  - specialize (Hok eq_refl). set (n := length (c_gs (l_cl t))) in *.
    set (U' := fun g h => if decide (c_mut (l_cl t) = Some h /\ g < n /\ is_done (l_cl t) g = false) then S (U g h) else U g h).
    set (held' := fun h => if decide (c_mut (l_cl t) = Some h) then S (held h) else held h).
    assert (HU : forall g h, U g h <= U' g h) by (intros g h; unfold U'; destruct (decide _); lia).
    assert (Hnd : forall g r, c_gs (l_cl t) !! g = Some r -> ClientProofs.locked (g_pc r) -> is_done (l_cl t) g = false) by (intros g r Hg Hl; rewrite (done_of _ _ _ Hg); by destruct (g_pc r)).
    exists U', held'. constructor; cbn [l_cl l_now l_since l_call l_end].
    + intros g r Hg. specialize (I1 _ _ Hg). pose proof (lookup_lt_Some _ _ _ Hg) as Hlt. specialize (Hw _ Hlt). unfold held'. pose proof (waits_due _ _ _ _ TkMsg Hw Hg) as D1. pose proof (waits_due _ _ _ _ TkRcv Hw Hg) as D2. pose proof (waits_due _ _ _ _ TkDisc Hw Hg) as D3. pose proof (waits_due _ _ _ _ TkWrite Hw Hg) as D4.
      cbn [duration] in *. destruct (decide (c_mut (l_cl t) = Some g)) as [E|E].
      * apply (L1 _ _ Hg) in E. destruct (g_pc r) as [| |k q|k ch| | | | | | |] eqn:Ex; try done.
        -- assert (k = FSend) as -> by (by eapply Hok). cbn in *. specialize (D1 eq_refl Sm). lia.
        -- destruct k as [|u|s|]; try done; cbn in *; [specialize (D2 eq_refl Sr)|specialize (D3 eq_refl Sd)]; lia.
      * assert (E' : ~ ClientProofs.locked (g_pc r)) by (by intros ?%(L1 _ _ Hg)). destruct (g_pc r) as [| |k q|k ch| | | | | | |] eqn:Ex; try done.
        destruct k as [|u|s|]; cbn in *; try tauto.
    + intros g r Hg Hu. specialize (I2 _ _ Hg Hu). pose proof (lookup_lt_Some _ _ _ Hg) as Hlt. specialize (Hw _ Hlt). fold n in Hlt.
      assert (Hmore : sumn (U g) n <= sumn (U' g) n) by (apply sumn_le; auto).
      assert (Hinc : c_mut (l_cl t) <> None -> is_done (l_cl t) g = false -> sumn (U g) n < sumn (U' g) n).
      { intros Hm Hd. destruct (c_mut (l_cl t)) as [h|] eqn:Em; [|done]. apply (sumn_lt _ _ _ h); [|auto|unfold U'; rewrite decide_True by done; lia]. destruct (L2 _ eq_refl) as [rh Hh]. by eapply lookup_lt_Some. }
      pose proof (waits_mut _ _ _ _ Hw Hg Hu) as Hmut. pose proof (proj1 (L1 _ _ Hg)) as Hl. pose proof (done_of _ _ _ Hg) as Hd. pose proof (HC _ _ Hg) as Hp.
      fold n in I2 |- *. destruct (g_pc r) as [|u f|k q|k ch|s c0 res|s res|s|s|s|s|res] eqn:Ex; cbn in Hp; try (by destruct Hp as (f & Hf); destruct (Hu _ _ Hf)).
      * cbn [sumok] in *. specialize (Hinc (Hmut (or_introl eq_refl)) Hd). lia.
      * cbn [sumok] in *. assert (c_mut (l_cl t) <> None) as Hm by (apply Hmut; eauto). specialize (Hinc Hm Hd). lia.
      * cbn [sumok] in *. rewrite Hl in Hinc by done. specialize (Hinc ltac:(done) Hd). lia.
      * destruct k as [|u|s|]; cbn [sumok] in *; [|lia|tauto|]; rewrite Hl in Hinc by done; specialize (Hinc ltac:(done) Hd); lia.
      * destruct Hp as [(f & Hf) _]. by destruct (Hu _ _ Hf).
      * cbn [sumok] in *. lia.
    + intros g h. unfold U', held'. specialize (I3 g h). destruct (decide (_ /\ _)) as [(E & _)|]; [rewrite decide_True by done; lia|]. destruct (decide _); lia.
    + intros h Hh. unfold held'. rewrite decide_False; [by apply I4|]. intros E. destruct (L2 _ E) as [r Hr0]. apply lookup_lt_Some in Hr0. unfold n in Hh. lia.
    + intros g h Hg. unfold U'. rewrite decide_False by lia. by apply I5.
    + intros g h. unfold U'. destruct (decide _) as [(E & Hg & Hd)|_].
      * intros _. destruct (L2 _ E) as [rh Hh]. destruct (lookup_lt_is_Some_2 _ _ Hg) as [rg Hgr]. pose proof (HE _ _ Hh) as [E1 E2 _ _]. pose proof (HE _ _ Hgr) as [F1 F2 _ _].
        rewrite Hd. rewrite (Hnd _ _ Hh) by (by apply (L1 _ _ Hh)). split_and!; try done; lia.
      * intros H. destruct (I6 _ _ H) as (J1 & J2 & J3 & J4). split_and!; try done; lia.
  - pose proof (mo_now _ _ _ _ Hm) as En. set (n := length (c_gs (l_cl t))) in *. set (n' := length (c_gs (l_cl t'))).
    assert (Hn : n <= n').
    { unfold n, n'. destruct (mo_step _ _ _ _ Hm) as [E|o E|g r b0 x' _ E _ _]; rewrite E; [lia|rewrite app_length; lia|]. cbn [with_g c_gs]. rewrite alter_length. lia. }
    assert (Hmono : forall o x s s' call since fin now, s <= s' -> sumok c o x s call since fin now -> sumok c o x s' call since fin now).
    { intros o x s s' call since fin now Hs. destruct x as [| | |k ch| | | | | | |]; cbn; try lia. destruct k; lia. }
    exists U, held. constructor.
    + intros g r' Hg. rewrite En. destruct (moved_change _ _ _ _ _ _ Hm Hg) as [H1 H2 H3|H1 H2 H3 H4|r b0 H1 H2 H3 H4 H5 H6 H7].
      * rewrite H2. cbn. apply I4. lia.
      * rewrite H3. by apply I1.
      * rewrite H6, H2. eapply edge_held; [exact H3|exact (HC _ _ H1)|by apply I1].
    + intros g r' Hg Hu. rewrite En. apply (Hmono _ _ (sumn (U g) n)); [by apply sumn_more|]. destruct (moved_change _ _ _ _ _ _ Hm Hg) as [H1 H2 H3|H1 H2 H3 H4|r b0 H1 H2 H3 H4 H5 H6 H7].
      * rewrite H2, H3. cbn. lia.
      * rewrite H2, H3. specialize (I2 _ _ H1 Hu). rewrite (done_of _ _ _ H1) in H4. destruct (g_pc r'); try done. by rewrite H4.
      * rewrite H5, H6, H7, H2. rewrite H2 in Hu. destruct (HE _ _ H1) as [E1 E2 _ _]. eapply edge_sum; [exact H3|exact (HC _ _ H1)|rewrite <- H2; exact (HC' _ _ Hg)|done|by apply I1|lia|by apply I2].
    + done.
    + intros h Hh. apply I4. lia.
    + intros g h Hg. apply I5. lia.
    + intros g h HU. assert (g < n) as Hg by (destruct (decide (g < n)); [done|]; rewrite I5 in HU by lia; lia). assert (h < n) as Hh by (destruct (decide (h < n)); [done|]; specialize (I3 g h); rewrite I4 in I3 by lia; lia).
      destruct (I6 _ _ HU) as (J1 & J2 & J3 & J4). rewrite !(mo_call _ _ _ _ Hm), !bool_decide_true by done. rewrite En, !(mo_end _ _ _ _ Hm). split_and!; try done; intros _.
      * destruct (is_done (l_cl t) h); auto.
      * destruct (is_done (l_cl t) g); auto.
Qed.
Lemma late c t g r : all_set c -> lreach c room t -> c_gs (l_cl t) !! g = Some r -> not_unsub (g_op r) -> elapsed t g <= total_limit c t g + rest_limit c (g_op r).
Proof.
  intros HS Hr Hg Hu. destruct (reach_late _ _ HS Hr) as (U & held & [I1 I2 I3 I4 I5 I6]). pose proof (reach_calls _ _ _ (reach_creach _ _ _ Hr)) as HC. set (n := length (c_gs (l_cl t))) in *.
  assert (Hsum : sumn (U g) n <= total_limit c t g).
  { unfold total_limit. rewrite sumn_seq. fold n. apply sumn_le. intros h Hh. destruct (decide (U g h = 0)) as [->|Hne]; [lia|]. destruct (I6 g h) as (J1 & J2 & J3 & J4); [lia|].
    assert (overlap t g h = true) as ->.
    { unfold overlap. apply andb_true_iff. split; apply orb_true_iff; rewrite negb_true_iff, bool_decide_eq_true; [destruct (is_done (l_cl t) h)|destruct (is_done (l_cl t) g)]; auto. }
    destruct (lookup_lt_is_Some_2 _ _ Hh) as [rh Hrh]. rewrite Hrh. etrans; [apply I3|]. eapply heldok_limit; [by apply I1|exact (HC _ _ Hrh)]. }
  specialize (I2 _ _ Hg Hu). specialize (I1 _ _ Hg). specialize (HC _ _ Hg). unfold elapsed. rewrite (done_of _ _ _ Hg).
  destruct (g_pc r) as [|u f|k q|k ch|s c0 res|s res|s|s|s|s|res] eqn:Ex; cbn in I2, I1, HC; try lia.
  destruct k as [|u|s|]; cbn in *; try lia. destruct HC as [(f & Hf & Hw) _]. destruct u as [u|]; [by destruct (Hu _ _ Hf)|]. cbn in Hf. rewrite Hf. cbn. rewrite Hw. lia.
Qed.

(* ---------------- timeouts that are not set; the clock ---------------- *)
Lemma reach_set c ok t : lreach c ok t -> forall g r k, c_gs (l_cl t) !! g = Some r -> mark (g_op r) (g_pc r) = Some k -> 0 < duration c k.
Proof.
  induction 1 as [|t a t' Hr IH Hs _]; intros g r' k Hg Hk; [done|]. pose proof (reach_calls _ _ _ (reach_creach _ _ _ Hr)) as HC. apply lstep_cases in Hs as [(-> & _ & ->)|(b & -> & Hm)]; [by eapply IH|].
  destruct (moved_change _ _ _ _ _ _ Hm Hg) as [H1 H2 H3|H1 H2 H3 H4|r b0 H1 H2 H3 H4 H5 H6 H7].
  - rewrite H2 in Hk. done.
  - by eapply IH.
  - rewrite H2 in Hk. destruct (edge_mark _ _ _ _ _ _ _ H3 (HC _ _ H1)) as [E|[E|(-> & k' & E1 & E2)]]; [congruence|by eapply IH; [done|congruence]|].
    specialize (H4 eq_refl). unfold due, timer_at, pc_of in H4. rewrite H1 in H4. cbn [fmap option_fmap option_map] in H4. rewrite E1 in H4. apply bool_decide_eq_true in H4. assert (k' = k) as -> by congruence. lia.
Qed.
Lemma clock_moves c t : is_Some (lstep c t LTick) \/ (exists g a, (a = XRun g \/ a = XTimeout g) /\ is_Some (lstep c t (LAct a))) \/
  exists g p, cstep (untimed c) (l_cl t) (XRun g) = Some (CPanic p).
Proof.
  cbn [lstep]. destruct (forallb (waits c t) (seq 0 (length (c_gs (l_cl t))))) eqn:E; [left; by eexists|right].
  assert (exists g, waits c t g = false) as [g Hg].
  { revert E. generalize (seq 0 (length (c_gs (l_cl t)))). intros l. induction l as [|g l IH]; cbn [forallb]; [done|]. destruct (waits c t g) eqn:Eg; [exact IH|]. intros _. by exists g. }
  unfold waits in Hg. destruct (do_run (untimed c) (l_cl t) g) as [[p|y]|] eqn:Er.
  - right. exists g, p. exact Er.
  - left. exists g, (XRun g). split; [by left|]. cbn [cstep]. rewrite Er. by eexists.
  - left. exists g, (XTimeout g). split; [by right|]. destruct (due c t g) eqn:Ed; [|done]. unfold due, timer_at, pc_of in Ed. cbn [cstep]. unfold do_timeout.
    destruct (c_gs (l_cl t) !! g) as [r|]; [|done]. cbn [fmap option_fmap option_map] in Ed. destruct (timer (g_pc r)) as [k|] eqn:Ek; [|done].
    apply bool_decide_eq_true in Ed as [Ed _].
    assert (HB : forall n, 0 < n -> bool_decide (0 < n) = true) by (intros; by apply bool_decide_eq_true_2).
    destruct (g_pc r) as [| |f q|f ch| | | | | | |] eqn:Ep; try done; cbn in Ek; try (destruct f; try done); injection Ek as <-; cbn [duration] in Ed; cbn [untimed k_msg_to k_rcv_to k_disc_to k_unsub_to k_write_to]; rewrite (HB _ Ed); by eexists.
Qed.
