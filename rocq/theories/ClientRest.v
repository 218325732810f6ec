(** Proofs for ClientRestProps. *)
From stdpp Require Import gmap.
From Verif Require Import GoBase HeaderModel FrameModel HeaderProofs NegotiationModel ClientApiModel ClientModel ClientSpec ClientLemmas ClientProofs ClientRequests ClientCalls ClientChannels ClientReceipts ClientDelivery ClientMessages ClientFinal ClientClosing ClientLive ClientReady ClientRestSpec.

(* ------------------------------------------------------------------ *)
(** A woken call finds its subscription closed. *)
Definition wakes (y : cl) : Prop := forall g r s b, c_gs y !! g = Some r -> g_pc r = GBlocked s -> c_subs y !! s = Some b -> g ∈ b_wait b \/ b_state b = SubClosed.
Lemma clmove_wait b c b' o : clmove b c b' o -> (c = Cl4 -> b_state b = SubClosed) -> forall g, g ∈ b_wait b \/ b_state b = SubClosed -> g ∈ b_wait b' \/ b_state b' = SubClosed.
Proof. destruct 1; intros H4 g Hin; cbn; try tauto; right; by apply H4. Qed.
Lemma reach_wakes A cfg y : creach A cfg y -> wakes y.
Proof.
  induction 1 as [|y a y' Hr IH _ Hs]; [by intros g r s b ?|]. apply cstep_cmv in Hs as Hm. pose proof (reach_wmove _ _ _ _ _ Hr Hm) as Hw.
  destruct (reach_closing _ _ _ Hr) as [HP HC].
  destruct Hw as [E1 E2|o Ho E1 E2|h r0 x Hh Hx E1 E2|h r0 f id rt Hh Hst Ho E1 E2|s b b' Hb Hb' E1 E2|h r0 x s b b' Hh Hb Ha Hx E1 E2]; intros g r s0 b0; rewrite E1, E2; intros Hg Hp Hs0.
  - by eapply IH.
  - apply lookup_app_Some in Hg as [Hg|[_ Hg]]; [by eapply IH|]. apply list_lookup_singleton_Some in Hg as [_ <-]. done.
  - destruct (decide (g = h)) as [->|Hn]; [|rewrite with_g_other in Hg by done; by eapply IH]. erewrite with_g_same in Hg by done. injection Hg as <-. cbn in Hp. subst x. exfalso. clear -Hx.
    inversion Hx; subst; try (match goal with H : gmove _ _ _ _ _ _ _ |- _ => inversion H; subst end);
      unfold put_next, answer_pc, frame_done in *; repeat (case_match; simplify_eq).
  - destruct (decide (g = h)) as [->|Hn]; [erewrite with_g_same in Hg by done; by injection Hg as <-|]. rewrite with_g_other in Hg by done.
    apply lookup_app_Some in Hs0 as [Hs0|[Hge Hs0]]; [by eapply IH|].
    destruct (HP g r s0 Hg) as [b1 Hb1]; [by rewrite Hp|]. apply lookup_lt_Some in Hb1. lia.
  - destruct (decide (s0 = s)) as [->|Hn]; [|rewrite list_lookup_insert_ne in Hs0 by done; by eapply IH].
    rewrite list_lookup_insert in Hs0 by (by eapply lookup_lt_Some). injection Hs0 as <-. specialize (IH g r s b Hg Hp Hb). pose proof (cg_last _ _ _ (HC _ _ Hb)) as HL.
    destruct Hb'; cbn; try done. eapply clmove_wait; [done| |done]. intros ->. apply HL. by left.
  - destruct (decide (s0 = s)) as [->|Hn].
    2:{ rewrite list_lookup_insert_ne in Hs0 by done. destruct (decide (g = h)) as [->|Hn']; [|rewrite with_g_other in Hg by done; by eapply IH].
        erewrite with_g_same in Hg by done. injection Hg as <-. cbn in Hp. subst x. exfalso. inversion Hx; subst; repeat (case_match; simplify_eq); done. }
    rewrite list_lookup_insert in Hs0 by (by eapply lookup_lt_Some). injection Hs0 as <-. pose proof (cg_last _ _ _ (HC _ _ Hb)) as HL.
    destruct (decide (g = h)) as [->|Hn'].
    + erewrite with_g_same in Hg by done. injection Hg as <-. cbn in Hp. subst x. left. inversion Hx; subst; repeat (case_match; simplify_eq). cbn. by left.
    + rewrite with_g_other in Hg by done. specialize (IH g r s b Hg Hp Hb). remember (g_pc r0) as x0 eqn:Ex0. destruct Hx; cbn; try done.
      * destruct IH as [?|?]; [by left|congruence].
      * eapply clmove_wait; [done| |done]. intros ->. apply HL. right. eauto.
      * destruct IH as [?|?]; [left; by right|by right].
Qed.

(* ------------------------------------------------------------------ *)
(** What is left to do. *)
Definition wclose (c : clpc) : nat := match c with Cl1 _ => 5 | Cl2 _ => 4 | Cl3 => 2 | Cl4 => 1 end.
Definition wloop (x : rlpc) : nat := match x with RlRecv => 7 | RlPut _ => 9 | RlClose c => wclose c | RlDone => 0 end.
Definition wsub (b : csub) : nat := wloop (b_rl b) + length (b_buf b).
Local Instance substate_dec : EqDecision substate.
Proof. solve_decision. Defined.
Definition over (subs : list csub) (s : nat) : bool := match subs !! s with Some b => bool_decide (b_state b = SubClosed) | None => false end.
Definition wpc (subs : list csub) (x : gpc) : nat :=
  match x with
  | GStart => 25 | GFrame _ _ => 18 | GPut _ _ => 17 | GWait _ _ => 7 | GClose _ c _ => wclose c
  | GLoad s _ => if over subs s then 1 else 6
  | GReg _ => 5 | GBlocked _ => 4 | GExpired _ => 3 | GPutErr _ => 2 | GDone _ => 0
  end.
Definition wloc (m : gmap str nat) (p : ppc) : nat :=
  match p with
  | PLoop => 4 + 4 * size m
  | PSend _ _ (KBcast _ rest _) => 6 + 4 * length rest
  | PSend _ _ _ => 7 + 4 * size m
  | PBcast _ rest _ => 3 + 4 * length rest
  | PMust true => 2 | PMust false => 1 | PEnd => 0
  end.
Definition weight (y : cl) : nat :=
  sum_list_with (fun r => wpc (c_subs y) (g_pc r)) (c_gs y) + sum_list_with wsub (c_subs y) + 9 * length (c_wch y) + 4 * length (c_rch y) + wloc (c_map y) (c_p y).
Definition wgs (subs : list csub) (gs : list gor) : nat := sum_list_with (fun r => wpc subs (g_pc r)) gs.

Lemma sum_alter {A} (f : A -> nat) (l : list A) i x x' : l !! i = Some x -> sum_list_with f (<[i := x']> l) + f x = sum_list_with f l + f x'.
Proof. intros H. rewrite insert_take_drop by (by eapply lookup_lt_Some). rewrite <- (take_drop_middle l i x H) at 3. rewrite !sum_list_with_app. cbn [sum_list_with]. lia. Qed.
Lemma wgs_g y g r x subs : c_gs y !! g = Some r -> wgs subs (c_gs (with_g y g x)) + wpc subs (g_pc r) = wgs subs (c_gs y) + wpc subs x.
Proof.
  intros Hg. cbn [with_g c_gs]. assert (alter (fun r => mkGor (g_op r) x) g (c_gs y) = <[g := mkGor (g_op r) x]> (c_gs y)) as ->.
  { apply list_eq. intros j. destruct (decide (j = g)) as [->|Hn].
    - rewrite list_lookup_alter, Hg, list_lookup_insert by (by eapply lookup_lt_Some). done.
    - by rewrite list_lookup_alter_ne, list_lookup_insert_ne. }
  exact (sum_alter (fun r => wpc subs (g_pc r)) _ _ _ (mkGor (g_op r) x) Hg).
Qed.
Lemma wgs_mono subs subs' gs : (forall s, over subs s = true -> over subs' s = true) -> wgs subs' gs <= wgs subs gs.
Proof.
  intros H. induction gs as [|r gs IH]; cbn; [done|]. assert (wpc subs' (g_pc r) <= wpc subs (g_pc r)); [|unfold wgs in IH; lia].
  destruct (g_pc r); cbn; try lia. specialize (H s). destruct (over subs s); [rewrite H by done; lia|]. destruct (over subs' s); lia.
Qed.
Lemma over_new subs b s : over subs s = true -> over (subs ++ [b]) s = true.
Proof. unfold over. destruct (subs !! s) as [b0|] eqn:E; [|done]. by rewrite (lookup_app_l_Some _ _ _ _ E). Qed.
Lemma over_upd subs s b b' s0 : subs !! s = Some b -> (b_state b = SubClosed -> b_state b' = SubClosed) -> over subs s0 = true -> over (<[s := b']> subs) s0 = true.
Proof.
  intros Hb H. unfold over. destruct (decide (s0 = s)) as [->|Hn]; [|by rewrite list_lookup_insert_ne]. rewrite Hb, list_lookup_insert by (by eapply lookup_lt_Some).
  rewrite !bool_decide_eq_true. done.
Qed.
Lemma clmove_weight b c b' o : clmove b c b' o -> match o with Some c' => wclose c' | None => 0 end + length (b_buf b') + 1 <= wclose c + length (b_buf b) /\ b_rl b' = b_rl b /\
  (b_state b = SubClosed -> b_state b' = SubClosed).
Proof. destruct 1; cbn; rewrite ?app_length; cbn; split_and!; try done; lia. Qed.
Lemma rl_got_weight b o : wloop (rl_got b o) <= match o with Some _ => 9 | None => 5 end.
Proof. unfold rl_got. destruct o as [f|]; cbn; repeat case_decide; repeat case_match; cbn; lia. Qed.
Lemma frame_done_weight subs u r : wpc subs (frame_done u r) <= 6.
Proof. destruct u as [s|]; cbn; [|lia]. destruct r as [| |[]]; cbn; repeat case_match; lia. Qed.
Lemma put_next_weight subs k o : wpc subs (put_next k o).1 <= 7.
Proof. destruct k as [|u|s|], o as [ch|]; cbn; try lia. pose proof (frame_done_weight subs u RNil). lia. Qed.
Lemma gmove_weight cfg y g o t x x' : wakes y -> (exists r, c_gs y !! g = Some r /\ g_pc r = x) -> gmove cfg y g o t x x' -> wpc (c_subs y) x' + 1 <= wpc (c_subs y) x.
Proof.
  intros HW (r & Hg & Hx) H. destruct H; cbn; try lia.
  - pose proof (frame_done_weight (c_subs y) u (RErr EClosedUnexpectedly)). lia.
  - pose proof (frame_done_weight (c_subs y) u (RErr EClosedUnexpectedly)). lia.
  - pose proof (frame_done_weight (c_subs y) u (RErr EClosedUnexpectedly)). lia.
  - case_match; lia.
  - assert (over (c_subs y) s = false) as -> by (unfold over; rewrite H; by apply bool_decide_eq_false). lia.
  - destruct (HW _ _ _ _ Hg Hx H) as [?|E]; [done|]. assert (over (c_subs y) s = true) as -> by (unfold over; rewrite H; by apply bool_decide_eq_true). lia.
Qed.
Lemma size_insert_le (m : gmap str nat) k v : size (<[k := v]> m) <= S (size m).
Proof. destruct (m !! k) eqn:E; [rewrite map_size_insert_Some by eauto; lia|by rewrite map_size_insert_None]. Qed.
Lemma size_delete_le (m : gmap str nat) k : size (delete k m) <= size m.
Proof. destruct (m !! k) eqn:E; [rewrite map_size_delete_Some by eauto; lia|by rewrite map_size_delete_None]. Qed.
Lemma remember_size m q : size (remember m q) <= 2 + size m.
Proof.
  unfold remember. destruct (q_chan q) as [ch|]; [|lia].
  assert (size (match hd_contains (f_hdr (q_frame q)) h_receipt with Some r => <[r := ch]> m | None => m end) <= S (size m)) by (case_match; [apply size_insert_le|lia]).
  set (m1 := match hd_contains (f_hdr (q_frame q)) h_receipt with Some r => <[r := ch]> m | None => m end) in *.
  case_decide; [|lia]. case_match; etrans; [apply size_insert_le|lia|apply size_insert_le|lia].
Qed.
Lemma map_list_size (m : gmap str nat) : length (map_to_list m) = size m.
Proof. done. Qed.

(** Every step. *)
Definition cinput (a : cact) : nat := match a with XCall _ => 25 | XRecv _ => 4 | _ => 0 end.
Lemma weight_eq y : weight y = wgs (c_subs y) (c_gs y) + sum_list_with wsub (c_subs y) + 9 * length (c_wch y) + 4 * length (c_rch y) + wloc (c_map y) (c_p y).
Proof. done. Qed.
Lemma after_send_weight y ch f k : c_p y = PSend ch f k -> wloc (c_map (after_send y ch k)) (c_p (after_send y ch k)) + 3 <= wloc (c_map y) (c_p y).
Proof.
  intros ->. destruct k as [id| |f' rest err]; cbn [after_send].
  - cbn. pose proof (size_delete_le (c_map y) id). lia.
  - cbn. lia.
  - destruct err; cbn; lia.
Qed.
Lemma after_send_rest y ch k : c_gs (after_send y ch k) = c_gs y /\ c_subs (after_send y ch k) = c_subs y /\ c_wch (after_send y ch k) = c_wch y /\ c_rch (after_send y ch k) = c_rch y.
Proof. by destruct k as [id| |f' rest []]. Qed.
Lemma weight_g Y g r x : c_gs Y !! g = Some r -> weight (with_g Y g x) + wpc (c_subs Y) (g_pc r) = weight Y + wpc (c_subs Y) x.
Proof. intros Hg. rewrite !weight_eq. pose proof (wgs_g _ _ _ x (c_subs Y) Hg). cbn [with_g c_subs c_wch c_rch c_map c_p] in *. lia. Qed.
Lemma weight_sub Y s b b' : c_subs Y !! s = Some b -> (b_state b = SubClosed -> b_state b' = SubClosed) -> weight (with_subs Y (<[s := b']> (c_subs Y))) + wsub b <= weight Y + wsub b'.
Proof.
  intros Hb HS. rewrite !weight_eq. pose proof (sum_alter wsub _ _ _ b' Hb). pose proof (wgs_mono (c_subs Y) (<[s := b']> (c_subs Y)) (c_gs Y) (fun s0 => over_upd _ _ _ _ s0 Hb HS)).
  cbn [with_subs c_gs c_subs c_wch c_rch c_map c_p]. lia.
Qed.
Lemma weight_sub_g Y s b b' g r x : c_subs Y !! s = Some b -> c_gs Y !! g = Some r -> (b_state b = SubClosed -> b_state b' = SubClosed) -> (forall s0 v, g_pc r <> GLoad s0 v /\ x <> GLoad s0 v) ->
  weight (with_g (with_subs Y (<[s := b']> (c_subs Y))) g x) + wsub b + wpc (c_subs Y) (g_pc r) <= weight Y + wsub b' + wpc (c_subs Y) x.
Proof.
  intros Hb Hg HS HL. pose proof (weight_sub _ _ _ _ Hb HS). pose proof (weight_g (with_subs Y (<[s := b']> (c_subs Y))) g r x Hg).
  cbn [with_subs c_subs] in *. assert (HE : forall z subs subs', (forall s0 v, z <> GLoad s0 v) -> wpc subs z = wpc subs' z) by (intros z subs subs' Hz; destruct z as [| | | | |s1 res| | | | |]; try done; by destruct (Hz s1 res)).
  rewrite (HE (g_pc r) _ (c_subs Y)) in * by (intros; by apply HL). rewrite (HE x _ (c_subs Y)) in * by (intros; by apply HL). lia.
Qed.
Lemma weight_p Y p : weight (with_p Y p) + wloc (c_map Y) (c_p Y) = weight Y + wloc (c_map Y) p.
Proof. rewrite !weight_eq. cbn [with_p c_gs c_subs c_wch c_rch c_map c_p]. lia. Qed.
Lemma weight_same y y' : c_gs y' = c_gs y -> c_subs y' = c_subs y -> c_wch y' = c_wch y -> c_rch y' = c_rch y -> c_map y' = c_map y -> c_p y' = c_p y -> weight y' = weight y.
Proof. rewrite !weight_eq. by intros -> -> -> -> -> ->. Qed.
Lemma weight_after y ch f k : c_p y = PSend ch f k -> weight (after_send y ch k) + 3 <= weight y.
Proof. intros Hp. destruct (after_send_rest y ch k) as (E1 & E2 & E3 & E4). rewrite !weight_eq, E1, E2, E3, E4. pose proof (after_send_weight _ _ _ _ Hp). lia. Qed.
Lemma weight_fail y txt : c_p y = PLoop -> weight (fail y txt) + 1 <= weight y.
Proof. intros Hp. unfold fail. pose proof (weight_p y (PBcast (error_frame txt) (map_to_list (c_map y)) false)) as H. rewrite Hp in H. cbn [wloc] in H. rewrite map_list_size in H. lia. Qed.
Lemma weight_taken y o l : c_rch y = o :: l -> weight (taken y l o) + 4 = weight y.
Proof. intros E. rewrite !weight_eq, E. cbn [taken with_log with_rch c_gs c_subs c_wch c_rch c_map c_p length]. lia. Qed.
Lemma weight_requested y q l w : c_wch y = q :: l -> c_p y = PLoop -> weight (requested y l q w) + 1 <= weight y.
Proof. intros E Hp. rewrite !weight_eq, E. cbn [requested with_log with_map with_wch c_gs c_subs c_wch c_rch c_map c_p length]. rewrite Hp. cbn [wloc]. pose proof (remember_size (c_map y) q). lia. Qed.
Lemma cmv_weight A cfg y a y' : creach A cfg y -> cmv cfg y a y' -> weight y' + (if decide (cwork a) then 1 else 0) <= weight y + cinput a.
Proof.
  intros Hr Hm. pose proof (reach_wakes _ _ _ Hr) as HW.
  assert (Hc : (if decide (cwork a) then 1 else 0) <= 1) by (case_decide; lia).
  destruct Hm.
  - rewrite decide_False by tauto. rewrite !weight_eq. cbn [add_call c_gs c_subs c_wch c_rch c_map c_p cinput]. unfold wgs. rewrite sum_list_with_app. cbn. lia.
  - pose proof (weight_g y g r x' H). assert (wpc (c_subs y) x' + 1 <= wpc (c_subs y) (g_pc r)) by (eapply gmove_weight; eauto). lia.
  - pose proof (weight_g (with_mut y None) g r (GDone (RErr ESendTimeout)) H) as E. rewrite H0 in E. cbn [wpc with_mut c_subs] in E. rewrite (weight_same y (with_mut y None)) in E by done. lia.
  - pose proof (weight_g (with_mut y None) g r (GDone (RErr EReceiptTimeout)) H) as E. rewrite H0 in E. cbn [wpc with_mut c_subs] in E. rewrite (weight_same y (with_mut y None)) in E by done. lia.
  - pose proof (weight_g (with_mut (with_closed y) None) g r (GDone (RErr EReceiptTimeout)) H) as E. rewrite H0 in E. cbn [wpc with_mut c_subs] in E. rewrite (weight_same y (with_mut _ None)) in E by done. lia.
  - pose proof (weight_g (with_closed (with_wclosed y)) g r (GDone RNil) H) as E. rewrite H0 in E. cbn [wpc with_mut c_subs] in E. rewrite (weight_same y (with_closed _)) in E by done. lia.
  - assert (weight (with_g (with_subs y (<[s:=b_with_state b SubClosing]> (c_subs y))) g match f with Some f0 => GFrame (Some s) f0 | None => GDone (RErr EOption) end) + wsub b + wpc (c_subs y) (g_pc r)
      <= weight y + wsub (b_with_state b SubClosing) + wpc (c_subs y) (match f with Some f0 => GFrame (Some s) f0 | None => GDone (RErr EOption) end)) as E.
    { apply weight_sub_g; [done|done|cbn; congruence|]. intros s0 v. rewrite H0. destruct f; done. }
    rewrite H0 in E. change (wsub (b_with_state b SubClosing)) with (wsub b) in E. destruct f; cbn [wpc] in E; lia.
  - assert (18 <= wpc (c_subs y) (g_pc r)) by (destruct H0; cbn; lia).
    subst own. unfold submit. destruct (receipt_owner g f) as [o|].
    + pose proof (weight_g (with_mut (with_chs y (c_chs y ++ [mkChan o false])) (Some g)) g r (GPut k (mkReq g f (Some (length (c_chs y))))) H) as E. cbn [wpc with_mut with_chs c_subs] in E. rewrite (weight_same y (with_mut _ _)) in E by done. lia.
    + pose proof (weight_g (with_mut y (Some g)) g r (GPut k (mkReq g f None)) H) as E. cbn [wpc with_mut with_chs c_subs] in E. rewrite (weight_same y (with_mut _ _)) in E by done. lia.
  - unfold submit. cbn [with_subs c_chs].
    set (Y := with_subs y (c_subs y ++ [new_sub g id rt (length (c_chs y))])).
    pose proof (weight_g (with_mut (with_chs Y (c_chs y ++ [mkChan (OwnS (length (c_subs y))) false])) (Some g)) g r (GPut (FSub (length (c_subs y))) (mkReq g f (Some (length (c_chs y))))) H) as E.
    rewrite H0 in E. cbn [wpc] in E. rewrite (weight_same Y (with_mut _ _)) in E by done.
    assert (weight Y <= weight y + 7).
    { rewrite !weight_eq. subst Y. cbn [with_subs c_gs c_subs c_wch c_rch c_map c_p]. rewrite sum_list_with_app. cbn [sum_list_with]. change (wsub (new_sub g id rt (length (c_chs y)))) with 7.
      pose proof (wgs_mono (c_subs y) (c_subs y ++ [new_sub g id rt (length (c_chs y))]) (c_gs y) (fun s => over_new _ _ s)). lia. }
    lia.
  - set (Y := with_wch y (c_wch y ++ [q])). set (x := (put_next k (q_chan q)).1). assert (weight Y = weight y + 9) as EY.
    { rewrite !weight_eq. subst Y. cbn [with_wch c_gs c_subs c_wch c_rch c_map c_p]. rewrite app_length. cbn [length]. lia. }
    assert (weight (with_g (if (put_next k (q_chan q)).2 then Y else with_mut Y None) g x) = weight (with_g Y g x)) as -> by (destruct (put_next k (q_chan q)).2; done).
    pose proof (weight_g Y g r x H) as E. rewrite H0 in E. cbn [wpc] in E. pose proof (put_next_weight (c_subs Y) k (q_chan q)). subst x. lia.
  - assert (E : weight (with_g (with_subs y (<[s:=b']> (c_subs y))) g (match o with Some c' => GClose s c' res | None => GDone res end)) + wsub b + wpc (c_subs y) (g_pc r)
      <= weight y + wsub b' + wpc (c_subs y) (match o with Some c' => GClose s c' res | None => GDone res end)).
    { destruct (clmove_weight _ _ _ _ H2) as (_ & _ & HS). apply weight_sub_g; [done|done|done|]. intros s0 v. rewrite H0. destruct o; done. }
    destruct (clmove_weight _ _ _ _ H2) as (E1 & E2 & _). rewrite H0 in E. unfold wsub in E. rewrite E2 in E. destruct o; cbn [wpc] in E; lia.
  - assert (E : weight (with_g (with_subs y (<[s:=b_with_wait b (g :: b_wait b)]> (c_subs y))) g (GBlocked s)) + wsub b + wpc (c_subs y) (g_pc r) <= weight y + wsub (b_with_wait b (g :: b_wait b)) + wpc (c_subs y) (GBlocked s)).
    { apply weight_sub_g; [done|done|done|]. intros s0 v. by rewrite H0. }
    rewrite H0 in E. change (wsub (b_with_wait b (g :: b_wait b))) with (wsub b) in E. cbn [wpc] in E. lia.
  - assert (E : weight (with_g (with_subs y (<[s:=b_with_buf b (b_buf b ++ [CmErr None])]> (c_subs y))) g (GDone (RErr EUnsubTimeout))) + wsub b + wpc (c_subs y) (g_pc r) <= weight y + wsub (b_with_buf b (b_buf b ++ [CmErr None])) + wpc (c_subs y) (GDone (RErr EUnsubTimeout))).
    { apply weight_sub_g; [done|done|done|]. intros s0 v. by rewrite H0. }
    rewrite H0 in E. unfold wsub in E. cbn [wpc b_with_buf b_rl b_buf] in E. rewrite app_length in E. cbn [length] in E. lia.
  - rewrite decide_False by tauto. rewrite !weight_eq. cbn [with_rch c_gs c_subs c_wch c_rch c_map c_p cinput]. rewrite app_length. cbn [length]. lia.
  - rewrite decide_False by tauto. rewrite !weight_eq. cbn [with_rch c_gs c_subs c_wch c_rch c_map c_p cinput]. lia.
  - pose proof (weight_fail y (lit "connection closed") H). lia.
  - pose proof (weight_fail y (lit "write channel closed") H). lia.
  - pose proof (weight_fail y (lit "read timeout") H). lia.
  - rewrite decide_False by tauto. lia.
  - pose proof (weight_fail y (lit "write error") H). lia.
  - pose proof (weight_taken _ _ _ H0). lia.
  - pose proof (weight_taken _ _ _ H0). pose proof (weight_fail (taken y l (Some f)) (lit "missing receipt-id") H). lia.
  - pose proof (weight_taken _ _ _ H0). pose proof (weight_p (taken y l (Some f)) (PBcast f (map_to_list (c_map y)) true)) as E. change (c_map (taken y l (Some f))) with (c_map y) in E.
    change (c_p (taken y l (Some f))) with (c_p y) in E. rewrite H in E. cbn [wloc] in E. rewrite map_list_size in E. lia.
  - pose proof (weight_taken _ _ _ H0). pose proof (weight_p (taken y l (Some f)) (PSend ch f k)) as E. change (c_map (taken y l (Some f))) with (c_map y) in E.
    change (c_p (taken y l (Some f))) with (c_p y) in E. rewrite H in E. destruct H1; cbn [wloc] in E; lia.
  - pose proof (weight_requested y q l (Some (outgoing (q_frame q), w)) H0 H). destruct w; [cbn zeta iota; lia|].
    pose proof (weight_fail (requested y l q (Some (outgoing (q_frame q), false))) (lit "write error") H). cbn zeta iota. lia.
  - pose proof (weight_requested y q l None H0 H). lia.
  - rewrite (weight_same (with_map (requested y l q None) (delete (first_of (f_hdr (q_frame q)) h_reply_to) (remember (c_map y) q))) (close_ch _ _)) by done.
    rewrite !weight_eq, H0. cbn [requested with_log with_map with_wch c_gs c_subs c_wch c_rch c_map c_p length]. rewrite H. cbn [wloc]. pose proof (remember_size (c_map y) q).
    pose proof (size_delete_le (remember (c_map y) q) (first_of (f_hdr (q_frame q)) h_reply_to)). lia.
  - pose proof (weight_p y (PSend ch f (KBcast f (take i rest ++ drop (S i) rest) err))) as E. rewrite H in E. cbn [wloc] in E.
    assert (length (take i rest ++ drop (S i) rest) + 1 <= length rest). { apply lookup_lt_Some in H0. rewrite app_length, take_length, drop_length. lia. } lia.
  - pose proof (weight_after _ _ _ _ H). destruct (after_send_rest y ch k) as (E1 & E2 & _). set (Y := with_log (after_send y ch k) (PvTold ch f)) in *.
    assert (EY : weight Y = weight (after_send y ch k)) by done. assert (Hg : c_gs Y !! g = Some r) by (cbn; by rewrite E1).
    destruct H4.
    + pose proof (weight_g Y g r (frame_done u (if decide (f_cmd f = RECEIPT) then RNil else RErr (EResponse f))) Hg) as E. rewrite H3 in E. cbn [wpc] in E.
      pose proof (frame_done_weight (c_subs Y) u (if decide (f_cmd f = RECEIPT) then RNil else RErr (EResponse f))). lia.
    + pose proof (weight_g (with_mut Y None) g r (GDone (if decide (f_cmd f = RECEIPT) then RNil else RErr (EResponse f))) Hg) as E. rewrite H3 in E. cbn [wpc] in E. rewrite (weight_same Y (with_mut _ _)) in E by done. lia.
    + pose proof (weight_g (with_mut (with_closed Y) None) g r (GDone RNil) Hg) as E. rewrite H3 in E. cbn [wpc] in E. rewrite (weight_same Y (with_mut _ _)) in E by done. lia.
    + pose proof (weight_g (with_mut Y None) g r (GDone (RErr (EResponse f))) Hg) as E. rewrite H3 in E. cbn [wpc] in E. rewrite (weight_same Y (with_mut _ _)) in E by done. lia.
  - pose proof (weight_after _ _ _ _ H). destruct (after_send_rest y ch k) as (E1 & E2 & _). set (Y := with_log (after_send y ch k) (PvTold ch f)) in *.
    assert (EY : weight Y = weight (after_send y ch k)) by done. assert (ES : c_subs Y = c_subs y) by done.
    pose proof (weight_sub Y s b (b_with_rl b (rl_got b (Some f)))) as E. rewrite ES in E. specialize (E H2 (fun x => x)). unfold wsub in E. cbn [b_with_rl b_rl b_buf] in E. rewrite H3 in E. cbn [wloop] in E.
    assert (E5 : wloop (rl_got b (Some f)) <= 9) by apply (rl_got_weight b (Some f)). lia.
  - pose proof (weight_p y (PMust err)) as E. rewrite H in E. destruct err; cbn [wloc length] in E; lia.
  - pose proof (weight_p (with_closed y) (PMust false)) as E. change (c_p (with_closed y)) with (c_p y) in E. rewrite H in E. cbn [wloc] in E. rewrite (weight_same y (with_closed y)) in E by done. lia.
  - pose proof (weight_p y PEnd) as E. rewrite H in E. cbn [wloc] in E. lia.
  - pose proof (weight_p (with_closed (with_wclosed y)) PEnd) as E. change (c_p (with_closed (with_wclosed y))) with (c_p y) in E. rewrite H in E. cbn [wloc] in E. rewrite (weight_same y (with_closed _)) in E by done. lia.
  - pose proof (weight_sub y s b (b_with_rl b (rl_got b None)) H (fun x => x)) as E. unfold wsub in E. cbn [b_with_rl b_rl b_buf] in E. rewrite H0 in E. cbn [wloop] in E. assert (E5 : wloop (rl_got b None) <= 5) by apply (rl_got_weight b None). lia.
  - pose proof (weight_sub y s b (b_with_rl (b_with_buf b (b_buf b ++ [m])) RlRecv) H (fun x => x)) as E. unfold wsub in E. cbn [b_with_rl b_with_buf b_rl b_buf] in E. rewrite H0, app_length in E. cbn [wloop length] in E. lia.
  - destruct (clmove_weight _ _ _ _ H1) as (E1 & E2 & HS).
    pose proof (weight_sub y s b (b_with_rl b' (match o with Some c' => RlClose c' | None => RlDone end)) H HS) as E. unfold wsub in E. cbn [b_with_rl b_rl b_buf] in E. rewrite H0 in E. destruct o; cbn [wloop] in E; lia.
  - pose proof (weight_sub y s b (mkCsub (b_by b) (b_id b) (b_reply b) (b_ch b) (b_state b) l (b_cclosed b) (b_once b) (b_rl b) (b_wait b) (b_read b ++ [m])) H (fun x => x)) as E. unfold wsub in E. cbn [b_rl b_buf] in E. rewrite H0 in E. cbn [length] in E. lia.
Qed.

(* ------------------------------------------------------------------ *)
(** Runs. *)
Lemma step_weight A cfg y a y' : creach A cfg y -> cstep cfg y a = Some (COk y') -> weight y' + (if decide (cwork a) then 1 else 0) <= weight y + cinput a.
Proof. intros Hr Hs. eapply cmv_weight; [done|by apply cstep_cmv]. Qed.
Lemma run_weight cfg l y y' : creach anything cfg y -> crun cfg y l = Some (COk y') -> weight y' + cmoves l <= weight y + 25 * calls l + 4 * arrivals l.
Proof.
  revert y. induction l as [|a l IH]; intros y Hr; cbn [crun]; [intros [= ->]; cbn; lia|]. destruct (cstep cfg y a) as [[p|y1]|] eqn:E; try done. intros Hl.
  pose proof (step_weight _ _ _ _ _ Hr E) as H1. specialize (IH y1 (cr_step _ _ _ _ _ Hr I E) Hl).
  assert (cmoves (a :: l) = (if decide (cwork a) then 1 else 0) + cmoves l) as -> by (unfold cmoves; rewrite filter_cons; by case_decide).
  unfold calls, arrivals in *. cbn [sum_list_with]. destruct a; cbn [cinput] in H1; lia.
Qed.
Lemma run_bounded cfg l y : crun cfg cl_init l = Some (COk y) -> cmoves l <= 25 * calls l + 4 * arrivals l + 4.
Proof. intros Hl. pose proof (run_weight _ _ _ _ (cr_init _ _) Hl) as H. change (weight cl_init) with 4 in H. lia. Qed.
Lemma work_none l : Forall cwork l -> cmoves l = length l /\ calls l = 0 /\ arrivals l = 0.
Proof.
  unfold cmoves, calls, arrivals. induction 1 as [|a l Ha Hl (I1 & I2 & I3)]; [done|]. rewrite filter_cons_True by done. cbn [sum_list_with length]. destruct a; try done; lia.
Qed.
Lemma run_silent cfg l0 y l y' : crun cfg cl_init l0 = Some (COk y) -> Forall cwork l -> crun cfg y l = Some (COk y') -> cmoves l0 + length l <= 25 * calls l0 + 4 * arrivals l0 + 4.
Proof.
  intros H0 Hl H1. destruct (work_none l Hl) as (E1 & E2 & E3). pose proof (run_bounded cfg (l0 ++ l) y') as H. rewrite crun_app, H0 in H. specialize (H H1).
  unfold cmoves, calls, arrivals in *. rewrite filter_app, app_length, !sum_list_with_app in H. lia.
Qed.

(* ------------------------------------------------------------------ *)
(** Coming to rest. *)
Definition cands (y : cl) : list cact :=
  (XRun <$> seq 0 (length (c_gs y))) ++ (XTimeout <$> seq 0 (length (c_gs y))) ++ [XTakeRead; XTakeWrite true; XTakeWrite false; XDeliver; XFinish] ++
  (match c_p y with PBcast _ rest _ => XPick <$> seq 0 (length rest) | _ => [] end) ++ (XLoop <$> seq 0 (length (c_subs y))) ++ (XConsume <$> seq 0 (length (c_subs y))).
Lemma cands_plain y a : a ∈ cands y -> cplain a.
Proof.
  unfold cands. rewrite !elem_of_app. intros [H|[H|[H|[H|[H|H]]]]].
  1,2,5,6: apply elem_of_list_fmap in H as (i & -> & _); done.
  - rewrite !elem_of_cons, elem_of_nil in H. destruct H as [->|[->|[->|[->|[->|[]]]]]]; done.
  - destruct (c_p y); try (by apply elem_of_nil in H). apply elem_of_list_fmap in H as (i & -> & _). done.
Qed.
Lemma seq_in {A} (f : nat -> A) n i : i < n -> f i ∈ f <$> seq 0 n.
Proof. intros H. apply elem_of_list_fmap. exists i. split; [done|]. apply elem_of_seq. lia. Qed.
Lemma cands_rest cfg y : Forall (fun a => cstep cfg y a = None) (cands y) -> at_rest cfg y.
Proof.
  rewrite Forall_forall. intros H a (Hw & H1 & H2). unfold cands in H. setoid_rewrite elem_of_app in H. setoid_rewrite elem_of_app in H. setoid_rewrite elem_of_app in H. setoid_rewrite elem_of_app in H. setoid_rewrite elem_of_app in H.
  destruct a as [o|g|g|f| | |w| |w|i| | |s|s]; try done.
  - destruct (decide (g < length (c_gs y))) as [Hl|Hl]; [apply H; left; by apply seq_in|]. cbn. unfold do_run. by rewrite lookup_ge_None_2 by lia.
  - destruct (decide (g < length (c_gs y))) as [Hl|Hl]; [apply H; right; left; by apply seq_in|]. cbn. unfold do_timeout. by rewrite lookup_ge_None_2 by lia.
  - apply H. right; right; left. rewrite !elem_of_cons. tauto.
  - apply H. right; right; left. rewrite !elem_of_cons. destruct w; tauto.
  - by destruct w.
  - destruct (c_p y) as [| |f rest err| |] eqn:Ep; try (cbn; unfold do_pick; by rewrite Ep).
    destruct (decide (i < length rest)) as [Hl|Hl]; [apply H; right; right; right; left; by apply seq_in|]. cbn. unfold do_pick. by rewrite Ep, lookup_ge_None_2 by lia.
  - apply H. right; right; left. rewrite !elem_of_cons. tauto.
  - apply H. right; right; left. rewrite !elem_of_cons. tauto.
  - destruct (decide (s < length (c_subs y))) as [Hl|Hl]; [apply H; right; right; right; right; left; by apply seq_in|]. cbn. unfold do_loop. by rewrite lookup_ge_None_2 by lia.
  - destruct (decide (s < length (c_subs y))) as [Hl|Hl]; [apply H; right; right; right; right; right; by apply seq_in|]. cbn. unfold do_consume. by rewrite lookup_ge_None_2 by lia.
Qed.
Lemma rest_or_not cfg y : at_rest cfg y \/ exists a r, cplain a /\ cstep cfg y a = Some r.
Proof.
  destruct (decide (Exists (fun a => is_Some (cstep cfg y a)) (cands y))) as [H|H].
  - right. apply Exists_exists in H as (a & Ha & [r Hs]). exists a, r. split; [by eapply cands_plain|done].
  - left. apply cands_rest. apply Forall_Exists_neg in H. eapply Forall_impl; [exact H|]. intros a Ha. cbn in Ha. by apply eq_None_not_Some.
Qed.
Lemma settles cfg y : creach anything cfg y -> exists l, Forall cplain l /\ ((exists p, crun cfg y l = Some (CPanic p)) \/ exists y', crun cfg y l = Some (COk y') /\ at_rest cfg y').
Proof.
  remember (weight y) as k eqn:Hk. assert (weight y <= k) as Hle by lia. clear Hk. revert y Hle.
  induction k as [|k IH]; intros y Hle Hr; (destruct (rest_or_not cfg y) as [Hs|(a & r & Ha & Hs)]; [exists []; split; [constructor|right; exists y; split; [reflexivity|exact Hs]]|]);
    (destruct r as [p|y']; [exists [a]; split; [constructor; [exact Ha|constructor]|left; exists p; cbn; by rewrite Hs]|]);
    pose proof (step_weight _ _ _ _ _ Hr Hs) as H1; rewrite decide_True in H1 by exact (proj1 Ha); assert (cinput a = 0) as Hz by (destruct Ha as [Ha _]; by destruct a).
  - lia.
  - destruct (IH y') as (l & L1 & L2); [lia|by eapply cr_step|]. exists (a :: l). split; [by constructor|]. cbn [crun]. by rewrite Hs.
Qed.

(* ------------------------------------------------------------------ *)
(** What rest looks like. *)
Lemma reach_no_subwait A cfg y : creach A cfg y -> forall g r s ch, c_gs y !! g = Some r -> g_pc r <> GWait (FSub s) ch.
Proof.
  induction 1 as [|y a y' Hr IH _ Hs]; [done|]. apply cstep_cmv in Hs as Hm. pose proof (reach_wmove _ _ _ _ _ Hr Hm) as Hw.
  destruct Hw as [E1 E2|o Ho E1 E2|h r0 x Hh Hx E1 E2|h r0 f id rt Hh Hst Ho E1 E2|s b b' Hb Hb' E1 E2|h r0 x s b b' Hh Hb Ha Hx E1 E2]; intros g r s0 ch; rewrite E1; intros Hg Hp.
  - by eapply IH.
  - apply lookup_app_Some in Hg as [Hg|[_ Hg]]; [by eapply IH|]. apply list_lookup_singleton_Some in Hg as [_ <-]. done.
  - destruct (decide (g = h)) as [->|Hn]; [|rewrite with_g_other in Hg by done; by eapply IH]. erewrite with_g_same in Hg by done. injection Hg as <-. cbn in Hp. subst x. clear -Hx.
    inversion Hx; subst; try (match goal with H : gmove _ _ _ _ _ _ _ |- _ => inversion H; subst end);
      unfold put_next, answer_pc, frame_done in *; repeat (case_match; simplify_eq).
  - destruct (decide (g = h)) as [->|Hn]; [erewrite with_g_same in Hg by done; by injection Hg as <-|]. rewrite with_g_other in Hg by done. by eapply IH.
  - by eapply IH.
  - destruct (decide (g = h)) as [->|Hn]; [|rewrite with_g_other in Hg by done; by eapply IH]. erewrite with_g_same in Hg by done. injection Hg as <-. cbn in Hp. subst x. clear -Hx.
    inversion Hx; subst; repeat (case_match; simplify_eq).
Qed.
Section rest.
  Context (A : cact -> Prop) (cfg0 cfg : ccfg) (y : cl) (Hr : creach A cfg0 y) (HR : at_rest cfg y).
  Lemma stuck_act a : cplain a -> is_Some (cstep cfg y a) -> False.
  Proof. intros Ha [x Hx]. rewrite (HR a Ha) in Hx. done. Qed.
  Lemma rest_buf s b : c_subs y !! s = Some b -> b_buf b = [].
  Proof. intros Hb. destruct (b_buf b) as [|m l] eqn:E; [done|]. exfalso. apply (stuck_act (XConsume s)); [done|]. cbn. unfold do_consume. rewrite Hb, E. done. Qed.
  Lemma rest_put b s m : c_subs y !! s = Some b -> is_Some (put_c b m).
  Proof. intros Hb. unfold put_c. destruct (b_cclosed b); [done|]. rewrite (rest_buf _ _ Hb), decide_True by (cbn; unfold cap_c; lia). done. Qed.
  Lemma rest_hot s b c : c_subs y !! s = Some b -> hot c -> is_Some (close_step b c).
  Proof. intros Hb Hc. destruct c as [m|[m|]| |]; cbn; try done. - destruct (rest_put b s m Hb) as [[p|b'] ->]; done. - by destruct (b_cclosed b). Qed.
  Lemma loop_close s b c : c_subs y !! s = Some b -> b_rl b = RlClose c -> close_step b c = None.
  Proof. intros Hb Hc. destruct (close_step b c) as [[p|[b' [c'|]]]|] eqn:E; [| | |done]; (exfalso; apply (stuck_act (XLoop s)); [done|]; cbn; unfold do_loop; rewrite Hb, Hc, E; done). Qed.
  Lemma call_close g r s b c x : c_gs y !! g = Some r -> g_pc r = GClose s c x -> c_subs y !! s = Some b -> close_step b c = None.
  Proof. intros Hg Hp Hb. destruct (close_step b c) as [[p|[b' [c'|]]]|] eqn:E; [| | |done]; (exfalso; apply (stuck_act (XRun g)); [done|]; cbn; unfold do_run; rewrite Hg, Hp, Hb, E; done). Qed.
  Lemma rest_close s b c : c_subs y !! s = Some b -> close_step b c = None -> False.
  Proof.
    intros Hb Hc. destruct (reach_closing _ _ _ Hr) as [HP HC]. pose proof (cg_late _ _ _ (HC _ _ Hb)) as HL.
    assert (b_once b <> OnceRunning) as Hn.
    { intros E. destruct (HL E) as [Hh|(g & r & Hg & Hh)].
      - unfold rl_hot in Hh. destruct (b_rl b) as [| |c'|] eqn:Erl; try done. pose proof (loop_close _ _ _ Hb Erl) as H1. destruct (rest_hot s b c' Hb Hh) as [? H2]. congruence.
      - destruct (g_pc r) as [| | | |s' c' x| | | | | |] eqn:Ep; try done. destruct Hh as [-> Hh]. pose proof (call_close _ _ _ _ _ _ Hg Ep Hb) as H1. destruct (rest_hot s b c' Hb Hh) as [? H2]. congruence. }
    destruct c as [m|o| |]; [cbn in Hc; by destruct (b_once b)| | |]; (match type of Hc with close_step _ ?c = None => destruct (rest_hot s b c Hb I) as [x Hx] end; rewrite Hc in Hx; done).
  Qed.
  Lemma rest_sub s b : c_subs y !! s = Some b -> settled_sub y b.
  Proof.
    intros Hb. split; [by eapply rest_buf|]. destruct (b_rl b) as [|m|c|] eqn:Erl; [left|exfalso|exfalso|by right].
    - split; [done|]. destruct (h_is_closed y (b_ch b)) eqn:E; [|done]. exfalso. apply (stuck_act (XLoop s)); [done|]. cbn. unfold do_loop. by rewrite Hb, Erl, E.
    - destruct (rest_put b s m Hb) as [x Hx]. apply (stuck_act (XLoop s)); [done|]. cbn. unfold do_loop. rewrite Hb, Erl, Hx. by destruct x.
    - eapply rest_close; [exact Hb|]. by eapply loop_close.
  Qed.
  Context (HT : timeouts cfg) (HU : real_subs y).
  Lemma rest_call g r : c_gs y !! g = Some r -> (exists x, g_pc r = GDone x) \/ (exists h, c_mut y = Some h) /\ (locked (g_pc r) -> jammed cfg y g).
  Proof.
    intros Hg. destruct HT as (T1 & T2 & T3 & T4 & T5). destruct (reach_closing _ _ _ Hr) as [HP HC].
    assert (NR : do_run cfg y g = None) by (apply (HR (XRun g)); done). assert (NT : do_timeout cfg y g = None) by (apply (HR (XTimeout g)); done).
    unfold do_run in NR. unfold do_timeout in NT. rewrite Hg in NR, NT.
    assert (HS : forall s, unsubbing s (g_pc r) -> exists b, c_subs y !! s = Some b) by (intros s Hx; exact (HP _ _ _ Hg Hx)).
    destruct (g_pc r) as [|u f|k q|k ch|s c x|s x|s|s|s|s|x] eqn:Ep; [| | | | | | | | | |by left; eexists].
    - right. split; [|by intros []]. destruct (c_mut y) as [h|] eqn:Em; [by exists h|]. exfalso. unfold do_start in NR. rewrite Em in NR.
      destruct (g_op r) as [f|f|f|s f|rid|] eqn:Eo; try done; try (repeat (case_match; try done); done).
      destruct (HU _ _ _ _ Hg Eo) as [b Hb]. rewrite Hb in NR. repeat (case_match; try done).
    - right. split; [|by intros []]. destruct (c_mut y) as [h|] eqn:Em; [by exists h|]. exfalso. unfold do_frame in NR. rewrite Em in NR. by destruct (c_closed y).
    - right. assert (c_mut y = Some g) as Em by (apply (lk_mut _ (reach_lock _ _ _ Hr) _ _ Hg); rewrite Ep; done). split; [by exists g|]. intros _. unfold do_put in NR.
      destruct (c_wclosed y) eqn:Ew; [done|]. destruct (decide _) as [Hd|Hd]; [done|]. exists r, k, q. split_and!; try done; [|lia]. intros ->. by rewrite T1 in NT.
    - exfalso. destruct k as [|u|s|]; [by rewrite T2 in NT|by rewrite T5 in NT| |by rewrite T3 in NT]. by eapply (reach_no_subwait _ _ _ Hr).
    - exfalso. destruct (HS s) as [b Hb]; [done|]. eapply rest_close; [exact Hb|]. by eapply call_close.
    - exfalso. destruct (HS s) as [b Hb]; [done|]. rewrite Hb in NR. by destruct (b_state b).
    - exfalso. destruct (HS s) as [b Hb]; [done|]. by rewrite Hb in NR.
    - exfalso. by rewrite T4 in NT.
    - exfalso. destruct (HS s) as [b Hb]; [done|]. rewrite Hb in NR. by destruct (b_state b).
    - exfalso. destruct (HS s) as [b Hb]; [done|]. rewrite Hb in NR. destruct (rest_put b s (CmErr None) Hb) as [x Hx]. rewrite Hx in NR. by destruct x.
  Qed.
  Lemma rest_held h : c_mut y = Some h -> jammed cfg y h.
  Proof.
    intros Em. pose proof (reach_lock _ _ _ Hr) as HL. destruct (lk_dom _ HL _ Em) as [r Hg]. pose proof (proj2 (lk_mut _ HL _ _ Hg) Em) as Hk.
    destruct (rest_call _ _ Hg) as [[x Hx]|[_ Hj]]; [by rewrite Hx in Hk|by apply Hj].
  Qed.
  Lemma rest_returned : all_returned y \/ exists h, jammed cfg y h.
  Proof.
    destruct (c_mut y) as [h|] eqn:Em; [right; exists h; by apply rest_held|]. left. intros g Hl. apply lookup_lt_is_Some_2 in Hl as [r Hg]. exists r.
    destruct (rest_call _ _ Hg) as [[x Hx]|[[h Hh] _]]; [by exists x|congruence].
  Qed.
  Lemma rest_loop : 0 < k_wcap cfg ->
    (c_p y = PLoop /\ c_rch y = [] /\ c_rclosed y = false /\ c_wch y = [] /\ c_wclosed y = false /\ all_returned y) \/
    (c_p y = PEnd /\ c_closed y = true /\ all_returned y) \/
    (exists ch f k, c_p y = PSend ch f k) \/
    (exists err h, c_p y = PMust err /\ jammed cfg y h).
  Proof.
    intros Hw. pose proof (reach_lock _ _ _ Hr) as HL. destruct (c_p y) as [|ch f k|f rest err|err|] eqn:Ep.
    - left. assert (c_rch y = [] /\ c_rclosed y = false) as [E1 E2].
      { destruct (c_rch y) as [|o l] eqn:E; [destruct (c_rclosed y) eqn:E2; [|done]|]; exfalso; apply (stuck_act XTakeRead); try done; cbn; unfold do_take_read; rewrite Ep, E; [by rewrite E2|].
        destruct o as [f|]; repeat case_match; done. }
      assert (c_wch y = [] /\ c_wclosed y = false) as [E3 E4].
      { destruct (c_wch y) as [|q l] eqn:E; [destruct (c_wclosed y) eqn:E4; [|done]|]; exfalso; apply (stuck_act (XTakeWrite true)); try done; cbn; unfold do_take_write; rewrite Ep, E; [by rewrite E4|].
        repeat case_match; done. }
      split_and!; try done. destruct rest_returned as [?|(h & r & k & q & _ & _ & _ & _ & _ & Hlen)]; [done|]. rewrite E3 in Hlen. cbn in Hlen. lia.
    - right; right; left. by eexists _, _, _.
    - exfalso. destruct rest as [|kc rest]; [apply (stuck_act XFinish)|apply (stuck_act (XPick 0))]; try done; cbn; unfold do_finish, do_pick; rewrite Ep; done.
    - right; right; right. destruct (c_mut y) as [h|] eqn:Em; [exists err, h; split; [done|by apply rest_held]|]. exfalso. apply (stuck_act XFinish); [done|]. cbn. unfold do_finish. rewrite Ep, Em. repeat case_match; done.
    - right; left. pose proof (lk_end _ HL Ep) as Hc. split_and!; try done. destruct rest_returned as [?|(h & r & k & q & Em & _)]; [done|]. rewrite (lk_open _ HL) in Hc by congruence. done.
  Qed.
End rest.

(** A jam lasts as long as processLoop does not come back to its select. *)
Lemma gmove_unlocked cfg y g o t x x' : gmove cfg y g o t x x' -> ~ locked x.
Proof. intros H. by apply gmove_free in H as [? _]. Qed.
Lemma jam_step A cfg y a y' h : creach A cfg y -> cmv cfg y a y' -> c_p y <> PLoop -> jammed cfg y h -> jammed cfg y' h.
Proof.
  intros Hr Hm Hp (r & k & q & Em & Hg & Hpc & Hk & Hw & Hl). pose proof (reach_lock _ _ _ Hr) as HL. pose proof (lk_open _ HL ltac:(congruence)) as Hc.
  assert (HO : forall g r', c_gs y !! g = Some r' -> locked (g_pc r') -> g = h /\ r' = r).
  { intros g r' Hg' Hlk. apply (lk_mut _ HL _ _ Hg') in Hlk. assert (g = h) as -> by congruence. split; congruence. }
  assert (HN : forall g r' x, c_gs y !! g = Some r' -> ~ locked (g_pc r') -> forall Y, c_gs Y = c_gs y -> c_gs (with_g Y g x) !! h = Some r).
  { intros g r' x Hg' Hlk Y EY. rewrite with_g_other; [by rewrite EY|]. intros ->. apply Hlk. assert (r' = r) as -> by congruence. by rewrite Hpc. }
  assert (HJ : forall Y, c_mut Y = c_mut y -> c_gs Y !! h = Some r -> c_wclosed Y = c_wclosed y -> c_wch Y = c_wch y -> jammed cfg Y h).
  { intros Y E1 E2 E3 E4. exists r, k, q. by rewrite E1, E3, E4. }
  destruct Hm; try congruence; try (by apply HJ).
  - apply HJ; try done. cbn. by apply lookup_app_l_Some.
  - apply HJ; try done. eapply HN; [done| |done]. by eapply gmove_unlocked.
  - exfalso. destruct (HO _ _ H) as [-> ->]; [by rewrite H0|]. congruence.
  - exfalso. destruct (HO _ _ H) as [-> ->]; [by rewrite H0|]. congruence.
  - exfalso. destruct (HO _ _ H) as [-> ->]; [by rewrite H0|]. congruence.
  - apply HJ; try done. eapply HN; [done|by rewrite H0; intros []|done].
  - exfalso. destruct (HO _ _ H) as [-> ->]; [by rewrite H0|]. lia.
  - apply HJ; try done. eapply HN; [done|by rewrite H0; intros []|done].
  - apply HJ; try done. eapply HN; [done|by rewrite H0; intros []|done].
  - apply HJ; try done. eapply HN; [done|by rewrite H0; intros []|done].
  - destruct (after_send_rest y ch k0) as (E1 & E2 & E3 & E4).
    assert (c_mut (after_send y ch k0) = c_mut y /\ c_wclosed (after_send y ch k0) = c_wclosed y) as [E5 E6] by (by destruct k0 as [| |? ? []]).
    destruct H4.
    + apply HJ; try done. eapply HN; [done|by rewrite H3; intros []|done].
    + exfalso. destruct H4 as [->|[s ->]]; [|exact (reach_no_subwait _ _ _ Hr _ _ _ _ H2 H3)]. destruct (HO _ _ H2) as [-> ->]; [by rewrite H3|]. congruence.
    + exfalso. destruct (HO _ _ H2) as [-> ->]; [by rewrite H3|]. congruence.
    + exfalso. destruct (HO _ _ H2) as [-> ->]; [by rewrite H3|]. congruence.
  - destruct (after_send_rest y ch k0) as (E1 & E2 & E3 & E4).
    assert (c_mut (after_send y ch k0) = c_mut y /\ c_wclosed (after_send y ch k0) = c_wclosed y) as [E5 E6] by (by destruct k0 as [| |? ? []]).
    apply HJ; try done. cbn. by rewrite E1.
Qed.
Lemma jam_end_step A cfg y a y' h err : creach A cfg y -> cmv cfg y a y' -> c_p y = PMust err -> jammed cfg y h -> c_p y' = PMust err /\ jammed cfg y' h.
Proof.
  intros Hr Hm Hp Hj. split; [|eapply jam_step; [exact Hr|exact Hm|congruence|exact Hj]]. destruct Hj as (r & k & q & Em & Hg & _).
  destruct Hm; try congruence; try done; try (etrans; [apply submit_same|done]). by destruct (put_next _ _).2.
Qed.
(** A call that waits for closeMutex before its first step. *)
Lemma waits_step cfg y a y' g r : cmv cfg y a y' -> c_mut y <> None -> c_gs y !! g = Some r -> g_pc r = GStart -> (forall s f, g_op r <> OUnsub s f) -> (forall f, g_op r <> OFrame f) -> c_gs y' !! g = Some r.
Proof.
  intros Hm Hk Hg Hp Hu Hf.
  assert (HN : forall j r0 x Y, c_gs y !! j = Some r0 -> g_pc r0 <> GStart -> c_gs Y = c_gs y -> c_gs (with_g Y j x) !! g = Some r).
  { intros j r0 x Y Hj H0 EY. rewrite with_g_other; [by rewrite EY|]. intros ->. congruence. }
  assert (HA : forall ch k, c_gs (after_send y ch k) = c_gs y) by (intros ch k; by destruct (after_send_rest y ch k) as (E1 & _)).
  destruct Hm; try congruence; try done; try (by eapply HN; [done|congruence|done]).
  - cbn. by apply lookup_app_l_Some.
  - destruct (decide (g0 = g)) as [->|Hn]; [|by rewrite with_g_other]. exfalso. assert (r0 = r) as -> by congruence. rewrite Hp in H0. inversion H0; subst; congruence.
  - destruct (decide (g0 = g)) as [->|Hn]; [|by rewrite with_g_other]. exfalso. assert (r0 = r) as -> by congruence. by eapply Hu.
  - eapply HN; [done|congruence|]. by destruct (put_next _ _).2.
  - by destruct w.
  - destruct H4; (eapply HN; [done|congruence|done]) || (eapply HN; [done|congruence|cbn; apply HA]).
  - cbn. by rewrite HA.
Qed.
