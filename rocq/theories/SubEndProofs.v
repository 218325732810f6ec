From stdpp Require Import gmap.
From Verif Require Import GoBase HeaderModel FrameModel HeaderProofs NegotiationModel ClientApiModel ClientModel ClientSpec ClientLemmas ClientProofs ClientRequests ClientCalls ClientChannels ClientReceipts ClientDelivery ClientMessages ClientFinal ClientClosing ClientUnsub ClientRestSpec ClientRest ClientEnd ReactSpec ReactProofs SubEndSpec.

Lemma told_snoc ch l e : told ch (l ++ [e]) = told ch l ++ match e with PvTold ch' f => if decide (ch' = ch) then [f] else [] | _ => [] end.
Proof. unfold told. rewrite omap_app. f_equal. destruct e; cbn; try done. by destruct (decide _). Qed.
Definition busy (T : list frame) : Prop := Forall (fun f => ~ final f) T.
Lemma shown_app T T' : busy T -> shown (T ++ T') = shown T ++ shown T'.
Proof.
  induction T as [|f T IH]; [done|]. intros [Hf HT]%Forall_cons. cbn [app shown]. rewrite IH by done.
  destruct (decide _); [done|]. destruct (decide _); [by exfalso; apply Hf; left|]. destruct (decide _); [by exfalso; apply Hf; right|done].
Qed.
Lemma cut_snoc l e ch : cut l ch -> cut (l ++ [e]) ch.
Proof. intros (l1 & q & l2 & k & -> & H). exists l1, q, (l2 ++ [e]), k. by rewrite <-app_assoc. Qed.
(** Only a delivery hands anything over. *)
Lemma quiet_told cfg y a y' ch : cmv cfg y a y' -> a <> XDeliver -> told ch (c_log y') = told ch (c_log y).
Proof.
  intros Hm Ha. destruct Hm; try done; try (cbn [with_p with_log with_rch with_map with_wch taken requested fail close_ch with_chs c_log]; rewrite told_snoc; by rewrite app_nil_r).
  - by destruct (submit_same y g k f own) as (_ & _ & -> & _).
  - by destruct (put_next k (q_chan q)).2.
  - destruct w; cbn [fail with_p requested with_log with_map with_wch c_log]; rewrite told_snoc; by rewrite app_nil_r.
Qed.
Lemma log_mono cfg y a y' : cmv cfg y a y' -> c_log y' = c_log y \/ exists e, c_log y' = c_log y ++ [e].
Proof. intros Hm%cmv_pmove. destruct Hm; eauto. Qed.
Lemma deliver_sub cfg y y' s b : cmv cfg y XDeliver y' -> reqinv y -> mapinv y -> c_subs y !! s = Some b ->
  c_subs y' !! s = Some b /\ told (b_ch b) (c_log y') = told (b_ch b) (c_log y) \/
  exists f k, c_p y = PSend (b_ch b) f k /\ b_rl b = RlRecv /\ c_subs y' !! s = Some (b_with_rl b (rl_got b (Some f))) /\ told (b_ch b) (c_log y') = told (b_ch b) (c_log y) ++ [f].
Proof.
  intros Hm HR HM Hb. inversion Hm as [|? ? t| | | | | | | | | | | | | | | | | | | | | | | | | | |ch f k h g r w ? H H0 H1 H2 H3 H4|ch f k h s0 b0 H H0 H1 H2 H3| | | | | | | |]; subst; [by destruct t| |].
  - left. apply answers_same in H4 as (E1 & _ & _ & E2 & _). destruct (after_send_same y ch k) as (E3 & _ & E4 & _). rewrite E1, E2. cbn [with_log c_subs c_log]. rewrite E3, E4. split; [done|].
    rewrite told_snoc. rewrite decide_False; [by rewrite app_nil_r|]. intros ->. destruct (rq_sub _ HR _ _ Hb) as (h' & r' & f' & Hh' & Ho' & _). congruence.
  - destruct (after_send_same y ch k) as (E3 & _ & E4 & _). cbn [with_subs with_log c_subs c_log]. rewrite E4, told_snoc. destruct (decide (s = s0)) as [->|Hne].
    + assert (b0 = b) as -> by congruence. pose proof (own_chan y s0 b ch h HR HM (ex_intro _ f (ex_intro _ k H)) H0 H1 H2) as <-. right. exists f, k. rewrite decide_True by done. split_and!; try done.
      rewrite list_lookup_insert by (by eapply lookup_lt_Some). done.
    + left. rewrite list_lookup_insert_ne by done. split; [done|]. rewrite decide_False; [by rewrite app_nil_r|]. intros ->. destruct (rq_sub _ HR _ _ Hb) as (h' & r' & f' & Hh' & Ho' & _). congruence.
Qed.
Lemma deliver_dec a : a = XDeliver \/ a <> XDeliver.
Proof. destruct a; auto; by right. Qed.

(* ---------------- closed response channels ---------------- *)
Definition spent (log : list pev) (ch : nat) : Prop := (exists f, f ∈ told ch log /\ final f) \/ cut log ch.
Lemma spent_snoc l e ch : spent l ch -> spent (l ++ [e]) ch.
Proof. intros [(f & Hf & Hc)|H]; [left; exists f; split; [|done]; rewrite told_snoc; apply elem_of_app; by left|right; by apply cut_snoc]. Qed.
Lemma told_in ch f l : PvTold ch f ∈ l -> f ∈ told ch l.
Proof. intros H. apply elem_of_list_omap. exists (PvTold ch f). split; [done|]. by rewrite decide_True. Qed.
Lemma loop_table A cfg y : creach A cfg y -> c_p y = PLoop -> table (c_map y) (c_log y).
Proof. intros Hr Hp. pose proof (reach_shaped _ _ _ Hr) as HS. unfold shaped in HS. rewrite Hp in HS. apply HS. Qed.
Lemma reach_spent A cfg y : creach A cfg y -> forall s b, c_subs y !! s = Some b -> h_is_closed y (b_ch b) = true -> spent (c_log y) (b_ch b).
Proof.
  intros Hr s b Hb. enough (H : forall ch s, (exists h, c_chs y !! ch = Some h /\ h_owner h = OwnS s) -> h_is_closed y ch = true -> spent (c_log y) ch).
  { apply (H _ s). destruct (rq_sub _ (reach_req _ _ _ Hr) _ _ Hb) as (h & _ & _ & Hh & Ho & _). by exists h. }
  clear s b Hb. induction Hr as [|y a y' Hr IH Ha Hs]; [done|]. apply cstep_cmv in Hs as Hm. pose proof (reach_map _ _ _ Hr) as HM. intros ch s (h' & Hh' & Ho') Hc.
  assert (Hk : h_is_closed y ch = true -> spent (c_log y') ch).
  { intros H. assert (spent (c_log y) ch) as HS.
    { eapply (IH _ s); [|done]. unfold h_is_closed in H. destruct (c_chs y !! ch) as [h|] eqn:Hh; [|done]. exists h. split; [done|]. destruct (hchange_mono _ _ _ _ (cmv_chs _ _ _ _ Hm) Hh) as (h2 & Hh2 & E). congruence. }
    destruct (log_mono _ _ _ _ Hm) as [->|[e ->]]; [done|by apply spent_snoc]. }
  assert (Hsend : forall c0 f k y1, c_p y = PSend c0 f k -> c_chs y1 = c_chs (after_send y c0 k) -> PvTold c0 f ∈ c_log y' -> h_is_closed y1 ch = true -> spent (c_log y') ch).
  { intros c0 f k y1 Hp E Hl H. assert (h_is_closed (after_send y c0 k) ch = true) as H' by (unfold h_is_closed in *; by rewrite <-E). destruct k as [id| |f' rest err]; cbn [after_send] in H'.
    - apply closed_ch in H' as [H'| ->]; [by apply Hk|]. left. exists f. split; [by apply told_in|]. right. destruct (mi_send _ HM _ _ _ Hp) as [(? & ? & ? & [=])|(id' & l & _ & Hro & _)]. by inversion Hro.
    - by apply Hk.
    - destruct err; [|by apply Hk]. apply closed_ch in H' as [H'| ->]; [by apply Hk|]. left. exists f. split; [by apply told_in|]. left. destruct (mi_cur _ HM _ _ _ _ _ Hp) as [-> _]. by destruct (mi_bcast _ HM f rest true) as [? _]; [right; by do 2 eexists|]. }
  pose proof (cmv_chs _ _ _ _ Hm) as HH. destruct Hm; try (by apply Hk).
  - apply Hk. by eapply closed_submit.
  - apply Hk. by apply closed_submit in Hc.
  - apply Hk. by destruct (put_next k (q_chan q)).2.
  - apply Hk. by destruct w.
  - apply closed_ch in Hc as [Hc| ->]; [by apply Hk|]. right. assert (exists rt, hd_contains (f_hdr (q_frame q)) h_reply_to = Some rt) as [rt Hrt].
    { unfold local_only in H1. apply andb_true_iff in H1 as [_ H1]. destruct (hd_contains (f_hdr (q_frame q)) h_reply_to); [eauto|done]. }
    unfold first_of in H3. rewrite Hrt in H3. apply remember_inv in H3 as [[Hq Hn]|[H3 Hn]].
    + exfalso. destruct (rq_ok _ (reach_req _ _ _ Hr) q) as (r & Hg & Hof & _ & Hx); [left; rewrite H0; by left|]. destruct (Hx _ Hq) as (h & Hh & Hw).
      assert (h_owner h = OwnS s) as Eo by (destruct (hchange_mono _ _ _ _ HH Hh) as (h2 & Hh2 & E); congruence).
      destruct (is_subscribe (g_op r)) eqn:Es; [|congruence]. pose proof (reach_ops _ _ _ Hr _ _ Hg) as Hok. destruct (g_op r) as [| |[[[f0 id] rt0]|]| | |]; try done.
      injection Hof as ->. cbn in Hok. apply bool_decide_eq_true in Hok. by rewrite Hok in H2.
    + exists (c_log y), q, [], rt. split_and!; try done. by apply (loop_table _ _ _ Hr).
  - match goal with H : answers _ _ _ _ _ |- _ => apply answers_same in H as (_ & E & _ & El & _) end. eapply (Hsend ch0 f k y'); [done|by rewrite E| |done]. rewrite El. cbn [with_log c_log]. apply in_last.
  - eapply (Hsend ch0 f k); [done|reflexivity| |exact Hc]. cbn [with_subs with_log c_log]. apply in_last.
Qed.
Lemma closed_stays cfg y a y' ch : cmv cfg y a y' -> h_is_closed y ch = true -> h_is_closed y' ch = true.
Proof.
  intros Hm%cmv_chs. unfold h_is_closed. destruct (c_chs y !! ch) as [h|] eqn:Hh; [|done]. intros Hc. destruct Hm as [|o|j].
  - by rewrite Hh.
  - by rewrite (lookup_app_l_Some _ _ _ _ Hh).
  - destruct (decide (ch = j)) as [->|Hne]; [by rewrite list_lookup_alter, Hh|]. by rewrite list_lookup_alter_ne, Hh.
Qed.
Lemma cut_split l e ch : cut (l ++ [e]) ch -> cut l ch \/ exists q k, e = PvReq q None /\ ClientEnd.listens l k ch /\ f_cmd (q_frame q) = UNSUBSCRIBE /\ hd_contains (f_hdr (q_frame q)) h_reply_to = Some k /\ ~ (is_Some (q_chan q) /\ names (q_frame q) k).
Proof.
  intros (l1 & q & l2 & k & E & H). destruct l2 as [|e2 l2 _] using rev_ind.
  - apply app_inj_tail in E as [-> ->]. right. by exists q, k.
  - rewrite app_comm_cons, app_assoc in E. apply app_inj_tail in E as [-> _]. left. by exists l1, q, l2, k.
Qed.
Lemma reach_cut A cfg y ch : creach A cfg y -> cut (c_log y) ch -> h_is_closed y ch = true.
Proof.
  induction 1 as [|y a y' Hr IH Ha Hs]; [by intros ([] & ? & ? & ? & ? & _)|]. apply cstep_cmv in Hs as Hm. intros Hc.
  assert (Hk : cut (c_log y) ch -> h_is_closed y' ch = true) by (intros H; eapply closed_stays; [done|by apply IH]).
  destruct (log_mono _ _ _ _ Hm) as [E|[e E]]; [rewrite E in Hc; by apply Hk|]. rewrite E in Hc. apply cut_split in Hc as [Hc|(q & k & -> & Hl & Hu & Hrt & Hn)]; [by apply Hk|].
  assert (Hno : forall z, z <> PvReq q None -> c_log y' = c_log y ++ [z] -> False) by (intros z Hz Ez; rewrite E in Ez; by apply app_inj_tail in Ez as [_ ?]).
  assert (Hsame : c_log y' = c_log y -> False) by (rewrite E; intros Ez%(f_equal length); rewrite app_length in Ez; cbn in Ez; lia).
  assert (Hre : forall q0, PvReq q0 None = PvReq q None -> c_p y = PLoop -> remember (c_map y) q0 !! first_of (f_hdr (q_frame q0)) h_reply_to = Some ch).
  { intros q0 [= ->] Hp. unfold first_of. rewrite Hrt, remember_out by done. by apply (loop_table _ _ _ Hr). }
  destruct Hm; try (exfalso; by apply Hsame); try (exfalso; eapply Hno; [|reflexivity]; done).
  - exfalso. apply Hsame. by destruct (submit_same y g k0 f own) as (_ & _ & -> & _).
  - exfalso. apply Hsame. by destruct (put_next k0 (q_chan q0)).2.
  - exfalso. destruct w; (eapply Hno; [|reflexivity]; done).
  - exfalso. cbn [requested with_log c_log] in E. apply app_inj_tail in E as [_ E]. rewrite (Hre _ E) in H2 by done. injection E as ->. destruct H2 as [?|?]; done.
  - cbn [requested with_log with_map close_ch with_chs c_log] in E. apply app_inj_tail in E as [_ E]. rewrite (Hre _ E) in H3 by done. injection H3 as <-. injection E as ->.
    pose proof Hl as Hk0%(loop_table _ _ _ Hr); [|done]. destruct (mi_map _ (reach_map _ _ _ Hr) _ _ Hk0) as (q' & w' & Hq' & Hc' & _).
    destruct (rq_ok _ (reach_req _ _ _ Hr) q') as (r & _ & _ & _ & Hx); [right; left; by eapply log_req_in|]. destruct (Hx _ Hc') as (h & Hh & _).
    unfold h_is_closed, close_ch. cbn [requested with_log with_map with_chs c_chs with_wch]. by rewrite list_lookup_alter, Hh.
  - exfalso. match goal with H : answers _ _ _ _ _ |- _ => apply answers_same in H as (_ & _ & _ & El & _) end. destruct (after_send_same y ch0 k0) as (_ & _ & E4 & _). eapply Hno; [|rewrite El; cbn [with_log c_log]; by rewrite E4]. done.
  - exfalso. destruct (after_send_same y ch0 k0) as (_ & _ & E4 & _). eapply Hno; [|cbn [with_subs with_log c_log]; by rewrite E4]. done.
Qed.

(* ---------------- what is on C ---------------- *)
Definition fresh_sub (b : csub) : Prop := b_state b <> SubClosed /\ b_once b = OnceFree /\ b_cclosed b = false.
Definition tail_ok (log : list pev) (ch : nat) (x : list cmsg) : Prop := ~ busy (told ch log) /\ x = [] \/ busy (told ch log) /\ cut log ch /\ x = [CmErr None].
Definition stage (b : csub) (c : clpc) : Prop :=
  match c with
  | Cl1 _ => fresh_sub b
  | Cl2 _ | Cl3 => b_state b <> SubClosed /\ b_once b = OnceRunning /\ b_cclosed b = false
  | Cl4 => b_state b = SubClosed /\ b_once b = OnceRunning /\ b_cclosed b = false
  end.
Definition end_ok (y : cl) (b : csub) : Prop :=
  match b_rl b with
  | RlRecv | RlPut _ => fresh_sub b /\ busy (told (b_ch b) (c_log y)) /\ b_read b ++ b_buf b ++ in_hand (b_rl b) = shown (told (b_ch b) (c_log y))
  | RlClose c => stage b c /\ exists x, tail_ok (c_log y) (b_ch b) x /\ b_read b ++ b_buf b ++ in_hand (b_rl b) = shown (told (b_ch b) (c_log y)) ++ x
  | RlDone => (b_state b = SubClosed /\ b_cclosed b = true) /\ exists x, tail_ok (c_log y) (b_ch b) x /\ b_read b ++ b_buf b = shown (told (b_ch b) (c_log y)) ++ x
  end.
Lemma deliver_len cfg y y' : cmv cfg y XDeliver y' -> length (c_subs y') = length (c_subs y).
Proof.
  intros Hm. inversion Hm as [|? ? t| | | | | | | | | | | | | | | | | | | | | | | | | | |ch f k h g r w ? H H0 H1 H2 H3 H4|ch f k h s0 b0 H H0 H1 H2 H3| | | | | | | |]; subst; [by destruct t| |].
  - apply answers_same in H4 as (-> & _). cbn [with_log c_subs]. by destruct (after_send_same y ch k) as (-> & _).
  - cbn [with_subs c_subs]. by rewrite insert_length.
Qed.
Lemma told_chan A cfg y ch f : creach A cfg y -> f ∈ told ch (c_log y) -> ch < length (c_chs y).
Proof.
  induction 1 as [|y a y' Hr IH Ha Hs]; [by intros ?%elem_of_nil|]. apply cstep_cmv in Hs as Hm.
  assert (length (c_chs y) <= length (c_chs y')) as Hl by (destruct (cmv_chs _ _ _ _ Hm); rewrite ?app_length, ?alter_length; lia).
  destruct (deliver_dec a) as [->|Hne]; [|rewrite (quiet_told _ _ _ _ _ Hm Hne); intros Hf%IH; lia].
  assert (exists c0 f0, c_log y' = c_log y ++ [PvTold c0 f0] /\ is_Some (c_chs y !! c0)) as (c0 & f0 & -> & Hc%lookup_lt_is_Some).
  { inversion Hm as [|? ? t| | | | | | | | | | | | | | | | | | | | | | | | | | |c0 f0 k h g r w ? H H0 H1 H2 H3 H4|c0 f0 k h s0 b0 H H0 H1 H2 H3| | | | | | | |]; subst; [by destruct t|..]; exists c0, f0; (split; [|by eexists]).
    - apply answers_same in H4 as (_ & _ & _ & -> & _). cbn [with_log c_log]. by destruct (after_send_same y c0 k) as (_ & _ & -> & _).
    - cbn [with_subs with_log c_log]. by destruct (after_send_same y c0 k) as (_ & _ & -> & _). }
  rewrite told_snoc. intros [Hf|Hf]%elem_of_app; [apply IH in Hf; lia|]. destruct (decide (c0 = ch)) as [->|]; [lia|by apply elem_of_nil in Hf].
Qed.
Lemma end_log y y' b : end_ok y b -> told (b_ch b) (c_log y') = told (b_ch b) (c_log y) -> (cut (c_log y) (b_ch b) -> cut (c_log y') (b_ch b)) -> end_ok y' b.
Proof.
  unfold end_ok. intros H ET HC. assert (Ht : forall x, tail_ok (c_log y) (b_ch b) x -> tail_ok (c_log y') (b_ch b) x).
  { intros x [Hx|(H1 & H2 & H3)]; [left; by rewrite ET|right; rewrite ET; auto]. }
  destruct (b_rl b); rewrite ET; try exact H; destruct H as (H1 & x & H2 & H3); (split; [done|]); exists x; auto.
Qed.
Lemma final_cmd f : f_cmd f <> ERROR -> f_cmd f <> RECEIPT -> ~ final f.
Proof. by intros H1 H2 [H|H]. Qed.
Lemma got_end y y' b f : b_rl b = RlRecv -> end_ok y b -> told (b_ch b) (c_log y') = told (b_ch b) (c_log y) ++ [f] -> end_ok y' (b_with_rl b (rl_got b (Some f))).
Proof.
  intros Hrl HE ET. unfold end_ok in HE. rewrite Hrl in HE. destruct HE as ((F1 & F2 & F3) & HB & Hc). cbn [in_hand] in Hc. rewrite app_nil_r in Hc.
  unfold end_ok. cbn [b_with_rl b_rl b_ch b_read b_buf]. rewrite ET, shown_app by done. rewrite <-Hc.
  assert (Hnb : final f -> tail_ok (c_log y') (b_ch b) []).
  { intros Hf. left. split; [|done]. rewrite ET. intros [_ H]%Forall_app. apply Forall_cons in H as [H _]. done. }
  unfold rl_got. cbn [shown]. change (lit "MESSAGE") with MESSAGE. change (lit "ERROR") with ERROR. change (lit "RECEIPT") with RECEIPT.
  assert (Hb1 : ~ final f -> busy (told (b_ch b) (c_log y) ++ [f])) by (intros; apply Forall_app; split; [done|by constructor]).
  destruct (decide (f_cmd f = MESSAGE)) as [Em|Em].
  { cbn [in_hand]. split_and!; [done| |by rewrite <-app_assoc]. apply Hb1. apply final_cmd; by rewrite Em. }
  destruct (decide (f_cmd f = ERROR)) as [Ee|Ee].
  { destruct (b_state b) eqn:Es; try done; (split; [by split_and!; cbn; rewrite ?Es|]); exists []; (split; [apply Hnb; by left|]); cbn [in_hand]; by rewrite app_nil_r, <-app_assoc. }
  destruct (decide (f_cmd f = RECEIPT)) as [Er|Er].
  { destruct (b_state b) eqn:Es; try done; (split; [by split_and!; cbn; rewrite ?Es|]); exists []; (split; [apply Hnb; by right|]); cbn [in_hand]; by rewrite !app_nil_r. }
  cbn [in_hand]. split_and!; [done|apply Hb1; by apply final_cmd|by rewrite !app_nil_r].
Qed.
Lemma not_busy T : (exists f, f ∈ T /\ final f) -> ~ busy T.
Proof. intros (f & Hf & Hx) HB. eapply Forall_forall in Hf; [|exact HB]. done. Qed.
Lemma reach_end A cfg y : creach A cfg y -> forall s b, c_subs y !! s = Some b -> ~ meddles y s -> end_ok y b.
Proof.
  induction 1 as [|y a y' Hr IH Ha Hs]; [done|]. intros s b' Hb' Hme. apply cstep_cmv in Hs as Hm. pose proof (reach_wmove _ _ _ _ _ Hr Hm) as Hw.
  assert (Hme0 : ~ meddles y s) by (intros H; apply Hme; by eapply meddles_step).
  assert (Hcut : forall ch, cut (c_log y) ch -> cut (c_log y') ch) by (intros ch H; destruct (log_mono _ _ _ _ Hm) as [->|[e ->]]; [done|by apply cut_snoc]).
  destruct (deliver_dec a) as [->|Hne].
  { assert (is_Some (c_subs y !! s)) as [b Hb] by (apply lookup_lt_is_Some; rewrite <-(deliver_len _ _ _ Hm); by eapply lookup_lt_Some).
    destruct (deliver_sub _ _ _ _ _ Hm (reach_req _ _ _ Hr) (reach_map _ _ _ Hr) Hb) as [[E ET]|(f & k & _ & Hrl & E & ET)]; rewrite E in Hb'; injection Hb' as <-.
    - eapply end_log; eauto.
    - eapply got_end; eauto. }
  assert (HT : forall ch, told ch (c_log y') = told ch (c_log y)) by (intros; by eapply quiet_told).
  assert (Hkeep : c_subs y !! s = Some b' -> end_ok y' b') by (intros Hb; eapply end_log; eauto).
  destruct Hw as [E1 E2|o Ho E1 E2|g r x Hg Hx E1 E2|g r f id rt Hg Hst Ho E1 E2|j b b1 Hb Hx E1 E2|g r x j b b1 Hg Hb Hxr Hx E1 E2]; rewrite E2 in Hb'; try (by apply Hkeep).
  - apply snoc_lookup in Hb' as [[_ Hb']|[-> ->]]; [by apply Hkeep|]. unfold end_ok. cbn [new_sub b_rl b_ch b_read b_buf in_hand].
    assert (told (length (c_chs y)) (c_log y') = []) as ->; [|split_and!; [by split_and!|by apply Forall_nil|done]]. rewrite HT. destruct (told _ _) as [|f0 T] eqn:ET; [done|]. exfalso. assert (f0 ∈ told (length (c_chs y)) (c_log y)) as H0 by (rewrite ET; by left).
    apply (told_chan _ _ _ _ _ Hr) in H0. lia.
  - apply upd_sub in Hb' as [(-> & -> & _)|[Hne' Hb']]; [|by apply Hkeep]. assert (HE : end_ok y' b) by (eapply end_log; eauto). clear Hkeep.
    destruct Hx as [f k Hx _ _|_ Hrl Hcl|m _ Hrl Hcl _|c b1 oc _ Hrl Hc|m l _ Hbuf]; [done|..].
    + pose proof (reach_spent _ _ _ Hr _ _ Hb Hcl) as Hsp. unfold end_ok in HE. rewrite Hrl in HE. destruct HE as ((F1 & F2 & F3) & HB & Hc). cbn [in_hand] in Hc. rewrite app_nil_r in Hc.
      destruct Hsp as [Hsp%not_busy|Hsp]; [by rewrite HT in HB|]. unfold end_ok. cbn [b_with_rl b_rl b_ch b_read b_buf]. unfold rl_got.
      assert (tail_ok (c_log y') (b_ch b) [CmErr None]) as Ht by (right; auto).
      destruct (b_state b) eqn:Es; try done; (split; [by split_and!; cbn; rewrite ?Es|]); exists [CmErr None]; (split; [done|]); cbn [in_hand]; by rewrite <-Hc, <-app_assoc.
    + unfold end_ok in HE. rewrite Hrl in HE. destruct HE as (F & HB & Hc). unfold end_ok. cbn [b_with_rl b_with_buf b_rl b_ch b_read b_buf in_hand]. split_and!; try done. rewrite <-Hc. cbn [in_hand]. by rewrite app_nil_r.
    + unfold end_ok in HE. rewrite Hrl in HE. destruct HE as (F & x & Ht & Hx). destruct Hc as [m Ho|m Ho| |m Hcl Hlen| |Hcl]; unfold end_ok; cbn [stage] in F;
        cbn [b_with_once b_with_state b_with_rl b_with_buf b_rl b_ch b_read b_buf]; cbn [in_hand] in Hx |- *.
      * split; [by destruct F as (? & ? & ?)|]. exists x. done.
      * destruct F as (_ & F & _). congruence.
      * split; [done|]. by exists x.
      * split; [done|]. exists x. split; [done|]. by rewrite app_nil_r.
      * split; [by destruct F as (? & ? & ?)|]. by exists x.
      * split; [by destruct F|]. exists x. split; [done|]. by rewrite app_nil_r in Hx.
    + assert (E : (b_read b ++ [m]) ++ l = b_read b ++ b_buf b) by (rewrite Hbuf; by rewrite <-app_assoc). unfold end_ok in HE |- *. cbn [b_rl b_ch b_read b_buf].
      destruct (b_rl b) as [|m0|c|]; rewrite ?app_assoc, ?E, <-?app_assoc; try exact HE.
  - apply upd_sub in Hb' as [(-> & -> & _)|[Hne' Hb']]; [|by apply Hkeep]. assert (HE : end_ok y' b) by (eapply end_log; eauto). clear Hkeep. pose proof (reach_calls _ _ _ Hr _ _ Hg) as Hk. remember (g_pc r) as x0 eqn:Hx0.
    destruct Hx as [f Ho Hst|c res b1 oc Hc| |Hcl Hlen].
    + unfold end_ok in HE |- *. cbn [b_with_state b_rl b_ch b_read b_buf]. destruct (b_rl b) as [|m0|c|] eqn:Hrl; try done.
      * split; [|apply HE]. by destruct HE as ((? & ? & ?) & _).
      * split; [|apply HE]. by destruct HE as ((? & ? & ?) & _).
      * split; [|apply HE]. destruct HE as (F & _). destruct c; cbn in F |- *; try (by destruct F as (? & ? & ?)). destruct F as (F & _). congruence.
      * destruct HE as ((F & _) & _). congruence.
    + destruct Hk as [[f Ho] ->]. destruct Hc as [m Ho'|m Ho'| |m Hcl Hlen| |Hcl]; try done;
        exfalso; apply Hme; eexists g, _, f; rewrite E1; (split_and!; [by apply with_g_same|done|]); first [by left|by right; left].
    + unfold end_ok in HE |- *. cbn [b_with_wait b_rl b_ch b_read b_buf]. by destruct (b_rl b) as [|m0|[]|].
    + destruct Hk as [f Ho]. exfalso. apply Hme. eexists g, _, f. rewrite E1. split_and!; [by apply with_g_same|done|]. right; right. done.
Qed.
Lemma cmv_sub_ch cfg y a y' : cmv cfg y a y' -> forall s b', c_subs y' !! s = Some b' -> (exists b, c_subs y !! s = Some b /\ b_ch b' = b_ch b) \/ s = length (c_subs y) /\ b_ch b' = length (c_chs y).
Proof.
  intros Hm s b' Hb'. destruct (cmv_subs _ _ _ _ Hm) as [E|g r f id rt _ _ _ E _ _|s0 b b1 Hb HK E]; rewrite E in Hb'.
  - left. by exists b'.
  - apply snoc_lookup in Hb' as [[_ Hb']|[-> ->]]; [left; by exists b'|by right].
  - left. apply upd_sub in Hb' as [(-> & -> & _)|[_ Hb']]; [|by exists b']. exists b. split; [done|apply HK].
Qed.
Lemma reach_last A cfg y : creach A cfg y -> forall s b T f, c_subs y !! s = Some b -> ~ meddles y s -> told (b_ch b) (c_log y) = T ++ [f] -> busy T.
Proof.
  induction 1 as [|y a y' Hr IH Ha Hs]; [done|]. intros s b' T f Hb' Hme ET'. apply cstep_cmv in Hs as Hm. pose proof (reach_wmove _ _ _ _ _ Hr Hm) as Hw.
  assert (Hme0 : ~ meddles y s) by (intros H; apply Hme; by eapply meddles_step).
  destruct (deliver_dec a) as [->|Hne].
  - assert (is_Some (c_subs y !! s)) as [b Hb] by (apply lookup_lt_is_Some; rewrite <-(deliver_len _ _ _ Hm); by eapply lookup_lt_Some).
    destruct (deliver_sub _ _ _ _ _ Hm (reach_req _ _ _ Hr) (reach_map _ _ _ Hr) Hb) as [[E ET]|(f0 & k & _ & Hrl & E & ET)]; rewrite E in Hb'; injection Hb' as <-.
    + rewrite ET in ET'. by eapply IH.
    + cbn [b_with_rl b_ch] in ET'. rewrite ET in ET'. apply app_inj_tail in ET' as [<- _]. pose proof (reach_end _ _ _ Hr _ _ Hb Hme0) as HE. unfold end_ok in HE. rewrite Hrl in HE. apply HE.
  - rewrite (quiet_told _ _ _ _ _ Hm Hne) in ET'. destruct (cmv_sub_ch _ _ _ _ Hm _ _ Hb') as [(b & Hb & E)|[_ E]]; rewrite E in ET'; [by eapply IH|].
    exfalso. assert (f ∈ told (length (c_chs y)) (c_log y)) as H0 by (rewrite ET'; apply elem_of_app; right; by left). apply (told_chan _ _ _ _ _ Hr) in H0. lia.
Qed.
(* ---------------- at rest, and at the end of the connection ---------------- *)
Lemma busy_dec T : busy T \/ exists f, f ∈ T /\ final f.
Proof.
  induction T as [|f T IH]; [left; by apply Forall_nil|]. destruct (decide (f_cmd f = ERROR \/ f_cmd f = RECEIPT)) as [Hf|Hf]; [right; exists f; split; [by left|done]|].
  destruct IH as [HB|(f0 & H0 & H1)]; [left; by apply Forall_cons|right; exists f0; split; [by right|done]].
Qed.
Lemma tail_rest log ch x : tail_ok log ch x -> rest_ok log ch x.
Proof. intros [[_ ->]|(H1 & H2 & ->)]; [by left|by right]. Qed.
Lemma tail_over log ch x : tail_ok log ch x -> spent log ch.
Proof. intros [[H _]|(_ & H & _)]; [left|by right]. by destruct (busy_dec (told ch log)). Qed.
Lemma shown_busy T : busy T -> Forall (fun m => exists f, m = CmMsg f) (shown T).
Proof.
  induction T as [|f T IH]; [by intros; apply Forall_nil|]. intros [Hf HB]%Forall_cons. unfold shown; fold shown. destruct (decide (f_cmd f = lit "MESSAGE")); [constructor; [by exists f|by apply IH]|].
  destruct (decide (f_cmd f = lit "ERROR")); [by destruct Hf; left|]. destruct (decide (f_cmd f = lit "RECEIPT")); [by destruct Hf; right|]. by apply IH.
Qed.
Lemma sub_stream A cfg y s b : creach A cfg y -> c_subs y !! s = Some b -> ~ meddles y s ->
  exists x, rest_ok (c_log y) (b_ch b) x /\ b_read b ++ b_buf b ++ in_hand (b_rl b) = shown (told (b_ch b) (c_log y)) ++ x.
Proof.
  intros Hr Hb Hme. pose proof (reach_end _ _ _ Hr _ _ Hb Hme) as HE. unfold end_ok in HE. destruct (b_rl b).
  - exists []. split; [by left|]. rewrite (app_nil_r (shown _)). apply HE.
  - exists []. split; [by left|]. rewrite (app_nil_r (shown _)). apply HE.
  - destruct HE as (_ & x & Ht & Hx). exists x. split; [by apply tail_rest|done].
  - destruct HE as (_ & x & Ht & Hx). exists x. split; [by apply tail_rest|]. cbn [in_hand]. by rewrite app_nil_r.
Qed.
Lemma sub_closed A cfg y s b : creach A cfg y -> c_subs y !! s = Some b -> ~ meddles y s -> b_cclosed b = true ->
  b_state b = SubClosed /\ b_rl b = RlDone /\ spent (c_log y) (b_ch b).
Proof.
  intros Hr Hb Hme Hcl. pose proof (reach_end _ _ _ Hr _ _ Hb Hme) as HE. unfold end_ok, fresh_sub in HE. destruct (b_rl b) as [|m|c|].
  - destruct HE as ((_ & _ & H) & _). congruence.
  - destruct HE as ((_ & _ & H) & _). congruence.
  - destruct HE as (H & _). exfalso. destruct c; cbn in H; destruct H as (_ & _ & H); congruence.
  - destruct HE as ([H _] & x & Ht & _). split_and!; try done. by eapply tail_over.
Qed.
Lemma sub_rest A cfg y s b : creach A cfg y -> ClientRestSpec.at_rest cfg y -> c_subs y !! s = Some b -> ~ meddles y s ->
  (exists x, rest_ok (c_log y) (b_ch b) x /\ b_read b = shown (told (b_ch b) (c_log y)) ++ x) /\ (b_cclosed b = true <-> spent (c_log y) (b_ch b)).
Proof.
  intros Hr HR Hb Hme. destruct (rest_sub _ _ _ _ Hr HR _ _ Hb) as [Eb Erl]. split.
  - destruct (sub_stream _ _ _ _ _ Hr Hb Hme) as (x & Hx & E). exists x. split; [done|]. rewrite Eb in E. destruct Erl as [[Erl _]|Erl]; rewrite Erl in E; cbn in E; by rewrite app_nil_r in E.
  - split; [intros H; by eapply sub_closed|]. intros Hsp. pose proof (reach_end _ _ _ Hr _ _ Hb Hme) as HE. unfold end_ok in HE. destruct Erl as [[Erl Ecl]|Erl]; rewrite Erl in HE; [|by destruct HE as ((_ & H) & _)].
    exfalso. destruct Hsp as [Hsp%not_busy|Hsp]; [by destruct HE as (_ & H & _)|]. pose proof (reach_cut _ _ _ _ Hr Hsp). congruence.
Qed.
Lemma ended_error A cfg y l f : ended_by A cfg y l f -> f_cmd f = ERROR.
Proof.
  intros [l0 e _ He _|txt _ -> _]; [|done]. destruct e as [q [[f0 []]|]|[f0|]|ch f0]; cbn in He; try done; [by injection He as <-|].
  destruct (decide _) as [E|E]; [by injection He as <-|]. destruct (decide _); [by injection He as <-|done].
Qed.
Lemma told_spread f ks k ch : (k, ch) ∈ ks -> f ∈ told ch (spread f ks).
Proof. intros H. apply elem_of_list_omap. exists (PvTold ch f). split; [apply elem_of_list_fmap; by exists (k, ch)|]. cbn. by rewrite decide_True. Qed.
Lemma sub_error A cfg y s b l f ks k : creach A cfg y -> ClientRestSpec.at_rest cfg y -> c_subs y !! s = Some b -> ~ meddles y s ->
  c_log y = l ++ spread f ks -> waiters l ks -> ended_by A cfg y l f -> ClientEnd.listens l k (b_ch b) ->
  b_cclosed b = true /\ exists l', b_read b = l' ++ [CmErr (Some f)] /\ Forall (fun m => exists f, m = CmMsg f) l'.
Proof.
  intros Hr HR Hb Hme El [_ Hw] He Hli. apply Hw in Hli. assert (f_cmd f = ERROR) as Hf by (by eapply ended_error).
  assert (Hin : f ∈ told (b_ch b) (c_log y)) by (rewrite El; unfold told; rewrite omap_app; apply elem_of_app; right; by eapply told_spread).
  destruct (sub_rest _ _ _ _ _ Hr HR Hb Hme) as [(x & Hx & Ex) Hc]. split; [apply Hc; left; exists f; split; [done|by left]|].
  destruct (told (b_ch b) (c_log y)) as [|f0 T _] eqn:ET using rev_ind; [by apply elem_of_nil in Hin|]. pose proof (reach_last _ _ _ Hr _ _ _ _ Hb Hme ET) as HB.
  assert (f0 = f) as ->. { apply elem_of_app in Hin as [Hin|Hin%elem_of_list_singleton]; [|done]. exfalso. eapply Forall_forall in Hin; [|exact HB]. apply Hin. by left. }
  rewrite shown_app in Ex by done. destruct Hx as [->|(_ & _ & Hx)].
  - exists (shown T). split; [|by apply shown_busy]. rewrite Ex, app_nil_r. f_equal. unfold shown. rewrite Hf. done.
  - exfalso. rewrite ET in Hx. apply Forall_app in Hx as [_ Hx]. apply Forall_cons in Hx as [Hx _]. apply Hx. by left.
Qed.
