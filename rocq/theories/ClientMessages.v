(** The messages on a subscription's channel C are the MESSAGE frames that
    processLoop handed to it. *)
From stdpp Require Import gmap.
From Verif Require Import GoBase HeaderModel FrameModel HeaderProofs NegotiationModel ClientApiModel ClientModel ClientSpec ClientLemmas ClientProofs ClientRequests ClientChannels ClientReceipts ClientDelivery.

Lemma told_to_snoc ch l e : told_to ch (l ++ [e]) = told_to ch l ++ match e with PvTold ch' f => if decide (ch' = ch /\ f_cmd f = MESSAGE) then [f] else [] | _ => [] end.
Proof. unfold told_to. rewrite omap_app. f_equal. destruct e; cbn; try done. by destruct (decide _). Qed.

(** How a subscription changes in a step. *)
Inductive bmove (y : cl) (s : nat) (b : csub) : csub -> list frame -> Prop :=
| bm_same : bmove y s b b []
| bm_state : b_state b = SubActive -> bmove y s b (b_with_state b SubClosing) []
| bm_gclose g r c res b' o : c_gs y !! g = Some r -> g_pc r = GClose s c res -> clmove b c b' o -> bmove y s b b' []
| bm_wait g r : c_gs y !! g = Some r -> g_pc r = GReg s -> bmove y s b (b_with_wait b (g :: b_wait b)) []
| bm_puterr g r : c_gs y !! g = Some r -> g_pc r = GPutErr s -> b_cclosed b = false -> bmove y s b (b_with_buf b (b_buf b ++ [CmErr None])) []
| bm_got f k : c_p y = PSend (b_ch b) f k -> b_rl b = RlRecv -> bmove y s b (b_with_rl b (rl_got b (Some f))) (if decide (f_cmd f = MESSAGE) then [f] else [])
| bm_none : b_rl b = RlRecv -> h_is_closed y (b_ch b) = true -> bmove y s b (b_with_rl b (rl_got b None)) []
| bm_put m : b_rl b = RlPut m -> b_cclosed b = false -> bmove y s b (b_with_rl (b_with_buf b (b_buf b ++ [m])) RlRecv) []
| bm_close c b' o : b_rl b = RlClose c -> clmove b c b' o -> bmove y s b (b_with_rl b' (match o with Some c' => RlClose c' | None => RlDone end)) []
| bm_consume m l : b_buf b = m :: l ->
    bmove y s b (mkCsub (b_by b) (b_id b) (b_reply b) (b_ch b) (b_state b) l (b_cclosed b) (b_once b) (b_rl b) (b_wait b) (b_read b ++ [m])) [].

(** The channel processLoop sends on belongs to a logged request. *)
Lemma psend_req y ch f k : mapinv y -> c_p y = PSend ch f k -> exists q w, PvReq q w ∈ c_log y /\ q_chan q = Some ch.
Proof.
  intros HM Hp. destruct (mi_send _ HM _ _ _ Hp) as [(f' & rest & err & ->)|(id & l & El & _ & _ & q & w & Hq & Hc & _)].
  - destruct (mi_cur _ HM _ _ _ _ _ Hp) as [_ [key Hk]]. destruct (mi_map _ HM _ _ Hk) as (q & w & Hq & Hc & _). by exists q, w.
  - exists q, w. split; [|done]. rewrite El. by apply in_snoc.
Qed.
(** A subscription's channel is its own. *)
Lemma own_chan y s b ch h : reqinv y -> mapinv y -> (exists f k, c_p y = PSend ch f k) -> c_chs y !! ch = Some h -> h_owner h = OwnS s -> c_subs y !! s = Some b -> b_ch b = ch.
Proof.
  intros HR HM (f & k & Hp) Hh Ho Hb. destruct (psend_req _ _ _ _ HM Hp) as (q & w & Hq & Hc).
  destruct (rq_ok _ HR q) as (r & Hr & _ & _ & Hx); [right; left; by eapply log_req_in|]. destruct (Hx _ Hc) as (h' & Hh' & Hown). assert (h' = h) as -> by congruence.
  destruct (is_subscribe (g_op r)); [|congruence]. destruct Hown as (s' & b' & E1 & E2 & E3 & _). congruence.
Qed.
Lemma upd_sub (l : list csub) j b0 s b' : (<[j := b0]> l) !! s = Some b' -> (s = j /\ b' = b0 /\ is_Some (l !! j)) \/ (s <> j /\ l !! s = Some b').
Proof.
  intros H. destruct (decide (s = j)) as [->|Hne].
  - left. assert (j < length l) as Hl by (apply lookup_lt_Some in H; by rewrite insert_length in H). rewrite list_lookup_insert in H by done. injection H as <-. split_and!; try done. by apply lookup_lt_is_Some.
  - right. by rewrite list_lookup_insert_ne in H.
Qed.
Lemma cmv_sub cfg y a y' s b' : cmv cfg y a y' -> reqinv y -> mapinv y -> c_subs y' !! s = Some b' ->
  (exists b d, c_subs y !! s = Some b /\ bmove y s b b' d /\ told_to (b_ch b) (c_log y') = told_to (b_ch b) (c_log y) ++ d) \/
  (exists g r f id rt, s = length (c_subs y) /\ b' = new_sub g id rt (length (c_chs y)) /\ c_gs y !! g = Some r /\ g_op r = OSubscribe (Some (f, id, rt)) /\ c_log y' = c_log y /\
     c_chs y' = c_chs y ++ [mkChan (OwnS s) false]).
Proof.
  intros Hm HR HM Hb.
  assert (Hsame : c_subs y !! s = Some b' -> c_log y' = c_log y -> exists b d, c_subs y !! s = Some b /\ bmove y s b b' d /\ told_to (b_ch b) (c_log y') = told_to (b_ch b) (c_log y) ++ d).
  { intros H0 ->. exists b', []. split_and!; [done|constructor|]. by rewrite app_nil_r. }
  assert (Hother : c_subs y !! s = Some b' -> forall e, c_log y' = c_log y ++ [e] -> (forall f, e <> PvTold (b_ch b') f) -> exists b d, c_subs y !! s = Some b /\ bmove y s b b' d /\ told_to (b_ch b) (c_log y') = told_to (b_ch b) (c_log y) ++ d).
  { intros H0 e -> He. exists b', []. split_and!; [done|constructor|]. rewrite told_to_snoc, app_nil_r. destruct e as [| |ch f]; rewrite ?app_nil_r; try done.
    rewrite decide_False; [by rewrite app_nil_r|]. intros [-> _]. by apply (He f). }
  assert (Hupd : forall j b0 b1, c_subs y !! j = Some b0 -> c_subs y' = <[j := b1]> (c_subs y) -> c_log y' = c_log y -> bmove y j b0 b1 [] ->
    exists b d, c_subs y !! s = Some b /\ bmove y s b b' d /\ told_to (b_ch b) (c_log y') = told_to (b_ch b) (c_log y) ++ d).
  { intros j b0 b1 Hj E El Hbm. rewrite E in Hb. apply upd_sub in Hb as [(-> & -> & _)|[Hne Hb]]; [|by apply Hsame]. exists b0, []. rewrite El, app_nil_r. done. }
  destruct Hm; try (left; by apply Hsame); try (left; eapply Hupd; [done|reflexivity|reflexivity|by econstructor]); try (left; eapply Hother; [exact Hb|reflexivity|done]).
  - left. destruct (submit_same y g k f own) as (E1 & _ & E2 & _). apply Hsame; [by rewrite <-E1|done].
  - cbn [submit with_g with_mut with_chs with_subs c_subs] in Hb. apply snoc_lookup in Hb as [[_ Hb]|[-> ->]]; [left; by apply Hsame|]. right. by exists g, r, f, id, rt.
  - left. apply Hsame; by destruct (put_next k (q_chan q)).2.
  - left. destruct w; (eapply Hother; [exact Hb|reflexivity|done]).
  - left. match goal with H : answers _ _ _ _ _ |- _ => apply answers_same in H as (E1 & _ & _ & E2 & _) end. destruct (after_send_same y ch k) as (E3 & _ & E4 & _).
    assert (c_subs y !! s = Some b') as Hb0 by (rewrite E1 in Hb; cbn [with_log c_subs] in Hb; by rewrite E3 in Hb). eapply Hother; [done|by rewrite E2; cbn [with_log c_log]; rewrite E4|].
    intros f0 [= E _]. destruct (rq_sub _ HR _ _ Hb0) as (h' & r' & f' & Hh' & Ho' & _). rewrite <-E in Hh'. congruence.
  - left. destruct (after_send_same y ch k) as (E3 & _ & E4 & _). cbn [with_subs with_log c_subs c_log] in *. apply upd_sub in Hb as [(-> & -> & _)|[Hne Hb]].
    + pose proof (own_chan y s0 b ch h HR HM (ex_intro _ f (ex_intro _ k H)) H0 H1 H2) as Ech. exists b, (if decide (f_cmd f = MESSAGE) then [f] else []). split_and!; [done|eapply bm_got; [by rewrite Ech|done]|].
      rewrite E4, told_to_snoc. f_equal. destruct (decide (f_cmd f = MESSAGE)) as [Em|Em]; [by rewrite decide_True|rewrite decide_False; [done|by intros [_ ?]]].
    + eapply Hother; [done|by rewrite E4|]. intros f0 [= E _]. destruct (rq_sub _ HR _ _ Hb) as (h' & r' & f' & Hh' & Ho' & _). rewrite <-E in Hh'. congruence.
Qed.

(* ---------------- closers only send errors ---------------- *)
Definition err_only (c : clpc) : Prop := match c with Cl1 (Some (CmMsg _)) | Cl2 (Some (CmMsg _)) => False | _ => True end.
Definition rl_ok (x : rlpc) : Prop := match x with RlPut m => exists f, m = CmMsg f /\ f_cmd f = MESSAGE | RlClose c => err_only c | _ => True end.
Definition gc_ok (x : gpc) : Prop := match x with GClose _ c _ => err_only c | _ => True end.
Lemma clmove_err b c b' o : clmove b c b' o -> err_only c -> match o with Some c' => err_only c' | None => True end.
Proof. by destruct 1. Qed.
Lemma frame_done_gc u r : gc_ok (frame_done u r).
Proof. destruct u as [s|]; cbn; [|done]. by destruct r as [| |[]]. Qed.
Lemma gmove_gc cfg y g o t x x' : gmove cfg y g o t x x' -> gc_ok x'.
Proof. destruct 1; try done; apply frame_done_gc. Qed.
Lemma rl_got_ok b o : rl_ok (rl_got b o).
Proof.
  unfold rl_got. destruct o as [f|]; [|by destruct (b_state b)]. destruct (decide _); [by exists f|]. destruct (decide _); [by destruct (b_state b)|]. destruct (decide _); [by destruct (b_state b)|done].
Qed.
Lemma clmove_rl b c b' o : clmove b c b' o -> b_rl b' = b_rl b /\ b_ch b' = b_ch b /\ b_read b' = b_read b /\ (b_buf b' = b_buf b \/ exists m, c = Cl2 (Some m) /\ b_buf b' = b_buf b ++ [m]).
Proof. destruct 1; cbn; eauto 10. Qed.
Lemma bmove_rl y s b b' d : bmove y s b b' d -> rl_ok (b_rl b) -> rl_ok (b_rl b').
Proof.
  destruct 1 as [| |g r c res b' o Hg Hp Hc|g r Hg Hp|g r Hg Hp Hcl|f k Hp Hrl|Hrl Hh|m Hrl Hcl|c b' o Hrl Hc|m l Hbuf]; cbn [b_with_state b_with_wait b_with_buf b_with_rl b_rl]; try done.
  - by rewrite (proj1 (clmove_rl _ _ _ _ Hc)).
  - intros _. apply rl_got_ok.
  - intros _. apply (rl_got_ok b None).
  - rewrite Hrl. intros He. apply clmove_err in Hc; [|done]. by destruct o.
Qed.
Lemma gc_g y g x : (forall j r, c_gs y !! j = Some r -> gc_ok (g_pc r)) -> gc_ok x -> forall j r, c_gs (with_g y g x) !! j = Some r -> gc_ok (g_pc r).
Proof. intros HI Hx j r [[_ Hj]|(-> & r0 & _ & ->)]%with_g_lookup; [by eapply HI|done]. Qed.
Lemma gc_step cfg y a y' : cmv cfg y a y' -> (forall g r, c_gs y !! g = Some r -> gc_ok (g_pc r)) -> forall g r, c_gs y' !! g = Some r -> gc_ok (g_pc r).
Proof.
  intros Hm HI. destruct Hm; try exact HI; try (by apply gc_g).
  - intros g r [[_ Hg]|[-> ->]]%snoc_lookup; [by eapply HI|done].
  - apply gc_g; [done|by eapply gmove_gc].
  - apply gc_g; [exact HI|by destruct f].
  - rewrite submit_gs'. by apply gc_g.
  - apply gc_g; [by destruct (put_next k (q_chan q)).2|]. destruct k as [|u|s|]; destruct (q_chan q); try done. apply frame_done_gc.
  - apply gc_g; [exact HI|]. apply HI in H as Hc. rewrite H0 in Hc. apply clmove_err in H2; [|done]. by destruct o.
  - by destruct w.
  - assert (forall j r, c_gs (with_log (after_send y ch k) (PvTold ch f)) !! j = Some r -> gc_ok (g_pc r)) as HI1 by (cbn [with_log c_gs]; by rewrite after_send_gs).
    destruct H4; apply gc_g; try done. apply frame_done_gc.
  - cbn [with_subs with_log c_gs]. by rewrite after_send_gs.
Qed.
Lemma reach_gc A cfg y : creach A cfg y -> forall g r, c_gs y !! g = Some r -> gc_ok (g_pc r).
Proof. induction 1 as [|y a y' _ IH _ Hs]; [done|]. eapply gc_step; [by apply cstep_cmv|done]. Qed.
Lemma reach_rl A cfg y : creach A cfg y -> forall s b, c_subs y !! s = Some b -> rl_ok (b_rl b).
Proof.
  induction 1 as [|y a y' Hr IH _ Hs]; [done|]. intros s b' Hb. apply cstep_cmv in Hs as Hm.
  destruct (cmv_sub _ _ _ _ _ _ Hm (reach_req _ _ _ Hr) (reach_map _ _ _ Hr) Hb) as [(b & d & Hb0 & Hbm & _)|(g & r & f & id & rt & _ & -> & _)]; [|done]. eapply bmove_rl; [done|by eapply IH].
Qed.

(* ---------------- C carries what was told ---------------- *)
Definition rl_msg (b : csub) : list frame := match b_rl b with RlPut (CmMsg f) => [f] | _ => [] end.
Definition held (b : csub) : list frame := msgs (b_read b ++ b_buf b) ++ rl_msg b.
Lemma msgs_app l l' : msgs (l ++ l') = msgs l ++ msgs l'.
Proof. apply omap_app. Qed.
Lemma rl_got_msg b o : match rl_got b o with RlPut (CmMsg f) => [f] | _ => [] end = match o with Some f => if decide (f_cmd f = MESSAGE) then [f] else [] | None => [] end.
Proof.
  unfold rl_got. destruct o as [f|]; [|by destruct (b_state b)]. destruct (decide _); [done|]. destruct (decide _); [by destruct (b_state b)|]. destruct (decide _); [by destruct (b_state b)|done].
Qed.
Lemma clmove_msgs b c b' o : clmove b c b' o -> err_only c -> msgs (b_read b' ++ b_buf b') = msgs (b_read b ++ b_buf b).
Proof.
  intros Hc He. destruct (clmove_rl _ _ _ _ Hc) as (_ & _ & E1 & [E2|(m & -> & E2)]); rewrite E1, E2; [done|].
  destruct m as [f|o']; [done|]. rewrite app_assoc, msgs_app. cbn. by rewrite app_nil_r.
Qed.
Lemma bmove_held y s b b' d : bmove y s b b' d -> rl_ok (b_rl b) -> (forall g r, c_gs y !! g = Some r -> gc_ok (g_pc r)) -> held b' = held b ++ d /\ b_ch b' = b_ch b.
Proof.
  intros Hbm Hok Hgc. unfold held, rl_msg.
  destruct Hbm as [| |g r c res b' o Hg Hp Hc|g r Hg Hp|g r Hg Hp Hcl|f k Hp Hrl|Hrl Hh|m Hrl Hcl|c b' o Hrl Hc|m l Hbuf]; rewrite ?app_nil_r; try done.
  - pose proof (Hgc _ _ Hg) as He. rewrite Hp in He. rewrite (clmove_msgs _ _ _ _ Hc He). destruct (clmove_rl _ _ _ _ Hc) as (-> & -> & _). done.
  - split; [|done]. cbn [b_with_buf b_read b_buf b_rl]. rewrite app_assoc, msgs_app. cbn. by rewrite app_nil_r.
  - split; [|done]. cbn [b_with_rl b_read b_buf b_rl]. rewrite Hrl, app_nil_r. f_equal. apply (rl_got_msg b (Some f)).
  - split; [|done]. cbn [b_with_rl b_read b_buf b_rl]. rewrite Hrl. f_equal. apply (rl_got_msg b None).
  - split; [|done]. rewrite Hrl in Hok |- *. destruct Hok as (f & -> & _). cbn [b_with_rl b_with_buf b_read b_buf b_rl]. rewrite app_assoc, msgs_app. cbn. by rewrite ?app_nil_r.
  - rewrite Hrl in Hok |- *. cbn in Hok. cbn [b_with_rl b_read b_buf b_rl b_ch]. rewrite (clmove_msgs _ _ _ _ Hc Hok). destruct (clmove_rl _ _ _ _ Hc) as (_ & -> & _). split; [|done]. f_equal. by destruct o.
  - split; [|done]. cbn [b_read b_buf b_rl]. rewrite Hbuf. by rewrite <-app_assoc.
Qed.
Lemma reach_held A cfg y : creach A cfg y -> forall s b, c_subs y !! s = Some b -> told_to (b_ch b) (c_log y) = held b.
Proof.
  induction 1 as [|y a y' Hr IH _ Hs]; [done|]. intros s b' Hb. apply cstep_cmv in Hs as Hm. pose proof (reach_req _ _ _ Hr) as HR. pose proof (reach_map _ _ _ Hr) as HM.
  destruct (cmv_sub _ _ _ _ _ _ Hm HR HM Hb) as [(b & d & Hb0 & Hbm & Ht)|(g & r & f & id & rt & -> & -> & Hg & _ & -> & _)].
  - destruct (bmove_held _ _ _ _ _ Hbm (reach_rl _ _ _ Hr _ _ Hb0) (reach_gc _ _ _ Hr)) as [-> ->]. rewrite Ht. f_equal. by apply (IH s).
  - cbn [new_sub b_ch]. unfold held. cbn. destruct (told_to (length (c_chs y)) (c_log y)) as [|x l] eqn:E; [done|]. exfalso.
    assert (x ∈ told_to (length (c_chs y)) (c_log y)) as Hx by (rewrite E; left). unfold told_to in Hx. apply elem_of_list_omap in Hx as ([| |ch f0] & He & Hf); try done.
    destruct (decide _) as [[-> Hm0]|]; [|done]. injection Hf as ->. destruct (mi_told _ HM _ _ He) as [Ee|(id0 & k & q & w & l1 & l2 & l3 & _ & Hc & _ & El)]; [by rewrite Hm0 in Ee|].
    destruct (rq_ok _ HR q) as (r0 & _ & _ & _ & Hx); [right; left; eapply (log_req_in _ w); rewrite El; apply elem_of_app; right; left|].
    destruct (Hx _ Hc) as (h & Hh%lookup_lt_Some & _). lia.
Qed.
