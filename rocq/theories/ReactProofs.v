(** What the client does with each frame, and how a connection ends. *)
From stdpp Require Import gmap.
From Verif Require Import GoBase HeaderModel FrameModel HeaderProofs NegotiationModel ClientApiModel ClientModel ClientSpec ClientLemmas ClientProofs ClientRequests ClientCalls ClientChannels ClientReceipts ClientDelivery
  ClientMessages ClientRouting ClientFinal ClientClosing ClientLive ClientReady ClientEnd ReactSpec.

Definition table (m : gmap str nat) (l : list pev) : Prop := forall k ch, m !! k = Some ch <-> listens l k ch.
Lemma listens_here l q w k ch : q_chan q = Some ch -> names (q_frame q) k -> ~ stops k (PvReq q w) -> listens (l ++ [PvReq q w]) k ch.
Proof. intros H1 H2 H3. exists l, q, w, []. split_and!; done. Qed.
Lemma listens_later l e k ch : listens l k ch -> ~ stops k e -> (forall q w, e = PvReq q w -> is_Some (q_chan q) -> ~ names (q_frame q) k) -> listens (l ++ [e]) k ch.
Proof.
  intros (l1 & q & w & l2 & -> & H1 & H2 & H3 & H4) H5 H6. exists l1, q, w, (l2 ++ [e]). split_and!; try done; [by rewrite <-app_assoc|]. apply Forall_app. split; [done|]. by repeat constructor.
Qed.
Lemma listens_told l ch f k c : listens (l ++ [PvTold ch f]) k c <-> listens l k c.
Proof.
  split.
  - intros [[H _]|(q & w & [=] & _)]%listens_snoc. done.
  - intros H. apply listens_later; [done|by intros []|done].
Qed.
Lemma listens_spread l f ks k c : listens (l ++ spread f ks) k c <-> listens l k c.
Proof.
  revert l. induction ks as [|p ks IH]; intros l; [by rewrite app_nil_r|]. unfold spread. cbn [fmap list_fmap]. rewrite cons_middle, app_assoc. fold (spread f ks). rewrite IH. apply listens_told.
Qed.
Lemma table_in m l o : table m l -> (forall k, ~ stops k (PvIn o)) -> table m (l ++ [PvIn o]).
Proof.
  intros H Hs k ch. unfold table in H. rewrite H. split.
  - intros Hl. by apply listens_later.
  - intros [[? _]|(q & w & [=] & _)]%listens_snoc. done.
Qed.
Lemma table_stop m l f k : table m l -> stops k (PvIn (Some f)) -> table (delete k m) (l ++ [PvIn (Some f)]).
Proof.
  intros H Hk k' ch. unfold table in H. rewrite lookup_delete_Some, H. split.
  - intros [Hne Hl]. apply listens_later; [done| |done]. intros Hs. apply Hne. cbn in Hk, Hs. destruct Hk as [_ E1], Hs as [_ E2]. congruence.
  - intros [(Hl & Hs & _)|(q & w & [=] & _)]%listens_snoc. split; [|done]. by intros ->.
Qed.
Lemma table_req m l q w : table m l -> (forall k, ~ stops k (PvReq q w)) -> table (remember m q) (l ++ [PvReq q w]).
Proof.
  intros H Hs k ch. split.
  - intros [[Hc Hn]|[Hm Hn]]%remember_inv; [by apply listens_here|]. apply listens_later; [by apply H|done|]. intros q' w' [= <- <-] Hc Hn'. by apply Hn.
  - intros [(Hl & _ & Hn)|(q' & w' & [= <- <-] & Hc & Hn & _)]%listens_snoc; [|by apply remember_in].
    rewrite remember_out; [by apply H|]. intros [Hc Hn']. by eapply Hn.
Qed.
Lemma table_unsub m l q k : table m l -> f_cmd (q_frame q) = UNSUBSCRIBE -> hd_contains (f_hdr (q_frame q)) h_reply_to = Some k -> table (delete k (remember m q)) (l ++ [PvReq q None]).
Proof.
  intros H Hc Hk k' ch. assert (Hs : forall x, stops x (PvReq q None) <-> x = k). { intros x. unfold stops. split; [intros [_ E]; congruence|by intros ->]. }
  rewrite lookup_delete_Some. split.
  - intros [Hne [[Hq Hn]|[Hm Hn]]%remember_inv].
    + apply listens_here; [done|done|]. rewrite Hs. congruence.
    + apply listens_later; [by apply H|rewrite Hs; congruence|]. intros q' w' [= <- <-] Hq Hn'. by apply Hn.
  - intros [(Hl & Hns & Hn)|(q' & w' & [= <- <-] & Hq & Hn & Hns)]%listens_snoc; rewrite Hs in Hns; (split; [congruence|]); [|by apply remember_in].
    rewrite remember_out; [by apply H|]. intros [Hq Hn']. by eapply Hn.
Qed.
Lemma routes_routed f id k : routes f id k -> routed f = Some id.
Proof. unfold routed. intros [i H1 H2|i H1 H2]; [by rewrite decide_True|]. rewrite decide_False by (by rewrite H1). by rewrite decide_True. Qed.
Lemma routed_routes f id : routed f = Some id -> exists k, routes f id k.
Proof. unfold routed. intros H. destruct (decide _) as [E|_]; [exists (KReceipt id); by constructor|]. destruct (decide _) as [E|_]; [exists KMessage; by constructor|done]. Qed.

(* ---------------- reasons ---------------- *)
Lemma cmv_wmono cfg y a y' : cmv cfg y a y' -> c_wclosed y = true -> c_wclosed y' = true.
Proof.
  intros Hm Hc. destruct Hm; try done.
  - by destruct own.
  - by destruct (put_next k (q_chan q)).2.
  - by destruct w.
  - match goal with H : answers _ _ _ _ _ |- _ => inversion H; subst end; destruct k as [| |? ? []]; done.
  - destruct k as [| |? ? []]; done.
Qed.
Lemma cmv_rmono cfg y a y' : cmv cfg y a y' -> c_rclosed y = true -> c_rclosed y' = true.
Proof.
  intros Hm Hc. destruct Hm; try done.
  - by destruct own.
  - by destruct (put_next k (q_chan q)).2.
  - congruence.
  - by destruct w.
  - match goal with H : answers _ _ _ _ _ |- _ => inversion H; subst end; destruct k as [| |? ? []]; done.
  - destruct k as [| |? ? []]; done.
Qed.
Lemma own_step A cfg y a y' t : cmv cfg y a y' -> own_reason A cfg y t -> own_reason A cfg y' t.
Proof. intros Hm [H|H|H1 H2|H1 H2]; [apply or_closed; by eapply cmv_rmono|apply or_disconnect; by eapply cmv_wmono|by apply or_timeout|by apply or_beat]. Qed.
Lemma by_step A cfg y a y' l f : cmv cfg y a y' -> ended_by A cfg y l f -> ended_by A cfg y' l f.
Proof. intros Hm [l0 e H1 H2 H3|t H1 H2 H3]; [by eapply eb_event|eapply eb_own; [by eapply own_step|done..]]. Qed.
(** Which reason. *)
Lemma fails (A : cact -> Prop) cfg y a y' f rest err : A a -> cmv cfg y a y' -> c_p y = PLoop -> c_p y' = PBcast f rest err ->
  (exists e, c_log y' = c_log y ++ [e] /\ ends e = Some f) \/ (c_log y' = c_log y /\ exists t, own_reason A cfg y' t /\ f = own_error t).
Proof.
  intros HA Hm Hp Hp'. inversion Hm; subst; try (exfalso; cbn in Hp'; congruence);
    try (cbn in Hp'; injection Hp' as <- _ _; right; split; [done|]; eexists; split; [|reflexivity]; by constructor).
  - exfalso. match goal with H : c_p (submit ?y ?g ?k ?f ?o) = _ |- _ => destruct (submit_same y g k f o) as (_ & _ & _ & _ & E) end. congruence.
  - exfalso. by destruct (put_next k (q_chan q)).2; cbn in Hp'; congruence.
  - left. eexists. split; [done|]. injection Hp' as <- _ _. unfold ends. rewrite decide_False by (by rewrite H1). by rewrite decide_True.
  - left. eexists. split; [done|]. injection Hp' as <- _ _. unfold ends. by rewrite decide_True.
  - destruct w; [by cbn in Hp'; congruence|]. cbn in Hp'. injection Hp' as <- _ _. left. eexists. split; [done|]. done.
Qed.

(* ---------------- the log and where processLoop is ---------------- *)
Definition calm (l : list pev) : Prop := Forall (fun e => ends e = None) l.
Definition ending (A : cact -> Prop) (cfg : ccfg) (y : cl) (f : frame) (rest : list (str * nat)) : Prop := exists l1 ks,
  c_log y = l1 ++ spread f ks /\ ks ++ rest ≡ₚ map_to_list (c_map y) /\ table (c_map y) l1 /\ ended_by A cfg y l1 f.
Definition shaped (A : cact -> Prop) (cfg : ccfg) (y : cl) : Prop :=
  match c_p y with
  | PLoop => calm (c_log y) /\ table (c_map y) (c_log y)
  | PSend ch f (KBcast f' rest err) => f' = f /\ exists k, ending A cfg y f ((k, ch) :: rest)
  | PSend ch f kk => exists l id, c_log y = l ++ [PvIn (Some f)] /\ routes f id kk /\ c_map y !! id = Some ch /\ calm (c_log y) /\ table (c_map y) l
  | PBcast f rest err => ending A cfg y f rest
  | PMust _ | PEnd => exists f, ending A cfg y f []
  end.
Lemma calm_snoc l e : calm l -> ends e = None -> calm (l ++ [e]).
Proof. intros H1 H2. apply Forall_app. split; [done|]. by repeat constructor. Qed.
Lemma routes_calm f id k : routes f id k -> ends (PvIn (Some f)) = None.
Proof.
  unfold ends. intros [i H1 H2|i H1 H2]; rewrite decide_False by (by rewrite H1); (rewrite decide_False; [done|]).
  - intros [_ E]. assert (hd_contains (f_hdr f) h_receipt_id = None) by exact E. congruence.
  - intros [E _]. by rewrite H1 in E.
Qed.
Lemma ignored_calm m o : ignored m o -> ends (PvIn o) = None.
Proof.
  destruct o as [f|]; [|done]. intros (H1 & H2 & _). unfold ends. rewrite decide_False by exact H1. rewrite decide_False; [done|]. intros [E1 E2]. by apply (H2 E1).
Qed.
Lemma ending_keep A cfg y a y' f rest rest' : cmv cfg y a y' -> c_log y' = c_log y -> c_map y' = c_map y -> rest' ≡ₚ rest -> ending A cfg y f rest -> ending A cfg y' f rest'.
Proof.
  intros Hm El Em Hp (l1 & ks & H1 & H2 & H3 & H4). exists l1, ks. rewrite El, Em. split_and!; [done|by rewrite Hp|done|by eapply by_step].
Qed.
Lemma table_ignored m l o : table m l -> ignored m o -> table m (l ++ [PvIn o]).
Proof.
  intros H Hi k ch. unfold table in H. split.
  - intros Hk. apply listens_later; [by apply H| |done]. destruct o as [f|]; [|by intros []]. intros [S1 S2]. destruct Hi as (_ & _ & Hi). rewrite (Hi k (KReceipt k)) in Hk; [done|by constructor].
  - intros [(Hl & _)|(? & ? & [=] & _)]%listens_snoc. by apply H.
Qed.
Lemma shaped_step (A : cact -> Prop) cfg y a y' : A a -> cmv cfg y a y' -> shaped A cfg y -> shaped A cfg y'.
Proof.
  intros HA Hm HS. unfold shaped in *. pose proof (fails A cfg y a y') as HF.
  destruct (cmv_pmove _ _ _ _ Hm) as [E1 E2 E3|txt H0 E1 E2 E3|o H0 E1 E2 E3 Hi|f0 txt H0 Hf Hr0 E1 E2 E3|f0 H0 Hf E1 E2 E3|f0 id0 kk c H0 Hro Hk Hh E1 E2 E3|q0 l w0 txt H0 Hw Hl0 E1 E2 E3|q0 l H0 Hw Hl0 Hu E1 E2 E3|q0 l c H0 Hw Hl0 Hc Hu Hh E1 E2 E3|i f0 rest err kk c H0 Hi Hh E1 E2 E3|c f0 kk H0 E1 E2 E3|f0 err H0 E1 E2 E3|err H0 E1 E2 E3].
  - rewrite E1. destruct (c_p y) as [|ch f [id| |f' rest err]|f rest err|err|]; try (rewrite ?E2, ?E3; done).
    + destruct HS as [-> [k HS]]. split; [done|]. exists k. by eapply ending_keep.
    + by eapply ending_keep.
    + destruct HS as [f HS]. exists f. by eapply ending_keep.
    + destruct HS as [f HS]. exists f. by eapply ending_keep.
  - rewrite E1. rewrite H0 in HS. destruct HS as [S1 S2]. exists (c_log y), []. rewrite E2, E3, app_nil_r. split_and!; [done|done|done|].
    destruct (HF _ _ _ HA Hm H0 E1) as [(e & El & _)|(_ & t & Ht & ->)]; [exfalso; apply (f_equal length) in El; rewrite E3, app_length in El; cbn in El; lia|]. by eapply eb_own.
  - rewrite E1, E2, E3. rewrite H0 in HS. destruct HS as [S1 S2]. split; [apply calm_snoc; [done|by eapply ignored_calm]|]. by apply table_ignored.
  - rewrite E1. rewrite H0 in HS. destruct HS as [S1 S2]. exists (c_log y ++ [PvIn (Some f0)]), []. rewrite E2, E3, app_nil_r. split_and!; [done|done| |].
    + apply table_in; [done|]. intros k [_ E]. congruence.
    + destruct (HF _ _ _ HA Hm H0 E1) as [(e & El & He)|(El & _)]; [|exfalso; apply (f_equal length) in El; rewrite E3, app_length in El; cbn in El; lia].
      rewrite E3 in El. apply app_inj_tail in El as [_ <-]. by eapply eb_event.
  - rewrite E1. rewrite H0 in HS. destruct HS as [S1 S2]. exists (c_log y ++ [PvIn (Some f0)]), []. rewrite E2, E3, app_nil_r. split_and!; [done|done| |].
    + apply table_in; [done|]. intros k [E _]. by rewrite Hf in E.
    + destruct (HF _ _ _ HA Hm H0 E1) as [(e & El & He)|(El & _)]; [|exfalso; apply (f_equal length) in El; rewrite E3, app_length in El; cbn in El; lia].
      rewrite E3 in El. apply app_inj_tail in El as [_ <-]. by eapply eb_event.
  - rewrite E1. rewrite H0 in HS. destruct HS as [S1 S2].
    assert (exists l id, c_log y' = l ++ [PvIn (Some f0)] /\ routes f0 id kk /\ c_map y' !! id = Some c /\ calm (c_log y') /\ table (c_map y') l) as HX.
    { exists (c_log y), id0. rewrite E2, E3. split_and!; try done. apply calm_snoc; [done|by eapply routes_calm]. }
    destruct kk; [done|done|by inversion Hro].
  - rewrite H0 in HS. destruct HS as [S1 S2].
    assert (table (c_map y') (c_log y')) as HT by (rewrite E2, E3; apply table_req; [done|by intros k []]).
    destruct w0; rewrite E1.
    + split; [|done]. rewrite E3. by apply calm_snoc.
    + exists (c_log y'), []. rewrite app_nil_r. split_and!; [done|by rewrite E2|done|].
      destruct (HF _ _ _ HA Hm H0 E1) as [(e & El & He)|(El & _)]; [|exfalso; apply (f_equal length) in El; rewrite E3, app_length in El; cbn in El; lia]. by eapply eb_event.
  - rewrite H0 in HS. destruct HS as [S1 S2]. rewrite E1, E2, E3. split; [by apply calm_snoc|].
    destruct (decide (f_cmd (q_frame q0) = UNSUBSCRIBE)) as [Hq|Hq].
    + destruct Hu as [?|Hu]; [done|]. unfold local_only in Hl0. apply andb_true_iff in Hl0 as [_ Hl0]. unfold first_of in Hu. destruct (hd_contains (f_hdr (q_frame q0)) h_reply_to) as [v|] eqn:Ev; [|done].
      rewrite <-(delete_notin _ _ Hu). by apply table_unsub.
    + apply table_req; [done|]. by intros k [? _].
  - rewrite H0 in HS. destruct HS as [S1 S2]. rewrite E1, E2, E3. split; [by apply calm_snoc|]. unfold local_only in Hl0. apply andb_true_iff in Hl0 as [_ Hl0]. unfold first_of.
    destruct (hd_contains (f_hdr (q_frame q0)) h_reply_to) as [v|] eqn:Ev; [|done]. by apply table_unsub.
  - rewrite E1. rewrite H0 in HS. split; [done|]. exists kk. eapply ending_keep; [done..| |exact HS]. rewrite <-(take_drop_middle _ _ _ Hi) at 3. apply Permutation_middle.
  - rewrite E1. rewrite H0 in HS. destruct kk as [id| |f' rest err].
    + destruct HS as (l & id1 & S1 & S2 & S3 & S4 & S5). inversion S2; subst. rewrite E2, E3. split; [by apply calm_snoc|]. intros k ch. rewrite listens_told, S1. by apply table_stop.
    + destruct HS as (l & id1 & S1 & S2 & S3 & S4 & S5). inversion S2; subst. rewrite E2, E3. split; [by apply calm_snoc|]. intros k ch. rewrite listens_told, S1. apply table_in; [done|]. intros k' [E _]. match goal with H : f_cmd _ = MESSAGE |- _ => by rewrite H in E end.
    + destruct HS as [-> [k (l1 & ks & S1 & S2 & S3 & S4)]]. exists l1, (ks ++ [(k, c)]). rewrite E2, E3, S1. split_and!; [|by rewrite <-app_assoc|done|by eapply by_step].
      unfold spread. by rewrite fmap_app, app_assoc.
  - rewrite E1. rewrite H0 in HS. exists f0. by eapply ending_keep.
  - rewrite H0 in HS. destruct HS as [f HS]. assert (ending A cfg y' f []) as HX by (by eapply ending_keep). destruct E1 as [-> | ->]; by exists f.
Qed.
Lemma reach_shaped A cfg y : creach A cfg y -> shaped A cfg y.
Proof.
  induction 1 as [|y a y' Hr IH HA Hs].
  - split; [constructor|]. intros k ch. cbn. split; [by rewrite lookup_empty|]. intros (l1 & q & w & l2 & E & _). by destruct l1.
  - apply cstep_cmv in Hs as Hm. by eapply shaped_step.
Qed.

(* ---------------- how a connection ends ---------------- *)
Lemma table_waiters m l ks : table m l -> ks ≡ₚ map_to_list m -> waiters l ks.
Proof.
  intros H Hp. split; [rewrite Hp; apply NoDup_fst_map_to_list|]. intros k ch. rewrite Hp, elem_of_map_to_list. apply H.
Qed.
Definition ended (y : cl) : Prop := (exists err, c_p y = PMust err) \/ c_p y = PEnd.
Lemma end_shape A cfg y : creach A cfg y -> ended y -> exists l f ks, c_log y = l ++ spread f ks /\ waiters l ks /\ ended_by A cfg y l f.
Proof.
  intros Hr He. pose proof (reach_shaped _ _ _ Hr) as HS. unfold shaped in HS. assert (exists f, ending A cfg y f []) as (f & l & ks & H1 & H2 & H3 & H4) by (by destruct He as [[err E]|E]; rewrite E in HS).
  rewrite app_nil_r in H2. exists l, f, ks. split_and!; try done. by eapply table_waiters.
Qed.
Lemma spread_in f ks e : e ∈ spread f ks -> exists ch, e = PvTold ch f.
Proof. intros (p & -> & _)%elem_of_list_fmap. eauto. Qed.
Lemma ends_split A cfg y l1 e l2 l f g ks : ended_by A cfg y l g -> ends e = Some f -> l1 ++ e :: l2 = l ++ spread g ks -> l = l1 ++ [e] /\ f = g /\ l2 = spread g ks.
Proof.
  intros Hb He E. assert (Hn : e ∉ spread g ks) by (intros (ch & ->)%spread_in; done).
  apply app_eq_inv in E as [(k & -> & E)|(k & -> & E)]; [destruct Hn; rewrite E; apply elem_of_app; right; by left|].
  destruct k as [|e' k]; [destruct Hn; rewrite <-(app_nil_l (spread g ks)), <-E; by left|]. injection E as <- ->.
  destruct Hb as [l0 e0 E He0 HF|t _ -> HF].
  - destruct k as [|e1 k _] using rev_ind; [apply app_inj_tail in E as [<- <-]; rewrite He in He0; injection He0 as ->; done|].
    rewrite app_comm_cons, app_assoc in E. apply app_inj_tail in E as [<- _]. rewrite Forall_app, Forall_cons in HF. destruct HF as [_ [HF _]]. congruence.
  - rewrite Forall_app, Forall_cons in HF. destruct HF as [_ [HF _]]. congruence.
Qed.
Lemma event_ends A cfg y l1 e l2 f : creach A cfg y -> c_log y = l1 ++ e :: l2 -> ends e = Some f ->
  exists ks rest, l2 = spread f ks /\ waiters (l1 ++ [e]) (ks ++ rest) /\ c_p y <> PLoop /\ (ended y -> rest = []).
Proof.
  intros Hr El He. pose proof (reach_shaped _ _ _ Hr) as HS. unfold shaped in HS.
  assert (Hcalm : calm (c_log y) -> False). { rewrite El. unfold calm. rewrite Forall_app, Forall_cons. intros [_ [H _]]. congruence. }
  assert (Hend : forall g rest, ending A cfg y g rest -> exists ks, l2 = spread f ks /\ waiters (l1 ++ [e]) (ks ++ rest)).
  { intros g rest (l & ks & H1 & H2 & H3 & H4). rewrite El in H1. destruct (ends_split _ _ _ _ _ _ _ _ _ _ H4 He H1) as (-> & <- & ->). exists ks. split; [done|]. by eapply table_waiters. }
  destruct (c_p y) as [|ch g [id| |g' rest err]|g rest err|err|] eqn:Ep.
  - by destruct HS as [H%Hcalm _].
  - by destruct HS as (? & ? & _ & _ & _ & H%Hcalm & _).
  - by destruct HS as (? & ? & _ & _ & _ & H%Hcalm & _).
  - destruct HS as [-> [k HS]]. destruct (Hend _ _ HS) as (ks & H1 & H2). exists ks, ((k, ch) :: rest). split_and!; try done. intros [[? H]|H]; congruence.
  - destruct (Hend _ _ HS) as (ks & H1 & H2). exists ks, rest. split_and!; try done. intros [[? H]|H]; congruence.
  - destruct HS as [g HS]. destruct (Hend _ _ HS) as (ks & H1 & H2). by exists ks, [].
  - destruct HS as [g HS]. destruct (Hend _ _ HS) as (ks & H1 & H2). by exists ks, [].
Qed.

(* ---------------- what is done with each frame ---------------- *)
Definition handed_over (y : cl) (l2 : list pev) (ch : nat) (f : frame) : Prop := l2 = [] /\ (exists id kk, routes f id kk /\ c_p y = PSend ch f kk) \/ exists l3, l2 = PvTold ch f :: l3.
Definition treated (A : cact -> Prop) (cfg : ccfg) (y : cl) (l1 : list pev) (o : option frame) (l2 : list pev) : Prop :=
  (exists f k ch, o = Some f /\ routed f = Some k /\ listens l1 k ch /\ handed_over y l2 ch f) \/
  ((forall f k ch, o = Some f -> routed f = Some k -> ~ listens l1 k ch) /\ quiet A cfg y l2).
Lemma quiet_step A cfg y a y' l : cmv cfg y a y' -> quiet A cfg y l -> quiet A cfg y' l.
Proof. intros Hm H ch f l' E. destruct (H _ _ _ E) as (t & H1 & H2). exists t. split; [by eapply own_step|done]. Qed.
Lemma reach_treated A cfg y : creach A cfg y -> forall l1 o l2, c_log y = l1 ++ PvIn o :: l2 -> ends (PvIn o) = None -> treated A cfg y l1 o l2.
Proof.
  induction 1 as [|y a y' Hr IH HA Hs]; [intros [|] ? ? E; done|]. intros l1 o l2 El He. apply cstep_cmv in Hs as Hm. pose proof (reach_shaped _ _ _ Hr) as HS. unfold shaped in HS.
  (* no new event *)
  assert (Hold : c_log y' = c_log y -> (forall ch f id kk, routes f id kk -> c_p y = PSend ch f kk -> c_p y' = c_p y) -> treated A cfg y' l1 o l2).
  { intros E HP. rewrite E in El. destruct (IH _ _ _ El He) as [(f & k & ch & H1 & H2 & H3 & H4)|[H1 H2]]; [left|right; split; [done|by eapply quiet_step]].
    exists f, k, ch. split_and!; try done. destruct H4 as [(-> & id & kk & H5 & H6)|H4]; [left|by right]. split; [done|]. exists id, kk. split; [done|]. by rewrite (HP _ _ _ _ H5 H6). }
  (* a new event that is not taking a frame from the server *)
  assert (Hnew : forall e, c_log y' = c_log y ++ [e] -> (forall o', e <> PvIn o') -> (forall ch f id kk, routes f id kk -> c_p y = PSend ch f kk -> e = PvTold ch f) ->
    (forall ch f, e = PvTold ch f -> exists kk, c_p y = PSend ch f kk) -> treated A cfg y' l1 o l2).
  { intros e E Hne Hs1 Hs2. rewrite E in El. destruct l2 as [|e2 l2 _] using rev_ind; [apply app_inj_tail in El as [_ ->]; by destruct (Hne o)|].
    rewrite app_comm_cons, app_assoc in El. apply app_inj_tail in El as [El <-]. destruct (IH _ _ _ El He) as [(f & k & ch & H1 & H2 & H3 & H4)|[H1 H2]].
    - left. exists f, k, ch. split_and!; try done. right. destruct H4 as [(-> & id & kk & H5 & H6)|[l3 ->]]; [exists []; by rewrite (Hs1 _ _ _ _ H5 H6)|by exists (l3 ++ [e])].
    - right. split; [done|]. destruct l2 as [|e2 l2]; [|by intros ch f l' [= -> _]; destruct (H2 ch f l2 eq_refl) as (t & T1 & T2); exists t; split; [by eapply own_step|]].
      intros ch f l' [= -> _]. destruct (Hs2 _ _ eq_refl) as [kk Hp]. rewrite Hp in HS.
      assert (Hno : forall l id, c_log y = l ++ [PvIn (Some f)] -> routes f id kk -> c_map y !! id = Some ch -> table (c_map y) l -> False).
      { intros l id G1 G2 G3 G4. rewrite El in G1. apply app_inj_tail in G1 as [-> [= ->]]. eapply H1; [done|by eapply routes_routed|]. by apply G4. }
      destruct kk as [id| |f' rest err].
      + destruct HS as (l & id' & G1 & G2 & G3 & _ & G4). by destruct (Hno l id').
      + destruct HS as (l & id' & G1 & G2 & G3 & _ & G4). by destruct (Hno l id').
      + destruct HS as [-> [k (l & ks & G1 & _ & _ & G4)]]. rewrite El in G1. destruct ks as [|p ks _] using rev_ind.
        * rewrite app_nil_r in G1. subst l. destruct G4 as [l0 e0 G5 G6 _|t G5 G6 _]; [apply app_inj_tail in G5 as [_ <-]; congruence|]. exists t. split; [by eapply own_step|done].
        * unfold spread in G1. rewrite fmap_app, app_assoc in G1. by apply app_inj_tail in G1 as [_ ?]. }
  (* a frame is taken *)
  assert (Hlast : forall o', c_log y' = c_log y ++ [PvIn o'] -> c_p y = PLoop -> (l1 = c_log y -> o = o' -> l2 = [] -> treated A cfg y' l1 o l2) -> treated A cfg y' l1 o l2).
  { intros o' E Hp Hx. rewrite E in El. destruct l2 as [|e2 l2 _] using rev_ind; [apply app_inj_tail in El as [<- [= <-]]; by apply Hx|].
    rewrite app_comm_cons, app_assoc in El. apply app_inj_tail in El as [El <-]. destruct (IH _ _ _ El He) as [(f & k & ch & H1 & H2 & H3 & H4)|[H1 H2]].
    - left. exists f, k, ch. split_and!; try done. destruct H4 as [(-> & id & kk & H5 & H6)|[l3 ->]]; [congruence|]. right. by exists (l3 ++ [PvIn o']).
    - right. split; [done|]. destruct l2 as [|e2 l2]; [by intros ? ? ?|]. intros ch f l' [= -> _]. destruct (H2 ch f l2 eq_refl) as (t & T1 & T2). exists t. split; [by eapply own_step|done]. }
  destruct (cmv_pmove _ _ _ _ Hm) as [E1 E2 E3|txt H0 E1 E2 E3|o0 H0 E1 E2 E3 Hi|f0 txt H0 Hf Hr0 E1 E2 E3|f0 H0 Hf E1 E2 E3|f0 id0 kk c H0 Hro Hk Hh E1 E2 E3|q0 l w0 txt H0 Hw Hl0 E1 E2 E3|q0 l H0 Hw Hl0 Hu E1 E2 E3|q0 l c H0 Hw Hl0 Hc Hu Hh E1 E2 E3|i f0 rest err kk c H0 Hi Hh E1 E2 E3|c f0 kk H0 E1 E2 E3|f0 err H0 E1 E2 E3|err H0 E1 E2 E3].
  - by apply Hold.
  - apply Hold; [done|]. intros; congruence.
  - eapply Hlast; [done|done|]. intros -> -> ->. right. rewrite H0 in HS. destruct HS as [_ HT]. split; [|by intros ? ? ?].
    intros f k ch -> Hro Hl. apply HT in Hl. destruct Hi as (_ & _ & Hi). apply routed_routes in Hro as [kk Hro]. rewrite (Hi _ _ Hro) in Hl. done.
  - eapply Hlast; [done|done|]. intros -> -> ->. exfalso. unfold ends in He. rewrite decide_False in He by (by rewrite Hf). by rewrite decide_True in He.
  - eapply Hlast; [done|done|]. intros -> -> ->. exfalso. unfold ends in He. by rewrite decide_True in He.
  - eapply Hlast; [done|done|]. intros -> -> ->. left. rewrite H0 in HS. destruct HS as [_ HT]. exists f0, id0, c. split_and!; [done|by eapply routes_routed|by apply HT|]. left. split; [done|]. by exists id0, kk.
  - eapply Hnew; [done|done| |done]. intros; congruence.
  - eapply Hnew; [done|done| |done]. intros; congruence.
  - eapply Hnew; [done|done| |done]. intros; congruence.
  - apply Hold; [done|]. intros; congruence.
  - eapply Hnew; [done|done| |].
    + intros ch f id k' _ Hp. rewrite H0 in Hp. by injection Hp as -> -> _.
    + intros ch f [= -> ->]. by exists kk.
  - apply Hold; [done|]. intros; congruence.
  - apply Hold; [done|]. intros; congruence.
Qed.
