(** Response channels that are still in use are open, and somebody listens. *)
From stdpp Require Import gmap.
From Verif Require Import GoBase HeaderModel FrameModel HeaderProofs NegotiationModel ClientApiModel ClientModel ClientSpec ClientLemmas ClientProofs ClientRequests ClientCalls ClientChannels ClientReceipts ClientDelivery ClientMessages ClientFinal ClientClosing.

(** Requests that processLoop has not taken. *)
Definition pend (y : cl) (q : wreq) : Prop := q ∈ c_wch y \/ exists g r k, c_gs y !! g = Some r /\ g_pc r = GPut k q.
(** Channels that processLoop may still send on. *)
Definition ptgt (p : ppc) (m : gmap str nat) (ch : nat) : Prop :=
  match p with
  | PLoop | PSend _ _ (KReceipt _) | PSend _ _ KMessage => exists k, m !! k = Some ch
  | PBcast _ rest _ => exists k, (k, ch) ∈ rest
  | PSend c _ (KBcast _ rest _) => c = ch \/ exists k, (k, ch) ∈ rest
  | _ => False
  end.
Definition live (y : cl) (ch : nat) : Prop := (exists q, pend y q /\ q_chan q = Some ch) \/ ptgt (c_p y) (c_map y) ch.

(* ---------------- one request per channel ---------------- *)
Lemma pend_known y q : pend y q -> known y q.
Proof. intros [H|H]; [by left|right; by right]. Qed.
Lemma known_split y q : known y q -> pend y q \/ q ∈ log_reqs (c_log y).
Proof. intros [H|[H|H]]; [left; by left|by right|left; by right]. Qed.
Lemma same_req y q q' ch : reqinv y -> known y q -> known y q' -> q_chan q = Some ch -> q_chan q' = Some ch -> q_by q = q_by q' /\ q_frame q = q_frame q'.
Proof.
  intros HR Hq Hq' Hc Hc'. destruct (rq_ok _ HR _ Hq) as (r & Hr & Hf & _ & Hx), (rq_ok _ HR _ Hq') as (r' & Hr' & Hf' & _ & Hx').
  destruct (Hx _ Hc) as (h & Hh & Ho), (Hx' _ Hc') as (h' & Hh' & Ho'). assert (h' = h) as -> by congruence.
  assert (q_by q = q_by q') as E.
  { destruct (is_subscribe (g_op r)), (is_subscribe (g_op r')).
    - destruct Ho as (s & b & E1 & E2 & _ & E3 & _), Ho' as (s' & b' & E1' & E2' & _ & E3' & _). congruence.
    - destruct Ho as (s & b & E1 & _). congruence.
    - destruct Ho' as (s & b & E1 & _). congruence.
    - congruence. }
  split; [done|]. congruence.
Qed.
Lemma logged_not_pend A cfg y q q' ch : creach A cfg y -> q ∈ log_reqs (c_log y) -> pend y q' -> q_chan q = Some ch -> q_chan q' = Some ch -> False.
Proof.
  intros Hr Hl Hp Hc Hc'. pose proof (reach_req _ _ _ Hr) as HR. destruct (reach_uniq _ _ _ Hr) as [HN HP].
  destruct (same_req y q q' ch HR) as [E _]; [right; by left|by apply pend_known|done..|]. destruct Hp as [Hw|(g & r & k & Hg & Hpc)].
  - unfold allr in HN. rewrite fmap_app in HN. apply NoDup_app in HN as (_ & HN & _). apply (HN (q_by q)); [by apply elem_of_list_fmap_1|]. rewrite E. by apply elem_of_list_fmap_1.
  - pose proof (rq_put _ HR _ _ _ _ Hg Hpc) as Eg. apply (HP _ _ Hg); [by rewrite Hpc|]. rewrite <-Eg, <-E. apply elem_of_list_fmap_1, elem_of_app. by left.
Qed.
Lemma logged_step cfg y a y' q : cmv cfg y a y' -> q ∈ log_reqs (c_log y) -> q ∈ log_reqs (c_log y').
Proof. intros Hm Hq. destruct (pmove_log _ _ (cmv_pmove _ _ _ _ Hm)) as [->|[e ->]]; [done|]. rewrite log_reqs_snoc. apply elem_of_app. by left. Qed.
Lemma pend_back A B cfg y a y' q ch : creach A cfg y -> creach B cfg y' -> cmv cfg y a y' -> pend y' q -> q_chan q = Some ch ->
  pend y q \/ ch = length (c_chs y) /\ c_chs y' !! ch = Some (mkChan (match c_chs y' !! ch with Some h => h_owner h | None => OwnG 0 end) false).
Proof.
  intros Hr Hr' Hm Hp Hc. destruct (cmv_known _ _ _ _ _ Hm (pend_known _ _ Hp)) as [Hk|Hn].
  - apply known_split in Hk as [?|Hl]; [by left|]. exfalso. eapply logged_step in Hl; [|done]. by eapply (logged_not_pend _ _ _ _ _ _ Hr' Hl Hp).
  - right. destruct Hn as [g r k f own Hg Hs Hown _ -> ->|g r f id rt Hg Hpc Ho _ -> ->]; cbn [q_chan] in Hc.
    + destruct own as [o|]; [|done]. injection Hc as <-. split; [done|]. unfold submit. cbn. rewrite lookup_app_r by lia. by rewrite Nat.sub_diag.
    + injection Hc as <-. split; [done|]. unfold submit. cbn. rewrite lookup_app_r by lia. by rewrite Nat.sub_diag.
Qed.

(* ---------------- plain subscriptions ---------------- *)
(** No Subscribe call asks for a receipt. *)
Definition plain_subs (gs : list gor) : Prop := forall g r f id rt, gs !! g = Some r -> g_op r = OSubscribe (Some (f, id, rt)) -> hd_contains (f_hdr f) h_receipt = None.
Lemma plain_back gs gs' : gchange gs gs' -> plain_subs gs' -> plain_subs gs.
Proof. intros HG HP g r f id rt Hg Ho. destruct (gchange_op _ _ _ _ HG Hg) as (r' & Hr' & E). eapply HP; [exact Hr'|by rewrite E]. Qed.
Lemma subscribe_op A cfg y g r f : creach A cfg y -> c_gs y !! g = Some r -> op_frame (g_op r) = Some f -> f_cmd f = SUBSCRIBE -> exists id rt, g_op r = OSubscribe (Some (f, id, rt)).
Proof.
  intros Hr Hg Hf Hc. pose proof (reach_ops _ _ _ Hr _ _ Hg) as Hk. destruct (g_op r) as [fo|f0|[[[f0 id] rt]|]|s fo|rid|]; cbn in Hf, Hk; try done.
  - subst fo. apply bool_decide_eq_true in Hk. by rewrite Hk in Hc.
  - injection Hf as ->. unfold is_sub_cmd in Hk. by rewrite Hc in Hk.
  - injection Hf as ->. eauto.
  - subst fo. apply bool_decide_eq_true in Hk. by rewrite Hk in Hc.
  - by injection Hf as <-.
Qed.
Lemma plain_key A cfg y q k k' : creach A cfg y -> plain_subs (c_gs y) -> known y q -> names (q_frame q) k -> names (q_frame q) k' -> k = k'.
Proof.
  intros Hr HP Hq Hn Hn'. destruct (rq_ok _ (reach_req _ _ _ Hr) _ Hq) as (r & Hg & Hf & _).
  assert (forall z, f_cmd (q_frame q) = SUBSCRIBE -> hd_contains (f_hdr (q_frame q)) h_receipt <> Some z) as HN.
  { intros z Hc E. destruct (subscribe_op _ _ _ _ _ _ Hr Hg Hf Hc) as (id & rt & Ho). by rewrite (HP _ _ _ _ _ Hg Ho) in E. }
  destruct Hn as [E|[Hc E]], Hn' as [E'|[Hc' E']]; [congruence| | |congruence]; exfalso; eapply HN; eassumption.
Qed.
Lemma one_key A cfg y q q' ch k k' : creach A cfg y -> plain_subs (c_gs y) -> known y q -> known y q' -> q_chan q = Some ch -> q_chan q' = Some ch ->
  names (q_frame q) k -> names (q_frame q') k' -> k = k'.
Proof. intros Hr HP Hq Hq' Hc Hc' Hn Hn'. destruct (same_req _ _ _ _ (reach_req _ _ _ Hr) Hq Hq' Hc Hc') as [_ E]. rewrite <-E in Hn'. exact (plain_key _ _ _ _ _ _ Hr HP Hq Hn Hn'). Qed.
Lemma map_known A cfg y k ch : creach A cfg y -> c_map y !! k = Some ch -> exists q, q ∈ log_reqs (c_log y) /\ known y q /\ q_chan q = Some ch /\ names (q_frame q) k.
Proof. intros Hr Hk. destruct (mi_map _ (reach_map _ _ _ Hr) _ _ Hk) as (q & w & Hq & Hc & Hn). exists q. apply log_req_in in Hq. split_and!; try done. right. by left. Qed.
Lemma remember_known A cfg y q l k ch : creach A cfg y -> c_wch y = q :: l -> remember (c_map y) q !! k = Some ch ->
  exists q', (q' = q \/ q' ∈ log_reqs (c_log y)) /\ known y q' /\ q_chan q' = Some ch /\ names (q_frame q') k.
Proof.
  intros Hr Hw [[Hc Hn]|[Hk _]]%remember_inv.
  - exists q. split_and!; try done; [by left|]. left. rewrite Hw. by left.
  - destruct (map_known _ _ _ _ _ Hr Hk) as (q' & ? & ? & ? & ?). exists q'. auto.
Qed.
Lemma map_inj A cfg y k k' ch : creach A cfg y -> plain_subs (c_gs y) -> c_map y !! k = Some ch -> c_map y !! k' = Some ch -> k = k'.
Proof. intros Hr HP (q & _ & Hq & Hc & Hn)%(map_known _ _ _ _ _ Hr) (q' & _ & Hq' & Hc' & Hn')%(map_known _ _ _ _ _ Hr). exact (one_key _ _ _ _ _ _ _ _ Hr HP Hq Hq' Hc Hc' Hn Hn'). Qed.
Lemma remember_inj A cfg y q l k k' ch : creach A cfg y -> plain_subs (c_gs y) -> c_wch y = q :: l -> remember (c_map y) q !! k = Some ch -> remember (c_map y) q !! k' = Some ch -> k = k'.
Proof.
  intros Hr HP Hw (q1 & _ & Hq & Hc & Hn)%(remember_known _ _ _ _ _ _ _ Hr Hw) (q' & _ & Hq' & Hc' & Hn')%(remember_known _ _ _ _ _ _ _ Hr Hw). exact (one_key _ _ _ _ _ _ _ _ Hr HP Hq Hq' Hc Hc' Hn Hn').
Qed.
Lemma list_nodup (m : gmap str nat) : (forall k k' ch, m !! k = Some ch -> m !! k' = Some ch -> k = k') -> NoDup (map_to_list m).*2.
Proof.
  intros Hi. apply NoDup_fmap_2_strong; [|apply NoDup_map_to_list]. intros [k ch] [k' ch'] H1%elem_of_map_to_list H2%elem_of_map_to_list E. cbn in E. subst ch'. f_equal. by eapply Hi.
Qed.
Lemma pick_perm {X} (l : list X) i x : l !! i = Some x -> x :: (take i l ++ drop (S i) l) ≡ₚ l.
Proof. intros Hi. rewrite <-(take_drop_middle _ _ _ Hi) at 3. by rewrite Permutation_middle. Qed.

(* ---------------- the invariant ---------------- *)
(** The channels of a broadcast are different. *)
Definition distinct (p : ppc) : Prop :=
  match p with PBcast _ rest _ => NoDup rest.*2 | PSend ch _ (KBcast _ rest _) => NoDup (ch :: rest.*2) | _ => True end.
Lemma reach_distinct A cfg y : creach A cfg y -> plain_subs (c_gs y) -> distinct (c_p y).
Proof.
  induction 1 as [|y a y' Hr IH Ha Hs]; [done|]. intros HP. apply cstep_cmv in Hs as Hm. pose proof (plain_back _ _ (cmv_gs _ _ _ _ Hm) HP) as HP0. specialize (IH HP0).
  assert (NoDup (map_to_list (c_map y)).*2) as HL by (apply list_nodup; intros; by eapply map_inj).
  destruct (cmv_pmove _ _ _ _ Hm) as [E1 E2 E3|txt H0 E1 E2 E3|o H0 E1 E2 E3 Hi|f0 txt H0 Hf Hr0 E1 E2 E3|f0 H0 Hf E1 E2 E3|f0 id0 kk ch H0 Hro Hk Hh E1 E2 E3|q0 l w0 txt H0 Hw Hl0 E1 E2 E3|q0 l H0 Hw Hl0 Hu E1 E2 E3|q0 l ch H0 Hw Hl0 Hc Hu Hh E1 E2 E3|i f0 rest err kk ch H0 Hi Hh E1 E2 E3|ch f0 kk H0 E1 E2 E3|f0 err H0 E1 E2 E3|err H0 E1 E2 E3]; try rewrite E1; try done.
  - by destruct Hro.
  - destruct w0; [done|]. cbn. apply list_nodup. intros; by eapply remember_inj.
  - rewrite H0 in IH. cbn in IH |- *. pose proof (fmap_Permutation snd _ _ (pick_perm _ _ _ Hi)) as HPm. cbn in HPm. by rewrite HPm.
  - rewrite H0 in IH. destruct kk as [id| |f1 rest err]; try done. cbn in IH |- *. by apply NoDup_cons in IH as [_ ?].
  - by destruct E1 as [-> | ->].
Qed.
Lemma live_back A B cfg y a y' ch : creach A cfg y -> creach B cfg y' -> cmv cfg y a y' -> live y' ch ->
  live y ch \/ ch = length (c_chs y) /\ c_chs y' !! ch = Some (mkChan (match c_chs y' !! ch with Some h => h_owner h | None => OwnG 0 end) false).
Proof.
  intros Hr Hr' Hm [(q & Hp & Hc)|Ht].
  - destruct (pend_back _ _ _ _ _ _ _ _ Hr Hr' Hm Hp Hc) as [?|?]; [left; left; eauto|by right].
  - left. assert (forall q l k, c_wch y = q :: l -> c_p y = PLoop -> remember (c_map y) q !! k = Some ch -> live y ch) as HR.
    { intros q l k Hw H0 [[Hc _]|[Hk _]]%remember_inv; [left; exists q; split; [left; rewrite Hw; by left|done]|right; rewrite H0; by exists k]. }
    destruct (cmv_pmove _ _ _ _ Hm) as [E1 E2 E3|txt H0 E1 E2 E3|o H0 E1 E2 E3 Hi|f0 txt H0 Hf Hr0 E1 E2 E3|f0 H0 Hf E1 E2 E3|f0 id0 kk c H0 Hro Hk Hh E1 E2 E3|q0 l w0 txt H0 Hw Hl0 E1 E2 E3|q0 l H0 Hw Hl0 Hu E1 E2 E3|q0 l c H0 Hw Hl0 Hc Hu Hh E1 E2 E3|i f0 rest err kk c H0 Hi Hh E1 E2 E3|c f0 kk H0 E1 E2 E3|f0 err H0 E1 E2 E3|err H0 E1 E2 E3]; try rewrite E1, E2 in Ht; cbn [ptgt] in Ht.
    + by right.
    + destruct Ht as [k Hk%elem_of_map_to_list]. right. rewrite H0. by exists k.
    + right. by rewrite H0.
    + destruct Ht as [k Hk%elem_of_map_to_list]. right. rewrite H0. by exists k.
    + destruct Ht as [k Hk%elem_of_map_to_list]. right. rewrite H0. by exists k.
    + right. rewrite H0. by destruct Hro.
    + destruct w0; destruct Ht as [k Hk]; [|apply elem_of_map_to_list in Hk]; by eapply HR.
    + destruct Ht as [k Hk]. by eapply HR.
    + destruct Ht as [k Hk]. apply lookup_delete_Some in Hk as [_ Hk]. by eapply HR.
    + right. rewrite H0. destruct Ht as [->|[k Hk]]; [exists kk; by eapply elem_of_list_lookup_2|]. exists k. rewrite <-(pick_perm _ _ _ Hi). by right.
    + right. rewrite H0. destruct kk as [id| |f1 rest err]; cbn in Ht |- *; [|done|by right]. destruct Ht as [k Hk]. apply lookup_delete_Some in Hk as [_ Hk]. by exists k.
    + done.
    + destruct E1 as [E1|E1]; rewrite E1 in Ht; done.
Qed.
(** Why a channel is closed. *)
Inductive closes (y : cl) (a : cact) (y' : cl) (ch : nat) : Prop :=
| cs_told f k : c_p y = PSend ch f k -> k <> KMessage -> a = XDeliver -> c_p y' = (match k with KBcast f rest err => PBcast f rest err | _ => PLoop end) ->
    c_map y' = (match k with KReceipt id => delete id (c_map y) | _ => c_map y end) -> closes y a y' ch
| cs_unsub q l : c_p y = PLoop -> c_wch y = q :: l -> local_only (q_frame q) = true -> f_cmd (q_frame q) = UNSUBSCRIBE ->
    remember (c_map y) q !! first_of (f_hdr (q_frame q)) h_reply_to = Some ch -> c_p y' = PLoop ->
    c_map y' = delete (first_of (f_hdr (q_frame q)) h_reply_to) (remember (c_map y) q) -> c_log y' = c_log y ++ [PvReq q None] -> closes y a y' ch.
Lemma cmv_closes cfg y a y' : cmv cfg y a y' -> c_chs y' = c_chs y \/ (exists o, c_chs y' = c_chs y ++ [mkChan o false]) \/
  exists ch, c_chs y' = alter (fun h => mkChan (h_owner h) true) ch (c_chs y) /\ closes y a y' ch.
Proof.
  assert (Hafter : forall ch k, c_chs (after_send y ch k) = c_chs y \/ (k <> KMessage /\ c_chs (after_send y ch k) = alter (fun h => mkChan (h_owner h) true) ch (c_chs y))) by (intros ch [id| |f rest []]; auto).
  intros Hm. destruct Hm; try (by left).
  - unfold submit. destruct own as [o|]; [right; left; by exists o|by left].
  - right; left. by eexists.
  - destruct (put_next k (q_chan q)).2; by left.
  - destruct w; by left.
  - right; right. exists ch. split; [done|]. by eapply cs_unsub.
  - match goal with H : answers _ _ _ _ _ |- _ => apply answers_same in H as (_ & E1 & E2 & _ & _ & E3) end. rewrite E1. cbn [with_log c_chs]. destruct (Hafter ch k) as [->|[Hk ->]]; [by left|].
    right; right. exists ch. split; [done|]. destruct (after_send_p y ch k) as [Ep Em]. eapply cs_told; [done|done|done|by rewrite E3|by rewrite E2].
  - cbn [with_subs with_log c_chs]. destruct (Hafter ch k) as [->|[Hk ->]]; [by left|].
    right; right. exists ch. split; [done|]. destruct (after_send_p y ch k) as [Ep Em]. by eapply cs_told.
Qed.
(** Once told (other than a MESSAGE), or ended, a channel is out of use. *)
Lemma told_dead A B cfg y a y' ch f k : creach A cfg y -> creach B cfg y' -> cmv cfg y a y' -> plain_subs (c_gs y) -> c_p y = PSend ch f k -> k <> KMessage ->
  c_p y' = (match k with KBcast f rest err => PBcast f rest err | _ => PLoop end) -> c_map y' = (match k with KReceipt id => delete id (c_map y) | _ => c_map y end) -> ~ live y' ch.
Proof.
  intros Hr Hr' Hm HP Hp Hk E1 E2 [(q & Hq & Hc)|Ht].
  - destruct (psend_req _ _ _ _ (reach_map _ _ _ Hr) Hp) as (q0 & w & Hq0 & Hc0). apply log_req_in in Hq0. eapply logged_step in Hq0; [|done]. by eapply (logged_not_pend _ _ _ _ _ _ Hr' Hq0 Hq).
  - rewrite E1, E2 in Ht. pose proof (reach_distinct _ _ _ Hr HP) as HD. rewrite Hp in HD. destruct k as [id| |f1 rest err]; cbn in Ht, HD; [|done|].
    + destruct Ht as [k [Hne Hk']%lookup_delete_Some]. destruct (mi_send _ (reach_map _ _ _ Hr) _ _ _ Hp) as [(? & ? & ? & [=])|(id' & l & _ & Hro & Hid & _)].
      inversion Hro; subst. apply Hne. exact (map_inj _ _ _ _ _ _ Hr HP Hid Hk').
    + destruct Ht as [k Hk']. apply NoDup_cons in HD as [HD _]. apply HD. apply elem_of_list_fmap. by exists (k, ch).
Qed.
Lemma closed_dead A B cfg y a y' ch : creach A cfg y -> creach B cfg y' -> cmv cfg y a y' -> plain_subs (c_gs y) -> closes y a y' ch -> ~ live y' ch.
Proof.
  intros Hr Hr' Hm HP [f k Hp Hk _ E1 E2|q l H0 Hw Hl Hc Hrm E1 E2 E3]; [exact (told_dead _ _ _ _ _ _ _ _ _ Hr Hr' Hm HP Hp Hk E1 E2)|]. intros [(q1 & Hq1 & Hc1)|Ht].
  - destruct (remember_known _ _ _ _ _ _ _ Hr Hw Hrm) as (q2 & Hq2 & _ & Hc2 & _). assert (q2 ∈ log_reqs (c_log y')) as Hl2; [|exact (logged_not_pend _ _ _ _ _ _ Hr' Hl2 Hq1 Hc2 Hc1)].
    rewrite E3, log_reqs_snoc. apply elem_of_app. destruct Hq2 as [->|?]; [right; by left|by left].
  - rewrite E1, E2 in Ht. destruct Ht as [k [Hne Hk]%lookup_delete_Some]. apply Hne. exact (remember_inj _ _ _ _ _ _ _ _ Hr HP Hw Hrm Hk).
Qed.
Lemma reach_open A cfg y : creach A cfg y -> plain_subs (c_gs y) -> forall ch, live y ch -> h_is_closed y ch = false.
Proof.
  induction 1 as [|y a y' Hr IH Ha Hs]; [intros _ ch [(q & [Hq|(g & r & k & Hg & _)] & _)|[k Hk]]; [by apply elem_of_nil in Hq|done|cbn in Hk; by rewrite lookup_empty in Hk]|].
  intros HP ch HL. apply cstep_cmv in Hs as Hm. pose proof (plain_back _ _ (cmv_gs _ _ _ _ Hm) HP) as HP0. specialize (IH HP0). assert (creach A cfg y') as Hr' by (by eapply cr_step).
  destruct (live_back _ _ _ _ _ _ _ Hr Hr' Hm HL) as [HL0|[-> E]]; [|unfold h_is_closed; by rewrite E]. specialize (IH _ HL0). unfold h_is_closed in *.
  destruct (cmv_closes _ _ _ _ Hm) as [->|[[o ->]|(c & -> & Hcs)]]; [done| |].
  - destruct (decide (ch < length (c_chs y))) as [Hl|Hl]; [by rewrite lookup_app_l|]. rewrite lookup_app_r by lia. destruct (ch - length (c_chs y)) as [|n]; [done|by destruct n].
  - destruct (decide (ch = c)) as [->|Hne]; [|by rewrite list_lookup_alter_ne]. by destruct (closed_dead _ _ _ _ _ _ _ Hr Hr' Hm HP0 Hcs HL).
Qed.
(** processLoop never sends on a closed response channel, nor closes one twice. *)
Lemma loop_safe A cfg y a : creach A cfg y -> plain_subs (c_gs y) -> cstep cfg y a <> Some (CPanic PSendClosedResp) /\ cstep cfg y a <> Some (CPanic PCloseClosedResp).
Proof.
  intros Hr HP. pose proof (reach_open _ _ _ Hr HP) as HO. destruct (closers_safe _ _ _ Hr) as [S1 S2]. split; intros H%cstep_panics.
  - inversion H as [| | | |g r s c res b p Hg Hp Hb Hc| |f l id k ch Hp Hrc Hro Hk Hc| |i f rest err k ch Hp Hi Hc| |s b c p Hb Hrl Hc]; subst.
    + exact (S1 _ _ _ _ _ _ _ Hg Hp Hb Hc).
    + rewrite HO in Hc; [done|]. right. rewrite Hp. by exists id.
    + rewrite HO in Hc; [done|]. right. rewrite Hp. exists k. by eapply elem_of_list_lookup_2.
    + exact (S2 _ _ _ _ Hb Hrl Hc).
  - inversion H as [| | | |g r s c res b p Hg Hp Hb Hc| | |q l w ch Hp Hw Hl Hcm Hrm Hc| | |s b c p Hb Hrl Hc]; subst.
    + exact (S1 _ _ _ _ _ _ _ Hg Hp Hb Hc).
    + rewrite HO in Hc; [done|]. apply remember_inv in Hrm as [[Hq _]|[Hk _]].
      * left. exists q. split; [left; rewrite Hw; by left|done].
      * right. rewrite Hp. by eexists.
    + exact (S2 _ _ _ _ Hb Hrl Hc).
Qed.
