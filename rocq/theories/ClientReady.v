(** Somebody listens to every response channel processLoop may send on, unless
    a call stopped waiting because of a timeout. *)
From stdpp Require Import gmap.
From Verif Require Import GoBase HeaderModel FrameModel HeaderProofs NegotiationModel ClientApiModel ClientModel ClientSpec ClientLemmas ClientProofs ClientRequests ClientCalls ClientChannels ClientReceipts ClientDelivery ClientMessages ClientFinal ClientClosing ClientLive.

(** The server sends no MESSAGE for a name that is the receipt of a call. *)
Definition tidy (y : cl) : Prop := forall f k j r f', PvIn (Some f) ∈ c_log y -> message_for k f -> c_gs y !! j = Some r -> op_frame (g_op r) = Some f' ->
  hd_contains (f_hdr f') h_receipt <> Some k.
Definition gave_up (x : gpc) : Prop :=
  x = GDone (RErr EReceiptTimeout) \/ x = GDone (RErr EClosedUnexpectedly) \/ exists s c, x = GClose s c (RErr EClosedUnexpectedly).
Definition listening (A : cact -> Prop) (y : cl) (ch : nat) (o : owner) : Prop :=
  match o with
  | OwnG g => exists r, c_gs y !! g = Some r /\ ((exists k q, g_pc r = GPut k q /\ q_chan q = Some ch) \/ (exists k, g_pc r = GWait k ch) \/ (A (XTimeout g) /\ gave_up (g_pc r)))
  | OwnS s => exists b, c_subs y !! s = Some b /\ b_ch b = ch /\ (b_rl b = RlRecv \/ exists m, b_rl b = RlPut m)
  end.
Lemma tidy_back cfg y a y' : cmv cfg y a y' -> tidy y' -> tidy y.
Proof.
  intros Hm HT f k j r f' Hl Hf Hj Hop. destruct (gchange_op _ _ _ _ (cmv_gs _ _ _ _ Hm) Hj) as (r' & Hr' & E). eapply HT; [|done|exact Hr'|by rewrite E].
  destruct (pmove_log _ _ (cmv_pmove _ _ _ _ Hm)) as [->|[e ->]]; [done|by apply in_snoc].
Qed.
Lemma deliver_p cfg y y' ch f k : cmv cfg y XDeliver y' -> c_p y = PSend ch f k -> c_p y' = (match k with KBcast f rest err => PBcast f rest err | _ => PLoop end) /\
  c_map y' = (match k with KReceipt id => delete id (c_map y) | _ => c_map y end).
Proof.
  intros Hm Hp. inversion Hm; subst; try (by destruct t); simplify_eq; (match goal with H : c_p y = PSend ?c ?f' ?k' |- _ => assert (c = ch /\ f' = f /\ k' = k) as (-> & -> & ->) by (split_and!; congruence) end);
    destruct (after_send_p y ch k) as [Ep Em].
  - match goal with H : answers _ _ _ _ _ |- _ => apply answers_same in H as (_ & _ & E2 & _ & _ & E3) end. by rewrite E2, E3.
  - done.
Qed.
Lemma new_listens A cfg y a y' o : cmv cfg y a y' -> c_chs y' = c_chs y ++ [mkChan o false] -> listening A y' (length (c_chs y)) o.
Proof.
  intros Hm E.
  assert (Hlen : forall l : list chan, c_chs y' = l -> length l = length (c_chs y) -> False) by (intros l El Hl; rewrite <-El, E, app_length in Hl; cbn in Hl; lia).
  assert (Hafter : forall ch k, length (c_chs (after_send y ch k)) = length (c_chs y)) by (intros ch [id| |f rest []]; cbn; rewrite ?alter_length; done).
  destruct Hm; try (exfalso; by eapply Hlen; [reflexivity|]); try (exfalso; eapply Hlen; [reflexivity|]; cbn; by rewrite ?alter_length).
  - unfold submit in E. subst own. unfold receipt_owner in *. destruct (wants_receipt f) eqn:Ew; [|exfalso; eapply Hlen; reflexivity].
    cbn in E. apply app_inv_head in E. injection E as <-. cbn [listening]. eexists. split; [rewrite submit_gs'; by apply with_g_same|]. left. by do 2 eexists.
  - unfold submit in E. cbn in E. apply app_inv_head in E. injection E as <-. cbn [listening]. exists (new_sub g id rt (length (c_chs y))). split; [|split; [done|by left]].
    + rewrite (proj1 (submit_same _ _ _ _ _)). cbn [with_subs c_subs]. rewrite lookup_app_r by lia. by rewrite Nat.sub_diag.
  - exfalso. eapply Hlen; [reflexivity|]. by destruct (put_next k (q_chan q)).2.
  - exfalso. eapply Hlen; [reflexivity|]. by destruct w.
  - exfalso. match goal with H : answers _ _ _ _ _ |- _ => apply answers_same in H as (_ & E1 & _) end. eapply Hlen; [exact E1|]. apply Hafter.
Qed.
Lemma live_req A cfg y ch : creach A cfg y -> live y ch -> exists q, known y q /\ q_chan q = Some ch.
Proof.
  intros Hr [(q & Hq & Hc)|Ht]; [exists q; split; [by apply pend_known|done]|]. pose proof (reach_map _ _ _ Hr) as HM.
  assert (forall k, c_map y !! k = Some ch -> exists q, known y q /\ q_chan q = Some ch) as HK by (intros k Hk; destruct (map_known _ _ _ _ _ Hr Hk) as (q & _ & ? & ? & _); eauto).
  destruct (c_p y) as [|c f k|f rest err|err|] eqn:Hp; cbn in Ht; try done.
  - destruct Ht as [k Hk]. by eapply HK.
  - destruct k as [id| |f' rest err]; cbn in Ht; [destruct Ht as [k Hk]; by eapply HK..|]. destruct Ht as [->|[k Hk]].
    + destruct (mi_cur _ HM _ _ _ _ _ Hp) as (_ & k & Hk). by eapply HK.
    + destruct (mi_bcast _ HM f' rest err) as (_ & HB & _); [right; eauto|]. eapply HK, HB, Hk.
  - destruct Ht as [k Hk]. destruct (mi_bcast _ HM f rest err) as (_ & HB & _); [by left|]. eapply HK, HB, Hk.
Qed.
Lemma owner_g y q ch h g : reqinv y -> known y q -> q_chan q = Some ch -> c_chs y !! ch = Some h -> h_owner h = OwnG g ->
  q_by q = g /\ exists r, c_gs y !! g = Some r /\ is_subscribe (g_op r) = false /\ op_frame (g_op r) = Some (q_frame q).
Proof.
  intros HR Hq Hc Hh Ho. destruct (rq_ok _ HR _ Hq) as (r & Hr & Hf & _ & Hx). destruct (Hx _ Hc) as (h' & Hh' & Ho'). assert (h' = h) as -> by congruence.
  destruct (is_subscribe (g_op r)) eqn:Es; [destruct Ho' as (s & b & E & _); congruence|]. assert (q_by q = g) as <- by congruence. eauto.
Qed.
(** A Send that timed out before its request was put leaves nothing behind. *)
Lemma dropped_dead A B cfg y y' g r q ch h' : creach A cfg y -> creach B cfg y' -> cmv cfg y (XTimeout g) y' -> c_gs y !! g = Some r -> g_pc r = GPut FSend q ->
  c_gs y' !! g = Some (mkGor (g_op r) (GDone (RErr ESendTimeout))) -> c_chs y' !! ch = Some h' -> h_owner h' = OwnG g -> ~ live y' ch.
Proof.
  intros Hr Hr' Hm Hg Hp Hg' Hh' Ho HL. destruct (live_req _ _ _ _ Hr' HL) as (q' & Hq' & Hc'). destruct (owner_g _ _ _ _ _ (reach_req _ _ _ Hr') Hq' Hc' Hh' Ho) as (Hby & _).
  destruct (reach_uniq _ _ _ Hr) as [_ HU]. assert (g ∉ q_by <$> allr y) as Hn by (apply (HU _ _ Hg); by rewrite Hp).
  assert (q' ∈ allr y') as Hin.
  { destruct Hq' as [?|[?|(j & rj & k & Hj & Hpj)]]; [apply elem_of_app; by right|apply elem_of_app; by left|]. exfalso.
    pose proof (rq_put _ (reach_req _ _ _ Hr') _ _ _ _ Hj Hpj) as Ej. assert (j = g) as -> by congruence. rewrite Hg' in Hj. injection Hj as <-. done. }
  assert (allr y' = allr y) as E by (inversion Hm; subst; done). rewrite E in Hin. apply Hn. rewrite <-Hby. by apply elem_of_list_fmap_1.
Qed.
Lemma hchange_back hs hs' ch h' : hchange hs hs' -> hs' !! ch = Some h' -> (exists h, hs !! ch = Some h /\ h_owner h' = h_owner h) \/ ch = length hs /\ exists o, hs' = hs ++ [mkChan o false] /\ h' = mkChan o false.
Proof.
  intros H Hh. destruct H as [|o|j].
  - eauto.
  - apply snoc_lookup in Hh as [[_ Hh]|[-> ->]]; [eauto|right; eauto].
  - left. destruct (decide (ch = j)) as [->|Hne].
    + rewrite list_lookup_alter in Hh. destruct (hs !! j) as [h|]; [|done]. injection Hh as <-. eauto.
    + rewrite list_lookup_alter_ne in Hh by done. eauto.
Qed.
Lemma listen_step (A : cact -> Prop) cfg y a y' ch h h' : creach A cfg y -> creach A cfg y' -> A a -> cmv cfg y a y' -> plain_subs (c_gs y) -> tidy y -> live y ch -> live y' ch ->
  c_chs y !! ch = Some h -> c_chs y' !! ch = Some h' -> h_owner h' = h_owner h -> listening A y ch (h_owner h) -> listening A y' ch (h_owner h').
Proof.
  intros Hr Hr' Ha Hm HP HT HL HL' Hh Hh' Eo. rewrite Eo. pose proof (reach_wmove _ _ _ _ _ Hr Hm) as Hw. pose proof (reach_open _ _ _ Hr HP _ HL) as Hopen.
  pose proof (reach_req _ _ _ Hr) as HR. pose proof (reach_map _ _ _ Hr) as HM.
  assert (forall f k, c_p y = PSend ch f k -> a = XDeliver -> k = KMessage /\ f_cmd f = MESSAGE /\
    exists id q, message_for id f /\ PvIn (Some f) ∈ c_log y /\ known y q /\ q_chan q = Some ch /\ names (q_frame q) id) as Hmsg.
  { intros f k Hp ->. destruct (deliver_p _ _ _ _ _ _ Hm Hp) as [E1 E2].
    assert (k = KMessage \/ k <> KMessage) as [->|Hk] by (destruct k; (by left) || (by right)); [|by destruct (told_dead _ _ _ _ _ _ _ _ _ Hr Hr' Hm HP Hp Hk E1 E2)].
    destruct (mi_send _ HM _ _ _ Hp) as [(? & ? & ? & [=])|(id & l & Hl & Hro & Hid & _)]. inversion Hro; subst. split_and!; try done.
    destruct (map_known _ _ _ _ _ Hr Hid) as (q & _ & Hq & Hc & Hn). exists id, q. split_and!; try done. rewrite Hl. apply in_last. }
  destruct (h_owner h) as [g|s] eqn:Ho; cbn [listening].
  - intros (r & Hg & Hx). destruct (wmove_g _ _ _ _ _ _ Hw Hg) as [Hg'|[(x & Hs & Hg' & _)|[(f & id & rt & _ & Hst & _)|(x & s & b & b' & Hu & _ & Hg' & _)]]].
    + exists r. auto.
    + exists (mkGor (g_op r) x). split; [done|]. cbn [g_pc]. destruct Hx as [(k & q & Hp & Hc)|[(k & Hp)|[HA Hp]]].
      * rewrite Hp in Hs. inversion Hs as [t x0 x1 Ea Hgm|q0 Ea|c0 Ea|c0 Ea|Em|x0 k0 f0 q0 Hsub Hf|k0 q0|c0 f0 k0 w Hps Ea]; subst.
        -- inversion Hgm.
        -- exfalso. eapply (dropped_dead _ _ _ _ _ _ _ _ _ _ Hr Hr' Hm Hg Hp Hg' Hh'); [congruence|done].
        -- inversion Hsub.
        -- right; left. rewrite Hc. exists k. destruct k as [|u|s|]; try done. exfalso. pose proof (reach_calls _ _ _ Hr _ _ Hg) as Hpc. rewrite Hp in Hpc. destruct Hpc as [Hpc _].
           destruct (owner_g _ q _ _ _ HR (ltac:(right; right; eauto)) Hc Hh Ho) as (_ & r0 & Hr0 & Hsu & _). assert (r0 = r) as -> by congruence. cbn in Hpc. destruct (g_op r); naive_solver.
      * rewrite Hp in Hs. inversion Hs as [t x0 x1 Ea Hgm|q0 Ea|c0 Ea|c0 Ea|Em|x0 k0 f0 q0 Hsub Hf|k0 q0|c0 f0 k0 w Hps Ea]; subst.
        -- inversion Hgm; subst; [congruence|]. right; right. split; [done|]. destruct u as [s|]; cbn; [right; right; eauto|right; by left].
        -- right; right. split; [done|]. by left.
        -- right; right. split; [done|]. by left.
        -- inversion Hsub.
        -- exfalso. destruct (Hmsg _ _ Hps eq_refl) as (_ & _ & id & q & Hf & Hin & Hq & Hc & Hn). destruct (owner_g _ _ _ _ _ HR Hq Hc Hh Ho) as (_ & r0 & Hr0 & Hsu & Hof).
           assert (r0 = r) as -> by congruence. destruct Hn as [Hn|[Hn _]]; [by eapply HT|].
           destruct (subscribe_op _ _ _ _ _ _ Hr Hg Hof Hn) as (i & rt & E). by rewrite E in Hsu.
      * exfalso. destruct Hp as [Hp|[Hp|(s & c & Hp)]]; rewrite Hp in Hs; [by eapply gstep_done in Hs..|].
        inversion Hs as [t x0 x1 Ea Hgm|q0 Ea|c0 Ea|c0 Ea|Em|x0 k0 f0 q0 Hsub Hf|k0 q0|c0 f0 k0 w Hps Ea]; subst; [inversion Hgm|inversion Hsub].
    + exfalso. destruct Hx as [(k & q & Hp & Hc)|[(k & Hp)|[HA [Hp|[Hp|(s & c & Hp)]]]]]; congruence.
    + exists (mkGor (g_op r) x). split; [done|]. cbn [g_pc]. destruct Hx as [(k & q & Hp & Hc)|[(k & Hp)|[HA Hp]]]; [rewrite Hp in Hu; inversion Hu..|].
      destruct Hp as [Hp|[Hp|(s' & c & Hp)]]; rewrite Hp in Hu; inversion Hu; subst. right; right. split; [done|]. destruct oc as [c'|]; [right; right; eauto|right; by left].
  - intros (b & Hb & Hch & Hx). assert (forall b', c_subs y' !! s = Some b' -> b_ch b' = b_ch b -> b_rl b' = b_rl b -> exists b, c_subs y' !! s = Some b /\ b_ch b = ch /\ (b_rl b = RlRecv \/ exists m, b_rl b = RlPut m)) as Hsame
      by (intros b' Hb' E1 E2; exists b'; rewrite E1, E2; done).
    destruct Hw as [E1 E2|o Hok E1 E2|j r0 x Hj Hx0 E1 E2|j r0 f id rt Hj Hst Hop E1 E2|s0 b0 b' Hb0 Hs E1 E2|j r0 x s0 b0 b' Hj Hb0 _ Hu E1 E2]; rewrite E2 in Hsame |- *.
    + by apply (Hsame b).
    + by apply (Hsame b).
    + by apply (Hsame b).
    + apply (Hsame b); [by apply lookup_app_l_Some|done..].
    + destruct (decide (s = s0)) as [<-|Hne]; [|apply (Hsame b); [by rewrite list_lookup_insert_ne|done..]]. assert (b0 = b) as -> by congruence.
      rewrite list_lookup_insert by (by eapply lookup_lt_Some). exists b'. split; [done|]. destruct Hs as [f k Ea Hps Hrl|Ea Hrl Hcl|m Ea Hrl Hcc Hlen|c b' o Ea Hrl Hcm|m l Ea Hbuf]; cbn.
      * split; [done|]. right. rewrite Hch in Hps. destruct (Hmsg _ _ Hps Ea) as (_ & Hf & _). unfold rl_got. rewrite decide_True by done. eauto.
      * exfalso. congruence.
      * split; [done|]. by left.
      * exfalso. destruct Hx as [Hx|[m Hx]]; congruence.
      * done.
    + destruct (decide (s = s0)) as [<-|Hne]; [|apply (Hsame b); [by rewrite list_lookup_insert_ne|done..]]. assert (b0 = b) as -> by congruence.
      apply (Hsame b'); [by rewrite list_lookup_insert by (by eapply lookup_lt_Some)|inversion Hu; subst; try done; match goal with H : clmove _ _ _ _ |- _ => by destruct (clmove_rl _ _ _ _ H) as (? & ? & _) end..].
Qed.
Lemma reach_listening (A : cact -> Prop) cfg y : creach A cfg y -> plain_subs (c_gs y) -> tidy y -> forall ch h, live y ch -> c_chs y !! ch = Some h -> listening A y ch (h_owner h).
Proof.
  induction 1 as [|y a y' Hr IH Ha Hs]; [done|]. intros HP HT ch h' HL' Hh'. apply cstep_cmv in Hs as Hm. assert (creach A cfg y') as Hr' by (by eapply cr_step).
  pose proof (plain_back _ _ (cmv_gs _ _ _ _ Hm) HP) as HP0. pose proof (tidy_back _ _ _ _ Hm HT) as HT0. specialize (IH HP0 HT0).
  destruct (hchange_back _ _ _ _ (cmv_chs _ _ _ _ Hm) Hh') as [(h & Hh & Eo)|(-> & o & Ech & ->)]; [|by eapply new_listens].
  destruct (live_back _ _ _ _ _ _ _ Hr Hr' Hm HL') as [HL|[-> _]]; [|apply lookup_lt_Some in Hh; lia].
  exact (listen_step _ _ _ _ _ _ _ _ Hr Hr' Ha Hm HP0 HT0 HL HL' Hh Hh' Eo (IH _ _ HL Hh)).
Qed.
Lemma send_live A cfg y ch f k : creach A cfg y -> c_p y = PSend ch f k -> live y ch.
Proof.
  intros Hr Hp. right. rewrite Hp. pose proof (reach_map _ _ _ Hr) as HM. destruct (mi_send _ HM _ _ _ Hp) as [(f' & rest & err & ->)|(id & l & _ & Hro & Hid & _)]; cbn; [by left|].
  inversion Hro; subst; cbn; eauto.
Qed.
(** A send of processLoop completes, waits for the program to receive a message
    from C, or waits for a call whose timeout expired. *)
Lemma send_progress (A : cact -> Prop) cfg y ch f k : creach A cfg y -> plain_subs (c_gs y) -> tidy y -> c_p y = PSend ch f k ->
  (exists y', cstep cfg y XDeliver = Some (COk y') /\ c_log y' = c_log y ++ [PvTold ch f]) \/
  (exists s b m, c_subs y !! s = Some b /\ b_ch b = ch /\ b_rl b = RlPut m) \/
  exists g r, c_gs y !! g = Some r /\ A (XTimeout g) /\ gave_up (g_pc r).
Proof.
  intros Hr HP HT Hp. pose proof (send_live _ _ _ _ _ _ Hr Hp) as HL. pose proof (reach_req _ _ _ Hr) as HR.
  destruct (live_req _ _ _ _ Hr HL) as (q & Hq & Hc). destruct (rq_ok _ HR _ Hq) as (r1 & _ & _ & _ & Hx). destruct (Hx _ Hc) as (h & Hh & _). clear Hx.
  pose proof (reach_listening _ _ _ Hr HP HT _ _ HL Hh) as Hli. cbn [cstep]. unfold do_deliver. rewrite Hp, Hh. destruct (h_owner h) as [g|s] eqn:Ho; cbn [listening] in Hli.
  - destruct Hli as (r & Hg & [(w & q' & Hpc & Hc')|[(w & Hpc)|[HA Hgu]]]).
    + exfalso. destruct (psend_req _ _ _ _ (reach_map _ _ _ Hr) Hp) as (q0 & w0 & Hq0 & Hc0). apply log_req_in in Hq0.
      apply (logged_not_pend _ _ _ q0 q' ch Hr Hq0); [right; eauto|done..].
    + left. rewrite Hg, Hpc, decide_True by done. assert (forall z, c_log z = c_log y -> exists y', Some (do_answer (with_log z (PvTold ch f)) g w (Some f)) = Some (COk y') /\ c_log y' = c_log y ++ [PvTold ch f]) as Hz.
      { intros z Ez. destruct w; cbn [do_answer]; try destruct (decide _); eexists; split; try reflexivity; cbn; by rewrite Ez. }
      apply Hz. apply after_send_same.
    + right; right. eauto.
  - destruct Hli as (b & Hb & Hch & [Hrl|[m Hrl]]).
    + left. rewrite Hb, Hrl. eexists. split; [reflexivity|]. cbn [with_subs with_log c_log]. f_equal. apply after_send_same.
    + right; left. eauto 10.
Qed.

(* ---------------- no nil response ---------------- *)
(** No Unsubscribe of a reply-to subscription names the receipt of a call. *)
Definition apart (gs : list gor) : Prop := forall j r f k i r' f', gs !! j = Some r -> op_frame (g_op r) = Some f -> f_cmd f = UNSUBSCRIBE -> hd_contains (f_hdr f) h_reply_to = Some k ->
  gs !! i = Some r' -> op_frame (g_op r') = Some f' -> hd_contains (f_hdr f') h_receipt <> Some k.
Lemma apart_back gs gs' : gchange gs gs' -> apart gs' -> apart gs.
Proof.
  intros HG HP j r f k i r' f' Hj Hf Hc Hk Hi Hf'. destruct (gchange_op _ _ _ _ HG Hj) as (r1 & Hr1 & E1), (gchange_op _ _ _ _ HG Hi) as (r2 & Hr2 & E2).
  eapply (HP j r1 f k i r2 f'); rewrite ?E1, ?E2; done.
Qed.
(** Call g waits for a response on ch, or is about to. *)
Definition holds (y : cl) (g ch : nat) : Prop := exists r, c_gs y !! g = Some r /\ is_subscribe (g_op r) = false /\ ((exists k, g_pc r = GWait k ch) \/ exists k q, g_pc r = GPut k q /\ q_chan q = Some ch).
Lemma holds_owner y g ch : reqinv y -> holds y g ch -> exists h, c_chs y !! ch = Some h /\ h_owner h = OwnG g.
Proof.
  intros HR (r & Hg & Hs & [(k & Hp)|(k & q & Hp & Hc)]); [by eapply rq_wait|]. destruct (rq_ok _ HR q) as (r' & Hr' & _ & _ & Hx); [right; right; eauto|].
  destruct (Hx _ Hc) as (h & Hh & Ho). pose proof (rq_put _ HR _ _ _ _ Hg Hp) as E. rewrite E in *. assert (r' = r) as -> by congruence. rewrite Hs in Ho. eauto.
Qed.
Lemma holds_back cfg y a y' g ch : cmv cfg y a y' -> holds y' g ch -> holds y g ch \/ h_is_closed y' ch = false /\ ch = length (c_chs y).
Proof.
  intros Hm (r' & Hg & Hs & Hx). assert (special (g_pc r')) as Hsp by (destruct Hx as [(k & ->)|(k & q & -> & _)]; done).
  destruct (cmv_special _ _ _ _ _ _ Hm Hg Hsp) as [Hg0|[(k & q & Hp & Hn & Hb)|(r & k & q & c & Hr & Eo & Hp & Hc & Hp' & _)]].
  - left. exists r'. auto.
  - right. destruct Hx as [(k' & Hp')|(k' & q' & Hp' & Hc)]; [congruence|]. assert (q' = q) as -> by congruence.
    destruct Hn as [g0 r k0 f own Hg0 Hs0 Hown _ -> ->|g0 r f id rt Hg0 Hpc Ho _ -> ->]; cbn [q_chan] in Hc.
    + destruct own as [o|]; [|done]. injection Hc as <-. unfold h_is_closed. by rewrite submit_new_chan.
    + injection Hc as <-. unfold h_is_closed. split; [|done]. by rewrite (submit_new_chan (with_subs y _)).
  - left. exists r. split_and!; [done|by rewrite <-Eo|]. right. exists k, q. split; [done|]. rewrite Hc. destruct Hx as [(k' & Hx)|(k' & q' & Hx & _)]; congruence.
Qed.

(* ---------------- buffers and channels of subscriptions ---------------- *)
Lemma clmove_buf b c b' o : clmove b c b' o -> length (b_buf b) <= cap_c -> length (b_buf b') <= cap_c.
Proof. destruct 1; cbn; try done. rewrite app_length. cbn. lia. Qed.
Lemma reach_buf A cfg y : creach A cfg y -> forall s b, c_subs y !! s = Some b -> length (b_buf b) <= cap_c.
Proof.
  induction 1 as [|y a y' Hr IH _ Hs]; [done|]. apply cstep_cmv in Hs as Hm. pose proof (reach_wmove _ _ _ _ _ Hr Hm) as Hw. intros s b'.
  destruct Hw as [E1 E2|o Ho E1 E2|g r x Hg Hx E1 E2|g r f id rt Hg Hst Ho E1 E2|j b b1 Hb Hx E1 E2|g r x j b b1 Hg Hb Ha Hx E1 E2]; rewrite E2; try (by apply IH).
  - intros [[_ Hb]|[-> ->]]%snoc_lookup; [by eapply IH|]. cbn. unfold cap_c. lia.
  - intros [(-> & -> & _)|[Hne Hj]]%upd_sub; [|by eapply IH]. pose proof (IH _ _ Hb) as HL. destruct Hx as [| |m ? ? ? Hlen|c b0 o ? ? Hc|m l ? Hbuf]; cbn; try done.
    + rewrite app_length. cbn. lia.
    + exact (clmove_buf _ _ _ _ Hc HL).
    + rewrite Hbuf in HL. cbn in HL. lia.
  - intros [(-> & -> & _)|[Hne Hj]]%upd_sub; [|by eapply IH]. pose proof (IH _ _ Hb) as HL. inversion Hx; subst; cbn; try done.
    + by eapply clmove_buf.
    + rewrite app_length. cbn. lia.
Qed.
Lemma reach_sub_chan A cfg y s s' b b' : creach A cfg y -> c_subs y !! s = Some b -> c_subs y !! s' = Some b' -> b_ch b = b_ch b' -> s = s'.
Proof.
  intros Hr Hb Hb' E. pose proof (reach_req _ _ _ Hr) as HR. destruct (rq_sub _ HR _ _ Hb) as (h & r & f & Hh & Ho & _), (rq_sub _ HR _ _ Hb') as (h' & r' & f' & Hh' & Ho' & _). congruence.
Qed.
