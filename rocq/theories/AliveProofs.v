(** Read timeouts: proofs. *)
From stdpp Require Import gmap.
From Verif Require Import GoBase HeaderModel FrameModel GrammarSpec NegotiationModel NegotiationSpec NegotiationLemmas TimerModel AliveModel.
From Verif Require CodecProofs ClientModel ClientLemmas ClientChannels.
Local Open Scope Z.

(** Something heard at [a] is waiting to be taken, and this is why. *)
Definition excused (s : rcl) (a : Z) : Prop :=
  ClientModel.c_rch (rc_y s) <> [] /\
  (a = rc_now s \/ rc_freed s = Some (rc_now s) \/ exists st, rc_write s = Some st /\ st < rc_now s).
(** processLoop is handing a frame to a waiting call (not telling everybody). *)
Definition handing (y : ClientModel.cl) : Prop :=
  exists ch f k, ClientModel.c_p y = ClientModel.PSend ch f k /\ forall f' rest err, k <> ClientModel.KBcast f' rest err.
Record rinv (R : Z) (s : rcl) : Prop := mkRinv {
  ri_past : forall a, a ∈ rc_heard s -> a <= rc_now s;
  ri_timer : at_select (rc_y s) -> exists dl, rc_timer s = Some dl /\ forall a, a ∈ rc_heard s -> a + R <= dl \/ excused s a;
  ri_hand : handing (rc_y s) -> rc_timer s = None;
  ri_write : forall st, rc_write s = Some st -> at_select (rc_y s) /\ st <= rc_now s
}.

Lemma pmove_handing y y' : ClientChannels.pmove y y' -> at_select y' -> ~ at_select y -> handing y.
Proof.
  unfold at_select, handing. destruct 1 as [E1 E2 E3| | | | | | | | | |ch f k H0 E1 E2 E3| |err H0 [E|E] E2 E3]; intros Hs Hn; try done; try congruence.
  exists ch, f, k. split; [done|]. intros f' rest err ->. congruence.
Qed.
Lemma pmove_hands y y' : ClientChannels.pmove y y' -> handing y' -> handing y \/ at_select y.
Proof.
  intros P (ch & f & k & Hp & Hk). unfold handing, at_select.
  destruct P as [E1 E2 E3|txt H0 E1 E2 E3|o H0 E1 E2 E3 Hi|f1 txt H0 Hf Hr E1 E2 E3|f1 H0 Hf E1 E2 E3|f1 id k1 ch1 H0 Hro Hk1 Hh E1 E2 E3|q l w txt H0 Hw Hl E1 E2 E3|q l H0 Hw Hl Hu E1 E2 E3|q l ch1 H0 Hw Hl Hc Hu Hh E1 E2 E3|i f1 rest err k1 ch1 H0 Hi Hh E1 E2 E3|ch1 f1 k1 H0 E1 E2 E3|f1 err H0 E1 E2 E3|err H0 [E1|E1] E2 E3]; try (by right); try congruence.
  - left. exists ch, f, k. split; [congruence|done].
  - exfalso. destruct k1; congruence.
Qed.
(** Who touches readCh, and who leaves the select statement. *)
Lemma answers_rch y g f w y' : ClientLemmas.answers y g f w y' -> ClientModel.c_rch y' = ClientModel.c_rch y.
Proof. by destruct 1. Qed.
Lemma cmv_rch cfg y a y' : ClientLemmas.cmv cfg y a y' -> a <> ClientModel.XTakeRead ->
  ClientModel.c_rch y' = ClientModel.c_rch y \/ exists f, a = ClientModel.XRecv f /\ ClientModel.c_rch y' = ClientModel.c_rch y ++ [f].
Proof.
  destruct 1; intros Ha; try done; try (by left).
  - left. by destruct own.
  - left. by destruct (ClientLemmas.put_next _ _).2.
  - right. by exists f.
  - left. by destruct w.
  - left. match goal with H : ClientLemmas.answers _ _ _ _ _ |- _ => rewrite (answers_rch _ _ _ _ _ H) end. by destruct k as [| |? ? []].
  - left. cbn. by destruct k as [| |? ? []].
Qed.
Lemma cmv_stays cfg y a y' : ClientLemmas.cmv cfg y a y' -> loop_act a = false -> at_select y -> at_select y'.
Proof.
  unfold at_select. destruct 1; intros Ha Hs; try done; try congruence.
  - by destruct own.
  - cbn. by destruct (ClientLemmas.put_next _ _).2.
Qed.
Lemma cmv_hands cfg y a y' : ClientLemmas.cmv cfg y a y' -> handing y' -> handing y \/ a = ClientModel.XTakeRead.
Proof.
  intros Hm Hh. destruct (pmove_hands y y' (ClientChannels.cmv_pmove _ _ _ _ Hm) Hh) as [?|Hs]; [by left|].
  destruct (loop_act a) eqn:Hl.
  - right. destruct Hh as (ch & f & k & Hp & _). unfold at_select in Hs. destruct Hm; try done; try (cbn in Hp; congruence).
    destruct w; cbn in Hp; congruence.
  - pose proof (cmv_stays _ _ _ _ Hm Hl Hs) as Hs'. destruct Hh as (ch & f & k & Hp & _). unfold at_select in Hs'. congruence.
Qed.

Lemma rinv_reach A cfg R s : 0 < R -> rcreach A cfg R s -> rinv R s.
Proof.
  intros HR. induction 1 as [t0|s d _ [I1 I2 I3 I4] Hd Hs Hw Hr Hdl|s d _ [I1 I2 I3 I4] Hd Hs|s st d _ [I1 I2 I3 I4] Hd Hw|s st _ [I1 I2 I3 I4] Hw|s a y' slow _ [I1 I2 I3 I4] HA Hla Hrt Hslow Hc].
  - split; cbn; try done.
    + by intros a ?%elem_of_nil.
    + intros _. eexists. split; [done|]. by intros a ?%elem_of_nil.
    + intros (ch & f & k & H & _). done.
  - split; cbn; try done.
    + intros a Ha. specialize (I1 a Ha). lia.
    + intros _. destruct (I2 Hs) as (dl & Ht & Hdls). exists dl. split; [done|]. intros a Ha. destruct (Hdls a Ha) as [?|[? _]]; [by left|done].
  - split; cbn; try done.
    + intros a Ha. specialize (I1 a Ha). lia.
    + intros st Hst. by destruct (I4 st Hst).
  - destruct (I4 st Hw) as [Hs Hst]. split; cbn; try done.
    + intros a Ha. specialize (I1 a Ha). lia.
    + intros _. destruct (I2 Hs) as (dl & Ht & Hdls). exists dl. split; [done|]. intros a Ha. destruct (Hdls a Ha) as [?|[Hne Hex]]; [by left|right].
      split; [done|]. cbn. destruct (decide (d = 0)) as [->|]; [|right; right; exists st; split; [done|lia]].
      rewrite Z.add_0_r. destruct Hex as [?|[?|(st' & E & Hlt)]]; [by left|by right; left|]. right; right. exists st. split; [done|]. congruence.
    + intros st' [= <-]. split; [done|lia].
  - destruct (I4 st Hw) as [Hs Hst]. split; cbn; try done.
    intros _. destruct (I2 Hs) as (dl & Ht & Hdls). exists dl. split; [done|]. intros a Ha. destruct (Hdls a Ha) as [?|[Hne Hex]]; [by left|right].
    split; [done|]. cbn. destruct Hex as [?|[E|(st' & E & Hlt)]]; [by left|right; left; by destruct (decide _)|].
    right; left. rewrite decide_True by congruence. done.
  - pose proof (ClientLemmas.cstep_cmv _ _ _ _ Hc) as Hm.
    assert (Hpast : forall a0, a0 ∈ rc_heard s ++ match a with ClientModel.XRecv _ => [rc_now s] | _ => [] end -> a0 <= rc_now s).
    { intros a0 [Ha|Ha]%elem_of_app; [by apply I1|]. destruct a; try (by apply elem_of_nil in Ha). apply elem_of_list_singleton in Ha. lia. }
    split; cbn [rc_now rc_timer rc_write rc_freed rc_heard rc_y].
    + done.
    + intros Hs'. assert (Fresh : forall x, x = Some (rc_now s + R) -> exists dl, x = Some dl /\ forall a0,
        a0 ∈ rc_heard s ++ match a with ClientModel.XRecv _ => [rc_now s] | _ => [] end -> a0 + R <= dl \/
        excused (mkRcl (rc_now s) x (if slow then Some (rc_now s) else rc_write s) (rc_freed s)
          (rc_heard s ++ match a with ClientModel.XRecv _ => [rc_now s] | _ => [] end) y') a0).
      { intros x ->. eexists. split; [done|]. intros a0 Ha. left. specialize (Hpast a0 Ha). lia. }
      unfold at_select in Hs'. assert (Hread : a = ClientModel.XTakeRead \/ a <> ClientModel.XTakeRead) by (destruct a; (by left) || (by right)).
      destruct Hread as [->|Hna]; [apply Fresh; cbn; by rewrite Hs'|].
      destruct (ClientModel.c_p (rc_y s)) eqn:Hp.
      2-5: apply Fresh; assert (Hh : handing (rc_y s)) by
             (apply (pmove_handing _ y'); [exact (ClientChannels.cmv_pmove _ _ _ _ Hm)|done|unfold at_select; by rewrite Hp]);
           rewrite (I3 Hh); unfold read_timer; rewrite Hs'; by destruct a.
      destruct (I2 Hp) as (dl & Ht & Hdls). exists dl. split; [unfold read_timer; rewrite Ht; by destruct a|].
      intros a0 [Ha|Ha]%elem_of_app.
      * destruct (Hdls a0 Ha) as [?|[Hne Hex]]; [by left|right]. split; cbn [rc_now rc_write rc_freed rc_y].
        -- destruct (cmv_rch _ _ _ _ Hm Hna) as [->|(f & _ & ->)]; [done|]. by intros [_ ?]%app_nil.
        -- destruct Hex as [?|[?|(st & E & Hlt)]]; [by left|by right; left|]. right; right.
           exists st. split; [|done]. destruct slow; [|done]. destruct (Hslow eq_refl) as [Hwa _]. rewrite Hla in E; [done|by destruct a].
      * right. destruct a; try (by apply elem_of_nil in Ha). apply elem_of_list_singleton in Ha. split; cbn [rc_now rc_write rc_freed rc_y]; [|by left].
        destruct (cmv_rch _ _ _ _ Hm Hna) as [E|(f' & _ & ->)]; [|by intros [_ ?]%app_nil].
        clear -Hm E. inversion Hm; subst; cbn in E; [by destruct t|]. apply (f_equal length) in E. rewrite app_length in E. cbn in E. lia.
    + intros Hh. unfold read_timer. assert (Hnp : ClientModel.c_p y' <> ClientModel.PLoop) by (destruct Hh as (? & ? & ? & -> & _); done).
      assert (HN : match ClientModel.c_p y' with ClientModel.PLoop => Some (rc_now s + R) | _ => None end = None) by (by destruct (ClientModel.c_p y')).
      destruct (cmv_hands _ _ _ _ Hm Hh) as [Hy| ->]; [|done]. rewrite (I3 Hy). by destruct a.
    + intros st. destruct slow.
      * intros [= <-]. destruct (Hslow eq_refl). split; [done|lia].
      * intros Hst. destruct (I4 st Hst) as [Hs Hle]. split; [|done]. apply (cmv_stays _ _ _ _ Hm); [|done].
        destruct (loop_act a); [|done]. by rewrite Hla in Hst.
Qed.

Lemma client_patient A cfg R s dl y' : 0 < R -> rcreach A cfg R s -> rc_write s = None -> rc_timer s = Some dl -> dl <= rc_now s ->
  ClientModel.cstep cfg (rc_y s) ClientModel.XReadTimeout = Some (ClientModel.COk y') ->
  (forall a, a ∈ rc_heard s -> a < rc_now s -> a + R <= rc_now s) \/ rc_freed s = Some (rc_now s).
Proof.
  intros HR Hr Hw Ht Hdl Hc. destruct (rinv_reach _ _ _ _ HR Hr) as [I1 I2 I3 I4].
  assert (Hs : at_select (rc_y s)). { unfold at_select. cbn in Hc. unfold ClientModel.do_read_timeout in Hc. by destruct (ClientModel.c_p (rc_y s)). }
  destruct (I2 Hs) as (dl' & E & Hdls). assert (dl' = dl) as -> by congruence.
  destruct (decide (rc_freed s = Some (rc_now s))); [by right|left]. intros a Ha Hlt. destruct (Hdls a Ha) as [?|[_ Hex]]; [lia|].
  destruct Hex as [?|[?|(st & E' & _)]]; [lia|done|congruence].
Qed.

(* ---------------- server ---------------- *)
(** [raw] is the text of the item (None: a heart-beat). *)
Definition item_text (raw : str) (it : option frame) : Prop :=
  match it with None => eol_line raw [] | Some f => encodes raw f end.
Lemma item_split (l : timed) (raw rest' : str) : (0 < length raw)%nat -> l.*2 = raw ++ rest' ->
  exists pre t c, l !! (length l - length rest' - 1)%nat = Some (t, c) /\ l = pre ++ (t, c) :: drop (length l - length rest') l /\ pre.*2 ++ [c] = raw.
Proof.
  intros Hpos E. assert (Hlen : length l = (length raw + length rest')%nat) by (pose proof (f_equal length E) as HL; rewrite fmap_length, app_length in HL; done).
  replace (length l - length rest' - 1)%nat with (length raw - 1)%nat by lia.
  destruct (lookup_lt_is_Some_2 l (length raw - 1)%nat) as [[t c] Hl]; [lia|]. exists (take (length raw - 1) l), t, c.
  replace (length l - length rest')%nat with (S (length raw - 1))%nat by lia. split; [done|]. split; [by rewrite (take_drop_middle _ _ _ Hl)|].
  change [c] with ([(t, c)].*2). rewrite <-fmap_app. rewrite <-(take_S_r _ _ _ Hl). rewrite fmap_take, E.
  replace (S (length raw - 1))%nat with (length raw) by lia. by rewrite take_app.
Qed.
Lemma item_pos raw it : item_text raw it -> (0 < length raw)%nat.
Proof.
  destruct it as [f|]; cbn; intros He.
  - destruct He as [craw ? ? ? ? ? Hl _ _ _]. destruct Hl; rewrite !app_length; cbn; lia.
  - destruct He; rewrite app_length; cbn; lia.
Qed.
Lemma next_item_text l it t rest : next_item l = Some (it, t, rest) <->
  exists pre c, l = pre ++ (t, c) :: rest /\ item_text (pre.*2 ++ [c]) it.
Proof.
  split.
  - unfold next_item. intros H. pose proof (CodecProofs.read_stream_sound (l.*2)) as Hs. destruct (read_stream (l.*2)) as [r|f r|e| |]; try done;
      destruct Hs as (raw & E & He).
    all: assert (Hp : (0 < length raw)%nat) by (first [exact (item_pos raw None He)|exact (item_pos raw (Some f) He)]).
    all: destruct (item_split l raw r Hp E) as (pre & t' & c & H1 & H2 & H3); rewrite H1 in H; injection H as <- <- <-; exists pre, c; split; [done|]; by rewrite H3.
  - intros (pre & c & -> & He). unfold next_item. rewrite fmap_app, fmap_cons. cbn [snd].
    replace (pre.*2 ++ c :: rest.*2) with ((pre.*2 ++ [c]) ++ rest.*2) by (by rewrite <-app_assoc).
    assert (G : (length (pre ++ (t, c) :: rest) - length (rest.*2))%nat = S (length pre)) by (rewrite app_length, fmap_length; cbn; lia).
    destruct it as [f|]; cbn [item_text] in He.
    + rewrite (CodecProofs.read_stream_complete _ _ _ He), G. replace (S (length pre) - 1)%nat with (length pre) by lia.
      rewrite list_lookup_middle by done. do 2 f_equal. replace (pre ++ (t, c) :: rest) with ((pre ++ [(t, c)]) ++ rest) by (by rewrite <-app_assoc).
      apply drop_app_alt. rewrite app_length. cbn. lia.
    + rewrite (CodecProofs.read_stream_heartbeat _ _ He), G. replace (S (length pre) - 1)%nat with (length pre) by lia.
      rewrite list_lookup_middle by done. do 2 f_equal. replace (pre ++ (t, c) :: rest) with ((pre ++ [(t, c)]) ++ rest) by (by rewrite <-app_assoc).
      apply drop_app_alt. rewrite app_length. cbn. lia.
Qed.

Record sinv (cfg : scfg) (input : timed) (s : srd) : Prop := mkSinv {
  si_last : forall p, sr_last s = Some p -> p <= sr_start s /\ exists pre c, input = pre ++ (p, c) :: sr_left s;
  si_none : sr_last s = None -> sr_wait s = 0 /\ sr_left s = input;
  si_wait : sr_wait s <> 0 -> exists f raw before after, input.*2 = before ++ raw ++ after /\ encodes raw f /\ server_read_timeout cfg f = Some (sr_wait s)
}.
Lemma sinv_reach cfg input s : sreads cfg input s -> sinv cfg input s.
Proof.
  induction 1 as [t0|s it t rest d _ [I1 I2 I3] Hn Hdl Hd]; [by split|].
  apply next_item_text in Hn as (pre & c & El & Hi).
  assert (Hin : exists pre0, input = pre0 ++ sr_left s).
  { destruct (sr_last s) as [p|] eqn:E; [|exists []; by destruct (I2 eq_refl) as [_ ->]].
    destruct (I1 p eq_refl) as (_ & pre0 & c0 & E'). exists (pre0 ++ [(p, c0)]). by rewrite <-app_assoc. }
  destruct Hin as [pre0 Ein]. split; cbn [sr_start sr_wait sr_left sr_last sr_expect]; try done.
  - intros p [= <-]. split; [lia|]. exists (pre0 ++ pre), c. by rewrite Ein, El, <-app_assoc.
  - unfold new_wait. destruct it as [f|]; cbn [fst]; [|done]. destruct (sr_expect s); cbn [fst]; [|done].
    destruct (server_read_timeout cfg f) as [w|] eqn:Ew; cbn [fst]; [|done]. intros _.
    exists f, (pre.*2 ++ [c]), (pre0.*2), (rest.*2). split_and!; try done. rewrite Ein, El, !fmap_app. cbn. by rewrite <-!app_assoc.
Qed.
Lemma server_patient cfg input s dl it t rest : sreads cfg input s -> too_late s dl -> next_item (sr_left s) = Some (it, t, rest) ->
  exists pre p c, input = pre ++ (p, c) :: sr_left s /\ p + 2 * sr_wait s < t.
Proof.
  intros Hr [Hdl Hlate] Hn. destruct (sinv_reach _ _ _ Hr) as [I1 I2 I3]. unfold sr_deadline in Hdl. destruct (decide (sr_wait s = 0)) as [|Hw]; [done|].
  injection Hdl as <-. specialize (Hlate _ _ _ Hn). destruct (sr_last s) as [p|]; [|by destruct (I2 eq_refl)].
  destruct (I1 p eq_refl) as (Hp & pre & c & E). exists pre, p, c. split; [done|]. lia.
Qed.

(* ---------------- a connection opened by this library's client ---------------- *)
Definition greets (input : timed) (f : frame) : Prop := exists raw rest, input.*2 = raw ++ rest /\ encodes raw f.
Lemma greeted_wait cfg input f ts s : greets input f -> server_read_timeout cfg f = Some ts -> sreads cfg input s ->
  sr_last s <> None -> sr_wait s = ts.
Proof.
  intros (raw & rest & E & He) Hts Hr Hl.
  enough (sr_last s = None /\ sr_left s = input /\ sr_expect s = true \/ sr_expect s = false /\ sr_wait s = ts) as [(? & _)|[_ ?]] by done. clear Hl.
  induction Hr as [t0|s it t rest' d _ IH Hn Hdl Hd]; [by left|]. right. cbn [sr_last sr_left sr_expect sr_wait].
  destruct IH as [(_ & El & Hx)|[Hx Hw]].
  - rewrite El in Hn. apply next_item_text in Hn as (pre & c & Ei & Hi). assert (Hf : it = Some f).
    { assert (E' : (pre.*2 ++ [c]) ++ rest'.*2 = raw ++ rest) by (rewrite <-E, Ei, fmap_app; cbn; by rewrite <-app_assoc).
      pose proof (CodecProofs.read_stream_complete _ _ rest He) as R1. rewrite <-E' in R1. destruct it as [f'|]; cbn in Hi.
      - rewrite (CodecProofs.read_stream_complete _ _ _ Hi) in R1. congruence.
      - rewrite (CodecProofs.read_stream_heartbeat _ _ Hi) in R1. congruence. }
    subst it. unfold new_wait. by rewrite Hx, Hts.
  - unfold new_wait. rewrite Hx. by destruct it.
Qed.
Lemma server_read_nonneg c f ts : server_read_timeout c f = Some ts -> 0 <= ts.
Proof.
  unfold server_read_timeout. destruct (get_heart_beat f) as [|[cx cy]] eqn:E; [done|]. intros [= <-].
  assert (0 <= cx). { unfold get_heart_beat in E. destruct (decide _); [done|]. destruct (hd_contains _ _); [|by injection E as <- <-].
    destruct (hb_regexp _ _); [|done]. destruct (split_on _ _) as [|? [|? ?]]; try done. injection E as <- <-. lia. }
  unfold raise_min, ms. destruct (0 <? cx) eqn:E1, (cx <? _) eqn:E2; cbn [andb]; lia.
Qed.
Lemma server_hears_client c o sc ts reply input s dl it t rest :
  0 <= o_hberr o <= 2 ^ 62 -> o_read o <= 0 \/ 1000000 <= o_read o ->
  handle_connect c (connect_frame o) = inr sc -> server_read_timeout c (connect_frame o) = Some ts ->
  greets input (connect_frame o) -> sreads c input s -> too_late s dl -> next_item (sr_left s) = Some (it, t, rest) ->
  exists cc pre p b, client_connect o (RFrame (sc_response sc) reply) = CConnected cc /\ 0 < cc_write cc /\
    input = pre ++ (p, b) :: sr_left s /\ p + 2 * cc_write cc < t.
Proof.
  intros H1 H2 H3 H4 Hg Hr Hl Hn. destruct (heart_beat_safety c o sc reply ts H1 H2 H3 H4) as (cc & Hcc & HK & _).
  destruct (server_patient _ _ _ _ _ _ _ Hr Hl Hn) as (pre & p & b & E & Hp).
  assert (Hw : sr_wait s = ts /\ ts <> 0).
  { destruct Hl as [Hdl _]. unfold sr_deadline in Hdl. destruct (decide (sr_wait s = 0)) as [|Hne]; [done|].
    assert (sr_wait s = ts); [|split; congruence]. apply (greeted_wait c input (connect_frame o)); try done.
    intros Hno. by destruct (si_none _ _ _ (sinv_reach _ _ _ Hr) Hno). }
  destruct Hw as [Hw Hne]. pose proof (server_read_nonneg _ _ _ H4). exists cc, pre, p, b. unfold keeps_alive in HK. rewrite Hw in Hp. split_and!; try done; lia.
Qed.
Lemma client_hears_server A cfg c o sc ts cc reply s dl y' :
  0 <= o_hberr o <= 2 ^ 62 -> o_read o <= 0 \/ 1000000 <= o_read o ->
  handle_connect c (connect_frame o) = inr sc -> server_read_timeout c (connect_frame o) = Some ts ->
  client_connect o (RFrame (sc_response sc) reply) = CConnected cc -> 0 < cc_read cc ->
  rcreach A cfg (cc_read cc) s -> rc_write s = None -> rc_timer s = Some dl -> dl <= rc_now s ->
  ClientModel.cstep cfg (rc_y s) ClientModel.XReadTimeout = Some (ClientModel.COk y') ->
  0 < sc_write sc /\ ((forall a, a ∈ rc_heard s -> a < rc_now s -> a + sc_write sc <= rc_now s) \/ rc_freed s = Some (rc_now s)).
Proof.
  intros H1 H2 H3 H4 H5 HR Hr Hw Ht Hdl Hc. destruct (heart_beat_safety c o sc reply ts H1 H2 H3 H4) as (cc' & Hcc & _ & HK).
  assert (cc' = cc) as -> by congruence. unfold keeps_alive in HK. split; [lia|].
  destruct (client_patient _ _ _ _ _ _ HR Hr Hw Ht Hdl Hc) as [H|H]; [left|by right]. intros a Ha Hlt. specialize (H a Ha Hlt). lia.
Qed.
