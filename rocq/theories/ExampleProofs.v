(** The example program. *)
From stdpp Require Import gmap.
From Verif Require Import GoBase GoBaseProofs HeaderModel HeaderProofs FrameModel GrammarSpec CodecProofs NegotiationModel NegotiationLemmas ClientApiModel ClientModel ClientSpec ClientLemmas ClientProofs ClientCalls ClientRequests ClientChannels
  ClientReceipts ClientDelivery ClientLive ClientMessages ClientRouting ClientClosing ClientReady ClientRestSpec ClientRest OrderSpec OrderProofs OrderProps.
From Verif Require Import BrokerModel BrokerSpec ServerConnModel ServerConnSpec ServerConnProofs SystemModel SystemSpec SystemLemmas SystemHistory SystemProofs SystemTokens SystemPanics SystemMessages FlowSpec FlowTopics FlowSubs RestSpec RestProofs PeerSpec PeerProofs RefusalSpec RefusalProofs
  FlowProofs ReadProofs NetModel NetSpec NetLinks NetProofs NetTopics NetRestSpec NetRest NetSettled NetAnswered NetRestProps EndingSpec EndingProofs ClientFinal OnceSpec OnceProofs QueueServer NetQueueSpec NetQueue QueueOrderSpec QueueOrderServer QueueOrderNet SteadySpec SteadyServer ExampleModel.

(* ---------------- the frames of the program ---------------- *)
Definition sub_frame (d : str) : frame := mkFrame SUBSCRIBE [(h_destination, d); (h_ack, lit "auto"); (h_id, lit "1")] [].
Definition send_frame (d : str) (i : nat) : frame :=
  mkFrame SEND [(h_content_length, format_uint (N.of_nat (length (ex_text i)))); (h_destination, d); (h_content_type, lit "text/plain")] (ex_text i).
Lemma ex_subscribe_eq d : ex_subscribe d = OSubscribe (Some (sub_frame d, lit "1", false)).
Proof. reflexivity. Qed.
Lemma ex_send_eq d i : ex_send d i = OSend (Some (send_frame d i)).
Proof. reflexivity. Qed.
Lemma fmt_length k n acc : length (fmt_aux k n acc) <= k + length acc.
Proof. revert n acc. induction k as [|k IH]; intros n acc; [done|]. cbn [fmt_aux]. destruct (n <? 10)%N; [cbn; lia|]. etrans; [apply IH|]. cbn. lia. Qed.
Lemma text_short i : (N.of_nat i < 2 ^ 63)%N -> (N.of_nat (length (ex_text i)) < 2 ^ 32)%N.
Proof.
  intros H. unfold ex_text. rewrite app_length. unfold format_uint. pose proof (fmt_length (S (N.to_nat (N.log2 (N.of_nat i)))) (N.of_nat i) []) as HL. cbn [length] in HL.
  assert (N.log2 (N.of_nat i) < 63)%N as HB. { destruct (decide (N.of_nat i = 0)%N) as [->|Hn]; [done|]. apply N.log2_lt_pow2; [lia|done]. }
  assert (length (lit "Message #") = 9) as -> by done. enough (9 + length (fmt_aux (S (N.to_nat (N.log2 (N.of_nat i)))) (N.of_nat i) []) < 100) as H1; [|lia]. change (2 ^ 32)%N with 4294967296%N. lia.
Qed.
Lemma sub_writable d : writable (sub_frame d).
Proof.
  split.
  - apply stomp_command_iff. cbn [sub_frame send_frame f_cmd]. neq_lits.
  - intros k v H. cbn [sub_frame f_hdr] in H. rewrite !elem_of_cons, elem_of_nil in H. destruct H as [[= -> _]|[[= -> _]|[[= -> _]|[]]]]; discriminate.
  - right. split; [|apply not_elem_of_nil]. apply hd_contains_None. reflexivity.
Qed.
Lemma send_writable d i : (N.of_nat i < 2 ^ 63)%N -> writable (send_frame d i).
Proof.
  intros Hi. split.
  - apply stomp_command_iff. cbn [sub_frame send_frame f_cmd]. neq_lits.
  - intros k v H. cbn [send_frame f_hdr] in H. rewrite !elem_of_cons, elem_of_nil in H. destruct H as [[= -> _]|[[= -> _]|[[= -> _]|[]]]]; discriminate.
  - left. eexists. split_and!; [apply hd_contains_Some; reflexivity|apply format_uint_text|by apply text_short].
Qed.
Definition ex_dialed (o : copts) : Prop := exists remote, new_conn_options remote ex_opts = Some o.
Lemma dial_writable o : ex_dialed o -> writable (connect_frame o).
Proof.
  intros (remote & H). pose proof (new_conn_options_inv _ _ _ H) as (_ & _ & Hc & _). injection H as <-. apply connect_frame_writable; [done| |].
  - cbn. intros k v Hk. by apply elem_of_nil in Hk.
  - cbn. apply hd_contains_None. reflexivity.
Qed.

(* ---------------- steps of the program ---------------- *)
Lemma ereach_nreach cfg d k x : ereach cfg d k x -> nreach cfg x.
Proof. induction 1; [constructor|by econstructor]. Qed.
Lemma cmv_ops cfg y a y' : cmv cfg y a y' -> (exists o, a = XCall o /\ y' = add_call y o) \/ ((forall o, a <> XCall o) /\ g_op <$> c_gs y' = g_op <$> c_gs y).
Proof.
  intros Hm. assert (Hc : (exists o, a = XCall o /\ y' = add_call y o) \/ (forall o, a <> XCall o)). { destruct Hm; try (right; by intros ?); [left; by eexists|]. right. intros o. by destruct t. }
  destruct Hc as [Hc|Hc]; [by left|]. right. split; [done|]. pose proof (cmv_gs _ _ _ _ Hm) as HG.
  assert (length (c_gs y') = length (c_gs y)) as HL.
  { destruct Hm; try done; try (apply alter_length); try (exfalso; by eapply Hc); cbn [with_g c_gs]; try (rewrite alter_length).
    all: try done.
    - match goal with |- context [c_gs (submit ?z ?g ?k ?f ?o)] => destruct (submit_gs z g k f o) as [x ->] end. apply alter_length.
    - by destruct (put_next k (q_chan q)).2.
    - by destruct w.
    - match goal with H : ClientLemmas.answers _ _ _ _ _ |- _ => destruct (answers_gs _ _ _ _ _ H) as [x ->] end. rewrite alter_length. cbn [with_log c_gs]. by rewrite after_send_gs.
    - cbn [with_subs with_log c_gs]. by rewrite after_send_gs. }
  apply list_eq. intros i. rewrite !list_lookup_fmap. destruct (c_gs y !! i) as [r|] eqn:Hi.
  - destruct (gchange_op _ _ _ _ HG Hi) as (r' & -> & E). cbn. by rewrite E.
  - apply lookup_ge_None in Hi. by rewrite (proj2 (lookup_ge_None (c_gs y') i)) by lia.
Qed.
Lemma estep_peer cfg d k x a x' c l' : ex_allowed d k x a -> nstep cfg x a = Some x' -> x_links x' !! c = Some l' ->
  (exists l, x_links x !! c = Some l /\ (l_peer l' = l_peer l \/
     (exists o h kc y b y', l_peer l = PeerClient o h kc y /\ cstep kc y b = Some (COk y') /\ l_peer l' = PeerClient o h kc y' /\ ((exists i, a = NClient c b i) \/ exists f, b = XRecv f)) \/
     exists o, l_peer l = PeerDialing o /\ ((exists h kc, l_peer l' = PeerClient o h kc cl_init) \/ l_peer l' = PeerFailed o))) \/
  (c = length (x_links x) /\ length (x_links x') = S (length (x_links x)) /\ exists remote o cut, a = NDial remote ex_opts cut /\ new_conn_options remote ex_opts = Some o /\ (l_peer l' = PeerDialing o \/ l_peer l' = PeerFailed o)).
Proof.
  intros HA Hs Hl'.
  assert (Hw : forall c0 l0 l1, x_links x !! c0 = Some l0 -> <[c0 := l1]> (x_links x) !! c = Some l' -> l_peer l1 = l_peer l0 -> exists l, x_links x !! c = Some l /\ l_peer l' = l_peer l).
  { intros c0 l0 l1 H0 H E. apply list_lookup_insert_Some in H as [(-> & <- & _)|[_ H]]; eauto. }
  assert (Hp : forall c0 l1, <[c0 := l1]> (x_links x) !! c = Some l' -> (c0 = c /\ l1 = l') \/ exists l, x_links x !! c = Some l /\ l_peer l' = l_peer l).
  { intros c0 l1 H. apply list_lookup_insert_Some in H as [(-> & <- & _)|[_ H]]; eauto. }
  assert (HS : (exists l, x_links x !! c = Some l /\ l_peer l' = l_peer l) -> exists l, x_links x !! c = Some l /\ (l_peer l' = l_peer l \/
     (exists o h kc y b y', l_peer l = PeerClient o h kc y /\ cstep kc y b = Some (COk y') /\ l_peer l' = PeerClient o h kc y' /\ ((exists i, a = NClient c b i) \/ exists f, b = XRecv f)) \/
     exists o, l_peer l = PeerDialing o /\ ((exists h kc, l_peer l' = PeerClient o h kc cl_init) \/ l_peer l' = PeerFailed o))).
  { intros (l & H1 & H2). exists l. by split; [|left]. }
  destruct a as [remote opts cut| |c0 b|c0|a i|c0 k0|c0|c0|c0 a i]; cbn [nstep] in Hs; try done.
  - destruct HA as [-> _]. destruct (new_conn_options remote ex_opts) as [o|] eqn:Eo; [|done]. unfold add_link in Hs. destruct (step cfg (x_sys x) AAccept) as [[|]|]; try done. injection Hs as <-. cbn [x_links] in Hl' |- *.
    apply lookup_app_Some in Hl' as [H|[H1 H]]; [left; apply HS; eauto|]. apply list_lookup_singleton_Some in H as [H2 <-]. right. split; [lia|]. split; [rewrite app_length; cbn; lia|]. exists remote, o, cut. split_and!; [done|done|]. destruct cut; [by right|by left].
  - left. apply HS. unfold net_up in Hs. destruct (x_links x !! c0) as [l|] eqn:Hl; [|done]. destruct (read_stream (l_up l)); try done.
    + injection Hs as <-. eapply Hw; [exact Hl|exact Hl'|done].
    + destruct (step cfg (x_sys x) (ARecv c0 f)) as [[|]|]; try done. injection Hs as <-. eapply Hw; [exact Hl|exact Hl'|done].
  - left. apply HS. unfold net_server in Hs. destruct a as [|c1 f|c1|c1 s w1 w2|c1|c1 pick| |]; try done.
    all: try (match goal with H : context [step ?c ?y ?a] |- _ => destruct (step c y a) as [[|]|] end; try done; injection Hs as <-; by exists l').
    destruct (x_links x !! c1) as [l|] eqn:Hl; [|done]. destruct (y_conns (x_sys x) !! c1); [|done]. destruct (step _ _ _) as [[|y']|]; try done.
    destruct (y_conns y' !! c1); [|done]. destruct (sticky _ _); [|done]. injection Hs as <-. eapply Hw; [exact Hl|exact Hl'|done].
  - left. unfold net_hello in Hs. destruct (x_links x !! c0) as [l|] eqn:Hl; [|done]. destruct (l_peer l) as [|o|o|o h k1 y] eqn:Hpl; try done.
    destruct (read_stream (l_down l)) as [rest|f rest|e| |]; try done; [injection Hs as <-; apply Hp in Hl' as [[<- <-]|?]; [|by apply HS]; exists l; split; [done|]; right; right; exists o; split; [done|by right]|].
    destruct (client_connect o (RFrame f rest)) as [cc| | | | | |] eqn:Hc; [destruct (bool_decide _) eqn:Hb; [|done]|..]; injection Hs as <-;
      (apply Hp in Hl' as [[<- <-]|?]; [|by apply HS]); exists l; (split; [done|]); right; right; exists o; (split; [done|]); first [by right|left; by eexists _, _].
  - left. unfold net_give_up in Hs. destruct (x_links x !! c0) as [l|] eqn:Hl; [|done]. destruct (l_peer l) as [|o|o|o h k1 y] eqn:Hpl; try done.
    injection Hs as <-. apply Hp in Hl' as [[<- <-]|?]; [|by apply HS]. exists l. split; [done|]. right. right. exists o. split; [done|]. by right.
  - left. unfold net_down in Hs. destruct (x_links x !! c0) as [l|] eqn:Hl; [|done]. destruct (l_peer l) as [|o|o|o h k1 y] eqn:Hpl; try done.
    destruct (read_stream (l_down l)) as [rest|f rest|e| |]; try done;
      (match goal with H : context [cstep ?c ?y ?a] |- _ => destruct (cstep c y a) as [[|y1]|] eqn:Hcs end; try done); injection Hs as <-;
      (apply Hp in Hl' as [[<- <-]|?]; [|by apply HS]); exists l; (split; [done|]); right; left; eexists o, h, k1, y, _, y1; split_and!; try done; right; by eexists.
  - left. unfold net_client in Hs. destruct (x_links x !! c0) as [l|] eqn:Hl; [|done]. destruct (l_peer l) as [|o|o|o h k1 y] eqn:Hpl; try done.
    destruct a as [| | |f| | | | | | | | | |]; try done; match goal with H : context [cstep ?c ?y ?a] |- _ => destruct (cstep c y a) as [[|y1]|] eqn:Hcs end; try done; injection Hs as <-;
      (apply Hp in Hl' as [[<- <-]|?]; [|by apply HS]); exists l; (split; [done|]); right; left; eexists o, h, k1, y, _, y1; split_and!; try done; left; by eexists.
Qed.
Lemma estep_links cfg d k x a x' : ex_allowed d k x a -> nstep cfg x a = Some x' -> length (x_links x') = length (x_links x) \/ (exists r o c, a = NDial r o c) /\ length (x_links x') = S (length (x_links x)).
Proof.
  intros HA Hs. destruct (decide (length (x_links x') = length (x_links x))) as [|Hn]; [by left|]. right.
  destruct a as [remote opts cut| |c0 b|c0|a i|c0 k0|c0|c0|c0 a i]; cbn [nstep] in Hs; try done.
  - destruct (new_conn_options remote opts) as [o|]; [|done]. unfold add_link in Hs. destruct (step cfg (x_sys x) AAccept) as [[|]|]; try done. injection Hs as <-. cbn [x_links]. rewrite app_length. cbn. split; [by eexists _, _, _|lia].
  - exfalso. apply Hn. unfold net_up in Hs. destruct (x_links x !! c0) as [l|] eqn:Hl; [|done]. destruct (read_stream (l_up l)); try done.
    + injection Hs as <-. apply insert_length.
    + destruct (step cfg (x_sys x) (ARecv c0 f)) as [[|]|]; try done. injection Hs as <-. apply insert_length.
  - exfalso. apply Hn. unfold net_server in Hs. destruct a as [|c1 f|c1|c1 s w1 w2|c1|c1 pick| |]; try done.
    all: try (match goal with H : context [step ?c ?y ?a] |- _ => destruct (step c y a) as [[|]|] end; try done; by injection Hs as <-).
    destruct (x_links x !! c1) as [l|] eqn:Hl; [|done]. destruct (y_conns (x_sys x) !! c1); [|done]. destruct (step _ _ _) as [[|y']|]; try done.
    destruct (y_conns y' !! c1); [|done]. destruct (sticky _ _); [|done]. injection Hs as <-. apply insert_length.
  - exfalso. apply Hn. unfold net_hello in Hs. destruct (x_links x !! c0) as [l|] eqn:Hl; [|done]. destruct (l_peer l) as [|o|o|o h k1 y] eqn:Hpl; try done.
    destruct (read_stream (l_down l)) as [rest|f rest|e| |]; try done; [injection Hs as <-; apply insert_length|].
    destruct (client_connect o (RFrame f rest)) as [cc| | | | | |] eqn:Hc; [destruct (bool_decide _) eqn:Hb; [|done]|..]; injection Hs as <-; apply insert_length.
  - exfalso. apply Hn. unfold net_give_up in Hs. destruct (x_links x !! c0) as [l|] eqn:Hl; [|done]. destruct (l_peer l) as [|o|o|o h k1 y] eqn:Hpl; try done. injection Hs as <-. apply insert_length.
  - exfalso. apply Hn. unfold net_down in Hs. destruct (x_links x !! c0) as [l|] eqn:Hl; [|done]. destruct (l_peer l) as [|o|o|o h k1 y] eqn:Hpl; try done.
    destruct (read_stream (l_down l)) as [rest|f rest|e| |]; try done; (match goal with H : context [cstep ?c ?y ?a] |- _ => destruct (cstep c y a) as [[|y1]|] eqn:Hcs end; try done); injection Hs as <-; apply insert_length.
  - exfalso. apply Hn. unfold net_client in Hs. destruct (x_links x !! c0) as [l|] eqn:Hl; [|done]. destruct (l_peer l) as [|o|o|o h k1 y] eqn:Hpl; try done.
    destruct a as [| | |f| | | | | | | | | |]; try done; match goal with H : context [cstep ?c ?y ?a] |- _ => destruct (cstep c y a) as [[|y1]|] eqn:Hcs end; try done; injection Hs as <-; apply insert_length.
Qed.

(* ---------------- the two clients ---------------- *)
Definition sender_fine (d : str) (k : nat) (y : cl) : Prop :=
  g_op <$> c_gs y = ex_send d <$> seq 1 (length (c_gs y)) /\ length (c_gs y) <= k /\ exists m, served y ++ queued y = seq 0 m /\ m <= length (c_gs y) <= S m.
Definition receiver_fine (d : str) (y : cl) : Prop := g_op <$> c_gs y = [] \/ g_op <$> c_gs y = [ex_subscribe d].
Definition client_fine (d : str) (k c : nat) (y : cl) : Prop := match c with 0 => receiver_fine d y | _ => sender_fine d k y end.
Lemma sender_step kc y b y' d k : creach anything kc y -> cstep kc y b = Some (COk y') ->
  (forall o, b = XCall o -> Forall (fun r => g_pc r = GDone RNil) (c_gs y) /\ length (c_gs y) < k /\ o = ex_send d (S (length (c_gs y)))) ->
  sender_fine d k y -> sender_fine d k y'.
Proof.
  intros Hr Hs HC (H1 & H2 & m & H3 & H4). assert (creach anything kc y') as Hr' by (by eapply cr_step). pose proof (cstep_cmv _ _ _ _ Hs) as Hm.
  destruct (cmv_ops _ _ _ _ Hm) as [(o & -> & ->)|[_ Ho]].
  - destruct (HC o eq_refl) as (C1 & C2 & ->). assert (m = length (c_gs y)) as ->.
    { destruct (decide (m = length (c_gs y))) as [|Hn]; [done|]. exfalso. destruct (lookup_lt_is_Some_2 (c_gs y) (length (c_gs y) - 1)) as [r Hg]; [lia|]. rewrite Forall_lookup in C1. pose proof (C1 _ _ Hg) as Hd.
      assert (length (c_gs y) - 1 ∈ served y ++ queued y) as Hin. { eapply C84_accepted; [exact Hr|exact Hg|exact Hd|]. assert (Some (g_op r) = Some (ex_send d (1 + (length (c_gs y) - 1)))) as [= ->]; [|done].
        pose proof (f_equal (fun l => l !! (length (c_gs y) - 1)) H1) as E. cbv beta in E. rewrite !list_lookup_fmap, Hg, lookup_seq_lt in E by lia. done. }
      rewrite H3 in Hin. apply elem_of_seq in Hin. lia. }
    unfold sender_fine. cbn [add_call c_gs]. rewrite fmap_app, app_length, H1. cbn [length fmap list_fmap g_op]. split_and!; [|lia|].
    + rewrite Nat.add_1_r, seq_S, fmap_app. done.
    + exists (length (c_gs y)). split; [exact H3|lia].
  - assert (length (c_gs y') = length (c_gs y)) as HL by (rewrite <-(fmap_length g_op (c_gs y')), Ho; apply fmap_length). unfold sender_fine. rewrite Ho, HL. split_and!; [done|done|].
    rewrite <-allr_served in H3 |- *. destruct (cmv_allr _ _ _ _ Hm) as [->|(g & r & kk & q & Hg & Hq & E & _)]; [eauto|].
    destruct (reach_uniq _ _ _ Hr') as [Hnd _]. rewrite E in Hnd |- *. rewrite fmap_app, H3 in Hnd |- *. cbn in Hnd |- *. pose proof (rq_put _ (reach_req _ _ _ Hr) _ _ _ _ Hg Hq) as Eg.
    apply lookup_lt_Some in Hg. apply NoDup_app in Hnd as (_ & Hnd & _). assert (q_by q = m) as Em. { destruct (decide (q_by q < m)) as [Hlt|]; [|lia]. exfalso. eapply Hnd; [apply elem_of_seq|left]. lia. }
    exists (S m). rewrite seq_S, Em. split; [done|]. lia.
Qed.
Lemma receiver_step kc y b y' d : cstep kc y b = Some (COk y') -> (forall o, b = XCall o -> c_gs y = [] /\ o = ex_subscribe d) -> receiver_fine d y -> receiver_fine d y'.
Proof.
  intros Hs HC HF. pose proof (cstep_cmv _ _ _ _ Hs) as Hm. destruct (cmv_ops _ _ _ _ Hm) as [(o & -> & ->)|[_ Ho]].
  - destruct (HC o eq_refl) as [E ->]. right. cbn [add_call c_gs]. by rewrite E.
  - unfold receiver_fine. by rewrite Ho.
Qed.
Definition link_fine (d : str) (k c : nat) (p : peer) : Prop :=
  match p with PeerOther => False | PeerDialing o | PeerFailed o => ex_dialed o | PeerClient o _ _ y => ex_dialed o /\ client_fine d k c y end.
Lemma client_of_link x c l o h kc y : x_links x !! c = Some l -> l_peer l = PeerClient o h kc y -> client_of x c = Some y.
Proof. intros H1 H2. unfold client_of. by rewrite H1, H2. Qed.
Lemma ereach_fine cfg d k x : ereach cfg d k x -> length (x_links x) <= 2 /\ forall c l, x_links x !! c = Some l -> link_fine d k c (l_peer l).
Proof.
  induction 1 as [|x a x' Hr [IL IH] HA Hs]; [split; [cbn; lia|intros c l H; cbn in H; by rewrite lookup_nil in H]|]. split.
  - destruct (estep_links _ _ _ _ _ _ HA Hs) as [->|[(r & o & c & ->) ->]]; [done|]. cbn in HA. destruct HA as [_ [->|[-> _]]]; cbn; lia.
  - intros c l' Hl'. destruct (estep_peer _ _ _ _ _ _ _ _ HA Hs Hl') as [(l & Hl & [->|[(o & h & kc & y & b & y' & Hp & Hcs & -> & Hb)|(o & Hp & Hp')]])|(-> & _ & remote & o & cut & _ & Eo & Hp)].
    + by eapply IH.
    + pose proof (IH _ _ Hl) as HF. rewrite Hp in HF. destruct HF as [F1 F2]. split; [done|]. pose proof (ni_client _ _ (nreach_inv _ _ (ereach_nreach _ _ _ _ Hr)) _ _ _ _ _ _ Hl Hp) as Hcr.
      assert (HC : forall op, b = XCall op -> match c with 0 => c_gs y = [] /\ op = ex_subscribe d | _ => Forall (fun r => g_pc r = GDone RNil) (c_gs y) /\ length (c_gs y) < k /\ op = ex_send d (S (length (c_gs y))) end).
      { intros op ->. destruct Hb as [[i ->]|[f Hf]]; [|done]. cbn in HA. by rewrite (client_of_link _ _ _ _ _ _ _ Hl Hp) in HA. }
      destruct c as [|c]; [by eapply receiver_step|by eapply sender_step].
    + pose proof (IH _ _ Hl) as HF. rewrite Hp in HF. cbn in HF. destruct Hp' as [(h & kc & ->)| ->]; [|done]. split; [done|]. destruct c as [|c]; [by left|]. split_and!; [done|cbn; lia|]. exists 0. split; [done|cbn; lia].
    + assert (ex_dialed o) by (by exists remote). by destruct Hp as [-> | ->].
Qed.

(* ---------------- the frames they write ---------------- *)
Lemma sender_wrote kc y d k : creach anything kc y -> sender_fine d k y -> client_wrote y = send_frame d <$> seq 1 (length (served y)) /\ length (served y) <= length (c_gs y).
Proof.
  intros Hr (H1 & H2 & m & H3 & H4). assert (served y = seq 0 (length (served y)) /\ length (served y) <= m) as [E HL].
  { assert (served y = take (length (served y)) (seq 0 m)) as E by (by rewrite <-H3, take_app). assert (length (served y) <= m) as HL by (rewrite <-(seq_length m 0), <-H3, app_length; lia). split; [|done]. rewrite E at 1. replace m with (length (served y) + (m - length (served y))) by lia. rewrite seq_app. apply take_app_alt. by rewrite seq_length. }
  split; [|lia]. assert (client_wrote y = (fun g => send_frame d (S g)) <$> served y) as ->.
  - assert (Hq : forall q w, PvReq q w ∈ c_log y -> exists b, w = Some (send_frame d (S (q_by q)), b)).
    { intros q w Hin. destruct (C84_written _ _ _ _ _ Hr Hin) as (r & f & Hg & Ho & Hw). pose proof (f_equal (fun l => l !! q_by q) H1) as E1. cbv beta in E1. rewrite !list_lookup_fmap, Hg, lookup_seq_lt in E1 by (by eapply lookup_lt_Some). cbn in E1.
      injection E1 as E1. rewrite E1, ex_send_eq in Ho. cbn in Ho. injection Ho as <-. destruct w as [[f' b]|].
      - destruct Hw as [_ Hw]. unfold sent_as in Hw. rewrite decide_False in Hw by (cbn; neq_lits). subst f'. by exists b.
      - exfalso. destruct Hw as [[Hw|Hw] _]; cbn in Hw; revert Hw; neq_lits. }
    unfold client_wrote, wrote_in, served. clear -Hq. induction (c_log y) as [|e l IH]; [done|]. specialize (IH ltac:(intros; apply Hq; by right)). destruct e as [q w| |]; cbn in IH |- *; try exact IH.
    destruct (Hq q w ltac:(left)) as [b ->]. cbn. by rewrite IH.
  - rewrite E at 1. rewrite <-seq_shift. change (map S ?l) with (S <$> l). by rewrite <-list_fmap_compose.
Qed.
Lemma receiver_wrote kc y d f : creach anything kc y -> receiver_fine d y -> f ∈ client_wrote y -> f = sub_frame d.
Proof.
  intros Hr HF Hf. destruct (in_client_wrote _ _ _ _ Hr Hf) as (q & w & r & _ & -> & _ & Hg & Ho). destruct HF as [E|E]; pose proof (f_equal (fun l => l !! q_by q) E) as E1; cbv beta in E1; rewrite list_lookup_fmap, Hg in E1; [done|].
  cbn in E1. symmetry in E1. apply list_lookup_singleton_Some in E1 as [_ E1]. rewrite <-E1, ex_subscribe_eq in Ho. cbn in Ho. injection Ho as <-. reflexivity.
Qed.
Lemma fine_frames cfg d k x c l f : ereach cfg d k x -> x_links x !! c = Some l -> f ∈ peer_sent (l_peer l) ->
  (exists o, ex_dialed o /\ f = connect_frame o) \/ c = 0 /\ f = sub_frame d \/ c <> 0 /\ exists i, 1 <= i <= k /\ f = send_frame d i.
Proof.
  intros Hr Hl Hf. destruct (ereach_fine _ _ _ _ Hr) as [_ HF]. specialize (HF _ _ Hl). destruct (l_peer l) as [|o|o|o h kc y] eqn:Hp; cbn [peer_sent link_fine] in *; [done|apply elem_of_list_singleton in Hf as ->; eauto..|].
  destruct HF as [F1 F2]. apply elem_of_cons in Hf as [->|Hf]; [eauto|]. right. pose proof (ni_client _ _ (nreach_inv _ _ (ereach_nreach _ _ _ _ Hr)) _ _ _ _ _ _ Hl Hp) as Hcr.
  destruct c as [|c]; [left; split; [done|by eapply receiver_wrote]|]. right. split; [done|]. destruct (sender_wrote _ _ _ _ Hcr F2) as [E HL]. rewrite E in Hf. apply elem_of_list_fmap in Hf as (i & -> & Hi). apply elem_of_seq in Hi. destruct F2 as (_ & F3 & _). exists i. split; [lia|done].
Qed.
Lemma fine_writable cfg d k x c l : ereach cfg d k x -> (N.of_nat k < 2 ^ 63)%N -> x_links x !! c = Some l -> l_peer l <> PeerOther /\ Forall writable (peer_sent (l_peer l)).
Proof.
  intros Hr Hk Hl. split.
  - destruct (ereach_fine _ _ _ _ Hr) as [_ HF]. specialize (HF _ _ Hl). by destruct (l_peer l).
  - apply Forall_forall. intros f Hf. destruct (fine_frames _ _ _ _ _ _ _ Hr Hl Hf) as [(o & Ho & ->)|[[_ ->]|(_ & i & Hi & ->)]]; [by apply dial_writable|apply sub_writable|apply send_writable; lia].
Qed.

(* ---------------- what the server sees ---------------- *)
Lemma nstep_sys cfg x a x' : nstep cfg x a = Some x' -> x_sys x' = x_sys x \/ exists b, step cfg (x_sys x) b = Some (Fine (x_sys x')) /\ forall c f, b = ARecv c f -> is_Some (x_links x !! c).
Proof.
  intros Hs. destruct a as [remote opts cut| |c0 b|c0|a i|c0 k0|c0|c0|c0 a i]; cbn [nstep] in Hs; try done.
  - destruct (new_conn_options remote opts) as [o|]; [|done]. unfold add_link in Hs. destruct (step cfg (x_sys x) AAccept) as [[|]|] eqn:E; try done. injection Hs as <-. right. by exists AAccept.
  - unfold add_link in Hs. destruct (step cfg (x_sys x) AAccept) as [[|]|] eqn:E; try done. injection Hs as <-. right. by exists AAccept.
  - destruct (x_links x !! c0) as [l|]; [|done]. destruct (l_peer l); try done. injection Hs as <-. by left.
  - unfold net_up in Hs. destruct (x_links x !! c0) as [l|] eqn:Hl; [|done]. destruct (read_stream (l_up l)); try done.
    + injection Hs as <-. by left.
    + destruct (step cfg (x_sys x) (ARecv c0 f)) as [[|]|] eqn:E; try done. injection Hs as <-. right. exists (ARecv c0 f). split; [done|]. intros c f0 [= <- <-]. eauto.
  - unfold net_server in Hs. destruct a as [|c1 f|c1|c1 s w1 w2|c1|c1 pick| |]; try done.
    all: try (match goal with H : context [step ?c ?y ?a] |- _ => destruct (step c y a) as [[|]|] eqn:E end; try done; injection Hs as <-; right; by eexists).
    destruct (x_links x !! c1) as [l|] eqn:Hl; [|done]. destruct (y_conns (x_sys x) !! c1); [|done]. destruct (step _ _ _) as [[|y']|] eqn:E; try done.
    destruct (y_conns y' !! c1); [|done]. destruct (sticky _ _); [|done]. injection Hs as <-. right. by eexists.
  - left. unfold net_hello in Hs. destruct (x_links x !! c0) as [l|] eqn:Hl; [|done]. destruct (l_peer l) as [|o|o|o h k1 y] eqn:Hpl; try done.
    destruct (read_stream (l_down l)) as [rest|f rest|e| |]; try done; [by injection Hs as <-|].
    destruct (client_connect o (RFrame f rest)) as [cc| | | | | |] eqn:Hc; [destruct (bool_decide _) eqn:Hb; [|done]|..]; by injection Hs as <-.
  - left. unfold net_give_up in Hs. destruct (x_links x !! c0) as [l|] eqn:Hl; [|done]. destruct (l_peer l) as [|o|o|o h k1 y] eqn:Hpl; try done. by injection Hs as <-.
  - left. unfold net_down in Hs. destruct (x_links x !! c0) as [l|] eqn:Hl; [|done]. destruct (l_peer l) as [|o|o|o h k1 y] eqn:Hpl; try done.
    destruct (read_stream (l_down l)) as [rest|f rest|e| |]; try done; (match goal with H : context [cstep ?c ?y ?a] |- _ => destruct (cstep c y a) as [[|y1]|] eqn:Hcs end; try done); by injection Hs as <-.
  - left. unfold net_client in Hs. destruct (x_links x !! c0) as [l|] eqn:Hl; [|done]. destruct (l_peer l) as [|o|o|o h k1 y] eqn:Hpl; try done.
    destruct a as [| | |f| | | | | | | | | |]; try done; match goal with H : context [cstep ?c ?y ?a] |- _ => destruct (cstep c y a) as [[|y1]|] eqn:Hcs end; try done; by injection Hs as <-.
Qed.
Lemma dialed_cmd o : ex_dialed o -> f_cmd (connect_frame o) = CONNECT.
Proof. intros (remote & H). injection H as <-. reflexivity. Qed.
Lemma ex_steady_frame d o i : ex_dialed o -> steady (connect_frame o) /\ steady (sub_frame d) /\ steady (send_frame d i).
Proof.
  intros Ho. apply dialed_cmd in Ho. unfold steady, polite, polite_send, auto_only. rewrite Ho. split_and!; try (intros H; exfalso; revert H; cbn; neq_lits); try (cbn; neq_lits).
Qed.
Lemma ereach_steady cfg d k x : ereach cfg d k x -> (N.of_nat k < 2 ^ 63)%N -> reach_if steady cfg (x_sys x).
Proof.
  intros Hr Hk. induction Hr as [|x a x' Hr IH HA Hs]; [constructor|]. destruct (nstep_sys _ _ _ _ Hs) as [->|(b & Hb & Hc)]; [done|]. eapply ri_step; [exact IH|exact Hb|]. intros c f ->. specialize (Hc _ _ eq_refl) as [l Hl].
  assert (Hr' : ereach cfg d k x') by (by econstructor). cbn in Hb. unfold fine, do_recv in Hb. destruct (y_conns (x_sys x) !! c) as [n|] eqn:Hn; [|done]. destruct (n_eof n); [done|]. destruct (decide _); [|done]. injection Hb as Hb.
  pose proof (ereach_nreach _ _ _ _ Hr') as Hn'. assert (exists l', x_links x' !! c = Some l') as [l' Hl'].
  { apply lookup_lt_is_Some_2. rewrite (ni_len _ _ (nreach_inv _ _ Hn')), <-Hb. cbn [y_conns]. rewrite insert_length. by eapply lookup_lt_Some. }
  assert (Hg : y_conns (x_sys x') !! c = Some (mkSconn (n_c n) (n_phase n) (n_read n ++ [mkMsg (y_uid (x_sys x)) f]) false (n_write n) (n_sub n) (n_out n) (n_log n))).
  { rewrite <-Hb. cbn [y_conns]. apply list_lookup_insert. by eapply lookup_lt_Some. }
  destruct (fine_writable _ _ _ _ _ _ Hr' Hk Hl') as [W1 W2]. pose proof (up_prefix _ _ _ _ _ Hn' Hl' Hg W1 W2) as HP.
  assert (f ∈ peer_sent (l_peer l')) as Hf. { eapply elem_of_prefix; [|exact HP]. unfold server_got. cbn [n_read n_log]. rewrite !fmap_app. apply elem_of_app. right. apply elem_of_app. right. left. }
  destruct (fine_frames _ _ _ _ _ _ _ Hr' Hl' Hf) as [(o & Ho & ->)|[[_ ->]|(_ & i & Hi & ->)]]; [by eapply (ex_steady_frame d _ 0)|..];
    (assert (exists o, ex_dialed o) as [o Ho] by (eexists; exists (lit "localhost"); reflexivity)); by eapply ex_steady_frame.
Qed.
Lemma accepted_prefix cfg y c n : reach cfg y -> y_conns y !! c = Some n -> g_frame <$> omap accepted (n_log n) `prefix_of` server_got n.
Proof.
  intros Hr Hn. unfold server_got. apply prefix_fmap. transitivity (frames_of (n_log n)); [|by apply prefix_app_r].
  destruct (decide (n_phase n = Running)) as [Hp|Hp].
  - rewrite (frames_accepted (n_log n)); [done|]. by eapply open_accepted.
  - destruct (end_reason _ _ _ _ Hr Hn Hp) as (pre & e & -> & Hst & Hpre & _). unfold frames_of. rewrite !omap_app. fold (frames_of pre). rewrite (frames_accepted pre) by done. cbn.
    replace (accepted e) with (@None msg) by (unfold accepted; by rewrite Hst). rewrite app_nil_r. by apply prefix_app_r.
Qed.
Lemma prefix_filter {A} (P : A -> Prop) `{!forall a, Decision (P a)} (l k : list A) : l `prefix_of` k -> filter P l `prefix_of` filter P k.
Proof. intros [z ->]. rewrite filter_app. by apply prefix_app_r. Qed.
Section ereach.
  Context (cfg : scfg) (d : str) (k : nat) (x : net) (Hr : ereach cfg d k x) (Hk : (N.of_nat k < 2 ^ 63)%N).
  Local Notation Hnr := (ereach_nreach _ _ _ _ Hr).
  Local Notation HI := (nreach_inv _ _ Hnr).

  Lemma ex_link c n : y_conns (x_sys x) !! c = Some n -> exists l, x_links x !! c = Some l.
  Proof. intros Hn. apply lookup_lt_is_Some_2. rewrite (ni_len _ _ HI). by eapply lookup_lt_Some. Qed.
  Lemma ex_got c n l f : y_conns (x_sys x) !! c = Some n -> x_links x !! c = Some l -> f ∈ server_got n -> f ∈ peer_sent (l_peer l).
  Proof. intros Hn Hl Hf. destruct (fine_writable _ _ _ _ _ _ Hr Hk Hl) as [W1 W2]. eapply elem_of_prefix; [exact Hf|]. by eapply up_prefix; [apply Hnr|..]. Qed.
  Lemma ex_subs s sb : y_heap (x_sys x) !! s = Some sb -> s_conn sb = 0 /\ s_dest sb = d /\ s_id sb = lit "1" /\ forall s' sb', y_heap (x_sys x) !! s' = Some sb' -> s' = s.
  Proof.
    pose proof (ni_reach _ _ HI) as Hsr.
    assert (HH : forall s sb, y_heap (x_sys x) !! s = Some sb -> s_conn sb = 0 /\ s_dest sb = d /\ s_id sb = lit "1" /\ exists l o h kc y, x_links x !! 0 = Some l /\ l_peer l = PeerClient o h kc y).
    { clear s sb. intros s sb Hs. destruct (lookup_lt_is_Some_2 (y_conns (x_sys x)) (s_conn sb)) as [n Hn]. { apply (wf_sub _ (reach_wf _ _ Hsr) _ _ Hs). }
      destruct (ex_link _ _ Hn) as [l Hl]. destruct (reach_origin _ _ Hsr _ _ n Hs Hn) as (e & He & m & Ha & Hcm & Hid & Hd & Hpu).
      pose proof (accepts_got (x_sys x) _ m n ltac:(by exists n, e) Hn) as Hg. pose proof (ex_got _ _ _ _ Hn Hl Hg) as Hf.
      destruct (fine_frames _ _ _ _ _ _ _ Hr Hl Hf) as [(o & Ho & E)|[[E0 E]|(_ & i & Hi & E)]].
      - exfalso. apply dialed_cmd in Ho. unfold cmd_of in Hcm. rewrite E, Ho in Hcm. revert Hcm. neq_lits.
      - unfold hget_of in *. rewrite E in *. split_and!; [done|assert (Some (s_dest sb) = Some d) as [= ->] by (rewrite <-Hd; reflexivity); done|assert (Some (s_id sb) = Some (lit "1")) as [= ->] by (rewrite <-Hid; reflexivity); done|]. rewrite E0 in Hl. exists l. destruct (ereach_fine _ _ _ _ Hr) as [_ HF]. specialize (HF _ _ Hl).
        destruct (l_peer l) as [|o|o|o h kc y]; [done| | |by eexists _, _, _, _]; exfalso; cbn in HF, Hf; apply elem_of_list_singleton in Hf; apply dialed_cmd in HF; rewrite <-Hf in HF; revert HF; cbn; neq_lits.
      - exfalso. unfold cmd_of in Hcm. rewrite E in Hcm. revert Hcm. cbn. neq_lits. }
    intros Hs. destruct (HH _ _ Hs) as (E1 & E2 & E3 & l & o & h & kc & y & Hl & Hp). split_and!; [done..|]. intros s' sb' Hs'. destruct (HH _ _ Hs') as (F1 & F2 & F3 & _).
    destruct (conn_of_link _ _ _ _ Hnr Hl) as [n Hn]. destruct (fine_writable _ _ _ _ _ _ Hr Hk Hl) as [_ W2].
    assert (only_of_id (x_sys x) s sb) as HO. { eapply (only_object cfg x 0 l n o h kc y s sb 0); try done; [apply Hnr|]. rewrite E3. intros j r f Hj Hf Hnm. destruct (ereach_fine _ _ _ _ Hr) as [_ HF]. specialize (HF _ _ Hl). rewrite Hp in HF. destruct HF as [_ HF].
      apply lookup_lt_Some in Hj. rewrite <-(fmap_length g_op) in Hj. destruct HF as [HF|HF]; rewrite HF in Hj; cbn in Hj; lia. }
    apply (HO s' sb'); congruence.
  Qed.
  Lemma ex_client_sent c n : y_conns (x_sys x) !! c = Some n ->
    match c with 0 => client_sent n = [] | _ => g_frame <$> client_sent n `prefix_of` as_message <$> (send_frame d <$> seq 1 k) end.
  Proof.
    intros Hn. pose proof (ni_reach _ _ HI) as Hsr. destruct (ex_link _ _ Hn) as [l Hl]. destruct (fine_writable _ _ _ _ _ _ Hr Hk Hl) as [W1 W2].
    assert (g_frame <$> omap accepted (n_log n) `prefix_of` peer_sent (l_peer l)) as HP by (etrans; [by eapply accepted_prefix|by eapply up_prefix; [apply Hnr|..]]).
    destruct (conn_history _ _ Hsr _ _ (keeps_in _ (reach_wf _ _ Hsr)) _ _ Hn) as (cs & st & Hx & _).
    assert (client_sent n = sends (omap accepted (n_log n))) as E.
    { eapply sent_due; [exact Hx|]. intros m Hm. apply (elem_of_list_fmap_1 g_frame) in Hm. eapply elem_of_prefix in Hm; [|exact HP]. unfold hget_of.
      destruct (fine_frames _ _ _ _ _ _ _ Hr Hl Hm) as [(o & (remote & Ho) & ->)|[[_ ->]|(_ & i & Hi & ->)]]; [|reflexivity..]. injection Ho as <-. reflexivity. }
    assert (g_frame <$> client_sent n `prefix_of` as_message <$> filter is_send (peer_sent (l_peer l))) as HP'. { rewrite E, sends_frames. by apply prefix_fmap, prefix_filter. }
    destruct (ereach_fine _ _ _ _ Hr) as [_ HF]. specialize (HF _ _ Hl). destruct c as [|c].
    - assert (filter is_send (peer_sent (l_peer l)) = []) as E0.
      { destruct (filter is_send (peer_sent (l_peer l))) as [|f fs] eqn:Ef; [done|]. exfalso. assert (f ∈ filter is_send (peer_sent (l_peer l))) as Hf by (rewrite Ef; left). apply elem_of_list_filter in Hf as [Hi Hf]. revert Hi. destruct (fine_frames _ _ _ _ _ _ _ Hr Hl Hf) as [(o & Ho & ->)|[[_ ->]|([] & _)]]; [|unfold is_send; cbn; neq_lits|done]. apply dialed_cmd in Ho. unfold is_send. rewrite Ho. neq_lits. }
      rewrite E0 in HP'. apply prefix_nil_inv in HP'. by apply fmap_nil_inv in HP'.
    - etrans; [exact HP'|]. apply prefix_fmap. assert (Hd : forall o, ex_dialed o -> ~ is_send (connect_frame o)) by (intros o Ho; apply dialed_cmd in Ho; unfold is_send; rewrite Ho; neq_lits).
      destruct (l_peer l) as [|o|o|o h kc y] eqn:Hp; cbn [peer_sent link_fine] in *; [done|rewrite filter_cons_False by auto; apply prefix_nil..|]. destruct HF as [F1 F2]. rewrite filter_cons_False by auto.
      destruct (sender_wrote _ _ _ _ (ni_client _ _ HI _ _ _ _ _ _ Hl Hp) F2) as [-> HL]. destruct F2 as (_ & F3 & _).
      rewrite FlowProofs.filter_all; [|intros f (i & -> & _)%elem_of_list_fmap; done]. apply prefix_fmap. exists (seq (1 + length (served y)) (k - length (served y))). rewrite <-seq_app. f_equal. lia.
  Qed.
  Lemma ex_asked : g_frame <$> asked_for d (x_sys x) `prefix_of` as_message <$> (send_frame d <$> seq 1 k).
  Proof.
    pose proof (reach_ordered _ _ (ni_reach _ _ HI)) as [O1 O2]. unfold asked_for. destruct (enqueues (handed (x_sys x))) as [|m0 ms] eqn:Ee; [apply prefix_nil|]. rewrite <-Ee in *.
    assert (Hby : forall m, m ∈ enqueues (handed (x_sys x)) -> exists n, y_conns (x_sys x) !! 1 = Some n /\ sent_by n m).
    { intros m Hm. destruct (O2 m Hm) as (c & n & Hn & Hs). pose proof (ex_client_sent _ _ Hn) as E. destruct c as [|[|c]]; [|by eauto|].
      - unfold sent_by in Hs. rewrite E in Hs. by apply elem_of_nil in Hs.
      - exfalso. destruct (ereach_fine _ _ _ _ Hr) as [HL _]. apply lookup_lt_Some in Hn. rewrite <-(ni_len _ _ HI) in Hn. lia. }
    destruct (Hby m0 ltac:(rewrite Ee; left)) as (n & Hn & _). pose proof (O1 _ _ Hn) as E. rewrite FlowProofs.filter_all in E; [|intros m Hm; destruct (Hby m Hm) as (n' & Hn' & ?); by simplify_eq].
    pose proof (ex_client_sent _ _ Hn) as HP. cbn iota in HP. assert (HP' : g_frame <$> enqueues (handed (x_sys x)) `prefix_of` as_message <$> (send_frame d <$> seq 1 k)). { etrans; [|exact HP]. rewrite <-E, fmap_app. by apply prefix_app_r. }
    rewrite FlowProofs.filter_all; [done|]. intros m Hm. apply (elem_of_list_fmap_1 g_frame) in Hm. eapply elem_of_prefix in Hm; [|exact HP']. apply elem_of_list_fmap in Hm as (f & Ef & Hf). apply elem_of_list_fmap in Hf as (i & -> & _). unfold to_dest, hget_of. rewrite Ef. reflexivity.
  Qed.
End ereach.

(* ---------------- what the receiver reads ---------------- *)
Section ereach.
  Context (cfg : scfg) (d : str) (k : nat) (x : net) (Hr : ereach cfg d k x) (Hk : (N.of_nat k < 2 ^ 63)%N).
  Local Notation Hnr := (ereach_nreach _ _ _ _ Hr).
  Local Notation HI := (nreach_inv _ _ Hnr).

  Lemma ex_receiver l o h kc y : x_links x !! 0 = Some l -> l_peer l = PeerClient o h kc y -> creach anything kc y /\ receiver_fine d y.
  Proof.
    intros Hl Hp. split; [by eapply (ni_client _ _ HI)|]. destruct (ereach_fine _ _ _ _ Hr) as [_ HF]. specialize (HF _ _ Hl). rewrite Hp in HF. apply HF.
  Qed.
  Lemma receiver_call y g r : receiver_fine d y -> c_gs y !! g = Some r -> g = 0 /\ g_op r = ex_subscribe d.
  Proof.
    intros HF Hg. assert ((g_op <$> c_gs y) !! g = Some (g_op r)) as E by (by rewrite list_lookup_fmap, Hg). destruct HF as [F|F]; rewrite F in E; [done|]. apply list_lookup_singleton_Some in E as [-> <-]. done.
  Qed.
  Lemma ex_asked_with kc y s b : creach anything kc y -> receiver_fine d y -> c_subs y !! s = Some b -> asked_with y s b (sub_frame d) /\ b_by b = 0.
  Proof.
    intros Hc HF Hb. destruct (rq_sub _ (reach_req _ _ _ Hc) _ _ Hb) as (h & r & f & H1 & H2 & H3 & H4). 
    destruct (receiver_call _ _ _ HF H3) as [E0 E1]. assert (f = sub_frame d) as -> by (rewrite E1, ex_subscribe_eq in H4; cbn in H4; congruence).
    split; [|done]. split_and!; [done| |reflexivity|].
    - exists r, (lit "1"), false. by rewrite E1.
    - intros j r' f' Hj _ _. rewrite E0. by destruct (receiver_call _ _ _ HF Hj).
  Qed.
  Lemma ex_takes l o h kc y s b : x_links x !! 0 = Some l -> l_peer l = PeerClient o h kc y -> c_subs y !! s = Some b -> takes x 0 s (sub_frame d) (msgs (b_read b)).
  Proof.
    intros Hl Hp Hb. destruct (ex_receiver _ _ _ _ _ Hl Hp) as [Hc HF]. destruct (fine_writable _ _ _ _ _ _ Hr Hk Hl) as [_ W]. exists l, o, h, kc, y, b. split_and!; try done. by eapply ex_asked_with.
  Qed.
  Lemma ex_bodies l o h kc y s b : is_queue d = true -> x_links x !! 0 = Some l -> l_peer l = PeerClient o h kc y -> c_subs y !! s = Some b -> f_body <$> msgs (b_read b) `prefix_of` ex_text <$> seq 1 k.
  Proof.
    intros Hq Hl Hp Hb. pose proof (ex_takes _ _ _ _ _ _ _ Hl Hp Hb) as Ht. destruct (decide (msgs (b_read b) = [])) as [->|Hne]; [apply prefix_nil|].
    destruct (takes_object _ _ _ _ _ _ Hnr Ht Hne) as (s' & sb & n & Hs & Hn & Hd & Ho & rs & R1 & -> & R3). destruct (ex_subs _ _ _ _ Hr Hk _ _ Hs) as (E1 & E2 & E3 & E4).
    pose proof (ni_reach _ _ HI) as Hsr. rewrite <-E2 in Hq. rewrite (received_tried _ _ _ _ _ Hsr Hs Hn Hq Ho) in R1.
    pose proof (steady_single _ _ (ereach_steady _ _ _ _ Hr Hk) _ _ _ Hs Hn Hq ltac:(intros; by eapply E4)) as HS.
    assert (payload <$> rs `prefix_of` payload <$> asked_for d (x_sys x)) as HP by (rewrite <-E2; etrans; [apply prefix_fmap, R1|done]).
    apply (prefix_fmap (fun m => f_body (g_frame m))) in HP. rewrite <-!list_fmap_compose in HP. rewrite <-list_fmap_compose.
    pose proof (ex_asked _ _ _ _ Hr Hk) as HA. apply (prefix_fmap f_body) in HA. rewrite <-!list_fmap_compose in HA. etrans; [exact HP|]. exact HA.
  Qed.
  Lemma ex_sub_inv b : ex_sub x = Some b -> exists l o h kc y r s, x_links x !! 0 = Some l /\ l_peer l = PeerClient o h kc y /\ c_gs y !! 0 = Some r /\ g_pc r = GDone (RSub s) /\ c_subs y !! s = Some b.
  Proof.
    unfold ex_sub, client_of. intros H. destruct (x_links x !! 0) as [l|] eqn:Hl; [|done]. destruct (l_peer l) as [|o|o|o h kc y] eqn:Hp; try done. destruct (c_gs y !! 0) as [r|] eqn:Hg; [|done].
    destruct (g_pc r) as [| | | | | | | | | |[]] eqn:Hpc; try done. by eexists _, _, _, _, _, _, _.
  Qed.
  Lemma ex_order : is_queue d = true -> f_body <$> msgs (ex_read x) `prefix_of` ex_text <$> seq 1 k.
  Proof.
    intros Hq. unfold ex_read. destruct (ex_sub x) as [b|] eqn:Hb; [|apply prefix_nil]. destruct (ex_sub_inv _ Hb) as (l & o & h & kc & y & r & s & Hl & Hp & _ & _ & Hs). by eapply ex_bodies.
  Qed.
  Lemma ex_errors l1 o l2 : ex_read x = l1 ++ CmErr o :: l2 -> no_err l1 /\ l2 = [].
  Proof.
    unfold ex_read. destruct (ex_sub x) as [b|] eqn:Hb; [|by destruct l1]. destruct (ex_sub_inv _ Hb) as (l & o' & h & kc & y & r & s & Hl & Hp & _ & _ & Hs). destruct (ex_receiver _ _ _ _ _ Hl Hp) as [Hc HF].
    intros E. destruct (reach_err_last _ _ _ Hc _ _ Hs) as [[HN|(l0 & o0 & E0 & HN & _)]|(g & r' & f & Hg & Ho & _)].
    - exfalso. rewrite E in HN. apply Forall_app in HN as [HN _]. apply Forall_app in HN as [_ HN]. apply Forall_cons in HN as [[f Hf] _]. done.
    - rewrite E, <-app_assoc in E0. cbn in E0. destruct (l2 ++ b_buf b) as [|m l3 _] eqn:E2 using rev_ind.
      + apply app_eq_nil in E2 as [-> _]. apply app_inj_tail in E0 as [-> _]. done.
      + exfalso. rewrite app_comm_cons, app_assoc in E0. apply app_inj_tail in E0 as [<- _]. apply Forall_app in HN as [_ HN]. apply Forall_cons in HN as [[f Hf] _]. done.
    - exfalso. destruct (receiver_call _ _ _ HF Hg) as [_ E1]. by rewrite E1 in Ho.
  Qed.
  Lemma msgs_no_err l : no_err l -> l = CmMsg <$> msgs l.
  Proof. induction 1 as [|m l [f ->] _ IH]; [done|]. change (msgs (CmMsg f :: l)) with (f :: msgs l). rewrite fmap_cons. by f_equal. Qed.
  Lemma ex_compare i f : is_queue d = true -> ex_read x !! i = Some (CmMsg f) -> f_body f = ex_text (S i) /\ i < k.
  Proof.
    intros Hq Hi. pose proof (ex_order Hq) as HP. apply elem_of_list_split_length in Hi as (l1 & l2 & E & ->). rewrite E in HP. unfold msgs in HP. rewrite omap_app in HP. cbn in HP. fold (msgs l1) in HP. fold (msgs l2) in HP.
    assert (no_err l1) as HN.
    { apply Forall_forall. intros m Hm. destruct m as [g|o]; [by exists g|]. exfalso. apply elem_of_list_split in Hm as (l3 & l4 & ->). rewrite <-app_assoc in E. cbn in E. apply ex_errors in E as [_ E]. by apply app_eq_nil in E as [_ E]. }
    assert (length l1 = length (msgs l1)) as -> by (rewrite (msgs_no_err _ HN) at 1; apply fmap_length).
    destruct HP as [z HP]. rewrite fmap_app in HP. cbn in HP. assert ((ex_text <$> seq 1 k) !! length (msgs l1) = Some (f_body f)) as HL.
    { rewrite HP, <-app_assoc. rewrite lookup_app_r by (rewrite fmap_length; lia). rewrite fmap_length. by rewrite Nat.sub_diag. }
    apply list_lookup_fmap_inv in HL as (j & -> & Hj). apply lookup_seq in Hj as [-> Hj]. done.
  Qed.
End ereach.

(* ---------------- the two clients ---------------- *)
(** A client is closed only by its program or by the end of its processLoop. *)
Lemma answers_closed y g f w y' : ClientLemmas.answers y g f w y' -> c_closed y' = c_closed y \/ w = FDisc.
Proof. destruct 1; by auto. Qed.
Lemma after_send_closed y ch k : c_closed (after_send y ch k) = c_closed y.
Proof. destruct k as [id| |f rest []]; done. Qed.
Lemma closing_move cfg y a y' : cmv cfg y a y' -> c_closed y = false -> c_closed y' = true ->
  ended (c_p y) = true \/ exists g r, c_gs y !! g = Some r /\ (g_op r = OMust \/ exists ch, g_pc r = GWait FDisc ch).
Proof.
  intros Hm H1 H2. destruct Hm; try (exfalso; revert H2; cbn; congruence); try (left; by match goal with H : c_p y = PMust _ |- _ => rewrite H end); try (by right; eauto 10).
  - exfalso. revert H2. cbn. unfold submit. destruct own; cbn; congruence.
  - exfalso. revert H2. by destruct (put_next k (q_chan q)).2; cbn; rewrite H1.
  - exfalso. revert H2. destruct w; cbn; congruence.
  - match goal with H : ClientLemmas.answers _ _ _ _ _ |- _ => destruct (answers_closed _ _ _ _ _ H) as [E|E] end; [|right; subst w; by eauto 10].
    exfalso. rewrite E in H2. cbn in H2. rewrite after_send_closed in H2. congruence.
  - exfalso. revert H2. cbn. rewrite after_send_closed. congruence.
Qed.
Lemma closed_cause A cfg y : creach A cfg y -> c_closed y = true -> ended (c_p y) = true \/ exists g r, c_gs y !! g = Some r /\ (g_op r = OMust \/ exists rid, g_op r = ODisconnect rid).
Proof.
  induction 1 as [|y a y' Hr IH _ Hs]; [done|]. intros Hc. pose proof (cstep_cmv _ _ _ _ Hs) as Hm.
  assert (HB : ended (c_p y) = true \/ exists g r, c_gs y !! g = Some r /\ (g_op r = OMust \/ exists rid, g_op r = ODisconnect rid)).
  { destruct (c_closed y) eqn:E; [by apply IH|]. destruct (closing_move _ _ _ _ Hm E Hc) as [|(g & r & Hg & [Ho|(ch & Hw)])]; [by left|right; by eauto|].
    right. exists g, r. split; [done|]. right. pose proof (reach_calls _ _ _ Hr _ _ Hg) as HP. rewrite Hw in HP. destruct HP as [(f & (rid & Ho & _) & _) _]. by exists rid. }
  destruct HB as [HB|(g & r & Hg & Ho)]; [left; by eapply ended_stays|right]. destruct (gchange_op _ _ _ _ (cmv_gs _ _ _ _ Hm) Hg) as (r' & Hg' & E). exists g, r'. by rewrite E.
Qed.
(** The subscription that Subscribe returns exists. *)
Definition sub_pc (s : nat) (p : gpc) : Prop := p = GDone (RSub s) \/ exists q, p = GPut (FSub s) q.
Lemma gmove_sub cfg y g o t p p' s : gmove cfg y g (OSubscribe o) t p p' -> pc_ok (OSubscribe o) p -> ~ sub_pc s p'.
Proof.
  intros Hm Hp. destruct Hm as [r H1 H2 H3| |f E|s0 f b E| u f|u ch|u ch|s0 r b| | | | | |]; intros [E'|(q & E')]; try done; cbn in *.
  all: try (injection E' as ->; cbn in H3; congruence).
  all: try (by destruct u).
  by destruct Hp.
Qed.
Lemma sub_pc_step cfg y a y' g r' o s : cmv cfg y a y' -> calls_ok y -> c_gs y' !! g = Some r' -> g_op r' = OSubscribe o -> sub_pc s (g_pc r') ->
  (exists r, c_gs y !! g = Some r /\ g_op r = OSubscribe o /\ sub_pc s (g_pc r)) \/ is_Some (c_subs y' !! s).
Proof.
  intros Hm HC Hg Ho Hpc.
  assert (HW : forall z g0 r p, c_gs y !! g0 = Some r -> c_gs z = c_gs y -> c_gs (with_g z g0 p) !! g = Some r' -> (g_op r = OSubscribe o -> sub_pc s p -> sub_pc s (g_pc r)) -> exists r, c_gs y !! g = Some r /\ g_op r = OSubscribe o /\ sub_pc s (g_pc r)).
  { intros z g0 r p H1 H2 [[_ Hj]|(-> & r0 & Hr0 & E)]%with_g_lookup Hx; rewrite H2 in *; [by eauto|]. simplify_eq. cbn in *. by eauto. }
  assert (HN : forall r e, g_op r = OSubscribe o -> sub_pc s (GDone (RErr e)) -> sub_pc s (g_pc r)) by (intros ? ? ? [|[? ?]]; done).
  assert (HN' : forall r, g_op r = OSubscribe o -> sub_pc s (GDone RNil) -> sub_pc s (g_pc r)) by (intros ? ? [|[? ?]]; done).
  destruct Hm; try (left; by eauto); try (left; eapply HW; [eassumption|reflexivity|exact Hg|]; intros _ Hx; exfalso; by destruct Hx as [|[? ?]]).
  - cbn [add_call c_gs] in Hg. apply snoc_lookup in Hg as [[_ Hg]|[-> ->]]; [left; by eauto|]. exfalso. cbn in Hpc. by destruct Hpc as [|[? ?]].
  - left. eapply HW; [done|done|exact Hg|]. intros E Hx. exfalso. match goal with H : gmove _ _ _ _ _ _ _ |- _ => rewrite E in H; eapply (gmove_sub _ _ _ _ _ _ _ s H); [rewrite <-E; by eapply HC|done] end.
  - left. eapply HW; [done|done|exact Hg|]. intros _ Hx. exfalso. destruct f; by destruct Hx as [|[? ?]].
  - left. match goal with H : submits _ _ _ _ |- _ => rename H into HS end. rewrite submit_gs' in Hg. eapply HW; [done|done|exact Hg|]. intros E Hx. exfalso. pose proof (submits_kind _ _ _ _ HS ltac:(by eapply HC)) as HK. rewrite E in HK.
    destruct Hx as [|[q Hx]]; [done|]. injection Hx as -> _. inversion HS.
  - rewrite submit_gs' in Hg. apply with_g_lookup in Hg as [[_ Hg]|(-> & r0 & Hr0 & ->)]; [left; by eauto|]. right. cbn in Hpc. destruct Hpc as [|[q Hx]]; [done|]. injection Hx as <- _. cbn. rewrite lookup_app_r by lia. by rewrite Nat.sub_diag.
  - left. destruct (put_next k (q_chan q)).2; (eapply HW; [done|done|exact Hg|]); intros E Hx; (match goal with H : g_pc r = GPut k q |- _ => rewrite H end); destruct k as [|u|s0|]; destruct (q_chan q) as [ch|]; cbn in Hx; destruct Hx as [Hx|[? Hx]]; try done; try (by destruct u).
    all: injection Hx as ->; right; by eexists.
  - left. eapply HW; [done|done|exact Hg|]. intros E Hx. exfalso. match goal with H : g_pc r = GClose _ _ _ |- _ => pose proof (HC _ _ ltac:(eassumption)) as HP; rewrite H, E in HP end. by destruct HP as [[? ?] _].
  - left. eexists. split; [|done]. revert Hg. by destruct w.
  - left. match goal with H : ClientLemmas.answers _ _ _ _ _ |- _ => destruct H end; (eapply HW; [eassumption| |exact Hg|]; [exact (after_send_gs y ch k)|]); intros E Hx; exfalso; try (destruct u); try (destruct (decide (f_cmd f = RECEIPT))); by destruct Hx as [|[? ?]].
  - left. cbn in Hg. rewrite after_send_gs in Hg. by eauto.
Qed.
Lemma reach_rsub A cfg y : creach A cfg y -> forall g r o s, c_gs y !! g = Some r -> g_op r = OSubscribe o -> sub_pc s (g_pc r) -> is_Some (c_subs y !! s).
Proof.
  induction 1 as [|y a y' Hr IH _ Hs]; [intros g r o s H; cbn in H; by rewrite lookup_nil in H|]. intros g r o s Hg Ho Hx. pose proof (cstep_cmv _ _ _ _ Hs) as Hm.
  destruct (sub_pc_step _ _ _ _ _ _ _ _ Hm (reach_calls _ _ _ Hr) Hg Ho Hx) as [(r0 & H1 & H2 & H3)|]; [|done]. destruct (IH _ _ _ _ H1 H2 H3) as [b Hb]. destruct (schange_mono _ _ _ _ (cmv_subs _ _ _ _ Hm) Hb) as (b' & -> & _). done.
Qed.

(* ---------------- what the receiver has read at the end ---------------- *)
Lemma ex_subscribed_step cfg d k x a x' : ereach cfg d k x -> ex_allowed d k x a -> nstep cfg x a = Some x' -> ex_subscribed x -> ex_subscribed x'.
Proof.
  intros Hr HA Hs. unfold ex_subscribed at 1, client_of. destruct (x_links x !! 0) as [l|] eqn:Hl; [|done]. destruct (l_peer l) as [|o|o|o h kc y] eqn:Hp; try done. intros (r & s & Hg & Hd).
  assert (exists l', x_links x' !! 0 = Some l') as [l' Hl']. { apply lookup_lt_is_Some_2. apply lookup_lt_Some in Hl. destruct (estep_links _ _ _ _ _ _ HA Hs) as [->|[_ ->]]; lia. }
  destruct (estep_peer _ _ _ _ _ _ _ _ HA Hs Hl') as [(l0 & Hl0 & [E|[(o' & h' & kc' & y0 & b & y' & Hp0 & Hcs & Hp' & _)|(o' & Hp0 & _)]])|(E & _)]; simplify_eq.
  - unfold ex_subscribed. rewrite (client_of_link x' 0 l' o h kc y Hl') by congruence. by eauto.
  - unfold ex_subscribed. rewrite (client_of_link x' 0 l' _ _ _ y' Hl' Hp'). assert (y0 = y) as -> by congruence. assert (kc' = kc) as -> by congruence. exists r, s. split; [|done].
    pose proof (ni_client _ _ (nreach_inv _ _ (ereach_nreach _ _ _ _ Hr)) _ _ _ _ _ _ Hl Hp) as Hc. eapply ClientFinal.done_stays; [|exact Hg|exact Hd]. by eapply reach_wmove, cstep_cmv.
  - congruence.
  - apply lookup_lt_Some in Hl. lia.
Qed.
Lemma ex_second cfg d k x : ereach cfg d k x -> length (x_links x) = 2 -> ex_subscribed x.
Proof.
  induction 1 as [|x a x' Hr IH HA Hs]; [done|]. intros HL. eapply ex_subscribed_step; try done. destruct (estep_links _ _ _ _ _ _ HA Hs) as [E|[(r & o & c & ->) E]]; [apply IH; congruence|].
  destruct HA as [_ [E0|[_ HS]]]; [|done]. rewrite E0 in E. cbn in E. lia.
Qed.
Definition made (c : nat) (pre : list cev) (e : cev) (y : sys) : Prop := forall m, accepted e = Some m -> cmd_of m = SUBSCRIBE -> exists s sb, y_heap y !! s = Some sb /\ s_conn sb = c.
Lemma accepted_made cfg y : reach cfg y -> forall c n pre e post, y_conns y !! c = Some n -> n_log n = pre ++ e :: post -> made c pre e y.
Proof.
  revert y. apply (log_inv_c cfg made).
  - intros y y' c pre e Hr Hm H m Ha Hc. destruct (H _ Ha Hc) as (s & sb & H1 & H2). destruct (move_hext _ _ _ (reach_wf _ _ Hr) Hm _ _ H1) as (sb' & G1 & G2).
    injection G2 as A1 A2 A3 _ _. exists s, sb'. split; congruence.
  - intros y c n x w1 w2 i n1 o Hr Hn Hph Hout Hti Hci Hmv m Ha Hc.
    destruct (conn_history _ _ Hr _ _ (keeps_in _ (reach_wf _ _ Hr)) _ _ Hn) as (cs & st & Hex & Hrun & _). destruct (Hrun Hph) as [E1 E2]. subst cs st.
    unfold accepted, client_frame, new_event in Ha. cbn in Ha. destruct (i_stop o) eqn:Hst; [done|]. destruct i; try done. injection Ha as ->.
    destruct (subscribe_object _ _ _ _ _ _ _ _ _ _ _ _ Hex Hci Hc Hst) as (id' & d' & G1 & G2 & G3 & _ & G5).
    eexists _, _. split; [cbn [take_result y_heap]; rewrite G5; apply lookup_insert|]. done.
Qed.
Lemma receiver_sent A kc y d r s : creach A kc y -> receiver_fine d y -> c_gs y !! 0 = Some r -> g_pc r = GDone (RSub s) -> c_wch y = [] -> sub_frame d ∈ client_wrote y.
Proof.
  intros Hr HF Hg Hd Hw. destruct (receiver_call d _ _ _ HF Hg) as [_ Ho].
  assert (0 ∈ served y ++ queued y) as Hin. { eapply C84_accepted; [exact Hr|exact Hg|exact Hd|]. by rewrite Ho, ex_subscribe_eq. }
  unfold queued in Hin. rewrite Hw, app_nil_r in Hin. unfold served in Hin. apply elem_of_list_omap in Hin as ([q w| |] & Hin & E); try done. injection E as E.
  destruct (C84_written _ _ _ _ _ Hr Hin) as (r' & f & Hg' & Hf & Hx). rewrite E in Hg'. simplify_eq. rewrite Ho, ex_subscribe_eq in Hf. injection Hf as <-. destruct w as [[f' b]|].
  - destruct Hx as [_ Hx]. unfold sent_as in Hx. rewrite decide_False in Hx by (cbn; neq_lits). subst f'. unfold client_wrote, wrote_in. apply elem_of_list_omap. eexists. split; [exact Hin|]. reflexivity.
  - exfalso. destruct Hx as [_ [v Hx]]. done.
Qed.
Lemma forall_or {A} (P Q : A -> Prop) l : (forall a, a ∈ l -> P a \/ Q a) -> Forall P l \/ exists a, a ∈ l /\ Q a.
Proof.
  induction l as [|a l IH]; intros H; [by left|]. destruct IH as [HF|(b & Hb & HQ)]; [intros b Hb; apply H; by right| |right; exists b; split; [by right|done]].
  destruct (H a ltac:(left)) as [HP|HQ]; [left; by constructor|right; exists a; split; [left|done]].
Qed.
(** A Send that asks for no receipt does not wait for one. *)
Lemma no_wait_step cfg y a y' g r' f : cmv cfg y a y' -> calls_ok y -> c_gs y' !! g = Some r' -> g_op r' = OSend (Some f) -> wants_receipt f = false -> g_pc r' = GDone (RErr EReceiptTimeout) -> c_gs y !! g = Some r'.
Proof.
  intros Hm HC Hg Ho Hf Hpc.
  assert (HW : forall z g0 r p, c_gs y !! g0 = Some r -> c_gs z = c_gs y -> c_gs (with_g z g0 p) !! g = Some r' -> (g_op r = OSend (Some f) -> p = GDone (RErr EReceiptTimeout) -> False) -> c_gs y !! g = Some r').
  { intros z g0 r p H1 H2 [[_ Hj]|(-> & r0 & Hr0 & E)]%with_g_lookup Hx; rewrite H2 in *; [done|]. exfalso. simplify_eq. cbn in *. by eauto. }
  destruct Hm; try exact Hg; try (eapply HW; [eassumption|reflexivity|exact Hg|]; by intros _ ?).
  - cbn [add_call c_gs] in Hg. apply snoc_lookup in Hg as [[_ Hg]|[-> ->]]; [done|]. done.
  - eapply HW; [done|done|exact Hg|]. intros E Hx. match goal with H : gmove _ _ _ _ _ ?p _ |- _ => pose proof (HC _ _ ltac:(eassumption) : pc_ok _ p) as HP; rewrite E in HP, H; destruct H; cbn in HP; try done; try (injection Hx as ->; done) end. 
    all: try (by destruct u). all: try (by destruct HP).
  - eapply HW; [done|done|exact Hg|]. intros E _. match goal with H : g_pc r = GWait _ _ |- _ => pose proof (HC _ _ ltac:(eassumption)) as HP; rewrite H, E in HP end. destruct HP as [(f' & E' & Hw) _]. cbn in E'. congruence.
  - eapply HW; [done|done|exact Hg|]. intros E _. match goal with H : g_pc r = GWait _ _ |- _ => pose proof (HC _ _ ltac:(eassumption)) as HP; rewrite H, E in HP end. destruct HP as [(f' & (? & E' & _) & Hw) _]. done.
  - eapply HW; [done|done|exact Hg|]. intros _ Hx. by destruct f0.
  - rewrite submit_gs' in Hg. eapply HW; [done|done|exact Hg|]. done.
  - destruct (put_next k (q_chan q)).2; (eapply HW; [done|done|exact Hg|]); intros E Hx; destruct k as [|u|s0|]; destruct (q_chan q) as [ch|]; cbn in Hx; try done; by destruct u.
  - eapply HW; [done|done|exact Hg|]. intros E Hx. match goal with H : g_pc r = GClose _ _ _ |- _ => pose proof (HC _ _ ltac:(eassumption)) as HP; rewrite H, E in HP end. by destruct HP as [[? ?] _].
  - revert Hg. by destruct w.
  - match goal with H : ClientLemmas.answers _ _ _ _ _ |- _ => destruct H end; (eapply HW; [eassumption| |exact Hg|]; [exact (after_send_gs y ch k)|]); intros E Hx; try (destruct u); try (destruct (decide (f_cmd f0 = RECEIPT))); done.
  - cbn in Hg. by rewrite after_send_gs in Hg.
Qed.
Lemma no_wait A cfg y : creach A cfg y -> forall g r f, c_gs y !! g = Some r -> g_op r = OSend (Some f) -> wants_receipt f = false -> g_pc r <> GDone (RErr EReceiptTimeout).
Proof.
  induction 1 as [|y a y' Hr IH _ Hs]; [intros g r f H; cbn in H; by rewrite lookup_nil in H|]. intros g r f Hg Ho Hf Hx. eapply IH; [|done..]. by eapply no_wait_step; [eapply cstep_cmv|eapply reach_calls|..].
Qed.
(** The receiver reads at most k messages. *)
Lemma subs_back cfg y a y' s b' : cmv cfg y a y' -> c_subs y' !! s = Some b' -> (exists b, c_subs y !! s = Some b) \/ b_read b' = [].
Proof.
  intros Hm Hb. destruct (cmv_subs _ _ _ _ Hm) as [E|g r f id rt H1 H2 H3 E _|s0 b b1 H1 H2 E]; rewrite E in Hb.
  - left. by exists b'.
  - apply snoc_lookup in Hb as [[_ Hb]|[_ ->]]; [left; by exists b'|by right].
  - left. apply lookup_lt_is_Some_2. apply lookup_lt_Some in Hb. by rewrite insert_length in Hb.
Qed.
Lemma reads_at_most cfg d k x : ereach cfg d k x -> forall l o h kc y s b, x_links x !! 0 = Some l -> l_peer l = PeerClient o h kc y -> c_subs y !! s = Some b -> length (b_read b) <= k.
Proof.
  induction 1 as [|x a x' Hr IH HA Hs]; [done|]. intros l' o h kc y' s b' Hl' Hp' Hb'.
  destruct (estep_peer _ _ _ _ _ _ _ _ HA Hs Hl') as [(l & Hl & [E|[(o0 & h0 & kc0 & y & a0 & y0 & Hp & Hcs & Hp0 & Ha)|(o0 & Hp & [(h0 & kc0 & Hp0)|Hp0])]])|(_ & _ & remote & o0 & cut & _ & _ & [Hp|Hp])]; try congruence.
  - eapply IH; [exact Hl|by rewrite <-E|done].
  - rewrite Hp' in Hp0. injection Hp0 as <- <- <- <-. pose proof (ni_client _ _ (nreach_inv _ _ (ereach_nreach _ _ _ _ Hr)) _ _ _ _ _ _ Hl Hp) as Hc. pose proof (cstep_cmv _ _ _ _ Hcs) as Hm.
    destruct (subs_back _ _ _ _ _ _ Hm Hb') as [[b Hb]| ->]; [|cbn; lia]. destruct (wmove_keeps _ _ _ _ _ _ (reach_wmove _ _ _ _ _ Hc Hm) Hb) as (b2 & Hb2 & HE & _). assert (b2 = b') as -> by congruence. destruct HE as [->|E]; [|rewrite E; by eapply IH].
    destruct Ha as [[i ->]|[f Ef]]; [|done]. cbn in HA. rewrite (client_of_link _ _ _ _ _ _ _ Hl Hp) in HA. destruct HA as (_ & _ & b3 & Hb3 & HL). assert (b3 = b) as -> by congruence.
    cbn in Hcs. unfold do_consume in Hcs. rewrite Hb in Hcs. destruct (b_buf b) as [|m bl]; [done|]. injection Hcs as <-. cbn in Hb'. rewrite list_lookup_insert in Hb' by (by eapply lookup_lt_Some). injection Hb' as <-. cbn. rewrite app_length. cbn. lia.
  - rewrite Hp' in Hp0. injection Hp0 as -> -> -> ->. by cbn in Hb'.
Qed.
Lemma msgs_cons m l : msgs (m :: l) = match m with CmMsg f => f :: msgs l | CmErr _ => msgs l end.
Proof. by destruct m. Qed.
Lemma msgs_length l : length (msgs l) <= length l.
Proof. induction l as [|[f|o] l IH]; [done|rewrite msgs_cons; cbn [length]; lia..]. Qed.
Lemma msgs_all l : length l <= length (msgs l) -> no_err l.
Proof.
  induction l as [|[f|o] l IH]; [constructor| |]; rewrite msgs_cons; cbn [length]; intros H.
  - constructor; [by eexists|]. apply IH. lia.
  - pose proof (msgs_length l). lia.
Qed.
Section rested.
  Context (cfg : scfg) (d : str) (k : nat) (x : net) (Hr : ereach cfg d k x) (Hk : (N.of_nat k < 2 ^ 63)%N) (Hq : is_queue d = true) (HR : rested cfg x).
  Context (l0 : link) (n0 : sconn) (k0 : ccfg) (y0 : cl) (H0 : healthy x 0 l0 n0 k0 y0) (l1 : link) (n1 : sconn) (k1 : ccfg) (y1 : cl) (H1 : healthy x 1 l1 n1 k1 y1).
  Local Notation Hnr := (ereach_nreach _ _ _ _ Hr).
  Local Notation HI := (nreach_inv _ _ Hnr).

  Lemma ex_two : length (x_links x) = 2.
  Proof. destruct H1 as (Hl & _). apply lookup_lt_Some in Hl. destruct (ereach_fine _ _ _ _ Hr) as [HL _]. lia. Qed.
  Lemma ex_has_sub : exists r s b, c_gs y0 !! 0 = Some r /\ g_pc r = GDone (RSub s) /\ c_subs y0 !! s = Some b /\ ex_sub x = Some b.
  Proof.
    destruct H0 as (Hl & Hn & (o & h & Hp) & _). pose proof (ex_second _ _ _ _ Hr ex_two) as HS. unfold ex_subscribed in HS. rewrite (client_of_link _ _ _ _ _ _ _ Hl Hp) in HS. destruct HS as (r & s & Hg & Hd).
    destruct (ex_receiver _ _ _ _ Hr _ _ _ _ _ Hl Hp) as [Hc HF]. destruct (receiver_call d _ _ _ HF Hg) as [_ Ho]. destruct (reach_rsub _ _ _ Hc _ _ _ s Hg Ho ltac:(by left)) as [b Hb].
    exists r, s, b. split_and!; try done. unfold ex_sub. by rewrite (client_of_link _ _ _ _ _ _ _ Hl Hp), Hg, Hd.
  Qed.
  Lemma ex_no_back : none_back d (x_sys x).
  Proof.
    unfold none_back. destruct (filter (to_dest d) (given_back (x_sys x))) as [|m ms] eqn:E; [done|]. exfalso. assert (m ∈ filter (to_dest d) (given_back (x_sys x))) as Hm by (rewrite E; left). apply elem_of_list_filter in Hm as [Hm1 Hm2].
    destruct (steady_back _ _ d (ereach_steady _ _ _ _ Hr Hk) ltac:(by exists m)) as (s & sb & n & Hs & _ & Hn & Hph). destruct (ex_subs _ _ _ _ Hr Hk _ _ Hs) as (E1 & _). rewrite E1 in Hn. destruct H0 as (_ & Hn' & _ & Hp & _). congruence.
  Qed.
  Lemma ex_object : exists s sb, y_heap (x_sys x) !! s = Some sb /\ s_dest sb = d /\ s_ack sb = lit "auto" /\ s_conn sb = 0 /\ s_id sb = sub_key (sub_frame d) /\ forall s' sb', y_heap (x_sys x) !! s' = Some sb' -> s_dest sb' = d -> s' = s.
  Proof.
    destruct ex_has_sub as (r & s & b & Hg & Hd & Hb & _). destruct (C77_streams _ _ _ _ _ _ _ HR H0) as (_ & _ & E1 & _ & _ & _ & E2 & _). destruct H0 as (Hl & Hn & (o & h & Hp) & _).
    destruct (ex_receiver _ _ _ _ Hr _ _ _ _ _ Hl Hp) as [Hc HF]. pose proof (receiver_sent _ _ _ _ _ _ Hc HF Hg Hd E2) as Hw.
    assert (sub_frame d ∈ g_frame <$> omap accepted (n_log n0)) as Hin by (rewrite E1, Hp; cbn; by right). apply elem_of_list_fmap in Hin as (m & Em & Hin). apply elem_of_list_omap in Hin as (e & He & Ha). apply elem_of_list_split in He as (pre & post & El).
    destruct (accepted_made _ _ (ni_reach _ _ HI) _ _ _ _ _ Hn El _ Ha ltac:(unfold cmd_of; by rewrite <-Em)) as (s' & sb & Hs & Hsc). destruct (ex_subs _ _ _ _ Hr Hk _ _ Hs) as (F1 & F2 & F3 & F4).
    exists s', sb. split_and!; try done; [by eapply steady_auto; [eapply ereach_steady|]|]. intros s2 sb2 Hs2 _. by eapply F4.
  Qed.
  Lemma ex_sends : (forall o i, ~ ex_allowed d k x (NClient 1 (XCall o) i)) -> length (c_gs y1) = k /\ (forall r, r ∈ c_gs y1 -> g_pc r = GDone RNil) \/
    exists r, r ∈ c_gs y1 /\ g_pc r = GDone (RErr ESendTimeout).
  Proof.
    intros HA. destruct H1 as (Hl & Hn & (o & h & Hp) & Hph & Hok & Hlo & Hcaps). pose proof (ni_client _ _ HI _ _ _ _ _ _ Hl Hp) as Hc. destruct (ereach_fine _ _ _ _ Hr) as [_ HF]. specialize (HF _ _ Hl). rewrite Hp in HF. destruct HF as [_ HF]. cbn in HF.
    destruct HF as (F1 & F2 & _).
    assert (Hop : forall g r, c_gs y1 !! g = Some r -> g_op r = OSend (Some (send_frame d (S g)))).
    { intros g r Hg. pose proof (f_equal (fun l => l !! g) F1) as E1. cbv beta in E1. rewrite !list_lookup_fmap, Hg, lookup_seq_lt in E1 by (by eapply lookup_lt_Some). cbn in E1. injection E1 as E1. by rewrite E1, ex_send_eq. }
    assert (c_closed y1 = false) as Hcl.
    { destruct (c_closed y1) eqn:E; [|done]. exfalso. destruct (closed_cause _ _ _ Hc E) as [He|(g & r & Hg & [Ho|[rid Ho]])]; [by rewrite Hlo in He|rewrite (Hop _ _ Hg) in Ho; done..]. }
    assert (tidy y1) as HT.
    { split_and!.
      - intros g r s f Hg Ho. by rewrite (Hop _ _ Hg) in Ho.
      - intros j r f kk i r' f' Hj Hf Hu. rewrite (Hop _ _ Hj) in Hf. injection Hf as <-. exfalso. revert Hu. cbn. neq_lits.
      - intros g r f id Hg Hf Hrc. exfalso. rewrite (Hop _ _ Hg) in Hf. injection Hf as <-. done.
      - intros g r f Hg Ho. by rewrite (Hop _ _ Hg) in Ho. }
    destruct (forall_or (fun r => g_pc r = GDone RNil) (fun r => g_pc r = GDone (RErr ESendTimeout)) (c_gs y1)) as [HN|HE]; [|left|by right].
    - intros r [g Hg]%elem_of_list_lookup. destruct (C78_send _ _ _ _ _ _ _ _ _ _ HR H1 HT Hcl Hg (Hop _ _ Hg)) as (v & Hv & [->|[[-> _]|[-> _]]]); [by left|by right|]. exfalso. by eapply (no_wait _ _ _ Hc _ _ _ Hg (Hop _ _ Hg)).
    - split; [|intros r Hin; by apply (proj1 (Forall_forall _ _) HN)]. destruct (decide (length (c_gs y1) = k)) as [|Hne]; [done|]. exfalso. eapply (HA (ex_send d (S (length (c_gs y1)))) 0). cbn. rewrite (client_of_link _ _ _ _ _ _ _ Hl Hp). split_and!; [done|lia|done].
  Qed.
  Lemma sender_served : length (c_gs y1) = k -> (forall r, r ∈ c_gs y1 -> g_pc r = GDone RNil) -> client_wrote y1 = send_frame d <$> seq 1 k.
  Proof.
    intros HL HN. destruct (C77_streams _ _ _ _ _ _ _ HR H1) as (_ & _ & _ & _ & _ & _ & E & _). destruct H1 as (Hl & Hn & (o & h & Hp) & _). pose proof (ni_client _ _ HI _ _ _ _ _ _ Hl Hp) as Hc.
    destruct (ereach_fine _ _ _ _ Hr) as [_ HF]. specialize (HF _ _ Hl). rewrite Hp in HF. destruct HF as [_ HF]. cbn in HF. destruct (sender_wrote _ _ _ _ Hc HF) as [-> HL'].
    enough (k <= length (served y1)) by (f_equal; f_equal; lia). destruct HF as (F1 & F2 & m & F3 & F4). assert (served y1 = seq 0 m) as Es by (unfold queued in F3; by rewrite E, app_nil_r in F3). rewrite Es, seq_length.
    destruct k as [|k'] eqn:Ek; [lia|]. destruct (lookup_lt_is_Some_2 (c_gs y1) k') as [r Hg]; [lia|]. assert (k' ∈ served y1 ++ queued y1) as Hin.
    { eapply C84_accepted; [exact Hc|exact Hg|apply HN; by eapply elem_of_list_lookup_2|]. pose proof (f_equal (fun l => l !! k') F1) as E1. cbv beta in E1. rewrite !list_lookup_fmap, Hg, lookup_seq_lt in E1 by (by eapply lookup_lt_Some). cbn in E1. injection E1 as E1. by rewrite E1, ex_send_eq. }
    rewrite F3 in Hin. apply elem_of_seq in Hin. lia.
  Qed.
  Lemma ex_sent : length (c_gs y1) = k -> (forall r, r ∈ c_gs y1 -> g_pc r = GDone RNil) -> length (filter (to_dest d) (sent (x_sys x))) = k.
  Proof.
    intros HL HN. pose proof (sender_served HL HN) as HW. destruct (C77_streams _ _ _ _ _ _ _ HR H1) as (_ & _ & E & _). destruct H1 as (Hl & Hn & (o & h & Hp) & _). destruct H0 as (Hl0 & Hn0 & _).
    pose proof (ni_reach _ _ HI) as Hsr. pose proof (ni_len _ _ HI) as Hlen. rewrite ex_two in Hlen. assert (y_conns (x_sys x) = [n0; n1]) as Ec.
    { destruct (y_conns (x_sys x)) as [|a [|b [|c z]]]; cbn in *; try lia. congruence. }
    pose proof (ex_client_sent _ _ _ _ Hr Hk _ _ Hn0) as E0. cbn iota in E0. unfold sent. rewrite Ec. unfold client_sent in E0. cbn. rewrite E0. cbn. rewrite app_nil_r.
    destruct (conn_history _ _ Hsr _ _ (keeps_in _ (reach_wf _ _ Hsr)) _ _ Hn) as (cs & st & Hx & _).
    rewrite (sent_due _ _ _ _ _ _ _ Hx).
    2: { intros m Hm. apply (elem_of_list_fmap_1 g_frame) in Hm. rewrite E in Hm. unfold hget_of.
      destruct (fine_frames _ _ _ _ _ _ _ Hr Hl Hm) as [(o' & (remote & Ho) & ->)|[[_ ->]|(_ & i & Hi & ->)]]; [|reflexivity..]. injection Ho as <-. reflexivity. }
    assert (g_frame <$> sends (omap accepted (n_log n1)) = as_message <$> (send_frame d <$> seq 1 k)) as ES.
    { rewrite sends_frames, E, Hp. cbn [peer_sent]. destruct (ereach_fine _ _ _ _ Hr) as [_ HF]. specialize (HF _ _ Hl). rewrite Hp in HF. destruct HF as [Ho _].
      rewrite filter_cons_False by (apply dialed_cmd in Ho; unfold is_send; rewrite Ho; neq_lits). rewrite HW. f_equal. apply FlowProofs.filter_all. intros f (i & -> & _)%elem_of_list_fmap. done. }
    rewrite FlowProofs.filter_all.
    - rewrite <-(fmap_length g_frame), ES. by rewrite !fmap_length, seq_length.
    - intros m Hm. apply (elem_of_list_fmap_1 g_frame) in Hm. rewrite ES in Hm. apply elem_of_list_fmap in Hm as (f & Ef & Hf). apply elem_of_list_fmap in Hf as (i & -> & _). unfold to_dest, hget_of. rewrite Ef. reflexivity.
  Qed.
  Lemma ex_all : (forall o i, ~ ex_allowed d k x (NClient 1 (XCall o) i)) -> ex_body <$> ex_read x = ex_text <$> seq 1 k \/ exists r, r ∈ c_gs y1 /\ g_pc r = GDone (RErr ESendTimeout).
  Proof.
    intros HA. destruct (ex_sends HA) as [[HL HN]|HE]; [left|by right]. destruct ex_has_sub as (r & s & b & Hg & Hd & Hb & Hsub).
    pose proof (ex_order _ _ _ _ Hr Hk Hq) as HP. pose proof H0 as (Hl & Hn & (o & h & Hp) & _). destruct (ex_receiver _ _ _ _ Hr _ _ _ _ _ Hl Hp) as [Hc HF].
    assert (consumes x 0 s (sub_frame d) (msgs (b_read b))) as HC.
    { exists l0, n0, k0, y0, b. split_and!; [done|by eapply ex_asked_with| |done]. intros g r' s' f Hg' Ho. destruct (receiver_call d _ _ _ HF Hg') as [_ E]. by rewrite E in Ho. }
    destruct (consumes_in_order _ _ _ _ _ _ d HR HC ltac:(reflexivity) Hq ex_no_back ex_object) as [HF2 HLen]. rewrite (ex_sent HL HN) in HLen. apply Forall2_length in HF2. rewrite HLen in HF2.
    unfold ex_read in *. rewrite Hsub in *. pose proof (reads_at_most _ _ _ _ Hr _ _ _ _ _ _ _ Hl Hp Hb) as HM.
    assert (no_err (b_read b)) as HE.
    { apply msgs_all. pose proof (msgs_length (b_read b)). lia. }
    rewrite (msgs_no_err _ HE). rewrite <-list_fmap_compose. change (ex_body ∘ CmMsg) with f_body. destruct HP as [z HP]. rewrite HP. assert (length z = 0) as Hz. { apply (f_equal length) in HP. rewrite app_length, !fmap_length, seq_length in HP. lia. } destruct z; [|done]. by rewrite app_nil_r.
  Qed.
End rested.

(* ---------------- the program comes to an end ---------------- *)
Definition calls_at (x : net) (c : nat) : nat := match client_of x c with Some y => length (c_gs y) | None => 0 end.
Definition to_do (k : nat) (x : net) : nat := (2 - length (x_links x)) + (1 - calls_at x 0) + (k - calls_at x 1).
Definition prog_move (a : nact) : Prop := match a with NDial _ _ _ | NClient _ (XCall _) _ => True | _ => False end.
Lemma calls_grow cfg d k x a x' c : ex_allowed d k x a -> nstep cfg x a = Some x' -> calls_at x c <= calls_at x' c.
Proof.
  intros HA Hs. unfold calls_at at 1, client_of. destruct (x_links x !! c) as [l|] eqn:Hl; [|lia]. destruct (l_peer l) as [|o|o|o h kc y] eqn:Hp; try lia.
  assert (exists l', x_links x' !! c = Some l') as [l' Hl']. { apply lookup_lt_is_Some_2. apply lookup_lt_Some in Hl. destruct (estep_links _ _ _ _ _ _ HA Hs) as [->|[_ ->]]; lia. }
  destruct (estep_peer _ _ _ _ _ _ _ _ HA Hs Hl') as [(l0 & Hl0 & [E|[(o' & h' & kc' & y0 & b & y' & Hp0 & Hcs & Hp' & _)|(o' & Hp0 & _)]])|(E & _)].
  - assert (l0 = l) as -> by congruence. unfold calls_at. by rewrite (client_of_link x' c l' o h kc y Hl') by congruence.
  - assert (l0 = l) as -> by congruence. assert (y0 = y) as -> by congruence. unfold calls_at. rewrite (client_of_link x' c l' _ _ _ y' Hl' Hp'). pose proof (cstep_cmv _ _ _ _ Hcs) as Hm.
    destruct (cmv_ops _ _ _ _ Hm) as [(o2 & -> & ->)|[_ Ho]]; [cbn; rewrite app_length; lia|]. apply (f_equal length) in Ho. rewrite !fmap_length in Ho. lia.
  - assert (l0 = l) as -> by congruence. congruence.
  - apply lookup_lt_Some in Hl. lia.
Qed.
Lemma calls_bound cfg d k x : ereach cfg d k x -> calls_at x 0 <= 1 /\ calls_at x 1 <= k.
Proof.
  intros Hr. destruct (ereach_fine _ _ _ _ Hr) as [_ HF]. unfold calls_at, client_of. split.
  - destruct (x_links x !! 0) as [l|] eqn:Hl; [|lia]. specialize (HF _ _ Hl). destruct (l_peer l); try lia. destruct HF as [_ [HF|HF]]; apply (f_equal length) in HF; rewrite fmap_length in HF; cbn in HF; lia.
  - destruct (x_links x !! 1) as [l|] eqn:Hl; [|lia]. specialize (HF _ _ Hl). destruct (l_peer l); try lia. by destruct HF as [_ (_ & HF & _)].
Qed.
Lemma to_do_grow cfg d k x a x' : ex_allowed d k x a -> nstep cfg x a = Some x' -> to_do k x' <= to_do k x.
Proof.
  intros HA Hs. unfold to_do. pose proof (calls_grow _ _ _ _ _ _ 0 HA Hs). pose proof (calls_grow _ _ _ _ _ _ 1 HA Hs). destruct (estep_links _ _ _ _ _ _ HA Hs) as [->|[_ ->]]; lia.
Qed.
Lemma to_do_prog cfg d k x a x' : ereach cfg d k x -> ex_allowed d k x a -> nstep cfg x a = Some x' -> prog_move a -> to_do k x' < to_do k x.
Proof.
  intros Hr HA Hs Ha. pose proof (er_step _ _ _ _ _ _ Hr HA Hs) as Hr'. destruct (calls_bound _ _ _ _ Hr') as [B0 B1]. destruct (ereach_fine _ _ _ _ Hr') as [BL _].
  pose proof (calls_grow _ _ _ _ _ _ 0 HA Hs) as G0. pose proof (calls_grow _ _ _ _ _ _ 1 HA Hs) as G1. unfold to_do. destruct a as [remote opts cut| |c0 b|c0|a i|c0 k0|c0|c0|c0 a i]; try done.
  - cbn [nstep] in Hs. destruct (new_conn_options remote opts) as [o|]; [|done]. unfold add_link in Hs. destruct (step cfg (x_sys x) AAccept) as [[|]|]; try done. apply (f_equal (fun o => match o with Some z => length (x_links z) | None => 0 end)) in Hs. cbn [x_links] in Hs. rewrite app_length in Hs. cbn [length] in Hs. lia.
  - destruct a as [o| | | | | | | | | | | | |]; try done. assert (calls_at x' c0 = S (calls_at x c0)) as E.
    { cbn [nstep] in Hs. unfold net_client in Hs. unfold calls_at, client_of. destruct (x_links x !! c0) as [l|] eqn:Hl; [|done]. destruct (l_peer l) as [| | |o' h kc y] eqn:Hp; try done. destruct (cstep kc y (XCall o)) as [[|y']|] eqn:Hcs; try done. injection Hs as <-. unfold with_link. cbn [x_links]. rewrite list_lookup_insert by (by eapply lookup_lt_Some). cbn [l_peer]. pose proof (cstep_cmv _ _ _ _ Hcs) as Hm. destruct (cmv_ops _ _ _ _ Hm) as [(o2 & _ & ->)|[Hno _]]; [|by destruct (Hno o)]. cbn [add_call c_gs]. rewrite app_length. cbn [length]. lia. }
    destruct (estep_links _ _ _ _ _ _ HA Hs) as [EL|[(? & ? & ? & ?) _]]; [|done]. destruct c0 as [|[|c0]]; [lia..|]. exfalso. destruct (ereach_fine _ _ _ _ Hr) as [BL0 _].
    cbn in HA. unfold client_of in HA. destruct (x_links x !! S (S c0)) as [l|] eqn:Hl; [|done]. apply lookup_lt_Some in Hl. lia.
Qed.
Lemma ex_stops cfg d k x : ereach cfg d k x -> forall (s : nat -> net) (t : nat -> nact), s 0 = x -> ~ forall i, (nwork (t i) \/ prog_move (t i)) /\ ex_allowed d k (s i) (t i) /\ nstep cfg (s i) (t i) = Some (s (S i)).
Proof.
  remember (to_do k x) as n eqn:En. assert (to_do k x <= n) as Hn by lia. clear En. revert x Hn. induction (lt_wf n) as [n _ IHn]. intros x Hn Hr. pose proof (nreach_ends _ _ (ereach_nreach _ _ _ _ Hr)) as HE.
  induction HE as [x _ IH]. intros s t H0 H. destruct (H 0) as (H1 & H2 & H3). rewrite H0 in *. pose proof (er_step _ _ _ _ _ _ Hr H2 H3) as Hr'.
  destruct H1 as [H1|H1].
  - apply (IH _ _ H1 H3 ltac:(pose proof (to_do_grow _ _ _ _ _ _ H2 H3); lia) Hr' (fun i => s (S i)) (fun i => t (S i))); [done|]. intros i. apply H.
  - pose proof (to_do_prog _ _ _ _ _ _ Hr H2 H3 H1) as HL. apply (IHn (to_do k (s 1)) ltac:(lia) (s 1) ltac:(lia) Hr' (fun i => s (S i)) (fun i => t (S i))); [done|]. intros i. apply H.
Qed.
Lemma ex_stuck cfg d k x l o a : ereach cfg d k x -> x_links x !! 0 = Some l -> l_peer l = PeerFailed o -> prog_move a -> ~ ex_allowed d k x a.
Proof.
  intros Hr Hl Hp Ha HA. destruct (ereach_fine _ _ _ _ Hr) as [BL _]. assert (~ ex_subscribed x) as HS by (unfold ex_subscribed, client_of; rewrite Hl, Hp; tauto).
  assert (length (x_links x) <> 2) as H2 by (intros E; by apply HS, (ex_second cfg d k)). pose proof (lookup_lt_Some _ _ _ Hl) as HL.
  destruct a as [remote opts cut| |c0 b|c0|a i|c0 k0|c0|c0|c0 a i]; try done.
  - cbn in HA. destruct HA as [_ [E|[_ E]]]; [rewrite E in HL; cbn in HL; lia|done].
  - destruct a as [op| | | | | | | | | | | | |]; try done. cbn in HA. unfold client_of in HA. destruct c0 as [|c0]; [by rewrite Hl, Hp in HA|]. destruct (x_links x !! S c0) as [l'|] eqn:Hl'; [|done]. apply lookup_lt_Some in Hl'. lia.
Qed.
