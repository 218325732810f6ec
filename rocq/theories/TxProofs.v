(** Proofs about Transaction objects. *)
From stdpp Require Import gmap.
From Verif Require NegotiationLemmas.
From Verif Require Import GoBase GoBaseProofs HeaderModel FrameModel HeaderProofs NegotiationModel ClientApiModel ClientApiSpec ClientApiProofs ClientModel ClientSpec ClientLemmas ClientProofs ClientRequests ClientCalls
  ClientChannels ClientReceipts ClientDelivery ClientFinal OrderSpec OrderProofs TxModel TxSpec.

(* ---------------- a frame without receipt is only refused when closed ---------------- *)
Definition err_closed (y : cl) : Prop :=
  forall g r f e, c_gs y !! g = Some r -> g_op r = OFrame f -> wants_receipt f = false -> g_pc r = GDone (RErr e) -> c_closed y = true.
Lemma err_closed_g y g r x : err_closed y -> c_gs y !! g = Some r -> (forall f e, g_op r = OFrame f -> wants_receipt f = false -> x = GDone (RErr e) -> c_closed y = true) -> err_closed (with_g y g x).
Proof. intros HI Hg Hx j r' f e [[_ Hj]|(-> & r0 & Hr0 & ->)]%with_g_lookup; cbn; [by eapply HI|]. simplify_eq. by eapply Hx. Qed.
Lemma err_closed_same y y' : err_closed y -> c_gs y' = c_gs y -> (c_closed y = true -> c_closed y' = true) -> err_closed y'.
Proof. intros HI E Hc g r f e. rewrite E. intros. eapply Hc, HI; eauto. Qed.
Lemma frame_done_err u x o f f' e : kind_ok o (FFrame u) f' -> o = OFrame f -> frame_done u x = GDone (RErr e) -> u = None /\ f' = f /\ x = RErr e.
Proof. intros Hk ->. destruct u as [s|]; cbn in *; [done|]. injection Hk as <-. by intros [= ->]. Qed.
Lemma err_closed_step cfg y a y' : cmv cfg y a y' -> calls_ok y -> err_closed y -> err_closed y'.
Proof.
  intros Hm HC HI. pose proof (cmv_closed _ _ _ _ Hm) as Hcl. destruct Hm; try (by eapply err_closed_same; [exact HI|done|exact Hcl]).
  - intros j r f e [[_ Hg]|[-> ->]]%snoc_lookup; [by eapply HI|done].
  - apply (err_closed_g _ _ _ _ HI H). intros f e Ho Hw Hx. pose proof (HC _ _ H) as Hp. destruct H0 as [r0 ? ? H1|? ? H1|?|? ? ? H1|u f0 ? ?|u ch ?|u ch ?|s r0 b ? ?| | | | |s b ? ?|]; cbn in Hp, Hx; try done; try (rewrite Ho in H1; done).
    + rewrite Ho in H1. by destruct H1.
    + destruct Hp as [(f0 & Hf & Hw0) _]. destruct (frame_done_err _ _ _ _ _ _ Hf Ho Hx) as (-> & -> & ?). congruence.
    + destruct Hp as [(f0 & Hf & Hw0) _]. destruct (frame_done_err _ _ _ _ _ _ Hf Ho Hx) as (-> & -> & ?). congruence.
    + destruct Hp as (f0 & Hf). congruence.
    + destruct Hp as (f0 & Hf). congruence.
  - eapply (err_closed_g (with_mut y None)); [exact HI|exact H|]. intros f e Ho. pose proof (HC _ _ H) as Hp. rewrite H0 in Hp. cbn in Hp. destruct Hp. congruence.
  - eapply (err_closed_g (with_mut y None)); [exact HI|exact H|]. intros f e Ho. pose proof (HC _ _ H) as Hp. rewrite H0 in Hp. cbn in Hp. destruct Hp as [(? & ? & _) _]. congruence.
  - eapply (err_closed_g (with_mut (with_closed y) None)); [|exact H|done]. by eapply err_closed_same; [exact HI|done|done].
  - eapply (err_closed_g (with_closed (with_wclosed y))); [|exact H|done]. by eapply err_closed_same; [exact HI|done|done].
  - eapply (err_closed_g (with_subs y _)); [exact HI|exact H|]. congruence.
  - unfold submit. destruct own; (eapply err_closed_g; [by eapply err_closed_same; [exact HI|done|done]|exact H|done]).
  - eapply err_closed_g; [by eapply err_closed_same; [exact HI|done|done]|exact H|done].
  - eapply (err_closed_g (if (put_next k (q_chan q)).2 then with_wch y (c_wch y ++ [q]) else with_mut (with_wch y (c_wch y ++ [q])) None)).
    + by destruct (put_next k (q_chan q)).2.
    + by destruct (put_next k (q_chan q)).2.
    + intros f e Ho Hw Hx. exfalso. pose proof (HC _ _ H) as Hp. rewrite H0 in Hp. destruct Hp as [Hk _]. destruct k, (q_chan q); cbn in Hx; try done. destruct u; done.
  - eapply (err_closed_g (with_subs y _)); [exact HI|exact H|]. intros f e Ho. pose proof (HC _ _ H) as Hp. rewrite H0 in Hp. destruct Hp as [(? & ?) _]. congruence.
  - eapply (err_closed_g (with_subs y _)); [exact HI|exact H|]. intros f e Ho. pose proof (HC _ _ H) as Hp. rewrite H0 in Hp. destruct Hp as (? & ?). congruence.
  - eapply (err_closed_g (with_subs y _)); [exact HI|exact H|]. intros f e Ho. pose proof (HC _ _ H) as Hp. rewrite H0 in Hp. destruct Hp as (? & ?). congruence.
  - by destruct w; eapply err_closed_same.
  - set (y1 := with_log (after_send y ch k) (PvTold ch f)) in *.
    assert (c_gs y1 = c_gs y) as E1 by (subst y1; cbn [with_log c_gs]; apply after_send_gs).
    assert (c_closed y1 = c_closed y) as E2 by (subst y1; by destruct k as [| |? ? []]).
    assert (err_closed y1) as HI1 by (eapply err_closed_same; [exact HI|done|by rewrite E2]). assert (c_gs y1 !! g = Some r) as Hg1 by (by rewrite E1).
    pose proof (HC _ _ H2) as Hp. rewrite H3 in Hp. destruct Hp as [(f0 & Hk & Hw) _].
    destruct H4.
    + eapply err_closed_g; [exact HI1|exact Hg1|]. intros f1 e Ho Hw1 Hx. destruct (frame_done_err _ _ _ _ _ _ Hk Ho Hx) as (-> & -> & ?). congruence.
    + eapply (err_closed_g (with_mut y1 None)); [exact HI1|exact Hg1|]. intros f1 e Ho. destruct H4 as [->|[? ->]]; cbn in Hk; [congruence|]. destruct Hk as (? & ? & ?). congruence.
    + eapply (err_closed_g (with_mut (with_closed y1) None)); [by eapply err_closed_same; [exact HI1|done|done]|exact Hg1|done].
    + eapply (err_closed_g (with_mut y1 None)); [exact HI1|exact Hg1|]. intros f1 e Ho. cbn in Hk. destruct Hk as (? & ? & ?). congruence.
  - destruct k as [id| |fe rest []]; by eapply err_closed_same.
Qed.
Lemma reach_err_closed A cfg y : creach A cfg y -> err_closed y.
Proof. induction 1 as [|y a y' Hr IH _ Hs]; [by intros g r f e ?|]. eapply err_closed_step; [by apply cstep_cmv|by eapply reach_calls|done]. Qed.

(* ---------------- frames ---------------- *)
Lemma tx_frame version id last op t fs r : tx_step (mkTx id false last) op SendOk version = (t, fs, r) ->
  (fs = [] /\ is_finish op = false) \/ exists f, fs = [f] /\ f_cmd f = op_cmd op /\ hd_contains (f_hdr f) (lit "transaction") = Some id.
Proof.
  intros Hs. unfold tx_step in Hs. cbn [tx_completed tx_id tx_last] in Hs. destruct op as [d c b os|m|m|rc|rc].
  - destruct (send_frame_spec last d c b os) as (l & f & E & Hc & _). rewrite E in Hs. injection Hs as <- <- <-. right. eexists. split; [done|]. split; [exact Hc|]. apply hd_contains_set_same.
  - unfold create_ack_nack in Hs. repeat case_match; simplify_eq; try (by left); right; (eexists; split; [done|]; split; [done|]; apply hd_contains_set_same).
  - unfold create_ack_nack in Hs. repeat case_match; simplify_eq; try (by left); right; (eexists; split; [done|]; split; [done|]; apply hd_contains_set_same).
  - unfold tx_finish in Hs. cbn [tx_id tx_last] in Hs. right. destruct rc; cbn in Hs; injection Hs as <- <- <-; (eexists; split; [done|]; by split).
  - unfold tx_finish in Hs. cbn [tx_id tx_last] in Hs. right. destruct rc; cbn in Hs; injection Hs as <- <- <-; (eexists; split; [done|]; by split).
Qed.
Lemma finishing_is op : finishing op = is_finish op.
Proof. done. Qed.

(* ---------------- steps ---------------- *)
Inductive xmove (cfg : ccfg) (version : str) (u : xprog) : wact -> xprog -> Prop :=
| xm_client a y : cstep cfg (x_cl u) a = Some (COk y) -> xmove cfg version u (WClient a) (mkX y (x_last u) (x_txs u) (x_calls u))
| xm_alloc : xmove cfg version u WAlloc (mkX (x_cl u) (next_id (x_last u)) (x_txs u) (x_calls u))
| xm_begin f t y : begin_tx (x_last u) = (f, t) -> cstep cfg (x_cl u) (XCall (OFrame f)) = Some (COk y) ->
    xmove cfg version u WBegin (mkX y (tx_last t) (x_txs u ++ [mkTobj (tx_id t) (length (c_gs (x_cl u))) false]) (x_calls u))
| xm_call k op o x : x_txs u !! k = Some o -> done_with (x_cl u) (x_begin o) = Some x ->
    xmove cfg version u (WCall k op) (mkX (x_cl u) (x_last u) (x_txs u) (x_calls u ++ [mkVcall k op VStart None]))
| xm_over j v o : x_calls u !! j = Some v -> x_txs u !! v_tx v = Some o -> v_pc v = VStart -> x_done o = true ->
    xmove cfg version u (WStep j) (mkX (x_cl u) (x_last u) (x_txs u) (<[j := mkVcall (v_tx v) (v_op v) (VDone VCompleted) None]> (x_calls u)))
| xm_none j v o last x : x_calls u !! j = Some v -> x_txs u !! v_tx v = Some o -> v_pc v = VStart -> x_done o = false -> is_finish (v_op v) = false -> x = VNil \/ x = VBad ->
    xmove cfg version u (WStep j) (mkX (x_cl u) last (x_txs u) (<[j := mkVcall (v_tx v) (v_op v) (VDone x) None]> (x_calls u)))
| xm_send j v o last f y : x_calls u !! j = Some v -> x_txs u !! v_tx v = Some o -> v_pc v = VStart -> x_done o = false ->
    f_cmd f = op_cmd (v_op v) -> hd_contains (f_hdr f) (lit "transaction") = Some (x_id o) -> cstep cfg (x_cl u) (XCall (OFrame f)) = Some (COk y) ->
    xmove cfg version u (WStep j) (mkX y last (x_txs u) (<[j := mkVcall (v_tx v) (v_op v) (VWait (length (c_gs (x_cl u)))) (Some (length (c_gs (x_cl u))))]> (x_calls u)))
| xm_failed j v o g e : x_calls u !! j = Some v -> x_txs u !! v_tx v = Some o -> v_pc v = VWait g -> done_with (x_cl u) g = Some (RErr e) ->
    xmove cfg version u (WStep j) (mkX (x_cl u) (x_last u) (x_txs u) (<[j := mkVcall (v_tx v) (v_op v) (VDone (VErr e)) (v_g v)]> (x_calls u)))
| xm_nil j v o g x : x_calls u !! j = Some v -> x_txs u !! v_tx v = Some o -> v_pc v = VWait g -> done_with (x_cl u) g = Some x ->
    xmove cfg version u (WStep j) (mkX (x_cl u) (x_last u)
      (if is_finish (v_op v) then <[v_tx v := mkTobj (x_id o) (x_begin o) true]> (x_txs u) else x_txs u) (<[j := mkVcall (v_tx v) (v_op v) (VDone VNil) (v_g v)]> (x_calls u))).
Lemma xstep_xmove cfg version u a u' : xstep cfg version u a = Some u' -> xmove cfg version u a u'.
Proof.
  intros Hs. destruct a as [a| | |k op|j].
  - cbn in Hs. destruct (cstep cfg (x_cl u) a) as [[p|y]|] eqn:E; simplify_eq. by constructor.
  - cbn in Hs. simplify_eq. constructor.
  - unfold xstep in Hs. destruct (begin_tx (x_last u)) as [f t] eqn:Eb. destruct (cstep cfg (x_cl u) (XCall (OFrame f))) as [[p|y]|] eqn:E; simplify_eq. by econstructor.
  - cbn in Hs. destruct (x_txs u !! k) as [o|] eqn:Ek; [|done]. destruct (done_with (x_cl u) (x_begin o)) as [x|] eqn:Ed; simplify_eq. by econstructor.
  - cbn in Hs. destruct (x_calls u !! j) as [v|] eqn:Ej; [|done]. destruct (x_txs u !! v_tx v) as [o|] eqn:Eo; [|done]. destruct (v_pc v) as [|g|r] eqn:Ep; [| |done].
    + unfold method_start in Hs. destruct (x_done o) eqn:Ed; [simplify_eq; by eapply xm_over|]. destruct (tx_step _ _ _ _) as [[t fs] r] eqn:Et. apply tx_frame in Et as [[-> Hf]|(f & -> & Hc & Hx)].
      * simplify_eq. eapply xm_none; try done. destruct r; auto.
      * destruct (cstep cfg (x_cl u) (XCall (OFrame f))) as [[p|y]|] eqn:E; simplify_eq. by eapply xm_send.
    + unfold method_end in Hs. destruct (done_with (x_cl u) g) as [[|s|e]|] eqn:Ed; simplify_eq.
      * rewrite finishing_is. by eapply xm_nil.
      * rewrite finishing_is. by eapply xm_nil.
      * by eapply xm_failed.
Qed.

(* ---------------- invariant ---------------- *)
(** Call b had returned when call g was made. *)
Definition after (cfg : ccfg) (y : cl) (b g : nat) : Prop :=
  exists y0 l x, creach anything cfg y0 /\ crun cfg y0 l = Some (COk y) /\ gave y0 b x /\ length (c_gs y0) <= g.
Lemma after_step cfg y a y' b g : cstep cfg y a = Some (COk y') -> after cfg y b g -> after cfg y' b g.
Proof. intros Hs (y0 & l & x & H1 & H2 & H3 & H4). exists y0, (l ++ [a]), x. split_and!; try done. rewrite crun_app, H2. cbn. by rewrite Hs. Qed.
Lemma done_gave y g x : done_with y g = Some x <-> gave y g x.
Proof.
  unfold done_with, gave. split.
  - destruct (c_gs y !! g) as [r|]; [|done]. destruct (g_pc r) eqn:E; intros [= <-]. eauto.
  - intros (r & -> & ->). done.
Qed.
Lemma gave_step A cfg y a y' g x : creach A cfg y -> cstep cfg y a = Some (COk y') -> gave y g x -> gave y' g x.
Proof. intros Hr Hs (r & Hg & Hx). exists r. split; [|done]. eapply done_stays; [by eapply reach_wmove; [|apply cstep_cmv]|done|done]. Qed.
Lemma op_step cfg y a y' g r : cstep cfg y a = Some (COk y') -> c_gs y !! g = Some r -> exists r', c_gs y' !! g = Some r' /\ g_op r' = g_op r.
Proof. intros Hs Hg. apply cstep_cmv, cmv_gs in Hs. by eapply gchange_op. Qed.

Record xinv (cfg : ccfg) (u : xprog) : Prop := {
  xi_cl : creach anything cfg (x_cl u);
  xi_tx : forall k o, x_txs u !! k = Some o -> exists r fb, c_gs (x_cl u) !! x_begin o = Some r /\ g_op r = OFrame fb /\ f_cmd fb = lit "BEGIN" /\ f_hdr fb = [(lit "transaction", x_id o)];
  xi_call : forall j v, x_calls u !! j = Some v -> exists o x, x_txs u !! v_tx v = Some o /\ gave (x_cl u) (x_begin o) x /\
    match v_pc v with VStart => v_g v = None | VWait g => v_g v = Some g | VDone r => (forall g, v_g v = Some g -> exists x, gave (x_cl u) g x) /\ (is_Some (v_g v) -> r = VNil \/ exists e, r = VErr e) end /\
    (forall g, v_g v = Some g -> exists r f, c_gs (x_cl u) !! g = Some r /\ g_op r = OFrame f /\ f_cmd f = op_cmd (v_op v) /\ hd_contains (f_hdr f) (lit "transaction") = Some (x_id o) /\ after cfg (x_cl u) (x_begin o) g) /\
    (v_pc v = VDone VNil -> is_finish (v_op v) = true -> x_done o = true) }.

Lemma xinv_step cfg version u a u' : xmove cfg version u a u' -> xinv cfg u -> xinv cfg u'.
Proof.
  intros Hm [I1 I2 I3].
  (* the connection moves *)
  assert (HC : forall a y, cstep cfg (x_cl u) a = Some (COk y) -> creach anything cfg y /\
    (forall k o, x_txs u !! k = Some o -> exists r fb, c_gs y !! x_begin o = Some r /\ g_op r = OFrame fb /\ f_cmd fb = lit "BEGIN" /\ f_hdr fb = [(lit "transaction", x_id o)]) /\
    (forall j v, x_calls u !! j = Some v -> exists o x, x_txs u !! v_tx v = Some o /\ gave y (x_begin o) x /\
      match v_pc v with VStart => v_g v = None | VWait g => v_g v = Some g | VDone r => (forall g, v_g v = Some g -> exists x, gave y g x) /\ (is_Some (v_g v) -> r = VNil \/ exists e, r = VErr e) end /\
      (forall g, v_g v = Some g -> exists r f, c_gs y !! g = Some r /\ g_op r = OFrame f /\ f_cmd f = op_cmd (v_op v) /\ hd_contains (f_hdr f) (lit "transaction") = Some (x_id o) /\ after cfg y (x_begin o) g) /\
      (v_pc v = VDone VNil -> is_finish (v_op v) = true -> x_done o = true))).
  { intros c y Hs. split_and!.
    - by eapply cr_step.
    - intros k o Hk. destruct (I2 _ _ Hk) as (r & fb & Hg & Ho & H1 & H2). destruct (op_step _ _ _ _ _ _ Hs Hg) as (r' & Hg' & Ho'). exists r', fb. split_and!; try done. congruence.
    - intros j v Hj. destruct (I3 _ _ Hj) as (o & x & H1 & H2 & H3 & H4 & H5). exists o, x. split_and!; try done.
      + by eapply gave_step.
      + destruct (v_pc v); [done..|]. destruct H3 as [H3 H3']. split; [|done]. intros g Hg. destruct (H3 g Hg) as [x' Hx']. exists x'. by eapply gave_step.
      + intros g Hg. destruct (H4 _ Hg) as (r & f & G1 & G2 & G3 & G4 & G5). destruct (op_step _ _ _ _ _ _ Hs G1) as (r' & Hg' & Ho'). exists r', f. split_and!; try done; [congruence|by eapply after_step]. }
  destruct Hm as [c y Hs| |f t y Hb Hs|k op o x Hk Hd|j v o Hj Ho Hp Hx|j v o last x Hj Ho Hp Hx Hf Hr|j v o last f y Hj Ho Hp Hx Hf Ht Hs|j v o g e Hj Ho Hp Hd|j v o g x Hj Ho Hp Hd].
  - destruct (HC _ _ Hs) as (K1 & K2 & K3). by constructor.
  - by constructor.
  - destruct (HC _ _ Hs) as (K1 & K2 & K3). constructor; cbn [x_cl x_txs x_calls]; [done| |].
    + intros k o [[_ Hk]|[-> ->]]%snoc_lookup; [by eapply K2|]. cbn [x_begin x_id]. unfold begin_tx in Hb. injection Hb as <- <-. cbn in Hs. injection Hs as <-. cbn. eexists _, _.
      rewrite list_lookup_middle by done. done.
    + intros j v Hj. destruct (K3 _ _ Hj) as (o & x & H1 & H). exists o, x. split; [by apply lookup_app_l_Some|done].
  - constructor; cbn [x_cl x_txs x_calls]; [done|done|]. intros j v [[_ Hj]|[-> ->]]%snoc_lookup; [by eapply I3|]. exists o, x. cbn. split_and!; try done. by apply done_gave.
  - constructor; cbn [x_cl x_txs x_calls]; [done|done|]. intros i w [(<- & <- & _)|[_ Hi]]%list_lookup_insert_Some; [|by eapply I3].
    destruct (I3 _ _ Hj) as (o' & x & H1 & H2 & H). exists o', x. cbn. split_and!; try done. by intros [].
  - constructor; cbn [x_cl x_txs x_calls]; [done|done|]. intros i w [(<- & <- & _)|[_ Hi]]%list_lookup_insert_Some; [|by eapply I3].
    destruct (I3 _ _ Hj) as (o' & x' & H1 & H2 & H). exists o', x'. cbn. split_and!; try done; [by intros []|]. by rewrite Hf.
  - destruct (HC _ _ Hs) as (K1 & K2 & K3). constructor; cbn [x_cl x_txs x_calls]; [done|done|]. intros i w [(<- & <- & _)|[_ Hi]]%list_lookup_insert_Some; [|by eapply K3].
    destruct (I3 _ _ Hj) as (o' & x' & H1 & H2 & H). destruct (K3 _ _ Hj) as (o'' & x'' & H1' & H2' & _). simplify_eq. exists o, x''. cbn [v_tx v_op v_pc v_g]. split_and!; try done.
    intros g [= <-]. pose proof Hs as Hs'. cbn in Hs'. destruct (negb (is_sub_cmd f)); [|done]. injection Hs' as <-. eexists _, f. cbn [c_gs]. rewrite list_lookup_middle by done. split_and!; try done.
    exists (x_cl u), [XCall (OFrame f)], x'. split_and!; try done. cbn [crun]. by rewrite Hs.
  - constructor; cbn [x_cl x_txs x_calls]; [done|done|]. intros i w [(<- & <- & _)|[_ Hi]]%list_lookup_insert_Some; [|by eapply I3].
    destruct (I3 _ _ Hj) as (o' & x' & H1 & H2 & H3 & H4 & H5). exists o', x'. cbn. split_and!; try done; [|by eauto]. rewrite Hp in H3. intros g' Hg'. assert (g' = g) as -> by congruence. exists (RErr e). by apply done_gave.
  - assert (HT : forall k o', x_txs u !! k = Some o' -> exists o'', (if is_finish (v_op v) then <[v_tx v := mkTobj (x_id o) (x_begin o) true]> (x_txs u) else x_txs u) !! k = Some o'' /\ x_id o'' = x_id o' /\ x_begin o'' = x_begin o' /\ (x_done o' = true -> x_done o'' = true) /\ (k = v_tx v -> is_finish (v_op v) = true -> x_done o'' = true)).
    { intros k o' Hk. destruct (is_finish (v_op v)); [|by exists o']. destruct (decide (k = v_tx v)) as [->|Hn].
      - simplify_eq. eexists. rewrite list_lookup_insert by (by eapply lookup_lt_Some). by split_and!.
      - exists o'. by rewrite list_lookup_insert_ne by done. }
    constructor; cbn [x_cl x_txs x_calls]; [done| |].
    + intros k o'. destruct (is_finish (v_op v)); [|exact (I2 k o')]. intros [(<- & <- & _)|[_ Hk]]%list_lookup_insert_Some; [|exact (I2 _ _ Hk)]. exact (I2 _ _ Ho).
    + intros i w [(<- & <- & _)|[_ Hi]]%list_lookup_insert_Some.
      * destruct (I3 _ _ Hj) as (o' & x' & H1 & H2 & H3 & H4 & H5). destruct (HT _ _ H1) as (o'' & T1 & T2 & T3 & T4 & T5). exists o'', x'. cbn [v_tx v_op v_pc v_g]. rewrite T2, T3. split_and!; try done; [|by left|by intros _; apply T5].
        rewrite Hp in H3. intros g' Hg'. assert (g' = g) as -> by congruence. exists x. by apply done_gave.
      * destruct (I3 _ _ Hi) as (o' & x' & H1 & H2 & H3 & H4 & H5). destruct (HT _ _ H1) as (o'' & T1 & T2 & T3 & T4 & T5). exists o'', x'. rewrite T2, T3. split_and!; try done. intros Q1 Q2. by apply T4, H5.
Qed.
Lemma reach_xinv A cfg version u : xreach A cfg version u -> xinv cfg u.
Proof. induction 1 as [|u a u' Hr IH _ Hs]; [constructor; [constructor|done|done]|]. by eapply xinv_step; [apply xstep_xmove|]. Qed.

(* ---------------- order of writes ---------------- *)
Lemma omap_split {X Y} (F : X -> option Y) (l : list X) x l1 l2 : omap F l = l1 ++ x :: l2 -> exists L1 e L2, l = L1 ++ e :: L2 /\ omap F L1 = l1 /\ F e = Some x /\ omap F L2 = l2.
Proof.
  revert l1. induction l as [|e l IH]; intros l1 E; cbn in E; [by destruct l1|]. destruct (F e) as [z|] eqn:Ez.
  - destruct l1 as [|z' l1]; cbn in E; injection E as -> E.
    + by exists [], e, l.
    + destruct (IH _ E) as (L1 & e' & L2 & -> & H1 & H2 & H3). exists (e :: L1), e', L2. cbn. rewrite Ez, H1. done.
  - destruct (IH _ E) as (L1 & e' & L2 & -> & H1 & H2 & H3). exists (e :: L1), e', L2. cbn. rewrite Ez, H1. done.
Qed.
Lemma written_split y g f l1 l2 : written y = l1 ++ (g, f) :: l2 -> exists L1 q w L2, c_log y = L1 ++ PvReq q (Some (f, w)) :: L2 /\ q_by q = g /\
  omap (fun e => match e with PvReq q (Some (f, _)) => Some (q_by q, f) | _ => None end) L1 = l1 /\ omap (fun e => match e with PvReq q (Some (f, _)) => Some (q_by q, f) | _ => None end) L2 = l2.
Proof.
  intros E. destruct (omap_split _ _ _ _ _ E) as (L1 & e & L2 & -> & H1 & H2 & H3). destruct e as [q [[f' w]|]| |]; try done. injection H2 as <- ->. by exists L1, q, w, L2.
Qed.
Lemma written_frame A cfg y g f : creach A cfg y -> (g, f) ∈ written y -> exists r f0, c_gs y !! g = Some r /\ op_frame (g_op r) = Some f0 /\ sent_as f0 f.
Proof.
  intros Hr (e & He & Hx)%elem_of_list_omap. destruct e as [q [[f' w]|]| |]; try done. injection Hx as <- ->. destruct (rq_ok _ (reach_req _ _ _ Hr) q) as (r & Hg & Ho & _); [right; left; by eapply log_req_in|].
  exists r, (q_frame q). split_and!; try done. destruct (mi_wr _ (reach_map _ _ _ Hr) _ _ He) as [-> _]. apply outgoing_ok.
Qed.
Lemma after_order cfg y b g f l1 l2 : after cfg y b g -> written y = l1 ++ (g, f) :: l2 -> b ∉ l2.*1.
Proof.
  intros (y0 & l & x & Hr & Hl & Hg & Hj) E. assert (Hs : exists k1 k2, served y = k1 ++ g :: k2 /\ l2.*1 `sublist_of` k2).
  { pose proof (written_served y) as HS. rewrite E, fmap_app in HS. apply sublist_app_l in HS as (k1 & k2 & -> & _ & HS). cbn in HS. apply sublist_cons_l in HS as (k3 & k4 & -> & HS). exists (k1 ++ k3), k4. by rewrite <-app_assoc. }
  destruct Hs as (k1 & k2 & Es & Hsub). intros Hin. eapply (calls_order _ _ _ _ _ _ _ k1 (k2 ++ queued y)); [exact Hr|exact Hl|exact Hg|exact Hj| |].
  - by rewrite allr_served, Es, <-app_assoc.
  - apply elem_of_app. left. by eapply elem_of_submseteq; [|apply sublist_submseteq].
Qed.
Lemma run_gave cfg y l y' g x : creach anything cfg y -> crun cfg y l = Some (COk y') -> gave y g x -> gave y' g x.
Proof.
  intros Hr Hl Hg. eapply (run_keeps (fun z => gave z g x) anything); [|exact Hr|exact Hg|apply Forall_any|exact Hl].
  intros z a z' Hz (r & Hgz & Hx) _ Hm. exists r. split; [|done]. eapply done_stays; [by eapply reach_wmove|done|done].
Qed.
(** A call without receipt whose frame is among those written, or was made
    before one that is. *)
Lemma plain_first cfg y b g f fb l1 l2 rb : creach anything cfg y -> after cfg y b g -> c_gs y !! b = Some rb -> g_op rb = OFrame fb -> wants_receipt fb = false -> f_cmd fb <> lit "UNSUBSCRIBE" -> ~ stays fb ->
  written y = l1 ++ (g, f) :: l2 -> (b, fb) ∈ l1.
Proof.
  intros Hry (y0 & l & x & Hr & Hl & Hg & Hj) Hb Ho Hw Hcmd Hst E.
  assert (Hgy : gave y b x) by (by eapply run_gave).
  assert (Hgb : exists r0, c_gs y0 !! b = Some r0 /\ g_op r0 = OFrame fb /\ g_pc r0 = GDone x).
  { destruct Hg as (r0 & H0 & Hx0). assert (gave y b x /\ c_gs y !! b = Some r0) as [_ H1].
    { split; [done|]. eapply (run_keeps (fun z => c_gs z !! b = Some r0) anything); [|exact Hr|exact H0|apply Forall_any|exact Hl]. intros z a z' Hz Hgz _ Hm. eapply done_stays; [by eapply reach_wmove|done|done]. }
    simplify_eq. by exists rb. }
  destruct Hgb as (r0 & Hb0 & Ho0 & Hx0). destruct (written_split _ _ _ _ _ E) as (L1 & q & w & L2 & EL & Hq & EL1 & EL2).
  assert (Hbn : b <> g) by (apply lookup_lt_Some in Hb0; lia).
  assert (Hacc : accepted (g_op rb) x \/ exists e, x = RErr e) by (destruct x as [| |e]; [left; by rewrite Ho|by left|eauto]).
  destruct Hacc as [Ha|[e ->]].
  2:{ exfalso. assert (c_closed y0 = true) as Hc by (eapply (reach_err_closed _ _ _ Hr); eauto). pose proof (latter_run _ _ _ _ _ Hr (latter_start _ _ Hr Hc) Hl) as [_ _ L].
      assert (q_by q < length (c_gs y0)); [|lia]. apply L. right; left. eapply log_req_in. rewrite EL. apply elem_of_app. right. left. }
  destruct Hgy as (r1 & Hr1 & Hx1). simplify_eq.
  assert (b ∈ served y ++ queued y) as Hin by (rewrite <- allr_served; apply (reach_sent _ _ _ Hry _ _ Hb); by rewrite Hx1).
  unfold served in Hin. rewrite EL, omap_app in Hin. cbn [omap list_omap] in Hin.
  assert (Hno : b ∉ omap (fun e => match e with PvReq q _ => Some (q_by q) | _ => None end) L2 ++ queued y).
  { eapply calls_order; [exact Hr|exact Hl|by exists r0|exact Hj|]. rewrite allr_served. unfold served. rewrite EL, omap_app. cbn [omap list_omap]. by rewrite <- app_assoc. }
  rewrite <- app_assoc in Hin. apply elem_of_app in Hin as [Hin|Hin].
  2:{ exfalso. cbn in Hin. apply elem_of_cons in Hin as [->|Hin]; [done|]. by apply Hno. }
  apply elem_of_list_omap in Hin as (e & He & Hx). destruct e as [q' w'| |]; try done. injection Hx as Eq.
  assert (He' : PvReq q' w' ∈ c_log y) by (rewrite EL; apply elem_of_app; by left).
  destruct (rq_ok _ (reach_req _ _ _ Hry) q') as (r' & Hg' & Ho' & _); [right; left; by eapply log_req_in|]. rewrite Eq, Hb in Hg'. injection Hg' as <-. rewrite Ho in Ho'. injection Ho' as Ef.
  pose proof (mi_wr _ (reach_map _ _ _ Hry) _ _ He') as Hwr. apply elem_of_list_omap. exists (PvReq q' w'). split; [done|]. destruct w' as [[f' bw]|].
  - destruct Hwr as [-> _]. rewrite Eq, <- Ef. f_equal. f_equal. pose proof (outgoing_ok fb) as H. unfold sent_as in H. by rewrite decide_False in H.
  - exfalso. apply Hst, stays_ok. by rewrite Ef.
Qed.

(* ---------------- the transaction ---------------- *)
Lemma begin_written cfg u k o j op g f l1 l2 : xinv cfg u -> x_txs u !! k = Some o -> method u j k op g -> written (x_cl u) = l1 ++ (g, f) :: l2 ->
  exists fb, (x_begin o, fb) ∈ l1 /\ f_cmd fb = lit "BEGIN" /\ f_hdr fb = [(lit "transaction", x_id o)].
Proof.
  intros [I1 I2 I3] Hk (v & Hj & <- & <- & Hg) E. destruct (I2 _ _ Hk) as (rb & fb & Hb & Ho & Hc & Hh). destruct (I3 _ _ Hj) as (o' & x & Ho' & _ & _ & H4 & _). simplify_eq.
  destruct (H4 _ Hg) as (_ & _ & _ & _ & _ & _ & Ha). exists fb. split; [|done]. eapply plain_first; [exact I1|exact Ha|exact Hb|exact Ho| | | |exact E].
  - unfold wants_receipt. by rewrite Hh.
  - by rewrite Hc.
  - intros [[H|H] _]; by rewrite Hc in H.
Qed.
Lemma carries cfg u k o j op g f : xinv cfg u -> x_txs u !! k = Some o -> method u j k op g -> (g, f) ∈ written (x_cl u) ->
  f_cmd f = op_cmd op /\ hd_contains (f_hdr f) (lit "transaction") = Some (x_id o).
Proof.
  intros [I1 I2 I3] Hk (v & Hj & <- & <- & Hg) Hw. destruct (I3 _ _ Hj) as (o' & x & Ho' & _ & _ & H4 & _). simplify_eq. destruct (H4 _ Hg) as (r & f0 & Hr & Ho & Hc & Hh & _).
  destruct (written_frame _ _ _ _ _ I1 Hw) as (r' & f1 & Hr' & Ho1 & Hs). simplify_eq. rewrite Ho in Ho1. injection Ho1 as <-.
  unfold sent_as in Hs. rewrite decide_False in Hs by (rewrite Hc; by destruct (v_op v)). by subst f.
Qed.

(** After the end. *)
Record past (u u' : xprog) (k : nat) : Prop := {
  pa_done : exists o, x_txs u' !! k = Some o /\ x_done o = true;
  pa_len : length (x_calls u) <= length (x_calls u');
  pa_new : forall j v, length (x_calls u) <= j -> x_calls u' !! j = Some v -> v_tx v = k -> v_g v = None /\ (v_pc v = VStart \/ v_pc v = VDone VCompleted) }.
Lemma past_step cfg version u u1 a u2 k : xmove cfg version u1 a u2 -> past u u1 k -> past u u2 k.
Proof.
  intros Hm [(o0 & Hk & Hd) P2 P3]. destruct Hm as [c y Hs| |f t y Hb Hs|k0 op o x Hk0 Hd0|j v o Hj Ho Hp Hx|j v o last x Hj Ho Hp Hx Hf Hr|j v o last f y Hj Ho Hp Hx Hf Ht Hs|j v o g e Hj Ho Hp Hd0|j v o g x Hj Ho Hp Hd0];
    constructor; cbn [x_txs x_calls]; rewrite ?insert_length, ?app_length; try done; try (by eauto); try lia.
  - exists o0. split; [by apply lookup_app_l_Some|done].
  - intros j v Hj [[_ Hv]|[-> ->]]%snoc_lookup; [by eapply P3|]. cbn. auto.
  - intros i w Hi [(<- & <- & _)|[_ Hw]]%list_lookup_insert_Some; [|by eapply P3]. cbn. auto.
  - intros i w Hi [(<- & <- & _)|[_ Hw]]%list_lookup_insert_Some; [|by eapply P3]. cbn. intros E. rewrite E in Ho. simplify_eq. congruence.
  - intros i w Hi [(<- & <- & _)|[_ Hw]]%list_lookup_insert_Some; [|by eapply P3]. cbn. intros E. rewrite E in Ho. simplify_eq. congruence.
  - intros i w Hi [(<- & <- & _)|[_ Hw]]%list_lookup_insert_Some; [|by eapply P3]. cbn. intros E. destruct (P3 _ _ Hi Hj E) as [_ [H|H]]; congruence.
  - destruct (is_finish (v_op v)); [|by eauto]. destruct (decide (k = v_tx v)) as [->|Hn].
    + eexists. rewrite list_lookup_insert by (by eapply lookup_lt_Some). done.
    + exists o0. by rewrite list_lookup_insert_ne by done.
  - intros i w Hi [(<- & <- & _)|[_ Hw]]%list_lookup_insert_Some; [|by eapply P3]. cbn. intros E. destruct (P3 _ _ Hi Hj E) as [_ [H|H]]; congruence.
Qed.
Lemma after_end A cfg version u u' k j v : xreach A cfg version u -> ended u k -> xpath A cfg version u u' -> length (x_calls u) <= j -> x_calls u' !! j = Some v -> v_tx v = k ->
  v_g v = None /\ (v_pc v = VStart \/ v_pc v = VDone VCompleted).
Proof.
  intros Hr (i & w & Hi & Hk & Hf & Hd) Hp. assert (past u u' k) as [_ _ P]; [|intros H1 H2 H3; by eapply P].
  induction Hp as [|u1 a u2 _ IH _ Hs]; [|by eapply past_step; [apply xstep_xmove|]].
  destruct (xi_call _ _ (reach_xinv _ _ _ _ Hr) _ _ Hi) as (o & x & Ho & _ & _ & _ & H5). constructor; [subst k; eauto|done|]. intros j' v' Hl Hj'%lookup_lt_Some. lia.
Qed.

(* ---------------- one call at a time ---------------- *)
Record oneinv (cfg : ccfg) (u : xprog) : Prop := {
  oi_over : forall i j v w, x_calls u !! i = Some v -> x_calls u !! j = Some w -> i < j -> v_tx v = v_tx w -> v_over v = true;
  oi_order : forall i j v w g g', x_calls u !! i = Some v -> x_calls u !! j = Some w -> i < j -> v_tx v = v_tx w -> v_g v = Some g -> v_g w = Some g' ->
    after cfg (x_cl u) g g' /\ (is_finish (v_op v) = true -> exists e, v_pc v = VDone (VErr e)) }.
Lemma oneinv_step cfg version u a u' : xmove cfg version u a u' -> serial u a -> xinv cfg u -> oneinv cfg u -> oneinv cfg u'.
Proof.
  intros Hm HA [I1 I2 I3] [O1 O2].
  assert (HC : forall a y, cstep cfg (x_cl u) a = Some (COk y) -> forall i j v w g g', x_calls u !! i = Some v -> x_calls u !! j = Some w -> i < j -> v_tx v = v_tx w -> v_g v = Some g -> v_g w = Some g' ->
    after cfg y g g' /\ (is_finish (v_op v) = true -> exists e, v_pc v = VDone (VErr e))).
  { intros c y Hs i j v w g g' Hi Hj Hlt Ht Hg Hg'. destruct (O2 _ _ _ _ _ _ Hi Hj Hlt Ht Hg Hg') as [H1 H2]. split; [by eapply after_step|done]. }
  (* an update of call j that keeps the transaction *)
  assert (HO : forall j v p g, x_calls u !! j = Some v -> v_over v = false -> forall i i' v1 w1, <[j := mkVcall (v_tx v) (v_op v) p g]> (x_calls u) !! i = Some v1 -> <[j := mkVcall (v_tx v) (v_op v) p g]> (x_calls u) !! i' = Some w1 -> i < i' -> v_tx v1 = v_tx w1 -> v_over v1 = true).
  { intros j v p g Hj Hv i i' v1 w1 [(<- & <- & _)|[N1 Hi]]%list_lookup_insert_Some [(<- & <- & _)|[N2 Hi']]%list_lookup_insert_Some Hlt Ht; cbn in *; try lia.
    - exfalso. by rewrite (O1 _ _ _ _ Hj Hi' Hlt Ht) in Hv.
    - by eapply O1; [exact Hi|exact Hj|lia|].
    - by eapply O1. }
  destruct Hm as [c y Hs| |f t y Hb Hs|k op o x Hk Hd|j v o Hj Ho Hp Hx|j v o last x Hj Ho Hp Hx Hf Hr|j v o last f y Hj Ho Hp Hx Hf Ht Hs|j v o g e Hj Ho Hp Hd|j v o g x Hj Ho Hp Hd];
    try (assert (v_over v = false) as Hv by (unfold v_over; by rewrite Hp)); constructor; cbn [x_cl x_calls]; try done; try (by eapply HC); try (by eapply HO).
  - intros i j v w [[Hl Hi]|[-> ->]]%snoc_lookup [[Hl' Hj]|[-> ->]]%snoc_lookup Hlt Ht; try (by eapply O1); try lia. cbn in Ht.
    specialize (HA k op eq_refl). rewrite Forall_forall in HA. eapply HA; [by eapply elem_of_list_lookup_2|done].
  - intros i j v w g g' [[Hl Hi]|[-> ->]]%snoc_lookup [[Hl' Hj]|[-> ->]]%snoc_lookup Hlt Ht Hg Hg'; try (by eapply O2); try lia.
  - intros i i' v1 w1 g g' [(<- & <- & _)|[N1 Hi]]%list_lookup_insert_Some [(<- & <- & _)|[N2 Hi']]%list_lookup_insert_Some Hlt Ht Hg Hg'; cbn [v_tx v_op v_pc v_g] in *; try done. by eapply O2.
  - intros i i' v1 w1 g g' [(<- & <- & _)|[N1 Hi]]%list_lookup_insert_Some [(<- & <- & _)|[N2 Hi']]%list_lookup_insert_Some Hlt Ht Hg Hg'; cbn [v_tx v_op v_pc v_g] in *; try done. by eapply O2.
  - intros i i' v1 w1 g g' [(<- & <- & _)|[N1 Hi]]%list_lookup_insert_Some [(<- & <- & _)|[N2 Hi']]%list_lookup_insert_Some Hlt Ht0 Hg Hg'; cbn [v_tx v_op v_pc v_g] in *; try lia.
    + exfalso. by rewrite (O1 _ _ _ _ Hj Hi' Hlt Ht0) in Hv.
    + injection Hg' as <-. assert (Hv1 : v_over v1 = true) by (eapply O1; [exact Hi|exact Hj|lia|done]). destruct (I3 _ _ Hi) as (o' & x' & Ho' & _ & Q3 & _ & Q5). unfold v_over in Hv1. destruct (v_pc v1) as [| |r1] eqn:Ep; try done. destruct Q3 as [Q3 Q3']. split.
      * destruct (Q3 _ Hg) as [x1 Hx1]. exists (x_cl u), [XCall (OFrame f)], x1. split_and!; try done. cbn [crun]. by rewrite Hs.
      * intros Hfin. destruct Q3' as [->|[e ->]]; [by rewrite Hg| |eauto]. exfalso. specialize (Q5 eq_refl Hfin). rewrite Ht0 in Ho'. simplify_eq. congruence.
    + by eapply HC.
  - intros i i' v1 w1 g1 g' [(<- & <- & _)|[N1 Hi]]%list_lookup_insert_Some [(<- & <- & _)|[N2 Hi']]%list_lookup_insert_Some Hlt Ht0 Hg Hg'; cbn [v_tx v_op v_pc v_g] in *; try lia.
    + exfalso. by rewrite (O1 _ _ _ _ Hj Hi' Hlt Ht0) in Hv.
    + eapply O2; [exact Hi|exact Hj|lia|done..].
    + by eapply O2.
  - intros i i' v1 w1 g1 g' [(<- & <- & _)|[N1 Hi]]%list_lookup_insert_Some [(<- & <- & _)|[N2 Hi']]%list_lookup_insert_Some Hlt Ht0 Hg Hg'; cbn [v_tx v_op v_pc v_g] in *; try lia.
    + exfalso. by rewrite (O1 _ _ _ _ Hj Hi' Hlt Ht0) in Hv.
    + eapply O2; [exact Hi|exact Hj|lia|done..].
    + by eapply O2.
Qed.
Lemma reach_one cfg version u : xreach serial cfg version u -> oneinv cfg u.
Proof. induction 1 as [|u a u' Hr IH HA Hs]; [by constructor|]. eapply oneinv_step; [by apply xstep_xmove|done|by eapply reach_xinv|done]. Qed.

(* ---------------- identifiers ---------------- *)
Lemma next_id_more n : (n <= next_id n)%N -> (n < next_id n)%N.
Proof.
  unfold next_id. intros H. destruct (decide (n + 1 < 2 ^ 64)%N) as [Hn|Hn]; [rewrite N.mod_small in * by done; lia|].
  pose proof (N.mod_lt (n + 1) (2 ^ 64) ltac:(done)). assert (n + 1 = 2 ^ 64)%N as E by lia. rewrite E, N.mod_same in H by done. lia.
Qed.
Definition numbered (u : xprog) : Prop := forall k o, x_txs u !! k = Some o -> exists n, x_id o = format_uint n /\ (n <= x_last u)%N /\ forall k' o', k' < k -> x_txs u !! k' = Some o' -> exists n', x_id o' = format_uint n' /\ (n' < n)%N.
Lemma reach_numbered (A : xprog -> wact -> Prop) cfg version u : (forall v a, A v a -> unwrapped cfg version v a) -> xreach A cfg version u -> numbered u.
Proof.
  intros HA. induction 1 as [|u a u' Hr IH Ha Hs]; [done|]. apply HA in Ha. specialize (Ha _ Hs). apply xstep_xmove in Hs.
  assert (HM : x_txs u' = x_txs u -> numbered u').
  { intros E k o. rewrite E. intros Hk. destruct (IH _ _ Hk) as (n & H1 & H2 & H3). exists n. split_and!; [done|lia|done]. }
  destruct Hs as [c y Hs| |f t y Hb Hs|k0 op o x Hk0 Hd0|j v o Hj Ho Hp Hx|j v o last x Hj Ho Hp Hx Hf Hr0|j v o last f y Hj Ho Hp Hx Hf Ht Hs|j v o g e Hj Ho Hp Hd0|j v o g x Hj Ho Hp Hd0]; try (by apply HM).
  - unfold begin_tx in Hb. injection Hb as <- <-. cbn [x_txs x_last tx_last tx_id] in *. apply next_id_more in Ha. intros k o [[_ Hk]|[-> ->]]%snoc_lookup.
    + destruct (IH _ _ Hk) as (n & H1 & H2 & H3). exists n. split_and!; [done|cbn; lia|]. intros k' o' Hlt Hk'. apply (H3 k' o' Hlt). cbn in Hk'. by rewrite lookup_app_l in Hk' by (apply lookup_lt_Some in Hk; lia).
    + exists (next_id (x_last u)). cbn [x_id x_txs x_last]. split_and!; [done|done|]. intros k' o' Hlt Hk'. rewrite lookup_app_l in Hk' by done. destruct (IH _ _ Hk') as (n & H1 & H2 & _). exists n. split; [done|lia].
  - destruct (is_finish (v_op v)); [|by apply HM]. cbn [x_last] in Ha.
    assert (HK : forall k o', <[v_tx v:={| x_id := x_id o; x_begin := x_begin o; x_done := true |}]> (x_txs u) !! k = Some o' -> exists o'', x_txs u !! k = Some o'' /\ x_id o' = x_id o'').
    { intros k o' [(<- & <- & _)|[_ Hk]]%list_lookup_insert_Some; [by exists o|by exists o']. }
    intros k o' Hk. cbn [x_txs x_last] in *. destruct (HK _ _ Hk) as (o2 & Hk2 & E2). destruct (IH _ _ Hk2) as (n & H1 & H2 & H3). exists n. split_and!; [congruence|done|].
    intros k' o3 Hlt Hk3. destruct (HK _ _ Hk3) as (o4 & Hk4 & E4). rewrite E4. by eapply H3.
Qed.
Lemma numbered_distinct u : numbered u -> NoDup (x_id <$> x_txs u).
Proof.
  intros HN. apply NoDup_alt. intros i j x (o & -> & Hi)%list_lookup_fmap_inv (o' & E & Hj)%list_lookup_fmap_inv.
  assert (forall i j o o', x_txs u !! i = Some o -> x_txs u !! j = Some o' -> x_id o = x_id o' -> i < j -> False) as H.
  { intros i0 j0 o1 o2 H1 H2 Hid Hlt. destruct (HN _ _ H2) as (n & E2 & _ & H3). destruct (H3 _ _ Hlt H1) as (n' & E1 & Hn). rewrite E1, E2 in Hid. apply format_uint_inj in Hid. lia. }
  destruct (decide (i = j)) as [|Hn]; [done|]. exfalso. destruct (decide (i < j)); [by eapply (H i j)|]. eapply (H j i); [done|done|done|lia].
Qed.

(* ---------------- the frames of a transaction ---------------- *)
Lemma finish_shape cfg u k o j op g f l1 l2 : xinv cfg u -> oneinv cfg u -> x_txs u !! k = Some o -> private u k (x_id o) ->
  (forall i v e, x_calls u !! i = Some v -> v_tx v = k -> is_finish (v_op v) = true -> v_pc v <> VDone (VErr e)) -> is_finish op = true -> method u j k op g -> written (x_cl u) = l1 ++ (g, f) :: l2 ->
  exists pre fb mid, l1 = pre ++ (x_begin o, fb) :: mid /\ f_cmd fb = lit "BEGIN" /\ hd_contains (f_hdr fb) (lit "transaction") = Some (x_id o) /\
    (forall p, p ∈ pre ++ l2 -> hd_contains (f_hdr p.2) (lit "transaction") <> Some (x_id o)) /\
    (forall p, p ∈ mid -> hd_contains (f_hdr p.2) (lit "transaction") = Some (x_id o) -> exists i op', method u i k op' p.1 /\ is_finish op' = false /\ f_cmd p.2 = op_cmd op').
Proof.
  intros HI HO Hk Hpriv Herr Hfin Hm E. destruct (begin_written _ _ _ _ _ _ _ _ _ _ HI Hk Hm E) as (fb & Hin & Hc & Hh). apply elem_of_list_split in Hin as (pre & mid & ->).
  pose proof (xi_cl _ _ HI) as Hr. assert (HND : NoDup (written (x_cl u)).*1).
  { destruct (reach_uniq _ _ _ Hr) as [H _]. rewrite allr_served in H. apply NoDup_app in H as (H & _). eapply sublist_NoDup; [apply written_served|done]. }
  (* whose a frame is *)
  assert (HW : forall p, p ∈ written (x_cl u) -> hd_contains (f_hdr p.2) (lit "transaction") = Some (x_id o) -> p.1 = x_begin o \/ p.1 = g \/
    exists i op', method u i k op' p.1 /\ is_finish op' = false /\ after cfg (x_cl u) p.1 g /\ after cfg (x_cl u) (x_begin o) p.1).
  { intros [h x] Hp Ht. cbn in *. destruct (written_frame _ _ _ _ _ Hr Hp) as (r & f0 & Hg & Ho & Hs). assert (hd_contains (f_hdr f0) (lit "transaction") = Some (x_id o)) as Ht0.
    { unfold sent_as in Hs. destruct (decide _); [|by subst]. destruct Hs as (_ & _ & _ & H). by rewrite <- H. }
    destruct (Hpriv _ _ _ Hg Ho Ht0) as [(o' & Ho' & <-)|(i & op' & Hi)]; [left; congruence|]. right. pose proof Hm as Hm'. destruct Hm as (v & Hj & Hvt & Hvo & Hvg). pose proof Hi as Hi'. destruct Hi as (w & Hi & Hwt & Hwo & Hwg).
    destruct (xi_call _ _ HI _ _ Hi) as (o2 & _ & Ho2 & _ & _ & Q & _). destruct (Q _ Hwg) as (_ & _ & _ & _ & _ & _ & Ha). rewrite Hwt in Ho2. simplify_eq.
    destruct (decide (i = j)) as [->|Hn]; [left; congruence|]. right. exists i, (v_op w). split_and!; try done.
    - destruct (is_finish (v_op w)) eqn:Ef; [|done]. exfalso. destruct (decide (i < j)).
      + destruct (oi_order _ _ HO i j w v h g) as [_ H]; try done. destruct (H Ef) as [e He]. by eapply (Herr i w e).
      + destruct (oi_order _ _ HO j i v w g h) as [_ H]; try done; [lia|]. destruct (H Hfin) as [e He]. by eapply (Herr j v e).
    - destruct (decide (i < j)).
      + by destruct (oi_order _ _ HO i j w v h g) as [H _].
      + exfalso. destruct (oi_order _ _ HO j i v w g h) as [_ H]; try done; [lia|]. destruct (H Hfin) as [e He]. by eapply (Herr j v e). }
  exists pre, fb, mid. rewrite E in HND. rewrite fmap_app, fmap_app in HND. cbn in HND.
  split_and!; [done|done|by rewrite Hh| |].
  - intros [h x] [Hp|Hp]%elem_of_app Ht; cbn in Ht.
    + apply elem_of_list_split in Hp as (p1 & p2 & ->). destruct (HW (h, x)) as [Eh|[Eh|(i & op' & _ & _ & _ & Ha)]]; [rewrite E; set_solver|done| | |]; cbn in *.
      * subst h. rewrite fmap_app in HND. cbn in HND. apply NoDup_app in HND as (HND & _). apply NoDup_app in HND as (_ & HND & _). apply (HND (x_begin o)); [set_solver|left].
      * subst h. apply NoDup_app in HND as (_ & HND & _). apply (HND g); [|left]. rewrite fmap_app. set_solver.
      * eapply (after_order cfg (x_cl u) (x_begin o) h x p1 (p2 ++ (x_begin o, fb) :: mid ++ (g, f) :: l2)); [exact Ha|rewrite E; by rewrite <- !app_assoc|]. rewrite fmap_app. set_solver.
    + destruct (HW (h, x)) as [Eh|[Eh|(i & op' & _ & _ & Ha & _)]]; [rewrite E; set_solver|done| | |]; cbn in *.
      * subst h. apply NoDup_app in HND as (_ & HND & _). apply (HND (x_begin o)); [set_solver|]. right. apply elem_of_list_fmap. by exists (x_begin o, x).
      * subst h. apply NoDup_app in HND as (_ & _ & HND). apply NoDup_cons in HND as [HND _]. apply HND. apply elem_of_list_fmap. by exists (g, x).
      * eapply (after_order cfg (x_cl u) h g f (pre ++ (x_begin o, fb) :: mid) l2); [exact Ha|done|]. apply elem_of_list_fmap. by exists (h, x).
  - intros [h x] Hp Ht. cbn in *. destruct (HW (h, x)) as [Eh|[Eh|(i & op' & Hi & Hf & _)]]; [rewrite E; set_solver|done| | |]; cbn in *.
    + subst h. exfalso. apply NoDup_app in HND as (HND & _). apply NoDup_app in HND as (_ & _ & HND). apply NoDup_cons in HND as [HND _]. apply HND. apply elem_of_list_fmap. by exists (x_begin o, x).
    + subst h. exfalso. apply NoDup_app in HND as (_ & HND & _). apply (HND g); [|left]. apply elem_of_app. right. right. apply elem_of_list_fmap. by exists (g, x).
    + exists i, op'. split_and!; [done|done|]. eapply carries; [done|done|done|]. rewrite E. set_solver.
Qed.

(* ---------------- results ---------------- *)
Record rescall (u : xprog) (v : vcall) : Prop := {
  rc_frame : forall g, v_g v = Some g -> exists r f, c_gs (x_cl u) !! g = Some r /\ g_op r = OFrame f /\ tx_frame_ok (v_op v) f;
  rc_res : match v_pc v with
           | VStart => v_g v = None
           | VWait g => v_g v = Some g
           | VDone VNil => (exists g x, v_g v = Some g /\ gave (x_cl u) g x /\ forall e, x <> RErr e) \/ v_g v = None /\ tx_needs_no_frame (v_op v)
           | VDone (VErr e) => exists g, v_g v = Some g /\ gave (x_cl u) g (RErr e)
           | VDone VCompleted => v_g v = None /\ ended u (v_tx v)
           | VDone VBad => v_g v = None
           end }.
Definition resinv (u : xprog) : Prop :=
  (forall k o, x_txs u !! k = Some o -> x_done o = true -> ended u k) /\ forall j v, x_calls u !! j = Some v -> rescall u v.
(** What is left alone: calls that are over, what the calls of the connection
    have been asked and have returned. *)
Definition further (u u' : xprog) : Prop :=
  (forall j v r, x_calls u !! j = Some v -> v_pc v = VDone r -> x_calls u' !! j = Some v) /\
  (forall g r, c_gs (x_cl u) !! g = Some r -> exists r', c_gs (x_cl u') !! g = Some r' /\ g_op r' = g_op r) /\
  (forall g x, gave (x_cl u) g x -> gave (x_cl u') g x).
Lemma ended_further u u' k : further u u' -> ended u k -> ended u' k.
Proof. intros (H & _) (j & v & Hj & Hk & Hf & Hp). exists j, v. split_and!; try done. by eapply H. Qed.
Lemma rescall_further u u' v : further u u' -> rescall u v -> rescall u' v.
Proof.
  intros HF [H1 H2]. pose proof HF as (F1 & F2 & F3). constructor.
  - intros g Hg. destruct (H1 g Hg) as (r & f & Hr & Ho & Ht). destruct (F2 _ _ Hr) as (r' & Hr' & Ho'). exists r', f. split_and!; try done. congruence.
  - destruct (v_pc v) as [| |[| | |e]]; try done.
    + destruct H2 as [(g & x & Hg & Hx & He)|H2]; [|by right]. left. exists g, x. split_and!; try done. by apply F3.
    + destruct H2 as [H2 H3]. split; [done|]. by eapply ended_further.
    + destruct H2 as (g & Hg & Hx). exists g. split; [done|]. by apply F3.
Qed.
Lemma resinv_step A cfg version u a u' : NegotiationLemmas.supported version -> xreach A cfg version u -> xstep cfg version u a = Some u' -> resinv u -> resinv u'.
Proof.
  intros Hv Hr Hs [I1 I2]. pose proof (xi_cl _ _ (reach_xinv _ _ _ _ Hr)) as Hcl.
  assert (HC : forall c y, cstep cfg (x_cl u) c = Some (COk y) -> (forall g r, c_gs (x_cl u) !! g = Some r -> exists r', c_gs y !! g = Some r' /\ g_op r' = g_op r) /\ (forall g x, gave (x_cl u) g x -> gave y g x)).
  { intros c y Hc. split; [intros g r; by eapply op_step|intros g x; by eapply gave_step]. }
  assert (HJ : forall j w v r, (forall r, v_pc w <> VDone r) -> x_calls u !! j = Some w -> forall i x, x_calls u !! i = Some v -> v_pc v = VDone r -> <[j := x]> (x_calls u) !! i = Some v).
  { intros j w v r Hw Hj i x Hi Hvd. rewrite list_lookup_insert_ne; [done|]. intros ->. simplify_eq. by eapply Hw. }
  destruct a as [c| | |k op|j].
  - cbn in Hs. destruct (cstep cfg (x_cl u) c) as [[p|y]|] eqn:E; simplify_eq. destruct (HC _ _ E) as [F2 F3].
    assert (HF : further u (mkX y (x_last u) (x_txs u) (x_calls u))) by by split_and!. split; cbn [x_txs x_calls].
    + intros k o Hk Ho. eapply ended_further; [exact HF|]. by eapply I1.
    + intros i v Hi. eapply rescall_further; [exact HF|]. by eapply I2.
  - cbn in Hs. simplify_eq. assert (HF : further u (mkX (x_cl u) (next_id (x_last u)) (x_txs u) (x_calls u))) by (split_and!; eauto).
    split; cbn [x_txs x_calls]; [intros k o Hk Ho; eapply ended_further; [exact HF|by eapply I1]|intros i v Hi; eapply rescall_further; [exact HF|by eapply I2]].
  - unfold xstep in Hs. destruct (begin_tx (x_last u)) as [f t] eqn:Eb. destruct (cstep cfg (x_cl u) (XCall (OFrame f))) as [[p|y]|] eqn:E; simplify_eq. destruct (HC _ _ E) as [F2 F3].
    match goal with |- resinv ?x => assert (HF : further u x) by by split_and! end. split; cbn [x_txs x_calls].
    + intros k o [[_ Hk]|[-> ->]]%snoc_lookup Ho; [|done]. eapply ended_further; [exact HF|]. by eapply I1.
    + intros i v Hi. eapply rescall_further; [exact HF|]. by eapply I2.
  - cbn in Hs. destruct (x_txs u !! k) as [o|] eqn:Ek; [|done]. destruct (done_with (x_cl u) (x_begin o)) as [x|] eqn:Ed; simplify_eq.
    match goal with |- resinv ?x => assert (HF : further u x) end.
    { split_and!; cbn [x_cl x_calls]; [|eauto|eauto]. intros i v r Hi _. by apply lookup_app_l_Some. }
    split; cbn [x_txs x_calls].
    + intros k' o' Hk Ho. eapply ended_further; [exact HF|]. by eapply I1.
    + intros i v [[_ Hi]|[-> ->]]%snoc_lookup; [|by constructor]. eapply rescall_further; [exact HF|]. by eapply I2.
  - cbn in Hs. destruct (x_calls u !! j) as [v|] eqn:Ej; [|done]. destruct (x_txs u !! v_tx v) as [o|] eqn:Eo; [|done]. destruct (v_pc v) as [|g|r] eqn:Ep; [| |done].
    + assert (Hw : forall r, v_pc v <> VDone r) by (intros r; by rewrite Ep). unfold method_start in Hs. destruct (x_done o) eqn:Ed.
      { simplify_eq. match goal with |- resinv ?x => assert (HF : further u x) end.
        { split_and!; cbn [x_cl x_calls]; [|eauto|eauto]. intros i w r Hi Hp. by eapply HJ. }
        split; cbn [x_txs x_calls].
        - intros k' o' Hk Ho. eapply ended_further; [exact HF|]. by eapply I1.
        - intros i w [(<- & <- & _)|[_ Hi]]%list_lookup_insert_Some; [|eapply rescall_further; [exact HF|by eapply I2]].
          constructor; cbn; [done|]. split; [done|]. eapply ended_further; [exact HF|]. by eapply I1. }
      destruct (tx_step (mkTx (x_id o) false (x_last u)) (v_op v) SendOk version) as [[t fs] r] eqn:Et.
      destruct (tx_step_result _ (mkTx (x_id o) false (x_last u)) _ _ _ _ _ Hv eq_refl Et) as (T1 & T2 & _ & _). destruct fs as [|f fs].
      * simplify_eq. match goal with |- resinv ?x => assert (HF : further u x) end.
        { split_and!; cbn [x_cl x_calls]; [|eauto|eauto]. intros i w r' Hi Hp. by eapply HJ. }
        split; cbn [x_txs x_calls]; [intros k' o' Hk Ho; eapply ended_further; [exact HF|by eapply I1]|].
        intros i w [(<- & <- & _)|[_ Hi]]%list_lookup_insert_Some; [|eapply rescall_further; [exact HF|by eapply I2]].
        constructor; cbn; [done|]. destruct r; [|done..]. right. split; [done|]. destruct (proj1 T2 eq_refl) as [[? _]|?]; done.
      * destruct (T1 f) as (E0 & _ & T3 & _); [set_solver|]. injection E0 as ->. destruct (cstep cfg (x_cl u) (XCall (OFrame f))) as [[p|y]|] eqn:E; simplify_eq. destruct (HC _ _ E) as [F2 F3].
        match goal with |- resinv ?x => assert (HF : further u x) end.
        { split_and!; cbn [x_cl x_calls]; [|eauto|eauto]. intros i w r' Hi Hp. by eapply HJ. }
        split; cbn [x_txs x_calls]; [intros k' o' Hk Ho; eapply ended_further; [exact HF|by eapply I1]|].
        intros i w [(<- & <- & _)|[_ Hi]]%list_lookup_insert_Some; [|eapply rescall_further; [exact HF|by eapply I2]].
        constructor; cbn; [|done]. intros g [= <-]. cbn in E. destruct (negb (is_sub_cmd f)); [|done]. injection E as <-. eexists _, f. cbn [c_gs]. rewrite list_lookup_middle by done. by split_and!.
    + assert (Hw : forall r, v_pc v <> VDone r) by (intros r; by rewrite Ep). destruct (I2 _ _ Ej) as [R1 R2]. rewrite Ep in R2. unfold method_end in Hs.
      destruct (done_with (x_cl u) g) as [x|] eqn:Ed; [|done]. apply done_gave in Ed.
      assert (HF : forall q last txs, further u (mkX (x_cl u) last txs (<[j := mkVcall (v_tx v) (v_op v) q (v_g v)]> (x_calls u)))).
      { intros q last txs. split_and!; cbn [x_cl x_calls]; [|eauto|eauto]. intros i w r' Hi Hp. by eapply HJ. }
      assert (HN : (forall e, x <> RErr e) -> resinv (mkX (x_cl u) (x_last u) (if finishing (v_op v) then <[v_tx v := mkTobj (x_id o) (x_begin o) true]> (x_txs u) else x_txs u) (<[j := mkVcall (v_tx v) (v_op v) (VDone VNil) (v_g v)]> (x_calls u)))).
      { intros He. split; cbn [x_txs x_calls].
        - intros k' o' Hk Ho. destruct (decide (finishing (v_op v) = true /\ k' = v_tx v)) as [[Hf ->]|Hn].
          + exists j. eexists. cbn [x_calls]. rewrite list_lookup_insert by (by eapply lookup_lt_Some). by split_and!.
          + eapply ended_further; [apply HF|]. eapply (I1 k' o'); [|done]. destruct (finishing (v_op v)); [|done]. rewrite list_lookup_insert_ne in Hk; [done|]. intros E1. by destruct Hn.
        - intros i w [(<- & <- & _)|[_ Hi]]%list_lookup_insert_Some; [|eapply rescall_further; [apply HF|by eapply I2]].
          constructor; cbn [v_g v_op v_pc]; [exact R1|]. left. by exists g, x. }
      destruct x as [|s|e]; [injection Hs as <-; by apply HN|injection Hs as <-; by apply HN|]. simplify_eq. split; cbn [x_txs x_calls]; [intros k' o' Hk Ho; eapply ended_further; [apply HF|by eapply I1]|].
      intros i w [(<- & <- & _)|[_ Hi]]%list_lookup_insert_Some; [|eapply rescall_further; [apply HF|by eapply I2]].
      constructor; cbn [v_g v_op v_pc]; [exact R1|]. by exists g.
Qed.
Lemma reach_res A cfg version u : NegotiationLemmas.supported version -> xreach A cfg version u -> resinv u.
Proof. intros Hv. induction 1 as [|u a u' Hr IH _ Hs]; [by split|]. by eapply resinv_step. Qed.
