(** C67: read timeouts. *)
From stdpp Require Import gmap.
From Verif Require Import GoBase HeaderModel FrameModel GrammarSpec NegotiationModel NegotiationSpec TimerModel AliveModel AliveProofs.
From Verif Require ClientModel ClientProps.
Local Open Scope Z.

(** C67.  Full statement: a station that hears something at least once per read
    timeout does not end the connection for silence.

    Client, the part that holds: whenever processLoop can take the branch of
    the expired read timer, everything heard before that instant was heard at
    least R ago, or the loop has come out of a Write that took time at this
    very instant. *)
Definition gives_up (cfg : ClientModel.ccfg) (s : rcl) : Prop :=
  rc_write s = None /\ exists dl y', rc_timer s = Some dl /\ dl <= rc_now s /\
  ClientModel.cstep cfg (rc_y s) ClientModel.XReadTimeout = Some (ClientModel.COk y').
Theorem C67_client_partial : forall A cfg R s, 0 < R -> rcreach A cfg R s -> gives_up cfg s ->
  (forall a, a ∈ rc_heard s -> a < rc_now s -> a + R <= rc_now s) \/ rc_freed s = Some (rc_now s).
Proof. intros A cfg R s HR Hr (Hw & dl & y' & Ht & Hdl & Hc). exact (client_patient A cfg R s dl y' HR Hr Hw Ht Hdl Hc). Qed.
Print Assumptions C67_client_partial.

(** Server, the part that holds: when a Read runs into its deadline although
    its item is still to come, that item is complete only more than twice the
    read timeout after the last byte of the item before. *)
Theorem C67_server_partial : forall cfg input s dl it t rest, sreads cfg input s -> too_late s dl ->
  next_item (sr_left s) = Some (it, t, rest) -> exists pre p c, input = pre ++ (p, c) :: sr_left s /\ p + 2 * sr_wait s < t.
Proof. exact server_patient. Qed.
Print Assumptions C67_server_partial.
(** Items are what the grammar says: the first line end or frame. *)
Theorem C67_item : forall l it t rest, next_item l = Some (it, t, rest) <->
  exists pre c, l = pre ++ (t, c) :: rest /\ match it with None => eol_line (pre.*2 ++ [c]) [] | Some f => encodes (pre.*2 ++ [c]) f end.
Proof. exact next_item_text. Qed.
Print Assumptions C67_item.

(** With both ends of this library (the conditions are those of C15): the
    server cuts the client off only if an item was complete more than two of
    the client's own heart-beat intervals after the one before, ... *)
Theorem C67_server_with_client_partial : forall c o sc ts reply input s dl it t rest,
  0 <= o_hberr o <= 2 ^ 62 -> o_read o <= 0 \/ 1000000 <= o_read o ->
  handle_connect c (connect_frame o) = inr sc -> server_read_timeout c (connect_frame o) = Some ts ->
  (exists raw more, input.*2 = raw ++ more /\ encodes raw (connect_frame o)) ->
  sreads c input s -> too_late s dl -> next_item (sr_left s) = Some (it, t, rest) ->
  exists cc pre p b, client_connect o (RFrame (sc_response sc) reply) = CConnected cc /\ 0 < cc_write cc /\
    input = pre ++ (p, b) :: sr_left s /\ p + 2 * cc_write cc < t.
Proof. exact server_hears_client. Qed.
Print Assumptions C67_server_with_client_partial.
(** ... and the client gives up only after one of the server's intervals. *)
Theorem C67_client_with_server_partial : forall A cfg c o sc ts cc reply s,
  0 <= o_hberr o <= 2 ^ 62 -> o_read o <= 0 \/ 1000000 <= o_read o ->
  handle_connect c (connect_frame o) = inr sc -> server_read_timeout c (connect_frame o) = Some ts ->
  client_connect o (RFrame (sc_response sc) reply) = CConnected cc -> 0 < cc_read cc ->
  rcreach A cfg (cc_read cc) s -> gives_up cfg s ->
  0 < sc_write sc /\ ((forall a, a ∈ rc_heard s -> a < rc_now s -> a + sc_write sc <= rc_now s) \/ rc_freed s = Some (rc_now s)).
Proof.
  intros A cfg c o sc ts cc reply s H1 H2 H3 H4 H5 HR Hr (Hw & dl & y' & Ht & Hdl & Hc).
  exact (client_hears_server A cfg c o sc ts cc reply s dl y' H1 H2 H3 H4 H5 HR Hr Hw Ht Hdl Hc).
Qed.
Print Assumptions C67_client_with_server_partial.

(* ------------------------------------------------------------------ *)
(** Concrete runs, client. *)
Local Instance select_dec y : Decision (at_select y).
Proof. unfold at_select. destruct (ClientModel.c_p y); [left; done|right; done..]. Defined.
Inductive ract := RWait (d : Z) | RWriting (d : Z) | RWritten | RSlow (a : ClientModel.cact) | RDo (a : ClientModel.cact).
Definition rdo_step (cfg : ClientModel.ccfg) (R : Z) (s : rcl) (slow : bool) (a : ClientModel.cact) : option rcl :=
  if loop_act a && match rc_write s with None => false | _ => true end then None
  else if match a with ClientModel.XReadTimeout => match rc_timer s with Some dl => dl <=? rc_now s | None => false end | _ => true end then
    match ClientModel.cstep cfg (rc_y s) a with
    | Some (ClientModel.COk y') =>
        if negb slow || (write_act a && bool_decide (at_select y')) then
          Some (mkRcl (rc_now s) (read_timer R (rc_now s) (rc_timer s) a y') (if slow then Some (rc_now s) else rc_write s) (rc_freed s)
            (rc_heard s ++ match a with ClientModel.XRecv _ => [rc_now s] | _ => [] end) y')
        else None
    | _ => None
    end
  else None.
Definition rdo (cfg : ClientModel.ccfg) (R : Z) (s : rcl) (a : ract) : option rcl :=
  match a with
  | RWait d => if 0 <=? d then
      match rc_write s, ClientModel.c_rch (rc_y s), rc_timer s with
      | None, [], Some dl => if (rc_now s + d <=? dl) && bool_decide (at_select (rc_y s)) then
          Some (mkRcl (rc_now s + d) (rc_timer s) None (rc_freed s) (rc_heard s) (rc_y s)) else None
      | _, _, _ => None
      end else None
  | RWriting d => if 0 <=? d then
      match rc_write s with Some st => Some (mkRcl (rc_now s + d) (rc_timer s) (Some st) (rc_freed s) (rc_heard s) (rc_y s)) | None => None end else None
  | RWritten => match rc_write s with
      | Some st => Some (mkRcl (rc_now s) (rc_timer s) None (if decide (st < rc_now s) then Some (rc_now s) else rc_freed s) (rc_heard s) (rc_y s))
      | None => None end
  | RSlow a => rdo_step cfg R s true a
  | RDo a => rdo_step cfg R s false a
  end.
Lemma rdo_step_reach cfg R s slow a s' : rcreach ClientModel.anything cfg R s -> rdo_step cfg R s slow a = Some s' -> rcreach ClientModel.anything cfg R s'.
Proof.
  intros H. unfold rdo_step. destruct (loop_act a && _) eqn:E1; [done|]. destruct (match a with ClientModel.XReadTimeout => _ | _ => true end) eqn:E2; [|done].
  destruct (ClientModel.cstep cfg (rc_y s) a) as [[p|y']|] eqn:Ec; [done| |done]. destruct (negb slow || _) eqn:E3; [|done]. intros [= <-].
  apply rr_step; try done.
  - intros Hl. rewrite Hl in E1. by destruct (rc_write s).
  - intros ->. destruct (rc_timer s) as [dl|]; [|done]. exists dl. split; [done|]. lia.
  - intros ->. apply andb_prop in E3 as [? ?%bool_decide_eq_true]. done.
Qed.
Lemma rdo_reach cfg R s a s' : rcreach ClientModel.anything cfg R s -> rdo cfg R s a = Some s' -> rcreach ClientModel.anything cfg R s'.
Proof.
  intros H. destruct a as [d|d| |a|a]; cbn [rdo].
  - destruct (0 <=? d) eqn:Ed; [|done]. destruct (rc_write s) eqn:Ew; [done|]. destruct (ClientModel.c_rch (rc_y s)) eqn:Er; [|done].
    destruct (rc_timer s) as [dl|] eqn:Et; [|done]. destruct (_ && _) eqn:E; [|done]. intros [= <-]. apply andb_prop in E as [? ?%bool_decide_eq_true].
    rewrite <-Et. apply rr_wait; try done; [lia|]. intros dl' Hdl'. assert (dl' = dl) as -> by congruence. lia.
  - destruct (0 <=? d) eqn:Ed; [|done]. destruct (rc_write s) as [st|] eqn:Ew; [|done]. intros [= <-]. apply rr_writing; try done. lia.
  - destruct (rc_write s) as [st|] eqn:Ew; [|done]. intros [= <-]. by apply rr_written.
  - by apply rdo_step_reach.
  - by apply rdo_step_reach.
Qed.
Fixpoint rrun (cfg : ClientModel.ccfg) (R : Z) (s : rcl) (l : list ract) : option rcl :=
  match l with [] => Some s | a :: l' => match rdo cfg R s a with Some s' => rrun cfg R s' l' | None => None end end.
Lemma rrun_reach cfg R l : forall s s', rcreach ClientModel.anything cfg R s -> rrun cfg R s l = Some s' -> rcreach ClientModel.anything cfg R s'.
Proof.
  induction l as [|a l IH]; intros s s' H; cbn [rrun]; [by intros [= <-]|]. destruct (rdo cfg R s a) as [s1|] eqn:E; [|done]. apply IH. by eapply rdo_reach.
Qed.
Definition rafter (l : list ract) (P : rcl -> bool) : bool :=
  match rrun ClientProps.k0 1000 (mkRcl 0 (Some 1000) None None [] ClientModel.cl_init) l with Some s => P s | None => false end.
Lemma rafter_reach l P : rafter l P = true -> exists s, rcreach ClientModel.anything ClientProps.k0 1000 s /\ P s = true.
Proof. unfold rafter. destruct (rrun _ _ _ _) as [s|] eqn:E; [|done]. intros H. exists s. split; [|done]. eapply rrun_reach; [apply (rr_init _ _ 1000 0)|exact E]. Qed.
Definition gives_up_b (s : rcl) : bool :=
  match rc_write s, rc_timer s, ClientModel.cstep ClientProps.k0 (rc_y s) ClientModel.XReadTimeout with
  | None, Some dl, Some (ClientModel.COk _) => dl <=? rc_now s
  | _, _, _ => false
  end.
Lemma gives_up_ok s : gives_up_b s = true -> gives_up ClientProps.k0 s.
Proof.
  unfold gives_up_b, gives_up. destruct (rc_write s); [done|]. destruct (rc_timer s) as [dl|]; [|done]. destruct (ClientModel.cstep _ _ _) as [[|y']|]; try done.
  intros H. split; [done|]. exists dl, y'. split_and!; try done. lia.
Qed.

(** Heart-beats at 700 and 1500, then silence: given up at 2500. *)
Definition beat_in : list ract := [RDo (ClientModel.XRecv None); RDo ClientModel.XTakeRead].
Example C67_client_case : exists s, rcreach ClientModel.anything ClientProps.k0 1000 s /\ gives_up ClientProps.k0 s /\
  rc_now s = 2500 /\ rc_heard s = [700; 1500] /\ rc_freed s = None.
Proof.
  pose proof (rafter_reach ([RWait 700] ++ beat_in ++ [RWait 800] ++ beat_in ++ [RWait 1000])
    (fun s => gives_up_b s && bool_decide (rc_now s = 2500 /\ rc_heard s = [700; 1500] /\ rc_freed s = None))) as HA.
  ClientProps.witness HA. destruct HA as (s & Hr & Hs). apply andb_prop in Hs as [H1%gives_up_ok H2%bool_decide_eq_true]. by exists s.
Qed.

(** The full statement fails for the client: heart-beats arrive every 400
    while a Write takes 1200; they wait in readCh, and when the Write is over
    the loop may take the expired timer instead.  It then tells every waiting
    call that the connection is lost. *)
Theorem C67_refuted_client : exists s y', rcreach ClientModel.anything ClientProps.k0 1000 s /\ gives_up ClientProps.k0 s /\
  rc_now s = 1200 /\ rc_heard s = [400; 800; 1200] /\ ClientModel.c_rch (rc_y s) = [None; None; None] /\
  ClientModel.cstep ClientProps.k0 (rc_y s) ClientModel.XReadTimeout = Some (ClientModel.COk y') /\ ~ at_select y'.
Proof.
  pose proof (rafter_reach ([RDo (ClientModel.XCall (ClientModel.OSend (Some (ClientProps.fr_send (lit "one"))))); RDo (ClientModel.XRun 0); RDo (ClientModel.XRun 0);
      RSlow (ClientModel.XTakeWrite true)] ++ concat (replicate 3 [RWriting 400; RDo (ClientModel.XRecv None)]) ++ [RWritten])
    (fun s => gives_up_b s && bool_decide (rc_now s = 1200 /\ rc_heard s = [400; 800; 1200]) &&
       match ClientModel.c_rch (rc_y s), ClientModel.cstep ClientProps.k0 (rc_y s) ClientModel.XReadTimeout with
       | [None; None; None], Some (ClientModel.COk y') => bool_decide (~ at_select y') | _, _ => false end)) as HA.
  ClientProps.witness HA. destruct HA as (s & Hr & Hs). apply andb_prop in Hs as [[H1%gives_up_ok [H2 H3]%bool_decide_eq_true]%andb_prop Hs].
  destruct (ClientModel.c_rch (rc_y s)) as [|[|] [|[|] [|[|] [|]]]] eqn:Er; try done. destruct (ClientModel.cstep _ _ _) as [[|y']|] eqn:Ec; try done.
  apply bool_decide_eq_true in Hs. exists s, y'. done.
Qed.
Print Assumptions C67_refuted_client.

(* ------------------------------------------------------------------ *)
(** Server: bytes arriving one by one, [gap] apart. *)
Fixpoint arriving (t gap : Z) (s : str) : timed := match s with [] => [] | c :: s' => (t, c) :: arriving (t + gap) gap s' end.
(** No pause between two bytes is longer than [D]. *)
Definition steady (D : Z) (l : timed) : Prop :=
  forall i a b, l !! i = Some a -> l !! S i = Some b -> a.1 <= b.1 <= a.1 + D.
Fixpoint steady_b (D : Z) (l : timed) : bool :=
  match l with (t1, _) :: ((t2, _) :: _) as l' => (t1 <=? t2) && (t2 <=? t1 + D) && steady_b D l' | _ => true end.
Lemma steady_ok D l : steady_b D l = true -> steady D l.
Proof.
  induction l as [|[t1 c1] [|[t2 c2] l] IH]; intros H i a b Ha Hb; try done; cbn in Hb; rewrite ?lookup_nil in Hb; try done.
  cbn [steady_b] in H. apply andb_prop in H as [[H1 H2]%andb_prop H3]. destruct i as [|i]; [|by eapply (IH H3 i)].
    injection Ha as <-. injection Hb as <-. cbn. lia.
Qed.
Fixpoint srun (cfg : scfg) (n : nat) (s : srd) : option srd :=
  match n with
  | O => Some s
  | S n => match next_item (sr_left s) with
      | Some (it, t, rest) => if match sr_deadline s with Some dl => t <=? dl | None => true end
          then srun cfg n (mkSrd (Z.max (sr_start s) t + 0) (fst (new_wait cfg s it)) (snd (new_wait cfg s it)) rest (Some t)) else None
      | None => None
      end
  end.
Lemma srun_reach cfg input n : forall s s', sreads cfg input s -> srun cfg n s = Some s' -> sreads cfg input s'.
Proof.
  induction n as [|n IH]; intros s s' H; cbn [srun]; [by intros [= <-]|]. destruct (next_item (sr_left s)) as [[[it t] rest]|] eqn:En; [|done].
  destruct (match sr_deadline s with Some dl => t <=? dl | None => true end) eqn:Ed; [|done]. apply IH. apply sr_item; try done.
  intros dl Hdl. rewrite Hdl in Ed. lia.
Qed.
Definition late_b (s : srd) (dl t : Z) : bool :=
  match sr_deadline s, next_item (sr_left s) with Some dl', Some (_, t', _) => (dl' =? dl) && (t' =? t) && (dl <? t) | _, _ => false end.
Lemma late_ok s dl t : late_b s dl t = true -> too_late s dl /\ exists it rest, next_item (sr_left s) = Some (it, t, rest).
Proof.
  unfold late_b, too_late. destruct (sr_deadline s) as [dl'|] eqn:Ed; [|done]. destruct (next_item (sr_left s)) as [[[it t'] rest]|] eqn:En; [|done].
  intros [[?%Z.eqb_eq ?%Z.eqb_eq]%andb_prop ?%Z.ltb_lt]%andb_prop. subst. split; [|eauto]. split; [done|]. intros it' t' rest' [= <- <- <-]. done.
Qed.
Definition quick_cfg : scfg := mkScfg ms None.
Definition greeting : str := lit "CONNECT" ++ [LF] ++ lit "accept-version:1.2" ++ [LF] ++ lit "heart-beat:1,1" ++ [LF] ++ [LF] ++ [NUL].
Definition sending : str := lit "SEND" ++ [LF] ++ lit "destination:/queue/a" ++ [LF] ++ [LF] ++ lit "body" ++ [NUL].
Definition safter (input : timed) (n : nat) (P : srd -> bool) : bool := match srun quick_cfg n (mkSrd 0 0 true input None) with Some s => P s | None => false end.
Lemma safter_reach input n P : safter input n P = true -> exists s, sreads quick_cfg input s /\ P s = true.
Proof. unfold safter. destruct (srun _ _ _) as [s|] eqn:E; [|done]. intros H. exists s. split; [|done]. eapply srun_reach; [apply sr_init|exact E]. Qed.

(** Heart-beats of 1 ms: line ends at 1.5 ms and 3 ms and a frame at 4 ms are
    read; the next item, at 6.1 ms, is too late. *)
Definition lively : timed := arriving 0 0 greeting ++ [(1500000, LF); (3000000, LF)] ++ arriving 4000000 0 sending ++ [(6100000, LF)].
Example C67_server_case : exists s, sreads quick_cfg lively s /\ (sr_wait s = 1000000 /\ sr_last s = Some 4000000) /\
  too_late s 6000000 /\ exists it rest, next_item (sr_left s) = Some (it, 6100000, rest).
Proof.
  pose proof (safter_reach lively 4 (fun s => bool_decide (sr_wait s = 1000000 /\ sr_last s = Some 4000000) && late_b s 6000000 6100000)) as HA.
  ClientProps.witness HA. destruct HA as (s & Hr & Hs). apply andb_prop in Hs as [H1%bool_decide_eq_true H2%late_ok]. by exists s.
Qed.
(** The full statement fails for the server too: the deadline is for a whole
    frame.  The client sends something every 0.5 ms, half its interval, but
    its frame takes longer than 2 ms and the server hangs up in the middle. *)
Definition slowly : timed := arriving 0 500000 (greeting ++ sending).
Theorem C67_refuted_server : exists s it t rest c, sreads quick_cfg slowly s /\ sr_wait s = 1000000 /\ steady 500000 slowly /\
  too_late s 23500000 /\ next_item (sr_left s) = Some (it, t, rest) /\ head (sr_left s) = Some (22000000, c).
Proof.
  pose proof (safter_reach slowly 1 (fun s => bool_decide (sr_wait s = 1000000) && steady_b 500000 slowly && late_b s 23500000 37500000 &&
    match head (sr_left s) with Some (a, _) => a =? 22000000 | _ => false end)) as HA.
  ClientProps.witness HA. destruct HA as (s & Hr & Hs). apply andb_prop in Hs as [[[H1%bool_decide_eq_true H2%steady_ok]%andb_prop H3%late_ok]%andb_prop H4].
  destruct H3 as (H3 & it & rest & H5). destruct (head (sr_left s)) as [[a c]|] eqn:Eh; [|done]. apply Z.eqb_eq in H4 as ->.
  exists s, it, 37500000, rest, c. done.
Qed.
Print Assumptions C67_refuted_server.
