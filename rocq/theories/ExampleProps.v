(** C100: the example program (examples/client_test/main.go). *)
From stdpp Require Import gmap.
From Verif Require Import GoBase GoBaseProofs HeaderModel HeaderProofs FrameModel GrammarSpec NegotiationModel ClientApiModel ClientModel ClientSpec ClientReady ClientRestSpec ClientRest ClientProps.
From Verif Require Import BrokerModel BrokerSpec ServerConnModel ServerConnSpec SystemModel SystemSpec FlowSpec RestSpec PeerSpec
  NetModel NetSpec NetLinks NetProofs NetProps NetRestSpec NetRest NetSettled NetRestProps NetQueueProps ExampleModel ExampleProofs.
Local Existing Instances cerr_dec cres_dec op_dec gpc_dec gor_dec from_dec wreq_dec clpc_dec cmsg_dec.

(** The i-th message that the receiver reads is the i-th text that the sender
    makes, as long as it is no error message. *)
Theorem C100_compare_partial : forall cfg d k x i f, ereach cfg d k x -> (N.of_nat k < 2 ^ 63)%N -> is_queue d = true -> ex_read x !! i = Some (CmMsg f) ->
  f_body f = ex_text (S i) /\ i < k.
Proof. intros cfg d k x i f Hr Hk Hq Hi. by eapply ex_compare. Qed.
Print Assumptions C100_compare_partial.
(** There is at most one error message, and nothing after it. *)
Theorem C100_error : forall cfg d k x l1 o l2, ereach cfg d k x -> (N.of_nat k < 2 ^ 63)%N -> ex_read x = l1 ++ CmErr o :: l2 ->
  Forall (fun m => exists f, m = CmMsg f) l1 /\ l2 = [].
Proof. intros cfg d k x l1 o l2 Hr Hk E. by eapply ex_errors. Qed.
Print Assumptions C100_error.
(** When nothing is left to do and both connections still work, the receiver has
    read all messages, unless the timeout of a Send passed. *)
Theorem C100_all_partial : forall cfg d k x l0 n0 k0 y0 l1 n1 k1 y1, ereach cfg d k x -> (N.of_nat k < 2 ^ 63)%N -> is_queue d = true -> rested cfg x ->
  healthy x 0 l0 n0 k0 y0 -> healthy x 1 l1 n1 k1 y1 -> (forall o i, ~ ex_allowed d k x (NClient 1 (XCall o) i)) ->
  ex_body <$> ex_read x = (fun i => lit "Message #" ++ format_uint (N.of_nat i)) <$> seq 1 k \/ exists r, r ∈ c_gs y1 /\ g_pc r = GDone (RErr ESendTimeout).
Proof. intros cfg d k x l0 n0 k0 y0 l1 n1 k1 y1 Hr Hk Hq HR H0 H1 HA. by eapply ex_all. Qed.
Print Assumptions C100_all_partial.
(** That point is reached: the program does not run for ever. *)
Theorem C100_ends : forall cfg d k (s : nat -> net) (t : nat -> nact), ereach cfg d k (s 0) ->
  ~ forall i, (nwork (t i) \/ match t i with NDial _ _ _ | NClient _ (XCall _) _ => True | _ => False end) /\ ex_allowed d k (s i) (t i) /\ nstep cfg (s i) (t i) = Some (s (S i)).
Proof. intros cfg d k s t Hr. by eapply ex_stops. Qed.
Print Assumptions C100_ends.

(** If the receiver's connection attempt failed, main waits for ever: the program
    connects and calls no more. *)
Theorem C100_stuck : forall cfg d k x l o a, ereach cfg d k x -> x_links x !! 0 = Some l -> l_peer l = PeerFailed o ->
  match a with NDial _ _ _ | NClient _ (XCall _) _ => True | _ => False end -> ~ ex_allowed d k x a.
Proof. intros cfg d k x l o a Hr Hl Hp Ha. by eapply ex_stuck. Qed.
Print Assumptions C100_stuck.

(* ---------------- runs ---------------- *)
Definition allowed_b (d : str) (k : nat) (x : net) (a : nact) : bool :=
  match a with
  | NDial _ [OptLogin a b; OptHost h] _ => bool_decide (a = lit "guest" /\ b = lit "guest" /\ h = lit "/") &&
      match x_links x with
      | [] => true
      | [_] => match client_of x 0 with Some y => match c_gs y !! 0 with Some r => match g_pc r with GDone (RSub _) => true | _ => false end | None => false end | None => false end
      | _ => false
      end
  | NDial _ _ _ | NOther | NBytes _ _ => false
  | NClient c (XCall o) _ =>
      match client_of x c with
      | Some y => match c with
                  | 0 => match c_gs y with [] => bool_decide (o = ex_subscribe d) | _ => false end
                  | _ => forallb (fun r => bool_decide (g_pc r = GDone RNil)) (c_gs y) && bool_decide (length (c_gs y) < k /\ o = ex_send d (S (length (c_gs y))))
                  end
      | None => false
      end
  | NClient 0 (XConsume s) _ =>
      match client_of x 0 with
      | Some y => match c_gs y !! 0, c_subs y !! s with Some r, Some b => bool_decide (g_pc r = GDone (RSub s) /\ length (b_read b) < k) | _, _ => false end
      | None => false
      end
  | NClient _ (XConsume s) _ => false
  | _ => true
  end.
Lemma allowed_ok d k x a : allowed_b d k x a = true -> ex_allowed d k x a.
Proof.
  destruct a as [remote opts cut| |c0 b|c0|a i|c0 k0|c0|c0|c0 a i]; cbn [allowed_b ex_allowed]; try done.
  - destruct opts as [|[] [|[] [|]]]; try done. intros [(-> & -> & ->)%bool_decide_eq_true H]%andb_true_iff. split; [done|]. destruct (x_links x) as [|l [|]]; [by left| |done]. right. split; [done|].
    unfold ex_subscribed. destruct (client_of x 0) as [y|]; [|done]. destruct (c_gs y !! 0) as [r|]; [|done]. destruct (g_pc r) as [| | | | | | | | | |[]] eqn:E; try done. exists r. by eauto.
  - destruct a as [o| | | | | | | | | | | | |s]; try done; try (by destruct c0).
    + destruct c0 as [|c0]; (destruct (client_of x _) as [y|]; [|done]).
      * destruct (c_gs y) eqn:E; [|done]. intros H%bool_decide_eq_true. by split.
      * intros [H1 [H2 H3]%bool_decide_eq_true]%andb_true_iff. split_and!; try done. apply Forall_forall. intros r Hr. rewrite forallb_forall in H1. apply elem_of_list_In, H1 in Hr. by apply bool_decide_eq_true in Hr.
    + destruct c0 as [|c0]; [|done]. destruct (client_of x 0) as [y|]; [|done]. destruct (c_gs y !! 0) as [r|] eqn:Hg; [|done]. destruct (c_subs y !! s) as [b|] eqn:Hb; [|done]. intros [H1 H2]%bool_decide_eq_true. split_and!; by eauto.
Qed.
Fixpoint erun (d : str) (k : nat) (x : net) (l : list nact) : option net :=
  match l with
  | [] => Some x
  | a :: l' => if allowed_b d k x a then match nstep cfg0 x a with Some x' => erun d k x' l' | None => None end else None
  end.
Lemma erun_reach d k l x x' : ereach cfg0 d k x -> erun d k x l = Some x' -> ereach cfg0 d k x'.
Proof.
  revert x. induction l as [|a l IH]; intros x Hr; cbn [erun]; [by intros [= <-]|]. destruct (allowed_b d k x a) eqn:Ha; [|done]. destruct (nstep cfg0 x a) as [z|] eqn:Hs; [|done]. apply IH. eapply er_step; [done|by apply allowed_ok|done].
Qed.
Definition eafter (d : str) (k : nat) (l : list nact) (P : net -> bool) : bool := match erun d k net_init l with Some x => P x | None => false end.
Lemma eafter_reach d k l P : eafter d k l P = true -> exists x, ereach cfg0 d k x /\ P x = true.
Proof. unfold eafter. destruct (erun d k net_init l) as [x|] eqn:E; [|done]. intros H. exists x. split; [|done]. eapply erun_reach; [constructor|done]. Qed.

Definition ex_dial (c : nat) : list nact := [NDial (lit "h") ex_opts None; NUp c; NServer (ATake c SelRead true true) 0; NHello c kc; NServer (APush c) 0; NServer AProc 0].
Definition ex_start : list nact := ex_dial 0 ++ call 0 0 (ex_subscribe que) ++ handle 0 ++ process 0 ++ ex_dial 1.
Definition ex_pass (i : nat) : list nact := call 1 i (ex_send que (S i)) ++ handle 1 ++ process 1 ++ pass 0.
(** Three messages. *)
Example C100_example : exists x l0 n0 k0 y0 l1 n1 k1 y1, ereach cfg0 que 3 x /\ rested cfg0 x /\ healthy x 0 l0 n0 k0 y0 /\ healthy x 1 l1 n1 k1 y1 /\
  (forall o i, ~ ex_allowed que 3 x (NClient 1 (XCall o) i)) /\ ex_body <$> ex_read x = lit <$> ["Message #1"; "Message #2"; "Message #3"]%string.
Proof.
  pose proof (eafter_reach que 3 (ex_start ++ ex_pass 0 ++ ex_pass 1 ++ ex_pass 2) (fun x => rest_check cfg0 x && client_at x 0 (fun l n y => healthy_check l n y && client_at x 1 (fun l1 n1 y1 => healthy_check l1 n1 y1 &&
    bool_decide (length (c_gs y1) = 3 /\ ex_body <$> ex_read x = lit <$> ["Message #1"; "Message #2"; "Message #3"]%string))))) as HA. witness HA.
  destruct HA as (x & Hr & [H0 (l & n & y & L & [K H1]%andb_true_iff)%client_at_ok]%andb_true_iff). apply client_at_ok in H1 as (l1 & n1 & y1 & L1 & [K1 H2]%andb_true_iff). apply bool_decide_eq_true in H2 as [H2 H3].
  destruct (healthy_ok _ _ _ _ _ L K) as [k Hh]. destruct (healthy_ok _ _ _ _ _ L1 K1) as [k1 Hh1]. apply rest_check_ok in H0. exists x, l, n, k, y, l1, n1, k1, y1. split_and!; try done; [by split; [eapply ereach_nreach|]|].
  intros o i HA. cbn in HA. destruct Hh1 as (Hl & _ & (o' & h & Hp) & _). rewrite (client_of_link _ _ _ _ _ _ _ Hl Hp) in HA. destruct HA as (_ & HA & _). lia.
Qed.
(** If the connection is lost, the receiver compares the text of an error
    message, and then gets nil from the closed channel and panics. *)
Theorem C100_refuted : exists x, ereach cfg0 que 3 x /\ ex_body <$> ex_read x = [lit "Message #1"; []] /\ ex_panics 3 x.
Proof.
  pose proof (eafter_reach que 3 (ex_start ++ ex_pass 0 ++ does 0 [XEof; XTakeRead; XPick 0; XDeliver; XLoop 0; XLoop 0; XLoop 0; XLoop 0; XConsume 0])
    (fun x => match ex_sub x with Some b => bool_decide (ex_body <$> b_read b = [lit "Message #1"; []] /\ b_buf b = [] /\ b_cclosed b = true) | None => false end)) as HA. witness HA.
  destruct HA as (x & Hr & H). exists x. unfold ex_read, ex_panics. destruct (ex_sub x) as [b|]; [|done]. apply bool_decide_eq_true in H as (H1 & H2 & H3). split_and!; try done. apply (f_equal length) in H1. rewrite fmap_length in H1. cbn in H1. lia.
Qed.
Print Assumptions C100_refuted.
