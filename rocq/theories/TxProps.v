(** C93: what Transaction objects send, whatever goroutines use them. *)
From stdpp Require Import gmap.
From Verif Require Import GoBase HeaderModel FrameModel NegotiationModel ClientApiModel ClientApiSpec ClientModel ClientSpec OrderSpec ClientProps TxModel TxSpec TxProofs.
From Verif Require TransSpec TransProofs NegotiationLemmas.

(** C93.  A method call that is made after a Commit or Abort of its transaction
    has returned nil hands no frame to the connection and returns
    ErrCompletedTransaction. *)
Theorem C93_after : forall (A : xprog -> wact -> Prop) cfg version u u' k j v, xreach A cfg version u -> ended u k -> xpath A cfg version u u' -> length (x_calls u) <= j -> x_calls u' !! j = Some v -> v_tx v = k ->
  v_g v = None /\ (v_pc v = VStart \/ v_pc v = VDone VCompleted).
Proof. intros A cfg version u u' k j v. apply after_end. Qed.
Print Assumptions C93_after.
(** Whatever the schedule: before any frame of a transaction its BEGIN has been
    written, even if Begin returned an error that the program ignored... *)
Theorem C93_begin : forall (A : xprog -> wact -> Prop) cfg version u k o j op g f l1 l2, xreach A cfg version u -> x_txs u !! k = Some o -> method u j k op g -> written (x_cl u) = l1 ++ (g, f) :: l2 ->
  exists fb, (x_begin o, fb) ∈ l1 /\ f_cmd fb = lit "BEGIN" /\ f_hdr fb = [(lit "transaction", x_id o)].
Proof. intros A cfg version u k o j op g f l1 l2 Hr. apply begin_written with cfg. by eapply reach_xinv. Qed.
Print Assumptions C93_begin.
(** ... and every frame of a method has the method's command and carries the
    name of the transaction first. *)
Theorem C93_carries : forall (A : xprog -> wact -> Prop) cfg version u k o j op g f, xreach A cfg version u -> x_txs u !! k = Some o -> method u j k op g -> (g, f) ∈ written (x_cl u) ->
  f_cmd f = op_cmd op /\ hd_contains (f_hdr f) (lit "transaction") = Some (x_id o).
Proof. intros A cfg version u k o j op g f Hr. apply carries with cfg. by eapply reach_xinv. Qed.
Print Assumptions C93_carries.
(** It is the frame asked for: Send's destination and body, a receipt header
    on Commit and Abort exactly if wanted. *)
Theorem C93_frame : forall (A : xprog -> wact -> Prop) cfg version u k j op g f, NegotiationLemmas.supported version -> xreach A cfg version u -> method u j k op g -> (g, f) ∈ written (x_cl u) -> tx_frame_ok op f.
Proof.
  intros A cfg version u k j op g f Hv Hr (v & Hj & Hk & <- & Hg) Hw. destruct (xi_call _ _ (reach_xinv _ _ _ _ Hr) _ _ Hj) as (o & x & Ho & _ & _ & H4 & _).
  destruct (H4 _ Hg) as (r0 & f0 & Hr0 & Ho0 & Hc0 & _). destruct (proj2 (reach_res _ _ _ _ Hv Hr) _ _ Hj) as [H1 _]. destruct (H1 _ Hg) as (r & f1 & Hr1 & Ho1 & Ht).
  destruct (written_frame _ _ _ _ _ (xi_cl _ _ (reach_xinv _ _ _ _ Hr)) Hw) as (r' & f2 & Hr' & Ho2 & Hs). simplify_eq. rewrite Ho1 in Ho2. injection Ho2 as <-.
  rewrite Ho0 in Ho1. injection Ho1 as ->. unfold sent_as in Hs. rewrite decide_False in Hs by (rewrite Hc0; by destruct (v_op v)). by subst f.
Qed.
Print Assumptions C93_frame.
(** A method returns nil only if its frame was handed over without error, or
    none was needed; an error of sendFrame is returned as it is; with
    ErrCompletedTransaction a Commit or Abort has returned nil; with this and
    with other errors no frame is handed over. *)
Theorem C93_result : forall (A : xprog -> wact -> Prop) cfg version u j v r, NegotiationLemmas.supported version -> xreach A cfg version u -> x_calls u !! j = Some v -> v_pc v = VDone r -> result_ok u v r.
Proof.
  intros A cfg version u j v r Hv Hr Hj Hp. destruct (proj2 (reach_res _ _ _ _ Hv Hr) _ _ Hj) as [_ H]. rewrite Hp in H. by destruct r.
Qed.
Print Assumptions C93_result.
(** The names of a program's transactions differ. *)
Theorem C93_names : forall (A : xprog -> wact -> Prop) cfg version u, (forall v a, A v a -> unwrapped cfg version v a) -> xreach A cfg version u -> NoDup (x_id <$> x_txs u).
Proof. intros A cfg version u HA Hr. by eapply numbered_distinct, reach_numbered. Qed.
Print Assumptions C93_names.

(* ---------------- runs ---------------- *)
Definition serialb (u : xprog) (a : wact) : bool :=
  match a with WCall k _ => forallb (fun v => negb (bool_decide (v_tx v = k)) || v_over v) (x_calls u) | _ => true end.
Lemma serialb_ok u a : serialb u a = true -> serial u a.
Proof.
  intros H k op ->. cbn in H. apply Forall_forall. intros v Hv Hk. rewrite forallb_forall in H. specialize (H v). rewrite elem_of_list_In in Hv. specialize (H Hv). rewrite bool_decide_true in H by done. done.
Qed.
Fixpoint checked (one : bool) (u : xprog) (l : list wact) : option xprog :=
  match l with
  | [] => Some u
  | a :: l => if negb one || serialb u a then match xstep k0 V12 u a with Some u => checked one u l | None => None end else None
  end.
Lemma checked_reach (one : bool) u l u' : xreach (if one then serial else all_steps) k0 V12 u -> checked one u l = Some u' -> xreach (if one then serial else all_steps) k0 V12 u'.
Proof.
  revert u. induction l as [|a l IH]; intros u Hr; cbn [checked]; [by intros [= <-]|]. destruct (negb one || serialb u a) eqn:E; [|done]. destruct (xstep k0 V12 u a) as [u1|] eqn:E1; [|done].
  apply IH. eapply xr_step; [exact Hr| |exact E1]. destruct one; [by apply serialb_ok|done].
Qed.
Definition xafter (one : bool) (l : list wact) (P : xprog -> bool) : bool := match checked one x_init l with Some u => P u | None => false end.
Lemma xafter_reach (one : bool) l P : xafter one l P = true -> exists u, xreach (if one then serial else all_steps) k0 V12 u /\ P u = true.
Proof. unfold xafter. destruct (checked one x_init l) as [u|] eqn:E; [|done]. intros HP. exists u. split; [|done]. eapply checked_reach; [constructor|exact E]. Qed.

Definition runs3 (g : nat) : list wact := [WClient (XRun g); WClient (XRun g); WClient (XRun g); WClient (XTakeWrite true)].
Definition begins (g : nat) : list wact := WBegin :: runs3 g.
Definition whole (j k : nat) (op : txop) (g : nat) : list wact := [WCall k op; WStep j] ++ runs3 g ++ [WStep j].
Definition summary (u : xprog) : list (nat * str) := (fun p : nat * frame => (p.1, f_cmd p.2)) <$> written (x_cl u).
Definition outcome (u : xprog) (j : nat) : option vres := match x_calls u !! j with Some v => match v_pc v with VDone r => Some r | _ => None end | None => None end.
Definition is_nil (o : option vres) : bool := match o with Some VNil => true | _ => false end.
Definition is_err (o : option vres) : bool := match o with Some (VErr _) => true | _ => false end.

(** Two goroutines call Commit; both see a transaction that is not completed,
    both COMMIT frames are written and both calls return nil. *)
Theorem C93_once_refuted : ~ forall u k i j op op' g g', xreach all_steps k0 V12 u -> method u i k op g -> method u j k op' g' -> is_finish op = true -> is_finish op' = true ->
  gave_back u i VNil -> gave_back u j VNil -> i = j.
Proof.
  intros H. pose proof (xafter_reach false (begins 0 ++ [WCall 0 (TxCommit false); WCall 0 (TxCommit false); WStep 0; WStep 1] ++ runs3 1 ++ runs3 2 ++ [WStep 0; WStep 1])
    (fun u => bool_decide (summary u = [(0, lit "BEGIN"); (1, lit "COMMIT"); (2, lit "COMMIT")]) && is_nil (outcome u 0) && is_nil (outcome u 1) &&
      bool_decide ((fun v => (v_tx v, v_g v)) <$> x_calls u = [(0, Some 1); (0, Some 2)]) && forallb (fun v => is_finish (v_op v)) (x_calls u))) as HA. witness HA.
  destruct HA as (u & Hr & HP). apply andb_prop in HP as [HP H5]. apply andb_prop in HP as [HP H4]. apply andb_prop in HP as [HP H3]. apply andb_prop in HP as [_ H2]. apply bool_decide_eq_true in H4.
  destruct (x_calls u) as [|v [|w [|? ?]]] eqn:E; try done. cbn in H4. injection H4 as E1 E2 E3 E4. cbn in H5. apply andb_prop in H5 as [F1 F2]. apply andb_prop in F2 as [F2 _].
  unfold outcome in H2, H3. rewrite E in H2, H3. cbn in H2, H3.
  assert (0 = 1); [|done]. eapply (H u 0 0 1 (v_op v) (v_op w) 1 2); try done.
  - exists v. by rewrite E.
  - exists w. by rewrite E.
  - exists v. rewrite E. split; [done|]. destruct (v_pc v) as [| |[]]; done.
  - exists w. rewrite E. split; [done|]. destruct (v_pc w) as [| |[]]; done.
Qed.
Print Assumptions C93_once_refuted.
(** Also one after the other: CommitWithReceipt gives up waiting, the frame
    having been written, and returns ErrClosedUnexpectedly although nothing is
    closed; called again it writes a second COMMIT. *)
Theorem C93_retry_refuted : ~ forall u k i j op op' g g', xreach serial k0 V12 u -> method u i k op g -> method u j k op' g' -> is_finish op = true -> is_finish op' = true ->
  g ∈ (written (x_cl u)).*1 -> g' ∈ (written (x_cl u)).*1 -> i = j.
Proof.
  intros H. pose proof (xafter_reach true (begins 0 ++ [WCall 0 (TxCommit true); WStep 0] ++ runs3 1 ++ [WClient (XTimeout 1); WStep 0] ++ whole 1 0 (TxCommit false) 2)
    (fun u => bool_decide (summary u = [(0, lit "BEGIN"); (1, lit "COMMIT"); (2, lit "COMMIT")]) && is_err (outcome u 0) && is_nil (outcome u 1) && negb (c_closed (x_cl u)) &&
      bool_decide ((fun v => (v_tx v, v_g v)) <$> x_calls u = [(0, Some 1); (0, Some 2)]) && forallb (fun v => is_finish (v_op v)) (x_calls u))) as HA. witness HA.
  destruct HA as (u & Hr & HP). apply andb_prop in HP as [HP H5]. apply andb_prop in HP as [HP H4]. apply andb_prop in HP as [HP _]. apply andb_prop in HP as [HP _]. apply andb_prop in HP as [H2 _]. apply bool_decide_eq_true in H4, H2.
  destruct (x_calls u) as [|v [|w [|? ?]]] eqn:E; try done. cbn in H4. injection H4 as E1 E2 E3 E4. cbn in H5. apply andb_prop in H5 as [F1 F2]. apply andb_prop in F2 as [F2 _].
  assert (HW : (written (x_cl u)).*1 = [0; 1; 2]) by (apply (f_equal (fmap fst)) in H2; unfold summary in H2; rewrite <- list_fmap_compose in H2; exact H2).
  assert (0 = 1); [|done]. eapply (H u 0 0 1 (v_op v) (v_op w) 1 2); try done.
  - exists v. by rewrite E.
  - exists w. by rewrite E.
  - rewrite HW. set_solver.
  - rewrite HW. set_solver.
Qed.
Print Assumptions C93_retry_refuted.

(** If the calls on each transaction do not overlap, only a Commit or Abort that
    returned an error is ever followed by another frame of its transaction; in
    particular at most one returns nil. *)
Theorem C93_once_partial : forall cfg version u k i j op op' g g', xreach serial cfg version u -> method u i k op g -> method u j k op' g' -> is_finish op = true -> i < j -> exists e, gave_back u i (VErr e).
Proof.
  intros cfg version u k i j op op' g g' Hr (v & Hi & Hk & <- & Hg) (w & Hj & Hk' & <- & Hg') Hf Hlt. destruct (oi_order _ _ (reach_one _ _ _ Hr) i j v w g g') as [_ H]; try done; [congruence|].
  destruct (H Hf) as [e He]. exists e, v. done.
Qed.
Print Assumptions C93_once_partial.
(** They are also written in the order of the calls. *)
Theorem C93_order_partial : forall cfg version u k i j op op' g g' f l1 l2, xreach serial cfg version u -> method u i k op g -> method u j k op' g' -> i < j -> written (x_cl u) = l1 ++ (g', f) :: l2 -> g ∉ l2.*1.
Proof.
  intros cfg version u k i j op op' g g' f l1 l2 Hr (v & Hi & Hk & <- & Hg) (w & Hj & Hk' & <- & Hg') Hlt E. destruct (oi_order _ _ (reach_one _ _ _ Hr) i j v w g g') as [H _]; try done; [congruence|].
  by eapply after_order.
Qed.
Print Assumptions C93_order_partial.
(** Let no Commit or Abort of transaction k have failed, and its name be used by
    nothing else.  Then the frames with its name that are written are BEGIN,
    frames of Send, Ack and Nack calls, and last the COMMIT or ABORT; and at the
    COMMIT the server (C92) has gathered exactly the frames in between. *)
Theorem C93_commit_partial : forall cfg version u k o j op g f l1 l2, xreach serial cfg version u -> x_txs u !! k = Some o -> private u k (x_id o) ->
  (forall i v e, x_calls u !! i = Some v -> v_tx v = k -> is_finish (v_op v) = true -> v_pc v <> VDone (VErr e)) -> is_finish op = true -> method u j k op g -> written (x_cl u) = l1 ++ (g, f) :: l2 ->
  exists pre fb mid, l1 = pre ++ (x_begin o, fb) :: mid /\ f_cmd fb = lit "BEGIN" /\
    (forall p, p ∈ pre ++ l2 -> hd_contains (f_hdr p.2) (lit "transaction") <> Some (x_id o)) /\
    (forall p, p ∈ mid -> hd_contains (f_hdr p.2) (lit "transaction") = Some (x_id o) -> exists i op', method u i k op' p.1 /\ is_finish op' = false /\ f_cmd p.2 = op_cmd op') /\
    TransSpec.gathered (x_id o) l1.*2 = Some (filter (TransSpec.of_tx (x_id o)) mid.*2).
Proof.
  intros cfg version u k o j op g f l1 l2 Hr Hk Hp He Hf Hm E. destruct (finish_shape _ _ _ _ _ _ _ _ _ _ (reach_xinv _ _ _ _ Hr) (reach_one _ _ _ Hr) Hk Hp He Hf Hm E) as (pre & fb & mid & -> & Hc & Ht & H1 & H2).
  exists pre, fb, mid. split_and!; try done. rewrite fmap_app. cbn [fmap list_fmap snd]. apply TransProofs.gathered_open; [exact Hc|exact Ht|]. apply Forall_forall. intros x (p & -> & Hin)%elem_of_list_fmap Hx.
  destruct (H2 p Hin Hx) as (i & op' & _ & Hf' & ->). destruct op'; try done; cbn; set_solver.
Qed.
Print Assumptions C93_commit_partial.

(** Two transactions of one program side by side, one committed, one aborted;
    a Send after the Commit is refused. *)
Definition send_op (body : str) : txop := TxSend (lit "/topic/a") [] body [].
Example C93_case : exists u, xreach serial k0 V12 u /\ (x_id <$> x_txs u) = [lit "1"; lit "2"] /\
  ((fun p : nat * frame => (f_cmd p.2, hd_contains (f_hdr p.2) (lit "transaction"), f_body p.2)) <$> written (x_cl u)) =
    [(lit "BEGIN", Some (lit "1"), []); (lit "BEGIN", Some (lit "2"), []); (lit "SEND", Some (lit "1"), lit "a"); (lit "SEND", Some (lit "2"), lit "b");
     (lit "SEND", Some (lit "1"), lit "c"); (lit "COMMIT", Some (lit "1"), []); (lit "ABORT", Some (lit "2"), [])] /\
  gave_back u 5 VCompleted /\ TransSpec.gathered (lit "1") (take 5 (written (x_cl u)).*2) = Some ((fun i => snd (nth i (written (x_cl u)) (0, mkFrame [] [] []))) <$> [2; 4]).
Proof.
  pose proof (xafter_reach true (begins 0 ++ begins 1 ++ whole 0 0 (send_op (lit "a")) 2 ++ whole 1 1 (send_op (lit "b")) 3 ++ whole 2 0 (send_op (lit "c")) 4 ++ whole 3 0 (TxCommit false) 5 ++ whole 4 1 (TxAbort false) 6 ++ [WCall 0 (send_op (lit "d")); WStep 5])
    (fun u => bool_decide ((x_id <$> x_txs u) = [lit "1"; lit "2"] /\
  ((fun p : nat * frame => (f_cmd p.2, hd_contains (f_hdr p.2) (lit "transaction"), f_body p.2)) <$> written (x_cl u)) =
    [(lit "BEGIN", Some (lit "1"), []); (lit "BEGIN", Some (lit "2"), []); (lit "SEND", Some (lit "1"), lit "a"); (lit "SEND", Some (lit "2"), lit "b");
     (lit "SEND", Some (lit "1"), lit "c"); (lit "COMMIT", Some (lit "1"), []); (lit "ABORT", Some (lit "2"), [])] /\
     TransSpec.gathered (lit "1") (take 5 (written (x_cl u)).*2) = Some ((fun i => snd (nth i (written (x_cl u)) (0, mkFrame [] [] []))) <$> [2; 4])) &&
     match outcome u 5 with Some VCompleted => true | _ => false end)) as HA. witness HA.
  destruct HA as (u & Hr & HP). apply andb_prop in HP as [HP H5]. apply bool_decide_eq_true in HP as (H1 & H2 & H3). exists u. split_and!; try done.
  unfold outcome in H5. unfold gave_back. destruct (x_calls u !! 5) as [v|]; [|done]. exists v. split; [done|]. destruct (v_pc v) as [| |[]]; done.
Qed.
