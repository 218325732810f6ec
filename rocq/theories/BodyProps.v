(** C95: message bodies given to Send and stored into afterwards. *)
From stdpp Require Import gmap.
From Verif Require Import GoBase HeaderModel FrameModel NegotiationModel ClientApiModel ClientModel ClientSpec ClientLemmas ClientProofs ClientProps OrderSpec BodyModel BodySpec BodyProofs.

(** C95.  If a program stores into a slice that it passed to Send or
    Transaction.Send only after the call returned an error that says that
    nothing was sent, or after the call, or one made after its return, was
    answered by the server, every frame is written with the body it was called
    with. *)
Theorem C95_partial : forall cfg u, breach patient cfg u -> as_called u.
Proof. intros cfg u H. by apply pi_wire, (patient_inv cfg). Qed.
Print Assumptions C95_partial.
(** Whatever the program does: what is written are the frames that processLoop
    took from the write channel, one after the other, with command and header
    as they were; a frame written completely has a body as long as the one of
    its call. *)
Theorem C95_rest : forall (A : bprog -> bact -> Prop) cfg u, breach A cfg u -> outline u = log_outline (b_cl u) /\
  forall (g : nat) (f : frame), (g, f, true) ∈ b_wire u -> exists r f0, c_gs (b_cl u) !! g = Some r /\ op_frame (g_op r) = Some f0 /\ length (f_body f) = length (f_body f0).
Proof. intros A cfg u H. split; [by eapply bi_out, breach_inv|by eapply breach_lengths]. Qed.
Print Assumptions C95_rest.

(* ---------------- runs ---------------- *)
Fixpoint bcheck (ok : bprog -> bact -> bool) (cfg : ccfg) (u : bprog) (l : list bact) (P : bprog -> bool) : bool :=
  match l with [] => P u | a :: l => ok u a && match bstep cfg u a with Some u => bcheck ok cfg u l P | None => false end end.
Lemma bcheck_reach (ok : bprog -> bact -> bool) (A : bprog -> bact -> Prop) (P : bprog -> bool) l : (forall u a, ok u a = true -> A u a) -> bcheck ok k0 b_init l P = true -> exists u, breach A k0 u /\ P u = true.
Proof.
  intros Hok. assert (H : forall u, breach A k0 u -> bcheck ok k0 u l P = true -> exists u, breach A k0 u /\ P u = true); [|apply H; constructor].
  induction l as [|a l IH]; intros u Hu; cbn [bcheck]; [by eauto|]. intros [Ha H]%andb_true_iff. destruct (bstep k0 u a) as [u'|] eqn:E; [|done]. eapply IH; [|done]. eapply br_step; [exact Hu|by apply Hok|done].
Qed.
Definition answeredb (y : cl) (g : nat) : bool :=
  match c_gs y !! g with
  | Some r => match send_of (g_op r), g_pc r with Some f, GDone RNil | Some f, GDone (RErr (EResponse _)) => wants_receipt f | _, _ => false end
  | None => false
  end.
Lemma answeredb_ok y g : answeredb y g = true -> answered y g.
Proof.
  unfold answeredb. destruct (c_gs y !! g) as [r|] eqn:Eg; [|done]. destruct (send_of (g_op r)) as [f|] eqn:Eo; [|done]. intros H. exists r, f.
  assert (g_op r = OSend (Some f) \/ g_op r = OFrame f) as Hop by (destruct (g_op r) as [[]| | | | |]; simplify_eq/=; auto).
  destruct (g_pc r) as [| | | | | | | | | |[| |[]]]; try done; split_and!; try done; eauto.
Qed.
Definition freedb (u : bprog) (g : nat) : bool :=
  match result (b_cl u) g with Some (RErr EAlreadyClosed) | Some (RErr ESendTimeout) => true | _ => false end ||
  answeredb (b_cl u) g || existsb (fun p => bool_decide (p.1 = g) && answeredb (b_cl u) p.2) (b_past u).
Lemma freedb_ok u g : freedb u g = true -> freed u g.
Proof.
  unfold freedb. intros [[H|H]%orb_true_iff|H]%orb_true_iff.
  - destruct (result (b_cl u) g) as [[| |[]]|] eqn:E; try done; apply result_done in E; eapply fr_refused; try exact E; unfold refused; auto.
  - by apply fr_answered, answeredb_ok.
  - apply existsb_exists in H as ([i j] & Hin & [Hi%bool_decide_eq_true Hj]%andb_true_iff). cbn in *. subst i. eapply fr_later; [by apply elem_of_list_In|by apply answeredb_ok].
Qed.
(** All calls with slice k satisfy P. *)
Definition users (P : nat -> bool) (u : bprog) (a : bact) : bool :=
  match a with BStore k i c => forallb (fun p => negb (bool_decide (p.2 = k)) || P p.1) (map_to_list (b_uses u)) | _ => true end.
Lemma users_ok P u a : users P u a = true -> forall k i c, a = BStore k i c -> forall g, b_uses u !! g = Some k -> P g = true.
Proof.
  intros H k i c -> g Hg. cbn in H. rewrite forallb_forall in H. specialize (H (g, k)). cbn in H. rewrite bool_decide_eq_true_2 in H by done. apply H. by apply elem_of_list_In, elem_of_map_to_list.
Qed.
Definition patientb (u : bprog) (a : bact) : bool := users (freedb u) u a.
Lemma patientb_ok u a : patientb u a = true -> patient u a.
Proof. intros H k i c Ea g Hg. apply freedb_ok. by eapply users_ok. Qed.
Definition after_nilb (u : bprog) (a : bact) : bool := users (fun g => match result (b_cl u) g with Some RNil => true | _ => false end) u a.
Lemma after_nilb_ok u a : after_nilb u a = true -> after_nil u a.
Proof. intros H k i c Ea g Hg. eapply users_ok in H; [|done..]. cbn in H. destruct (result (b_cl u) g) as [[]|] eqn:E; try done. by apply result_done. Qed.
Definition hastyb (u : bprog) (a : bact) : bool :=
  users (fun g => match result (b_cl u) g with Some _ => true | _ => false end) u a &&
  match a with BCall o k => match send_of o with Some f => wants_receipt f | None => false end | _ => true end.
Lemma hastyb_ok u a : hastyb u a = true -> after_return u a /\ receipts u a.
Proof.
  unfold hastyb. intros [H1 H2]%andb_true_iff. split.
  - intros k i c Ea g Hg. eapply users_ok in H1; [|done..]. cbn in H1. destruct (result (b_cl u) g) as [x|] eqn:E; try done. exists x. by apply result_done.
  - intros o k ->. destruct (send_of o) as [f|] eqn:Eo; [|done]. exists f. split; [|done]. destruct o as [[]| | | | |]; simplify_eq/=; auto.
Qed.
Definition wire_is (l : list (nat * str * bool)) (u : bprog) : bool := bool_decide ((fun p => (p.1.1, f_body p.1.2, p.2)) <$> b_wire u = l).
Lemma wire_bad u g (s : str) : wire_is [(g, s, true)] u = true -> (forall r, c_gs (b_cl u) !! g = Some r -> option_map f_body (op_frame (g_op r)) <> Some s) -> ~ as_called u.
Proof.
  unfold wire_is. intros H%bool_decide_eq_true Hn HA. destruct (b_wire u) as [|[[g' f] w] [|]] eqn:E; simplify_eq/=. destruct (HA g f true) as (r & f0 & H1 & H2 & _ & H3); [rewrite E; by left|]. apply (Hn _ H1). rewrite H2. cbn. by rewrite H3.
Qed.
Definition op_bodies (u : bprog) : list (option str) := (fun r => option_map f_body (op_frame (g_op r))) <$> c_gs (b_cl u).

(** It is not enough that Send returned nil: the frame may still be in the
    write channel. *)
Theorem C95_refuted : ~ forall cfg u, breach after_nil cfg u -> as_called u.
Proof.
  intros H. pose proof (bcheck_reach after_nilb after_nil (fun u => wire_is [(0, lit "xb", true)] u && bool_decide (op_bodies u = [Some (lit "ab")]))
    [BNew (lit "ab"); BCall (OSend (Some (fr_send (lit "ab")))) 0; BClient (XRun 0); BClient (XRun 0); BStore 0 0 "x"%char; BClient (XTakeWrite true); BCopy; BCopy; BEnd] after_nilb_ok) as HA. witness HA.
  destruct HA as (u & Hu & [Hw Ho%bool_decide_eq_true]%andb_true_iff). refine (wire_bad _ _ _ Hw _ (H _ _ Hu)). intros r Hr E.
  assert (op_bodies u !! 0 = Some (Some (lit "xb"))) as Hx by (unfold op_bodies; by rewrite list_lookup_fmap, Hr, <-E). by rewrite Ho in Hx.
Qed.
Print Assumptions C95_refuted.
(** Nor is it enough to ask for a receipt and to wait until Send returns: it
    may have stopped waiting. *)
Theorem C95_timeout_refuted : ~ forall cfg u, breach (fun u a => after_return u a /\ receipts u a) cfg u -> as_called u.
Proof.
  intros H. pose proof (bcheck_reach hastyb (fun u a => after_return u a /\ receipts u a) (fun u => wire_is [(0, lit "xb", true)] u && bool_decide (op_bodies u = [Some (lit "ab")]))
    [BNew (lit "ab"); BCall (OSend (Some (fr_send_receipt (lit "4") (lit "ab")))) 0; BClient (XRun 0); BClient (XRun 0); BClient (XTimeout 0); BStore 0 0 "x"%char; BClient (XTakeWrite true); BCopy; BCopy; BEnd] hastyb_ok) as HA. witness HA.
  destruct HA as (u & Hu & [Hw Ho%bool_decide_eq_true]%andb_true_iff). refine (wire_bad _ _ _ Hw _ (H _ _ Hu)). intros r Hr E.
  assert (op_bodies u !! 0 = Some (Some (lit "xb"))) as Hx by (unfold op_bodies; by rewrite list_lookup_fmap, Hr, <-E). by rewrite Ho in Hx.
Qed.
Print Assumptions C95_timeout_refuted.

(** A program that waits.  It sends ab (call 0), then cd with a receipt (call
    1); when that has come, it stores into both slices and sends xb (call 2)
    and then cy (call 3), the write of which fails after one byte. *)
Example C95_case : exists u, breach patient k0 u /\ wire_is [(0, lit "ab", true); (1, lit "cd", true); (2, lit "xb", true); (3, lit "c", false)] u = true /\ b_bufs u = [lit "xb"; lit "cy"].
Proof.
  pose proof (bcheck_reach patientb patient (fun u => wire_is [(0, lit "ab", true); (1, lit "cd", true); (2, lit "xb", true); (3, lit "c", false)] u && bool_decide (b_bufs u = [lit "xb"; lit "cy"]))
    ([BNew (lit "ab"); BNew (lit "cd"); BCall (OSend (Some (fr_send (lit "ab")))) 0; BClient (XRun 0); BClient (XRun 0)] ++
     [BCall (OSend (Some (fr_send_receipt (lit "4") (lit "cd")))) 1; BClient (XRun 1); BClient (XRun 1)] ++
     [BClient (XTakeWrite true); BCopy; BCopy; BEnd; BClient (XTakeWrite true); BCopy; BCopy; BEnd] ++
     [BClient (XRecv (Some (fr_receipt (lit "4")))); BClient XTakeRead; BClient XDeliver] ++
     [BStore 0 0 "x"%char; BStore 1 1 "y"%char; BCall (OSend (Some (fr_send (lit "xb")))) 0; BClient (XRun 2); BClient (XRun 2); BClient (XTakeWrite true)] ++
     [BCall (OSend (Some (fr_send (lit "cy")))) 1; BCopy; BClient (XRun 3); BClient (XRun 3); BCopy; BEnd; BClient (XTakeWrite false); BCopy; BEnd]) patientb_ok) as HA. witness HA.
  destruct HA as (u & Hu & [Hw Ho%bool_decide_eq_true]%andb_true_iff). by exists u.
Qed.
(** A body that was never in the slice: stored into while it is read. *)
Example C95_torn : exists u, breach after_nil k0 u /\ wire_is [(0, lit "ay", true)] u = true /\ b_bufs u = [lit "xy"].
Proof.
  pose proof (bcheck_reach after_nilb after_nil (fun u => wire_is [(0, lit "ay", true)] u && bool_decide (b_bufs u = [lit "xy"]))
    [BNew (lit "ab"); BCall (OSend (Some (fr_send (lit "ab")))) 0; BClient (XRun 0); BClient (XRun 0); BClient (XTakeWrite true); BCopy; BStore 0 0 "x"%char; BStore 0 1 "y"%char; BCopy; BEnd] after_nilb_ok) as HA. witness HA.
  destruct HA as (u & Hu & [Hw Ho%bool_decide_eq_true]%andb_true_iff). by exists u.
Qed.
