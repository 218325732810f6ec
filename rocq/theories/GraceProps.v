(** C105: the grace period for read timeouts. *)
From stdpp Require Import gmap.
From Verif Require Import GoBase HeaderModel FrameModel GrammarSpec NegotiationModel NegotiationSpec NegotiationLemmas TimerModel AliveModel AliveProofs AliveProps GraceModel GraceSpec GraceProofs.
From Verif Require ClientModel ClientProps.
Local Open Scope Z.

(** With the default multiplier the timer is the read timeout (of less than
    2^53 ns, 104 days). *)
Theorem C105_default : forall t, 0 <= t < 2 ^ 53 -> grace t one = Some t.
Proof. exact grace_one. Qed.
Print Assumptions C105_default.
(** The rounding in the model is that of IEEE 754, which leaves no choice. *)
Theorem C105_rounding : forall n r, 0 <= n -> nearest_even n r <-> r = round53 n.
Proof. intros n r Hn. split; [|intros ->; by apply round_nearest]. intros H. apply (nearest_unique n); [done|]. by apply round_nearest. Qed.
Print Assumptions C105_rounding.
(** The timer in full: read timeout and product are rounded as in IEEE 754, the
    fraction is discarded towards zero, and what is no int64 is left to the
    implementation. *)
Theorem C105_exact : forall (t : Z) (neg : bool) (m e : Z), 0 <= t -> 0 <= m -> exists T P v,
  nearest_even t T /\ nearest_even (T * m) P /\ 0 <= v /\ v * 2 ^ Z.max 0 (- e) <= P * 2 ^ Z.max 0 e < (v + 1) * 2 ^ Z.max 0 (- e) /\
  let w := if neg then - v else v in grace t (Fin neg m e) = if bool_decide (- 2 ^ 63 <= w < 2 ^ 63) then Some w else None.
Proof.
  intros t neg m e Ht Hm. exists (round53 t), (round53 (round53 t * m)), (trunc (round53 (round53 t * m)) e).
  pose proof (round_nonneg t Ht) as HT. pose proof (round_nonneg (round53 t * m) ltac:(nia)) as HP.
  pose proof (trunc_bounds _ e HP) as Hb. pose proof (trunc_nonneg _ e HP) as Hv.
  split_and!; [by apply round_nearest|apply round_nearest; nia|done|lia|lia|]. cbn [grace]. set (v := trunc _ _) in *. clearbody v. clear Hb HP.
  destruct neg; cbn zeta; case_bool_decide as H; [destruct (Z.leb_spec v (2 ^ 63))|destruct (Z.leb_spec v (2 ^ 63))|destruct (Z.ltb_spec v (2 ^ 63))|destruct (Z.ltb_spec v (2 ^ 63))]; try done; exfalso; lia.
Qed.
Print Assumptions C105_exact.
(** The timer is the exact product, but for the rounding of the product to 53
    bits and less than a nanosecond. *)
Theorem C105_product : forall t f num den v, 0 <= t < 2 ^ 53 -> is_fraction f num den -> grace t f = Some v ->
  Z.abs (v * den - t * num) * 2 ^ 53 < den * 2 ^ 53 + t * num.
Proof. exact grace_error. Qed.
Print Assumptions C105_product.
(** A multiplier of at least 1 never makes the timer shorter than the read
    timeout; from 104 days on, by no more than 512 ns. *)
Theorem C105_longer : forall t f num den v, is_fraction f num den -> den <= num -> grace t f = Some v ->
  (0 <= t < 2 ^ 53 -> t <= v) /\ (0 <= t < 2 ^ 63 -> t - 512 <= v).
Proof.
  intros t f num den v Hf Hge Hg. split; intros Ht.
  - pose proof (grace_longer t f num den v ltac:(lia) Hf Hge Hg). by rewrite (round_small t) in H by lia.
  - pose proof (grace_longer t f num den v Ht Hf Hge Hg). pose proof (round_below t Ht). lia.
Qed.
Print Assumptions C105_longer.
(** Full statement: whatever multiplier the option accepted, the client gives
    up only when it heard nothing for its read timeout (or has come out of a
    Write that took time, as in C67).  The part that holds: for multipliers of
    at least 1. *)
Theorem C105_client_partial : forall A cfg t f num den v s, 0 < t < 2 ^ 53 -> is_fraction f num den -> den <= num -> grace t f = Some v ->
  rcreach A cfg v s -> gives_up cfg s -> (forall a, a ∈ rc_heard s -> a < rc_now s -> a + t <= rc_now s) \/ rc_freed s = Some (rc_now s).
Proof.
  intros A cfg t f num den v s Ht Hf Hge Hg Hr Hs. destruct (C105_longer t f num den v Hf Hge Hg) as [Hl _]. specialize (Hl ltac:(lia)).
  destruct (C67_client_partial A cfg v s ltac:(lia) Hr Hs) as [H|H]; [left|by right]. intros a Ha Hlt. specialize (H a Ha Hlt). lia.
Qed.
Print Assumptions C105_client_partial.
(** Against a server of this library: only after one of the server's intervals. *)
Theorem C105_client_with_server_partial : forall A cfg c o sc ts cc reply f num den v s,
  0 <= o_hberr o <= 2 ^ 62 -> o_read o <= 0 \/ 1000000 <= o_read o ->
  handle_connect c (connect_frame o) = inr sc -> server_read_timeout c (connect_frame o) = Some ts ->
  client_connect o (RFrame (sc_response sc) reply) = CConnected cc -> 0 < cc_read cc < 2 ^ 53 ->
  is_fraction f num den -> den <= num -> grace (cc_read cc) f = Some v ->
  rcreach A cfg v s -> gives_up cfg s ->
  0 < sc_write sc /\ ((forall a, a ∈ rc_heard s -> a < rc_now s -> a + sc_write sc <= rc_now s) \/ rc_freed s = Some (rc_now s)).
Proof.
  intros A cfg c o sc ts cc reply f num den v s H1 H2 H3 H4 H5 HR Hf Hge Hg Hr Hs. destruct (heart_beat_safety c o sc reply ts H1 H2 H3 H4) as (cc' & Hcc & _ & HK).
  assert (cc' = cc) as -> by congruence. unfold keeps_alive in HK. split; [lia|].
  destruct (C105_client_partial A cfg (cc_read cc) f num den v s ltac:(lia) Hf Hge Hg Hr Hs) as [H|H]; [left|by right]. intros a Ha Hlt. specialize (H a Ha Hlt). lia.
Qed.
Print Assumptions C105_client_with_server_partial.

(** The option accepts every float64.  With 0.5 and a read timeout of 1000 the
    client hears something at 100 and gives up at 600; with 0 it gives up at
    once; with 2^30 (and a read timeout of a minute) the timer is whatever the
    implementation makes of the conversion. *)
Definition half : float := Fin false (2 ^ 52) (-53).
Theorem C105_refuted :
  (exists s, grace 1000 half = Some 500 /\ rcreach ClientModel.anything ClientProps.k0 500 s /\ gives_up ClientProps.k0 s /\ rc_now s = 600 /\ rc_heard s = [100] /\ rc_freed s = None) /\
  (exists s, grace 60000000000 (Fin false 0 0) = Some 0 /\ rcreach ClientModel.anything ClientProps.k0 0 s /\ gives_up ClientProps.k0 s /\ rc_now s = 0) /\
  grace 60000000000 (Fin false 1 30) = None.
Proof.
  split_and!; [| |by vm_compute].
  - assert (match rrun ClientProps.k0 500 (mkRcl 0 (Some 500) None None [] ClientModel.cl_init) ([RWait 100] ++ beat_in ++ [RWait 500]) with
      | Some s => gives_up_b s && bool_decide (rc_now s = 600 /\ rc_heard s = [100] /\ rc_freed s = None) | None => false end = true) as H by (vm_compute; reflexivity).
    destruct (rrun _ _ _ _) as [s|] eqn:E; [|done]. apply andb_prop in H as [H1%gives_up_ok H2%bool_decide_eq_true]. exists s. split; [by vm_compute|]. split; [|done].
    eapply rrun_reach; [apply (rr_init _ _ 500 0)|exact E].
  - exists (mkRcl 0 (Some 0) None None [] ClientModel.cl_init). split_and!; [by vm_compute|apply (rr_init _ _ 0 0)| |done]. apply gives_up_ok. vm_compute. reflexivity.
Qed.
Print Assumptions C105_refuted.

(** 1.5 times a minute; 0.1, the nearest float64 to it, times 30 ns; a third of
    10 ns; and a read timeout of 2^53 + 1, which no float64 is. *)
Example C105_case : grace 60000000000 (Fin false 3 (-1)) = Some 90000000000 /\ grace 30 (Fin false 7205759403792794 (-56)) = Some 3 /\ grace 10 (Fin false 6004799503160661 (-54)) = Some 3 /\
  grace 9007199254740993 one = Some 9007199254740992 /\ grace 7 (Fin true 3 0) = Some (-21).
Proof. split_and!; by vm_compute. Qed.
Example C105_fraction : is_fraction (Fin false 3 (-1)) 3 2 /\ is_fraction one 1 1 /\ is_fraction half 1 2.
Proof. split_and!; eexists _, _; (split; [reflexivity|]); split_and!; vm_compute; congruence. Qed.
