(** C106: a silent peer is given up. *)
From stdpp Require Import gmap.
From Verif Require Import GoBase HeaderModel FrameModel GrammarSpec NegotiationModel TimerModel AliveModel AliveProofs AliveProps SilentModel SilentSpec SilentProofs.
From Verif Require ClientModel ClientProps.
Local Open Scope Z.

(** The runs are those of C67, with the time the loop was held up. *)
Theorem C106_runs : forall A cfg R s, rcreach A cfg R s <-> exists t0 h, runs A cfg R t0 s h.
Proof. intros A cfg R s. split; [apply reach_runs|]. intros (t0 & h & H). by eapply runs_reach. Qed.
Print Assumptions C106_runs.

(** Full statement: a client with read timeout R gives up at the latest R after
    it last heard something.  The part that holds: R plus the time its loop was
    held up, in writer.Write or handing frames to calls.  What the client itself
    sends does not put this off. *)
Theorem C106_client_partial : forall A cfg R t0 s h, 0 < R -> runs A cfg R t0 s h -> rc_now s <= last_sign t0 s + R + h.
Proof. intros A cfg R t0 s h HR Hr. by destruct (hinv_runs _ _ _ _ _ _ HR Hr). Qed.
Print Assumptions C106_client_partial.
(** At that time it does give up. *)
Theorem C106_client_then : forall A cfg R t0 s h, 0 < R -> ClientModel.k_read_to cfg = true -> runs A cfg R t0 s h ->
  at_select (rc_y s) -> rc_write s = None -> rc_now s = last_sign t0 s + R + h -> gives_up cfg s.
Proof.
  intros A cfg R t0 s h HR Hk Hr Hs Hw Hn. destruct (ri_timer _ _ (rinv_reach _ _ _ _ HR (runs_reach _ _ _ _ _ _ Hr)) Hs) as (dl & Et & _).
  pose proof (hi_timer _ _ _ _ (hinv_runs _ _ _ _ _ _ HR Hr) dl Et) as Hd. split; [done|]. exists dl. eexists. split_and!; [done|lia|].
  cbn. unfold ClientModel.do_read_timeout. unfold at_select in Hs. by rewrite Hs, Hk.
Qed.
Print Assumptions C106_client_then.

(** Server.  Full statement: a client from which nothing arrives is given up.
    The part that holds: after a CONNECT frame that promises heart-beats, if
    nothing arrives within twice the read timeout after the call of Read. *)
Theorem C106_server_partial : forall cfg input f ts s, (exists raw rest, input.*2 = raw ++ rest /\ encodes raw f) ->
  server_read_timeout cfg f = Some ts -> ts <> 0 -> sreads cfg input s -> sr_last s <> None ->
  silent_until (sr_start s + 2 * ts) (sr_left s) -> too_late s (sr_start s + 2 * ts).
Proof.
  intros cfg input f ts s Hg Hts Hne Hr Hl Hq. pose proof (greeted_wait _ _ _ _ _ Hg Hts Hr Hl) as Hw.
  replace (2 * ts) with (sr_wait s * 2) in * by lia. apply silent_late; [congruence|done].
Qed.
Print Assumptions C106_server_partial.

(** A client that never completes a frame is never given up, whatever it sends
    and however long it is silent: there is no read deadline before CONNECT. *)
Theorem C106_refuted_server : forall cfg input, NUL ∉ input.*2 -> forall s dl, sreads cfg input s -> ~ too_late s dl.
Proof.
  intros cfg input Hin s dl Hr [Hdl _]. unfold sr_deadline in Hdl. destruct (decide (sr_wait s = 0)) as [|Hne]; [done|].
  destruct (si_wait _ _ _ (sinv_reach _ _ _ Hr) Hne) as (f & raw & before & after & E & He & _). apply Hin. rewrite E.
  apply elem_of_app. right. apply elem_of_app. left. destruct He as [craw cmd hraw h braw b _ _ _ Hb]. apply elem_of_app. right. apply elem_of_app. right. destruct Hb; apply elem_of_app; right; left.
Qed.
Print Assumptions C106_refuted_server.
(** A client in the middle of a Write does not look at its read timer, and a
    Write has no deadline: it may be silent for any time. *)
Theorem C106_refuted_client : forall N, 0 <= N -> exists s, rcreach ClientModel.anything ClientProps.k0 1000 s /\
  rc_now s = N /\ rc_timer s = Some 1000 /\ rc_write s = Some 0 /\ at_select (rc_y s) /\ rc_heard s = [].
Proof.
  intros N HN. pose proof (rafter_reach [RDo (ClientModel.XCall (ClientModel.OSend (Some (ClientProps.fr_send (lit "one"))))); RDo (ClientModel.XRun 0); RDo (ClientModel.XRun 0); RSlow (ClientModel.XTakeWrite true)]
    (fun s => bool_decide (rc_now s = 0 /\ rc_timer s = Some 1000 /\ rc_write s = Some 0 /\ rc_heard s = []) && match ClientModel.c_p (rc_y s) with ClientModel.PLoop => true | _ => false end)) as HA.
  ClientProps.witness HA. destruct HA as (s & Hr & Hs). apply andb_prop in Hs as [(H1 & H2 & H3 & H4)%bool_decide_eq_true H5].
  assert (at_select (rc_y s)) as Hp by (unfold at_select; by destruct (ClientModel.c_p (rc_y s))).
  pose proof (rr_writing _ _ _ s 0 N Hr HN H3) as Hw. eexists. split; [exact Hw|]. cbn [rc_now rc_timer rc_write rc_y rc_heard]. split_and!; [lia|done..].
Qed.
Print Assumptions C106_refuted_client.

(** A client of this library that hears heart-beats at 700 and 1500 and then
    nothing: it is at its deadline at 2500, no later; it had sent something at
    2000.  (k0: read timeouts are on.) *)
Definition quiet_run : list ract := [RWait 700] ++ beat_in ++ [RWait 800] ++ beat_in ++
  [RWait 500; RDo (ClientModel.XCall (ClientModel.OSend (Some (ClientProps.fr_send (lit "one"))))); RDo (ClientModel.XRun 0); RDo (ClientModel.XRun 0); RDo (ClientModel.XTakeWrite true); RWait 500].
Example C106_client_case : exists s, rcreach ClientModel.anything ClientProps.k0 1000 s /\ rc_now s = 2500 /\ last_sign 0 s = 1500 /\ gives_up ClientProps.k0 s.
Proof.
  pose proof (rafter_reach quiet_run (fun s => bool_decide (rc_now s = 2500 /\ last_sign 0 s = 1500) && gives_up_b s)) as HA.
  ClientProps.witness HA. destruct HA as (s & Hr & [[H1 H2]%bool_decide_eq_true H3%gives_up_ok]%andb_prop). by exists s.
Qed.
(** The server of C67: after the CONNECT frame of a client that promised a
    heart-beat every millisecond, silence. *)
Example C106_server_case : exists s, sreads quick_cfg (arriving 0 500000 greeting) s /\ sr_last s <> None /\ sr_left s = [] /\ sr_wait s = 1000000 /\ too_late s (sr_start s + 2 * 1000000).
Proof.
  pose proof (safter_reach (arriving 0 500000 greeting) 1 (fun s => bool_decide (sr_wait s = 1000000 /\ sr_last s <> None) && match sr_left s with [] => true | _ => false end)) as HA.
  ClientProps.witness HA. destruct HA as (s & Hr & [[H1 H2]%bool_decide_eq_true H3]%andb_prop). destruct (sr_left s) eqn:E; [|done]. exists s. split_and!; try done.
  replace (2 * 1000000) with (sr_wait s * 2) by lia. apply silent_late; [lia|]. rewrite E. by intros a c ?%elem_of_nil.
Qed.
