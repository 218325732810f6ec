(** frame.New. *)
From stdpp Require Import prelude.
From Verif Require Import GoBase HeaderModel FrameModel.

(* ---------------- frame.New ---------------- *)
Lemma new_headers_some n l : length l <= n -> (forall h, new_headers l = Some h -> length l = 2 * length h /\ forall i, fst <$> h !! i = l !! (2 * i) /\ snd <$> h !! i = l !! (2 * i + 1)) /\ (new_headers l = None <-> Nat.odd (length l) = true).
Proof.
  revert l. induction n as [|n IH]; intros [|k [|v l]] HL; cbn [length] in HL; try lia.
  1,2: split; [|done]; intros h; cbn; intros [= <-]; split; [done|]; intros i; by rewrite !lookup_nil.
  - split; [done|]. done.
  - destruct (IH l ltac:(lia)) as [H1 H2]. cbn [new_headers length]. destruct (new_headers l) as [h|] eqn:E.
    + split; [|split; [done|intros Ho; apply H2 in Ho; done]]. intros h' [= <-]. destruct (H1 _ eq_refl) as [E1 E2]. split; [cbn [length]; lia|]. intros [|i]; [done|]. replace (2 * S i) with (S (S (2 * i))) by lia. apply E2.
    + split; [done|]. rewrite Nat.odd_succ_succ. by split; [intros _; apply H2|].
Qed.
Lemma frame_new_spec cmd hs :
  (forall f, frame_new cmd hs = Some f -> f_cmd f = cmd /\ f_body f = [] /\ length hs = 2 * length (f_hdr f) /\ forall i, fst <$> f_hdr f !! i = hs !! (2 * i) /\ snd <$> f_hdr f !! i = hs !! (2 * i + 1)) /\
  (frame_new cmd hs = None <-> Nat.odd (length hs) = true).
Proof.
  destruct (new_headers_some (length hs) hs ltac:(lia)) as [H1 H2]. unfold frame_new. destruct (new_headers hs) as [h|].
  - split; [|split; [done|by intros Ho%H2]]. intros f [= <-]. destruct (H1 _ eq_refl). by split_and!.
  - split; [done|]. by split; [intros _; apply H2|].
Qed.
