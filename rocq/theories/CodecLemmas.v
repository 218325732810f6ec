(** Final forms of the codec lemmas used by CodecProps. *)
From Verif Require Import GoBase HeaderModel FrameModel GrammarSpec GoBaseProofs HeaderSpec
  HeaderProofs CodecProofs BufioModel BufioProofs.

Lemma eol_empty raw : eol_line raw [] <-> raw = [LF] \/ raw = [CR; LF].
Proof.
  split.
  - inversion 1; auto.
  - intros [->| ->].
    + apply (el_lf []); [apply not_elem_of_nil|done].
    + apply (el_crlf []). apply not_elem_of_nil.
Qed.

Lemma bread_grammar (cap : nat) (chunks : list str) (f : frame) (rest : str) :
  0 < cap -> Forall (fun c => c <> []) chunks ->
  ((exists st', bread cap (mkBufr [] chunks) = BFrame f st' /\ flat st' = rest) <->
   (exists raw, concat chunks = raw ++ rest /\ encodes raw f)) /\
  ((exists st', bread cap (mkBufr [] chunks) = BHeartbeat st' /\ flat st' = rest) <->
   (concat chunks = LF :: rest \/ concat chunks = CR :: LF :: rest)).
Proof.
  intros Hcap Hok. destruct (bread_spec cap (mkBufr [] chunks) Hcap Hok) as [Hb _].
  change (flat (mkBufr [] chunks)) with (concat chunks) in Hb.
  rewrite <- reader_iff_grammar. split.
  - split.
    + intros (st' & H & <-). rewrite H in Hb. by rewrite <- Hb.
    + intros H. destruct (bread_frame cap (mkBufr [] chunks) f rest) as (st' & ? & ? & _); eauto.
  - split.
    + intros (st' & H & <-). rewrite H in Hb. symmetry in Hb. apply reader_heartbeat_iff in Hb as (raw & Hc & He).
      apply eol_empty in He as [->| ->]; auto.
    + intros H. assert (read_stream (concat chunks) = RHeartbeat rest) as Hr.
      { apply reader_heartbeat_iff. destruct H as [H|H]; [exists [LF]|exists [CR; LF]]; (split; [done|]); apply eol_empty; auto. }
      destruct (bread_heartbeat cap (mkBufr [] chunks) rest) as (st' & ? & ? & _); eauto.
Qed.

Lemma truncation (cap : nat) (items : list (option frame)) (f : frame) (p q : str) (chunks : list str) :
  0 < cap -> Forall writable_item items -> writable f ->
  write_frame f = p ++ q -> q <> [] ->
  Forall (fun c => c <> []) chunks -> concat chunks = concat (write_item <$> items) ++ p ->
  exists st', reads cap (mkBufr [] chunks) items st' /\ bread cap st' = BError EIO.
Proof.
  intros Hcap Hi Hf Hpq Hq Hok Hc.
  destruct (reads_items cap items (mkBufr [] chunks) p) as (st' & Hr & Hfl & Hok'); [done..|].
  exists st'. split; [done|]. apply bread_error; [done..|]. rewrite Hfl. by eapply truncated_EIO.
Qed.

Lemma escaping s :
  LF ∉ encode_value s /\ CR ∉ encode_value s /\ COLON ∉ encode_value s /\
  unencode_value (encode_value s) = s /\ unescaped (encode_value s) s /\
  (forall t, encode_value s = encode_value t -> s = t).
Proof.
  repeat split.
  - intros H%encode_safe. naive_solver.
  - intros H%encode_safe. naive_solver.
  - intros H%encode_safe. naive_solver.
  - apply unencode_encode.
  - apply encode_unescaped.
  - apply encode_inj.
Qed.

Lemma total_progress (cap : nat) (chunks : list str) :
  0 < cap -> Forall (fun c => c <> []) chunks ->
  match bread cap (mkBufr [] chunks) with
  | BPanic | BFuel => False
  | BError _ => True
  | BHeartbeat st' => length (flat st') < length (concat chunks)
  | BFrame f st' =>
      length (flat st') < length (concat chunks) /\
      stomp_command (f_cmd f) /\ (forall k v, (k, v) ∈ f_hdr f -> k <> []) /\
      (forall t, first_entry (f_hdr f) h_content_length t -> dec_text t (N.of_nat (length (f_body f)))) /\
      (no_entry (f_hdr f) h_content_length -> NUL ∉ f_body f)
  end.
Proof.
  intros Hcap Hok. destruct (bread_spec cap (mkBufr [] chunks) Hcap Hok) as [Hb _].
  pose proof (read_stream_sound (flat (mkBufr [] chunks))) as Hs. rewrite <- Hb in Hs.
  change (flat (mkBufr [] chunks)) with (concat chunks) in Hs.
  destruct (bread cap (mkBufr [] chunks)) as [st|f st|e| |]; simpl in Hs; try done.
  - destruct Hs as (raw & -> & He). apply eol_line_len in He. rewrite app_length. simpl in He. lia.
  - destruct Hs as (raw & -> & He). pose proof (encodes_writable _ _ He) as [H1 H2 H3].
    split. { destruct He as [craw ? ? ? ? ? Hl _ _ _]. apply eol_line_len in Hl. rewrite !app_length. lia. }
    split; [done|]. split; [done|]. split.
    + intros t Ht. destruct H3 as [(t' & Ht' & Hd & _)|[Hno _]].
      * by rewrite (first_entry_fun _ _ _ _ Ht Ht').
      * destruct Ht as (h1 & h2 & He' & _). exfalso. apply (Hno t). rewrite He'.
        apply elem_of_app. right. left.
    + intros Hno. destruct H3 as [(t' & (h1 & h2 & He' & _) & _)|[_ ?]]; [|done].
      exfalso. apply (Hno t'). rewrite He'. apply elem_of_app. right. left.
Qed.

Lemma relay (cap cap' capw : nat) (chunks chunks' : list str) (f : frame) (st : bufr) (rest : str) :
  0 < cap -> 0 < cap' -> 0 < capw -> Forall (fun c => c <> []) chunks -> Forall (fun c => c <> []) chunks' ->
  bread cap (mkBufr [] chunks) = BFrame f st ->
  exists w, fw_session capw [Some f] (bufw_init []) = Some [(false, w)] /\
   (concat chunks' = w ++ rest ->
    exists st', bread cap' (mkBufr [] chunks') = BFrame f st' /\ flat st' = rest).
Proof.
  intros Hcap Hcap' Hcapw Hok Hok' Hb.
  assert (writable f) as Hw.
  { destruct (bread_grammar cap chunks f (flat st) Hcap Hok) as [[H _] _].
    destruct H as (raw & _ & He); [eauto|]. by eapply encodes_writable. }
  destruct (session_noscript capw [Some f] Hcapw) as (res & H1 & H2 & H3 & H4).
  destruct res as [|[e w] [|? ?]]; try done. inversion_clear H2 as [|? ? He _]. simpl in He. subst e.
  exists w. split; [done|]. intros Hc. unfold final_wire in H4. simpl in H4. rewrite app_nil_r in H4. subst w.
  destruct (bread_frame cap' (mkBufr [] chunks') f rest) as (st' & ? & ? & _); [done|done| |eauto].
  change (flat (mkBufr [] chunks')) with (concat chunks'). rewrite Hc. by apply read_write_frame.
Qed.

Lemma header_refinement (l : list str) (ops : list hop) :
  exists s h, run_hops (hnew l) ops = Some s /\ hops_spec (entries_of l) ops h /\ observes s h.
Proof. rewrite hnew_flat. apply run_hops_refines. Qed.
Lemma hops_spec_fun ops h h1 h2 : hops_spec h ops h1 -> hops_spec h ops h2 -> h1 = h2.
Proof.
  revert h. induction ops as [|o ops IH]; intros h H1 H2; inversion H1; inversion H2; subst; [done|].
  match goal with A : hop_spec h o ?x, B : hop_spec h o ?y |- _ => assert (x = y) by (by eapply hop_spec_fun); subst end.
  eauto.
Qed.
Lemma content_length_exact (l : list str) (ops : list hop) s h n :
  run_hops (hnew l) ops = Some s -> hops_spec (entries_of l) ops h ->
  (hcontent_length s = Some (ClValue n) <->
     exists t, first_entry h h_content_length t /\ dec_text t n /\ (n < 2 ^ 32)%N) /\
  (hcontent_length s = Some ClAbsent <-> no_entry h h_content_length) /\
  (hcontent_length s = Some ClError <->
     exists t, first_entry h h_content_length t /\ forall n', dec_text t n' -> (2 ^ 32 <= n')%N) /\
  hcontent_length s <> None.
Proof.
  intros Hr Hs. destruct (header_refinement l ops) as (s' & h' & Hr' & Hs' & Ho).
  assert (s' = s) as -> by congruence. assert (h' = h) as -> by (by eapply hops_spec_fun).
  destruct (entry_dec h h_content_length) as [Hno|[t Ht]].
  - rewrite (ob_clen_absent _ _ Ho Hno).
    assert (forall t, ~ first_entry h h_content_length t) as Hn.
    { intros t (h1 & h2 & -> & _). apply (Hno t). apply elem_of_app. right. left. }
    repeat split; try done.
    + intros (t & Ht & _). by destruct (Hn t).
    + intros (t & Ht & _). by destruct (Hn t).
  - assert (~ no_entry h h_content_length) as Hn.
    { intros Hno. destruct Ht as (h1 & h2 & -> & _). apply (Hno t). apply elem_of_app. right. left. }
    destruct (ob_clen _ _ Ho t Ht) as [H1 H2].
    destruct (parse_uint 32 t) as [m|] eqn:Hp.
    + apply parse_uint_iff in Hp as [Hd Hm]. rewrite (H1 m Hd Hm). repeat split; try done.
      * intros. simplify_eq. eauto.
      * intros (t' & Ht' & Hd' & _). rewrite (first_entry_fun _ _ _ _ Ht' Ht) in Hd'.
        by rewrite (dec_text_fun _ _ _ Hd' Hd).
      * intros (t' & Ht' & Hd'). rewrite (first_entry_fun _ _ _ _ Ht' Ht) in Hd'. specialize (Hd' m Hd). lia.
    + assert (forall n', dec_text t n' -> (2 ^ 32 <= n')%N) as Hbig.
      { intros n' Hd. destruct (N.lt_ge_cases n' (2 ^ 32)) as [Hlt|]; [|done].
        rewrite (proj2 (parse_uint_iff 32 t n')) in Hp by done. done. }
      rewrite H2 by (intros n' Hd Hlt; specialize (Hbig n' Hd); lia). repeat split; try done.
      * intros (t' & Ht' & Hd' & Hlt). rewrite (first_entry_fun _ _ _ _ Ht' Ht) in Hd'.
        specialize (Hbig n Hd'). lia.
      * eauto.
Qed.
