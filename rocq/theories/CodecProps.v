(** Property theorems of the frame codec: C01-C10 (C05 included). *)
From Verif Require Import GoBase HeaderModel FrameModel GrammarSpec GoBaseProofs HeaderSpec
  HeaderProofs CodecProofs NewProofs BufioModel BufioProofs CodecLemmas.

(** A sample frame with duplicate names, escapes and a NUL in the body. *)
Definition sample : frame :=
  mkFrame SEND [(h_destination, lit "/queue/a"); (lit "x:y", [LF; CR; BSLASH; COLON]);
                (lit "x:y", []); (h_content_length, lit "3")] [NUL; LF; ch_r].
Lemma sample_writable : writable sample.
Proof.
  split.
  - apply (bool_decide_unpack _). by vm_compute.
  - intros k v H. simpl in H. repeat (apply elem_of_cons in H as [H|H]; [by simplify_eq|]).
    by apply elem_of_nil in H.
  - left. exists (lit "3"). split; [|split; [|done]].
    + apply hd_contains_Some. by vm_compute.
    + by apply dec_text_iff.
Qed.

(* ------------------------------------------------------------------ *)
(** C01: whatever is written with Writer (any buffer size) is read back by
    Reader (any buffer size) however the network cuts the bytes, and exactly
    the bytes after it are left. *)
Theorem C01_round_trip : forall (capw capr : nat) (items : list (option frame)) (rest : str) (chunks : list str),
  0 < capw -> 0 < capr -> Forall writable_item items -> Forall (fun c => c <> []) chunks ->
  exists res, fw_session capw items (bufw_init []) = Some res /\
    Forall (fun r => fst r = false) res /\ length res = length items /\
    (concat chunks = final_wire res ++ rest ->
     exists st', reads capr (mkBufr [] chunks) items st' /\ flat st' = rest).
Proof.
  exact (fun capw capr items rest chunks Hw Hr Hi Hc =>
    match session_noscript capw items Hw with
    | ex_intro _ res (conj H1 (conj H2 (conj H3 H4))) =>
        ex_intro _ res (conj H1 (conj H2 (conj H3 (fun Hcat =>
          match reads_items capr items (mkBufr [] chunks) rest Hr Hc Hi
                  (eq_trans Hcat (f_equal (fun x => x ++ rest) H4)) with
          | ex_intro _ st' (conj A (conj B _)) => ex_intro _ st' (conj A B)
          end))))
    end).
Qed.
Print Assumptions C01_round_trip.
Example C01_case : exists st', reads 16 (mkBufr [] ((fun c => [c]) <$> (concat (write_item <$> [Some sample; None]) ++ lit "tail"))) [Some sample; None] st' /\
   flat st' = lit "tail".
Proof.
  exists (mkBufr [] ((fun c => [c]) <$> lit "tail")). split; [|done].
  eapply reads_frame; [vm_compute; reflexivity|]. eapply reads_heartbeat; [vm_compute; reflexivity|]. constructor.
Qed.

(* ------------------------------------------------------------------ *)
(** C02: two deliveries of the same bytes, cut differently and read with
    different buffer sizes, give the same items and the same final outcome. *)
Theorem C02_packetisation_independence :
  forall (n cap1 cap2 : nat) (chunks1 chunks2 : list str),
  0 < cap1 -> 0 < cap2 ->
  Forall (fun c => c <> []) chunks1 -> Forall (fun c => c <> []) chunks2 ->
  concat chunks1 = concat chunks2 ->
  fst (bread_all n cap1 (mkBufr [] chunks1)) = fst (bread_all n cap2 (mkBufr [] chunks2)) /\
  bflat (snd (bread_all n cap1 (mkBufr [] chunks1))) = bflat (snd (bread_all n cap2 (mkBufr [] chunks2))).
Proof.
  exact (fun n cap1 cap2 c1 c2 H1 H2 O1 O2 He =>
    let A := bread_all_spec n cap1 (mkBufr [] c1) H1 O1 in
    let B := bread_all_spec n cap2 (mkBufr [] c2) H2 O2 in
    let E := f_equal (read_all n) (He : flat (mkBufr [] c1) = flat (mkBufr [] c2)) in
    conj (eq_trans (proj1 A) (eq_trans (f_equal fst E) (eq_sym (proj1 B))))
         (eq_trans (proj2 A) (eq_trans (f_equal snd E) (eq_sym (proj2 B))))).
Qed.
Print Assumptions C02_packetisation_independence.
Example C02_case :
  let bytes := write_frame sample ++ [LF] ++ write_frame sample in
  bread_all 10 16 (mkBufr [] [bytes]) = ([Some sample; None; Some sample], BError EIO) /\
  bread_all 10 3 (mkBufr [] ((fun c => [c]) <$> bytes)) = ([Some sample; None; Some sample], BError EIO).
Proof. vm_compute. done. Qed.

(* ------------------------------------------------------------------ *)
(** C03: the (buffered) reader accepts exactly the grammar. *)
Theorem C03_reader_grammar : forall (cap : nat) (chunks : list str) (f : frame) (rest : str),
  0 < cap -> Forall (fun c => c <> []) chunks ->
  ((exists st', bread cap (mkBufr [] chunks) = BFrame f st' /\ flat st' = rest) <->
   (exists raw, concat chunks = raw ++ rest /\ encodes raw f)) /\
  ((exists st', bread cap (mkBufr [] chunks) = BHeartbeat st' /\ flat st' = rest) <->
   (concat chunks = LF :: rest \/ concat chunks = CR :: LF :: rest)).
Proof. exact bread_grammar. Qed.
Print Assumptions C03_reader_grammar.
Example C03_case : encodes (lit "SEND" ++ [CR; LF] ++ lit "a:\c\q" ++ [LF; LF] ++ lit "body" ++ [NUL])
                           (mkFrame SEND [(lit "a", lit ":\q")] (lit "body")).
Proof.
  assert (read_stream (lit "SEND" ++ [CR; LF] ++ lit "a:\c\q" ++ [LF; LF] ++ lit "body" ++ [NUL])
          = RFrame (mkFrame SEND [(lit "a", lit ":\q")] (lit "body")) []) as H by (by vm_compute).
  apply reader_iff_grammar in H as (raw & -> & He). by rewrite app_nil_r.
Qed.
(** The grammar itself is unambiguous. *)
Theorem C03_grammar_unambiguous : forall raw1 f1 r1 raw2 f2 r2,
  encodes raw1 f1 -> encodes raw2 f2 -> raw1 ++ r1 = raw2 ++ r2 ->
  raw1 = raw2 /\ f1 = f2 /\ r1 = r2.
Proof. exact encodes_unambiguous. Qed.
Print Assumptions C03_grammar_unambiguous.

(* ------------------------------------------------------------------ *)
(** C04: complete items are delivered, then the cut frame gives the
    connection's error, never a frame. *)
Theorem C04_truncation : forall (cap : nat) (items : list (option frame)) (f : frame) (p q : str) (chunks : list str),
  0 < cap -> Forall writable_item items -> writable f ->
  write_frame f = p ++ q -> q <> [] ->
  Forall (fun c => c <> []) chunks -> concat chunks = concat (write_item <$> items) ++ p ->
  exists st', reads cap (mkBufr [] chunks) items st' /\ bread cap st' = BError EIO.
Proof. exact truncation. Qed.
Print Assumptions C04_truncation.
Example C04_case : exists p q, write_frame sample = p ++ q /\ q <> [] /\ length p = 30 /\
  bread 16 (mkBufr [] [p]) = BError EIO.
Proof. exists (take 30 (write_frame sample)), (drop 30 (write_frame sample)). by vm_compute. Qed.

(* ------------------------------------------------------------------ *)
(** C05: [session_ok] says: each successful Write has put exactly its encoding
    after everything before it; the first failing Write has put a prefix of
    its encoding; all later ones fail and the wire does not change. *)
Theorem C05_crash_points : forall (cap : nat) (items : list (option frame)) (sc : script),
  0 < cap -> exists res, fw_session cap items (bufw_init sc) = Some res /\ session_ok [] items res.
Proof. exact (fun cap items sc H => session_spec cap items (bufw_init sc) H eq_refl eq_refl). Qed.
Print Assumptions C05_crash_points.
Example C05_case :
  fst <$> (default [] (fw_session 16 [Some sample; Some sample; None] (bufw_init [(16, false); (16, false); (99, false); (99, false); (99, false); (7, false)]%N)))
  = [false; true; true].
Proof. by vm_compute. Qed.

(* ------------------------------------------------------------------ *)
(** C06 *)
Theorem C06_escaping : forall s : str,
  LF ∉ encode_value s /\ CR ∉ encode_value s /\ COLON ∉ encode_value s /\
  unencode_value (encode_value s) = s /\ unescaped (encode_value s) s /\
  (forall t, encode_value s = encode_value t -> s = t).
Proof. exact escaping. Qed.
Print Assumptions C06_escaping.
Example C06_case : encode_value [LF; CR; COLON; BSLASH; ch_c] = lit "\n\r\c\\c".
Proof. by vm_compute. Qed.

(* ------------------------------------------------------------------ *)
(** C07 *)
Theorem C07_total_progress : forall (cap : nat) (chunks : list str),
  0 < cap -> Forall (fun c => c <> []) chunks ->
  match bread cap (mkBufr [] chunks) with
  | BPanic | BFuel => False
  | BError _ => True
  | BHeartbeat st' => length (flat st') < length (concat chunks)
  | BFrame f st' =>
      length (flat st') < length (concat chunks) /\
      stomp_command (f_cmd f) /\ (forall k v, (k, v) ∈ f_hdr f -> k <> []) /\
      (forall t, first_entry (f_hdr f) h_content_length t -> dec_text t (N.of_nat (length (f_body f)))) /\
      (no_entry (f_hdr f) h_content_length -> NUL ∉ f_body f)
  end.
Proof. exact total_progress. Qed.
Print Assumptions C07_total_progress.
Example C07_case : bread 16 (mkBufr [] [lit "BOGUS"; [LF]]) = BError EInvalidCommand /\
  bread 16 (mkBufr [] [[CR]; [LF]]) = BHeartbeat (mkBufr [] []).
Proof. by vm_compute. Qed.

(* ------------------------------------------------------------------ *)
(** C08 *)
Theorem C08_relay : forall (cap cap' capw : nat) (chunks chunks' : list str) (f : frame) (st : bufr) (rest : str),
  0 < cap -> 0 < cap' -> 0 < capw -> Forall (fun c => c <> []) chunks -> Forall (fun c => c <> []) chunks' ->
  bread cap (mkBufr [] chunks) = BFrame f st ->
  exists w, fw_session capw [Some f] (bufw_init []) = Some [(false, w)] /\
   (concat chunks' = w ++ rest ->
    exists st', bread cap' (mkBufr [] chunks') = BFrame f st' /\ flat st' = rest).
Proof. exact relay. Qed.
Print Assumptions C08_relay.
Example C08_case : exists f st, bread 16 (mkBufr [] [lit "SEND" ++ [CR; LF] ++ lit "a:\c\q" ++ [LF; LF] ++ lit "body" ++ [NUL]]) = BFrame f st.
Proof. vm_compute. eauto. Qed.

(* ------------------------------------------------------------------ *)
(** C09 *)
Theorem C09_ordered_multimap : forall (l : list str) (ops : list hop),
  exists s h, run_hops (hnew l) ops = Some s /\ hops_spec (entries_of l) ops h /\ observes s h.
Proof. exact header_refinement. Qed.
Print Assumptions C09_ordered_multimap.
Theorem C09_spec_deterministic : forall ops h h1 h2, hops_spec h ops h1 -> hops_spec h ops h2 -> h1 = h2.
Proof. exact hops_spec_fun. Qed.
Print Assumptions C09_spec_deterministic.
(** frame.New: the i-th entry is made of the strings 2i and 2i+1, there are no
    others, and an odd number of strings is an index out of range. *)
Theorem C09_new : forall cmd hs,
  (forall f, frame_new cmd hs = Some f -> f_cmd f = cmd /\ f_body f = [] /\ length hs = 2 * length (f_hdr f) /\
     forall i, fst <$> f_hdr f !! i = hs !! (2 * i) /\ snd <$> f_hdr f !! i = hs !! (2 * i + 1)) /\
  (frame_new cmd hs = None <-> Nat.odd (length hs) = true).
Proof. exact frame_new_spec. Qed.
Print Assumptions C09_new.
Example C09_new_case : frame_new (lit "SEND") (lit <$> ["destination"; "/queue/a"; "x"; "1"]%string) = Some (mkFrame (lit "SEND") [(lit "destination", lit "/queue/a"); (lit "x", lit "1")] []).
Proof. done. Qed.
Example C09_case : run_hops (hnew [lit "a"; lit "1"; lit "b"])
   [OpAdd (lit "a") (lit "2"); OpSet (lit "a") (lit "3"); OpAddHeader [lit "b"; lit "4"]; OpDel (lit "b"); OpClone]
   = Some [lit "a"; lit "3"; lit "a"; lit "2"].
Proof. by vm_compute. Qed.

(* ------------------------------------------------------------------ *)
(** C10 *)
Theorem C10_content_length : forall (l : list str) (ops : list hop) s h n,
  run_hops (hnew l) ops = Some s -> hops_spec (entries_of l) ops h ->
  (hcontent_length s = Some (ClValue n) <->
     exists t, first_entry h h_content_length t /\ dec_text t n /\ (n < 2 ^ 32)%N) /\
  (hcontent_length s = Some ClAbsent <-> no_entry h h_content_length) /\
  (hcontent_length s = Some ClError <->
     exists t, first_entry h h_content_length t /\ forall n', dec_text t n' -> (2 ^ 32 <= n')%N) /\
  hcontent_length s <> None.
Proof. exact content_length_exact. Qed.
Print Assumptions C10_content_length.
Example C10_case :
  hcontent_length (hnew [h_content_length; lit "4294967295"]) = Some (ClValue 4294967295) /\
  hcontent_length (hnew [h_content_length; lit "4294967296"]) = Some ClError /\
  hcontent_length (hnew [h_content_length; lit "+1"]) = Some ClError.
Proof. by vm_compute. Qed.
