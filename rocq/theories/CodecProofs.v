(** Reader = grammar; writer output is in the grammar. *)
From Verif Require Import GoBase HeaderModel FrameModel GrammarSpec GoBaseProofs HeaderSpec HeaderProofs.

(* ---------- cut_after ---------- *)
Lemma cut_after_app d p rest : d ∉ p -> cut_after d (p ++ d :: rest) = Some (p ++ [d], rest).
Proof.
  induction p as [|c p IH]; simpl.
  - intros _. by case_decide.
  - rewrite not_elem_of_cons. intros [H1 H2]. case_decide; [by subst|]. by rewrite IH.
Qed.
Lemma cut_after_Some d s a b :
  cut_after d s = Some (a, b) <-> exists p, a = p ++ [d] /\ d ∉ p /\ s = p ++ d :: b.
Proof.
  split.
  - revert a b. induction s as [|c s IH]; intros a b; simpl; [done|].
    case_decide; subst.
    + intros. simplify_eq. exists []. split; [done|]. split; [apply not_elem_of_nil|done].
    + destruct (cut_after d s) as [[a' b']|] eqn:He; [|done]. intros; simplify_eq.
      destruct (IH _ _ eq_refl) as (p & -> & Hp & ->). exists (c :: p).
      split; [done|]. split; [|done]. rewrite not_elem_of_cons. done.
  - intros (p & -> & Hp & ->). by apply cut_after_app.
Qed.
Lemma cut_after_None d s : cut_after d s = None <-> d ∉ s.
Proof.
  split.
  - induction s as [|c s IH]; simpl; [intros _; apply not_elem_of_nil|].
    case_decide; [done|]. destruct (cut_after d s) as [[a b]|]; [done|]. intros _.
    rewrite not_elem_of_cons. split; [done|]. by apply IH.
  - intros H. destruct (cut_after d s) as [[a b]|] eqn:He; [|done].
    apply cut_after_Some in He as (p & _ & _ & ->). exfalso. apply H.
    apply elem_of_app. right. left.
Qed.

(* ---------- lines ---------- *)
Lemma eol_line_last raw l : eol_line raw l -> exists p, raw = p ++ [LF] /\ LF ∉ p.
Proof.
  intros [l' Hl _|l' Hl].
  - eauto.
  - exists (l' ++ [CR]). rewrite <- app_assoc. split; [done|].
    rewrite not_elem_of_app. split; [done|]. by rewrite elem_of_list_singleton.
Qed.
Lemma go_slice_take n s : n <= length s -> go_slice 0 n s = Some (take n s).
Proof.
  intros H. unfold go_slice. destruct (Nat.leb_spec n (length s)); [|lia]. simpl.
  rewrite drop_0, Nat.sub_0_r. done.
Qed.
Lemma strip_eol_spec raw l : eol_line raw l -> strip_eol raw = Some l.
Proof.
  intros [l' Hl Hc|l' Hl]; unfold strip_eol.
  - destruct (has_suffix (l' ++ [LF]) [CR; LF]) eqn:H1.
    + apply has_suffix_iff in H1 as [t Ht]. exfalso. apply Hc.
      change [CR; LF] with ([CR] ++ [LF]) in Ht. rewrite app_assoc in Ht.
      apply app_inj_tail in Ht as [-> _]. by rewrite last_snoc.
    + rewrite (proj2 (has_suffix_iff (l' ++ [LF]) [LF])) by eauto.
      rewrite go_slice_take by lia. rewrite app_length. simpl.
      replace (length l' + 1 - 1) with (length l') by lia. by rewrite take_app.
  - rewrite (proj2 (has_suffix_iff (l' ++ [CR; LF]) [CR; LF])) by eauto.
    rewrite go_slice_take by lia. rewrite app_length. simpl.
    replace (length l' + 2 - 2) with (length l') by lia. by rewrite take_app.
Qed.
Lemma eol_line_exists p : LF ∉ p -> exists l, eol_line (p ++ [LF]) l /\ LF ∉ l.
Proof.
  intros Hp. destruct (decide (last p = Some CR)) as [Hc|Hc].
  - apply last_Some in Hc as [l ->]. apply not_elem_of_app in Hp as [Hl _].
    exists l. split; [|done]. rewrite <- app_assoc. by constructor.
  - exists p. split; [|done]. by constructor.
Qed.
Lemma eol_line_noLF raw l : eol_line raw l -> LF ∉ l.
Proof. by intros [? ? _|? ?]. Qed.
Lemma eol_line_len raw l : eol_line raw l -> length l < length raw.
Proof. intros [? ? _|? ?]; rewrite app_length; simpl; lia. Qed.
(** reading one line off a stream *)
Lemma cut_line_Some s raw rest :
  cut_after LF s = Some (raw, rest) <-> (exists l, eol_line raw l) /\ s = raw ++ rest.
Proof.
  rewrite cut_after_Some. split.
  - intros (p & -> & Hp & ->). destruct (eol_line_exists p Hp) as (l & Hl & _).
    split; [eauto|]. by rewrite <- app_assoc.
  - intros [[l Hl] ->]. destruct (eol_line_last _ _ Hl) as (p & -> & Hp).
    exists p. split; [done|]. split; [done|]. by rewrite <- app_assoc.
Qed.

(* ---------- escaping ---------- *)
Lemma unencode_bslash b t :
  unencode_value (BSLASH :: b :: t) =
  if decide (b = ch_r) then CR :: unencode_value t
  else if decide (b = ch_n) then LF :: unencode_value t
  else if decide (b = ch_c) then COLON :: unencode_value t
  else if decide (b = BSLASH) then BSLASH :: unencode_value t
  else BSLASH :: unencode_value (b :: t).
Proof. done. Qed.
Lemma unescaped_fun raw v : unescaped raw v -> unencode_value raw = v.
Proof.
  induction 1 as [|c s v Hc H IH|s v H IH|s v H IH|s v H IH|s v H IH| |c s v H1 H2 H3 H4 H IH];
    try done.
  - cbn [unencode_value]. rewrite decide_False by done. by rewrite IH.
  - cbn [unencode_value]. rewrite decide_True by done. rewrite decide_True by done. by rewrite IH.
  - cbn [unencode_value]. rewrite decide_True by done. do 1 rewrite decide_False by done.
    rewrite decide_True by done. by rewrite IH.
  - cbn [unencode_value]. rewrite decide_True by done. do 2 rewrite decide_False by done.
    rewrite decide_True by done. by rewrite IH.
  - cbn [unencode_value]. rewrite decide_True by done. do 3 rewrite decide_False by done.
    rewrite decide_True by done. by rewrite IH.
  - rewrite unencode_bslash. do 4 rewrite decide_False by done. by rewrite IH.
Qed.
Lemma unescaped_total_aux n raw : length raw < n -> unescaped raw (unencode_value raw).
Proof.
  revert raw. induction n as [|n IH]; intros raw Hl; [lia|].
  destruct raw as [|a t]; [constructor|]. simpl in Hl. cbn [unencode_value].
  destruct (decide (a = BSLASH)) as [->|Ha]; [|constructor; [done|apply IH; lia]].
  destruct t as [|b t']; [apply un_end|]. simpl in Hl.
  destruct (decide (b = ch_r)) as [->|]; [constructor; apply IH; simpl; lia|].
  destruct (decide (b = ch_n)) as [->|]; [constructor; apply IH; simpl; lia|].
  destruct (decide (b = ch_c)) as [->|]; [constructor; apply IH; simpl; lia|].
  destruct (decide (b = BSLASH)) as [->|]; [apply un_bslash; apply IH; simpl; lia|].
  apply un_other; try done. apply IH. simpl. lia.
Qed.
Lemma unescaped_total raw : unescaped raw (unencode_value raw).
Proof. apply (unescaped_total_aux (S (length raw))). lia. Qed.
Lemma unescaped_iff raw v : unescaped raw v <-> unencode_value raw = v.
Proof. split; [apply unescaped_fun|]. intros <-. apply unescaped_total. Qed.
Lemma unescaped_nonempty raw v : unescaped raw v -> raw <> [] -> v <> [].
Proof. by intros []. Qed.

Lemma encode_nil : encode_value [] = [].
Proof. done. Qed.
Lemma encode_cons c s : encode_value (c :: s) = enc_byte c ++ encode_value s.
Proof. done. Qed.
Lemma encode_unescaped s : unescaped (encode_value s) s.
Proof.
  induction s as [|c s IH]; [constructor|]. rewrite encode_cons. unfold enc_byte.
  destruct (decide (c = BSLASH)) as [->|]; [by apply un_bslash|].
  destruct (decide (c = CR)) as [->|]; [by constructor|].
  destruct (decide (c = LF)) as [->|]; [by constructor|].
  destruct (decide (c = COLON)) as [->|]; [by constructor|].
  by constructor.
Qed.
Lemma encode_safe s c : c ∈ encode_value s -> c <> LF /\ c <> CR /\ c <> COLON.
Proof.
  induction s as [|a s IH]; [intros H; by apply elem_of_nil in H|].
  rewrite encode_cons, elem_of_app. intros [H|H]; [|by apply IH].
  revert H. unfold enc_byte.
  repeat case_decide; intros Hin; repeat (apply elem_of_cons in Hin as [->|Hin]; [done|]);
    by apply elem_of_nil in Hin.
Qed.
Lemma encode_nonempty s : s <> [] -> encode_value s <> [].
Proof.
  intros Hs He. destruct s as [|c s]; [done|]. pose proof (encode_unescaped (c :: s)) as Hu.
  rewrite He in Hu. inversion Hu.
Qed.
Lemma unencode_encode s : unencode_value (encode_value s) = s.
Proof. apply unescaped_iff, encode_unescaped. Qed.
Lemma encode_inj s t : encode_value s = encode_value t -> s = t.
Proof. intros H. rewrite <- (unencode_encode s), H. apply unencode_encode. Qed.

(* ---------- header lines ---------- *)
Lemma parse_header_line_cases l :
  (exists kv, parse_header_line l = Some (Some kv) /\ header_line l kv) \/
  (parse_header_line l = Some None /\ (COLON ∉ l \/ head l = Some COLON)).
Proof.
  unfold parse_header_line. destruct (index_byte COLON l) as [i|] eqn:Hi.
  - apply index_byte_Some in Hi as (rn & rv & -> & Hn & Hl). destruct i as [|i].
    + right. split; [done|]. right. destruct rn; [done|done].
    + left. rewrite <- Hl.
      rewrite go_slice_prefix.
      replace (length rn + 1) with (length (rn ++ [COLON])) by (rewrite app_length; done).
      replace (rn ++ COLON :: rv) with ((rn ++ [COLON]) ++ rv) by (by rewrite <- app_assoc).
      rewrite go_slice_suffix by (by rewrite app_length).
      exists (unencode_value rn, unencode_value rv). split; [done|].
      rewrite <- app_assoc. simpl. constructor; [by destruct rn|done|apply unescaped_total..].
  - right. split; [done|]. left. by apply index_byte_None.
Qed.
Lemma header_line_fun l kv : header_line l kv -> parse_header_line l = Some (Some kv).
Proof.
  intros [rn rv n v Hne Hc Hn Hv]. unfold parse_header_line.
  rewrite (proj2 (index_byte_Some COLON (rn ++ COLON :: rv) (length rn))) by eauto.
  destruct (length rn) as [|i] eqn:Hl; [by destruct rn|]. rewrite <- Hl.
  rewrite go_slice_prefix.
  replace (length rn + 1) with (length (rn ++ [COLON])) by (rewrite app_length; done).
  replace (rn ++ COLON :: rv) with ((rn ++ [COLON]) ++ rv) by (by rewrite <- app_assoc).
  rewrite go_slice_suffix by (by rewrite app_length).
  apply unescaped_iff in Hn as ->. by apply unescaped_iff in Hv as ->.
Qed.
Lemma header_line_nonempty l kv : header_line l kv -> l <> [] /\ fst kv <> [].
Proof.
  intros [rn rv n v Hne Hc Hn Hv]. split; [by destruct rn|]. by eapply unescaped_nonempty.
Qed.

(* ---------- header section ---------- *)
Lemma header_section_len raw h : header_section raw h -> 0 < length raw.
Proof.
  induction 1 as [raw H|raw l kv rest h Hl Hh Hs IH]; [apply eol_line_len in H; lia|].
  rewrite app_length. lia.
Qed.
Lemma read_headers_complete fuel hraw h rest acc :
  header_section hraw h -> length (hraw ++ rest) < fuel ->
  read_headers fuel (hraw ++ rest) acc = HOk (acc ++ h) rest.
Proof.
  intros Hs. revert fuel acc. induction Hs as [raw H|raw l kv r h Hl Hh Hs IH];
    intros fuel acc Hf; destruct fuel as [|k]; try lia; cbn [read_headers].
  - rewrite (proj2 (cut_line_Some _ raw rest)) by eauto. rewrite (strip_eol_spec _ _ H).
    by rewrite app_nil_r.
  - rewrite <- app_assoc in *. rewrite (proj2 (cut_line_Some _ raw (r ++ rest))) by eauto.
    rewrite (strip_eol_spec _ _ Hl). destruct (header_line_nonempty _ _ Hh) as [Hne _].
    destruct l as [|c l]; [done|]. rewrite (header_line_fun _ _ Hh).
    rewrite IH; [by rewrite <- app_assoc|]. rewrite app_length in Hf.
    apply eol_line_len in Hl. lia.
Qed.
Lemma read_headers_sound fuel s acc : length s < fuel ->
  match read_headers fuel s acc with
  | HOk h rest => exists hraw h', s = hraw ++ rest /\ h = acc ++ h' /\ header_section hraw h'
  | HError e => e = EIO \/ e = EInvalidFormat
  | HPanic | HFuel => False
  end.
Proof.
  revert s acc. induction fuel as [|k IH]; intros s acc Hf; [lia|]. cbn [read_headers].
  destruct (cut_after LF s) as [[raw rest]|] eqn:Hc; [|by left].
  apply cut_line_Some in Hc as [[l Hl] ->]. rewrite (strip_eol_spec _ _ Hl).
  destruct l as [|c l].
  - exists raw, []. split; [done|]. split; [by rewrite app_nil_r|]. by constructor.
  - destruct (parse_header_line_cases (c :: l)) as [(kv & -> & Hh)|[-> _]]; [|by right].
    rewrite app_length in Hf. apply eol_line_len in Hl as Hll.
    specialize (IH rest (acc ++ [kv])). destruct (read_headers k rest (acc ++ [kv])) as [h r|e| |];
      try (apply IH; lia).
    destruct IH as (hraw & h' & -> & -> & Hs); [lia|].
    exists (raw ++ hraw), (kv :: h'). split; [by rewrite app_assoc|].
    split; [by rewrite <- app_assoc|]. by econstructor.
Qed.

(* ---------- body ---------- *)
Lemma read_body_complete cmd h braw b rest :
  body_section h braw b -> read_body cmd h (braw ++ rest) = RFrame (mkFrame cmd h b) rest.
Proof.
  intros [t n b' Hf Hd Hn Hl|b' Hno Hb]; unfold read_body, hd_content_length.
  - apply hd_contains_Some in Hf. rewrite Hf.
    rewrite (proj2 (parse_uint_iff 32 t n)) by done.
    rewrite <- app_assoc. destruct (N.ltb_spec (N.of_nat (length (b' ++ [NUL] ++ rest))) n) as [H|H].
    { rewrite app_length in H. lia. }
    replace (N.to_nat n) with (length b') by lia.
    rewrite drop_app, take_app. simpl. done.
  - apply hd_contains_None in Hno. rewrite Hno. rewrite <- app_assoc. simpl.
    rewrite cut_after_app by done. rewrite go_slice_take by lia. rewrite app_length. simpl.
    replace (length b' + 1 - 1) with (length b') by lia. by rewrite take_app.
Qed.
Lemma read_body_sound cmd h s :
  match read_body cmd h s with
  | RFrame f rest => exists braw b, s = braw ++ rest /\ f = mkFrame cmd h b /\ body_section h braw b
  | RError _ => True
  | _ => False
  end.
Proof.
  unfold read_body, hd_content_length. destruct (hd_contains h h_content_length) as [t|] eqn:Hc.
  - destruct (parse_uint 32 t) as [n|] eqn:Hp; [|done].
    apply parse_uint_iff in Hp as [Hd Hn].
    destruct (N.ltb_spec (N.of_nat (length s)) n) as [H|H]; [done|].
    destruct (drop (N.to_nat n) s) as [|c rest] eqn:Hdr; [done|].
    case_decide; [subst|done].
    exists (take (N.to_nat n) s ++ [NUL]), (take (N.to_nat n) s).
    split. { rewrite <- app_assoc. simpl. rewrite <- Hdr. by rewrite take_drop. }
    split; [done|]. apply hd_contains_Some in Hc. econstructor; [done..|].
    rewrite take_length. lia.
  - destruct (cut_after NUL s) as [[raw rest]|] eqn:Hr; [|done].
    apply cut_after_Some in Hr as (p & -> & Hp & ->).
    rewrite go_slice_take by lia. rewrite app_length. simpl.
    replace (length p + 1 - 1) with (length p) by lia. rewrite take_app.
    exists (p ++ [NUL]), p. rewrite <- app_assoc. split; [done|]. split; [done|].
    apply hd_contains_None in Hc. by constructor.
Qed.

(* ---------- commands ---------- *)
Lemma stomp_command_iff c : stomp_command c <-> c ∈ valid_commands.
Proof.
  unfold stomp_command, valid_commands. unfold CONNECT, STOMP, SEND, SUBSCRIBE, UNSUBSCRIBE,
    ACK, NACK, BEGIN, COMMIT, ABORT, DISCONNECT, CONNECTED, MESSAGE, RECEIPT, ERROR.
  rewrite !elem_of_cons, !elem_of_nil. tauto.
Qed.
Lemma stomp_command_chars c : stomp_command c -> c <> [] /\ LF ∉ c /\ CR ∉ c.
Proof.
  unfold stomp_command. intros H.
  repeat (apply elem_of_cons in H as [->|H];
          [split; [done|]; split; apply (bool_decide_unpack _); by vm_compute|]).
  by apply elem_of_nil in H.
Qed.

(* ---------- whole reader ---------- *)
Lemma read_stream_complete raw f rest :
  encodes raw f -> read_stream (raw ++ rest) = RFrame f rest.
Proof.
  intros [craw cmd hraw h braw b Hl Hc Hh Hb]. unfold read_stream.
  rewrite <- !app_assoc. rewrite (proj2 (cut_line_Some _ craw (hraw ++ braw ++ rest))) by eauto.
  rewrite (strip_eol_spec _ _ Hl). destruct (stomp_command_chars _ Hc) as (Hne & _).
  destruct cmd as [|a cmd]; [done|]. rewrite decide_True by (by apply stomp_command_iff).
  rewrite (read_headers_complete _ _ _ _ [] Hh) by lia. by apply read_body_complete.
Qed.
Lemma read_stream_sound s :
  match read_stream s with
  | RFrame f rest => exists raw, s = raw ++ rest /\ encodes raw f
  | RHeartbeat rest => exists raw, s = raw ++ rest /\ eol_line raw []
  | RError _ => True
  | RPanic | RFuel => False
  end.
Proof.
  unfold read_stream. destruct (cut_after LF s) as [[craw rest]|] eqn:Hc; [|done].
  apply cut_line_Some in Hc as [[l Hl] ->]. rewrite (strip_eol_spec _ _ Hl).
  destruct l as [|a l]; [eauto|].
  case_decide as Hv; [|done].
  pose proof (read_headers_sound (S (length rest)) rest []) as Hh.
  destruct (read_headers (S (length rest)) rest []) as [h r|e| |]; try (apply Hh; lia); [|done].
  destruct Hh as (hraw & h' & -> & -> & Hs); [lia|]. simpl.
  pose proof (read_body_sound (a :: l) h' r) as Hb.
  destruct (read_body (a :: l) h' r) as [|f r'| | |]; try done.
  destruct Hb as (braw & b & -> & -> & Hb). exists (craw ++ hraw ++ braw).
  split; [by rewrite <- !app_assoc|]. econstructor; try done. by apply stomp_command_iff.
Qed.
Lemma read_stream_heartbeat raw rest : eol_line raw [] -> read_stream (raw ++ rest) = RHeartbeat rest.
Proof.
  intros Hl. unfold read_stream. rewrite (proj2 (cut_line_Some _ raw rest)) by eauto.
  by rewrite (strip_eol_spec _ _ Hl).
Qed.
Lemma reader_iff_grammar s f rest :
  read_stream s = RFrame f rest <-> exists raw, s = raw ++ rest /\ encodes raw f.
Proof.
  split.
  - intros H. pose proof (read_stream_sound s) as Hs. by rewrite H in Hs.
  - intros (raw & -> & He). by apply read_stream_complete.
Qed.
Lemma reader_heartbeat_iff s rest :
  read_stream s = RHeartbeat rest <-> exists raw, s = raw ++ rest /\ eol_line raw [].
Proof.
  split.
  - intros H. pose proof (read_stream_sound s) as Hs. by rewrite H in Hs.
  - intros (raw & -> & He). by apply read_stream_heartbeat.
Qed.
Lemma encodes_unambiguous raw1 f1 r1 raw2 f2 r2 :
  encodes raw1 f1 -> encodes raw2 f2 -> raw1 ++ r1 = raw2 ++ r2 ->
  raw1 = raw2 /\ f1 = f2 /\ r1 = r2.
Proof.
  intros H1 H2 He. pose proof (read_stream_complete _ _ r1 H1) as E1.
  rewrite He, (read_stream_complete _ _ r2 H2) in E1. simplify_eq.
  split; [|done]. by apply app_inv_tail in He.
Qed.
Lemma encodes_writable raw f : encodes raw f -> writable f.
Proof.
  intros [craw cmd hraw h braw b Hl Hc Hh Hb]. split; simpl.
  - done.
  - clear - Hh. induction Hh as [raw H|raw l kv r h Hl Hh Hs IH]; intros k v.
    + intros H'. by apply elem_of_nil in H'.
    + rewrite elem_of_cons. intros [<-|Hin]; [|by eapply IH].
      by destruct (header_line_nonempty _ _ Hh).
  - destruct Hb as [t n b' Hf Hd Hn Hlen|b' Hno Hb']; [left|right; done].
    exists t. rewrite Hlen. done.
Qed.

(* ---------- writer ---------- *)
Lemma write_header_line kv : fst kv <> [] ->
  eol_line (write_header kv) (encode_value (fst kv) ++ COLON :: encode_value (snd kv)) /\
  header_line (encode_value (fst kv) ++ COLON :: encode_value (snd kv)) kv.
Proof.
  destruct kv as [k v]. simpl. intros Hk. split.
  - unfold write_header. simpl.
    replace (encode_value k ++ COLON :: encode_value v ++ [LF])
      with ((encode_value k ++ COLON :: encode_value v) ++ [LF]) by (by rewrite <- app_assoc).
    constructor.
    + rewrite not_elem_of_app, not_elem_of_cons.
      split; [|split; [done|]]; intros Hx%encode_safe; naive_solver.
    + intros Hla. apply last_Some in Hla as [l' Hla].
      assert (CR ∈ encode_value k ++ COLON :: encode_value v) as Hin.
      { rewrite Hla. apply elem_of_app. right. left. }
      apply elem_of_app in Hin as [Hin|Hin]; [apply encode_safe in Hin; naive_solver|].
      apply elem_of_cons in Hin as [Hin|Hin]; [done|apply encode_safe in Hin; naive_solver].
  - constructor; [by apply encode_nonempty| |apply encode_unescaped..].
    intros Hx%encode_safe. naive_solver.
Qed.
Lemma write_headers_section h : (forall k v, (k, v) ∈ h -> k <> []) ->
  header_section (concat (write_header <$> h) ++ [LF]) h.
Proof.
  induction h as [|kv h IH]; intros Hn.
  - simpl. constructor. apply (el_lf []); [apply not_elem_of_nil|done].
  - rewrite fmap_cons. cbn [concat]. rewrite <- app_assoc.
    destruct (write_header_line kv) as [Hl Hh].
    { destruct kv as [k v]. apply (Hn k v). left. }
    econstructor; [done..|]. apply IH. intros k v Hin. apply (Hn k v). by right.
Qed.
Lemma write_frame_encodes f : writable f -> encodes (write_frame f) f.
Proof.
  intros [Hc Hn Hb]. destruct f as [cmd h b]. simpl in *. unfold write_frame. simpl.
  replace (cmd ++ LF :: concat (write_header <$> h) ++ LF :: b ++ [NUL])
    with ((cmd ++ [LF]) ++ (concat (write_header <$> h) ++ [LF]) ++ (b ++ [NUL]))
    by (rewrite <- !app_assoc; done).
  constructor.
  - destruct (stomp_command_chars _ Hc) as (_ & Hlf & Hcr). constructor; [done|].
    intros Hla. apply last_Some in Hla as [l' ->]. apply Hcr. apply elem_of_app. right. left.
  - done.
  - by apply write_headers_section.
  - destruct Hb as [(t & Hf & Hd & Hlt)|[Hno Hnul]]; [by econstructor|by constructor].
Qed.
Lemma read_write_frame f rest : writable f -> read_stream (write_frame f ++ rest) = RFrame f rest.
Proof. intros Hw. apply read_stream_complete. by apply write_frame_encodes. Qed.
Lemma read_write_heartbeat rest : read_stream (write_item None ++ rest) = RHeartbeat rest.
Proof. apply read_stream_heartbeat. apply (el_lf []); [apply not_elem_of_nil|done]. Qed.

Definition writable_item (o : option frame) : Prop :=
  match o with None => True | Some f => writable f end.

Lemma read_all_items items rest fuel : Forall writable_item items ->
  read_all (length items + fuel) (concat (write_item <$> items) ++ rest) =
  (items ++ fst (read_all fuel rest), snd (read_all fuel rest)).
Proof.
  induction items as [|o items IH]; intros Hw.
  - simpl. by destruct (read_all fuel rest).
  - inversion_clear Hw as [|? ? Ho Hi]. rewrite fmap_cons. cbn [concat length Nat.add read_all].
    rewrite <- app_assoc. destruct o as [f|].
    + cbn [write_item]. rewrite read_write_frame by done. rewrite IH by done. done.
    + rewrite read_write_heartbeat. rewrite IH by done. done.
Qed.

(* ---------- prefixes: encodings are prefix free ---------- *)
Lemma encodes_prefix_free raw f p q g rest :
  encodes raw f -> raw = p ++ q -> q <> [] -> read_stream p <> RFrame g rest.
Proof.
  intros He Hpq Hq Hr. apply reader_iff_grammar in Hr as (raw' & -> & He').
  rewrite <- app_assoc in Hpq.
  assert (raw ++ [] = raw' ++ (rest ++ q)) as Hx by (by rewrite app_nil_r).
  destruct (encodes_unambiguous _ _ _ _ _ _ He He' Hx) as (_ & _ & Hy).
  symmetry in Hy. apply app_eq_nil in Hy as [_ ->]. done.
Qed.
Lemma write_frame_prefix f p q : writable f -> write_frame f = p ++ q -> q <> [] ->
  exists e, read_stream p = RError e.
Proof.
  intros Hw Hpq Hq. pose proof (write_frame_encodes f Hw) as He.
  pose proof (read_stream_sound p) as Hs. destruct (read_stream p) as [rest|g rest|e| |] eqn:Hr; try done; [| |eauto].
  - exfalso. apply reader_heartbeat_iff in Hr as (raw & -> & Hl).
    pose proof (read_stream_heartbeat raw (rest ++ q) Hl) as H1. rewrite app_assoc, <- Hpq in H1.
    pose proof (read_stream_complete _ _ [] He) as H2. rewrite app_nil_r in H2. congruence.
  - exfalso. by eapply encodes_prefix_free.
Qed.

Lemma read_body_short cmd h b : 
  ((exists t, first_entry h h_content_length t /\ dec_text t (N.of_nat (length b)) /\ (N.of_nat (length b) < 2 ^ 32)%N) \/
   (no_entry h h_content_length /\ NUL ∉ b)) ->
  forall p q, b ++ [NUL] = p ++ q -> q <> [] -> read_body cmd h p = RError EIO.
Proof.
  intros Hb p q Hpq Hq.
  assert (exists q', q = q' ++ [NUL] /\ b = p ++ q') as (q' & -> & ->).
  { destruct q as [|x q _] using rev_ind; [done|]. rewrite app_assoc in Hpq.
    apply app_inj_tail in Hpq as [-> <-]. eauto. }
  unfold read_body, hd_content_length. destruct Hb as [(t & Hf & Hd & Hlt)|[Hno Hnul]].
  - apply hd_contains_Some in Hf as ->. rewrite (proj2 (parse_uint_iff 32 _ _)) by done.
    destruct (N.ltb_spec (N.of_nat (length p)) (N.of_nat (length (p ++ q')))) as [|H]; [done|].
    rewrite app_length in *. rewrite drop_ge by lia. done.
  - apply hd_contains_None in Hno as ->. rewrite (proj2 (cut_after_None NUL p)); [done|].
    apply not_elem_of_app in Hnul. naive_solver.
Qed.
