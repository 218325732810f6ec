(** Packetisation independence and the writer's crash-point contract. *)
From Verif Require Import GoBase HeaderModel FrameModel GrammarSpec GoBaseProofs HeaderProofs CodecProofs BufioModel.
From Coq Require Import ZifyBool ZifyNat ZifyN.

Definition net_ok (net : list str) : Prop := Forall (fun c => c <> []) net.

Lemma net_read_spec room net : 0 < room -> net_ok net ->
  match net_read room net with
  | None => net = []
  | Some (b, net') => b <> [] /\ length b <= room /\ concat net = b ++ concat net' /\ net_ok net'
  end.
Proof.
  intros Hr Hok. unfold net_read. destruct net as [|c net]; [done|].
  inversion_clear Hok as [|? ? Hc Hn]. split; [destruct c; [done|]; destruct room; [lia|done]|].
  split; [rewrite take_length; lia|].
  destruct (drop room c) as [|x d] eqn:Hd.
  - split; [|done]. cbn [concat]. f_equal. rewrite <- (take_drop room c) at 1. by rewrite Hd, app_nil_r.
  - split; [|constructor; done]. cbn [concat]. rewrite app_assoc. f_equal.
    rewrite <- Hd. by rewrite take_drop.
Qed.

Lemma cut_after_skip d p s : d ∉ p ->
  cut_after d (p ++ s) = match cut_after d s with Some (a, b) => Some (p ++ a, b) | None => None end.
Proof.
  induction p as [|c p IH]; simpl.
  - intros _. by destruct (cut_after d s) as [[??]|].
  - rewrite not_elem_of_cons. intros [H1 H2]. case_decide; [by subst|]. rewrite IH by done.
    by destruct (cut_after d s) as [[??]|].
Qed.
Lemma cut_after_more d s a b t : cut_after d s = Some (a, b) -> cut_after d (s ++ t) = Some (a, b ++ t).
Proof.
  rewrite !cut_after_Some. intros (p & -> & Hp & ->). exists p. rewrite <- app_assoc. done.
Qed.

Lemma read_slice_spec fuel cap d st :
  0 < cap -> net_ok (r_net st) -> cap - length (r_buf st) < fuel ->
  match read_slice fuel cap d st with
  | SlFound line st' => cut_after d (flat st) = Some (line, flat st') /\ net_ok (r_net st')
  | SlFull frag st' => frag <> [] /\ d ∉ frag /\ flat st = frag ++ flat st' /\ net_ok (r_net st')
  | SlErr _ => d ∉ flat st
  | SlFuel => False
  end.
Proof.
  intros Hcap. revert st. induction fuel as [|k IH]; intros st Hok Hf; [lia|].
  cbn [read_slice]. destruct (cut_after d (r_buf st)) as [[line rest]|] eqn:Hc.
  - split; [|done]. unfold flat. simpl. by apply cut_after_more.
  - apply cut_after_None in Hc. case_decide as Hl.
    + split; [by destruct (r_buf st); simpl in *; [lia|]|]. done.
    + unfold fill. pose proof (net_read_spec (cap - length (r_buf st)) (r_net st)) as Hn.
      destruct (net_read (cap - length (r_buf st)) (r_net st)) as [[b net']|].
      * destruct Hn as (Hb & Hbl & Hcc & Hok'); [lia|done|].
        specialize (IH (mkBufr (r_buf st ++ b) net')). simpl in IH.
        assert (flat (mkBufr (r_buf st ++ b) net') = flat st) as Hfl.
        { unfold flat. simpl. rewrite Hcc. by rewrite <- app_assoc. }
        rewrite Hfl in IH. apply IH; [done|].
        rewrite app_length. destruct b; [done|]. simpl. lia.
      * unfold flat. rewrite Hn by (done || lia). simpl.
        by rewrite app_nil_r.
Qed.

Lemma read_bytes_spec fuel cap d acc st :
  0 < cap -> net_ok (r_net st) -> length (flat st) < fuel ->
  match read_bytes fuel cap d acc st with
  | ByOk line st' => exists l, line = acc ++ l /\ cut_after d (flat st) = Some (l, flat st') /\ net_ok (r_net st')
  | ByErr => cut_after d (flat st) = None
  | ByFuel => False
  end.
Proof.
  intros Hcap. revert acc st. induction fuel as [|k IH]; intros acc st Hok Hf; [lia|].
  cbn [read_bytes]. pose proof (read_slice_spec (S cap) cap d st) as Hs.
  destruct (read_slice (S cap) cap d st) as [line st'|frag st'|st'|].
  - destruct Hs as [Hs Hok']; [done|done|lia|]. eauto.
  - destruct Hs as (Hne & Hd & Hfl & Hok'); [done|done|lia|].
    specialize (IH (acc ++ frag) st' Hok').
    rewrite Hfl in Hf. rewrite app_length in Hf.
    assert (length (flat st') < k) as Hk by (destruct frag; simpl in *; [done|lia]).
    specialize (IH Hk). rewrite Hfl, cut_after_skip by done.
    destruct (read_bytes k cap d (acc ++ frag) st') as [line st''| |].
    + destruct IH as (l & -> & Hl & Hok''). exists (frag ++ l).
      split; [by rewrite app_assoc|]. split; [by rewrite Hl|done].
    + by rewrite IH.
    + done.
  - apply cut_after_None, Hs; [done|done|lia].
  - apply Hs; [done|done|lia].
Qed.

Lemma upto_le want b : upto want b <= length b.
Proof. unfold upto. lia. Qed.
Lemma buf_read_spec cap want st : 0 < cap -> (0 < want)%N -> net_ok (r_net st) ->
  match buf_read cap want st with
  | None => flat st = []
  | Some (b, st') => b <> [] /\ (N.of_nat (length b) <= want)%N /\ flat st = b ++ flat st' /\ net_ok (r_net st')
  end.
Proof.
  intros Hcap Hw Hok. unfold buf_read. destruct (r_buf st) as [|c0 b0] eqn:Hb.
  - unfold flat. rewrite Hb. simpl. case_decide as Hc.
    + destruct (r_net st) as [|c net] eqn:Hnet; [done|].
      assert (0 < upto want c) as Hu.
      { unfold upto. inversion_clear Hok as [|? ? Hcc _]. destruct c; [done|]. cbn [length]. lia. }
      pose proof (net_read_spec (upto want c) (c :: net) Hu Hok) as Hn.
      destruct (net_read (upto want c) (c :: net)) as [[b net']|]; [|done].
      destruct Hn as (H1 & H2 & H3 & H4). split; [done|]. split; [unfold upto in *; lia|].
      split; [done|done].
    + pose proof (net_read_spec cap (r_net st) Hcap Hok) as Hn.
      destruct (net_read cap (r_net st)) as [[b net']|]; [|by rewrite Hn].
      destruct Hn as (H1 & H2 & H3 & H4). simpl. 
      assert (0 < upto want b) as Hu by (unfold upto; destruct b; [done|]; cbn [length]; lia).
      split. { destruct b; [done|]. destruct (upto want _); [lia|done]. }
      split. { rewrite take_length. unfold upto in *. lia. }
      split; [|done]. rewrite H3. rewrite app_assoc, take_drop. done.
  - simpl. assert (0 < upto want (c0 :: b0)) as Hu by (unfold upto; cbn [length]; lia).
    split. { destruct (upto want _); [lia|done]. }
    split. { rewrite take_length. unfold upto in *. lia. }
    split; [|done]. unfold flat. rewrite Hb. cbn [r_buf r_net]. by rewrite app_assoc, take_drop.
Qed.

Lemma body_loop_spec fuel cap want acc st :
  0 < cap -> net_ok (r_net st) -> length (flat st) < fuel ->
  match body_loop fuel cap want acc st with
  | BoOk b st' => exists x, b = acc ++ x /\ flat st = x ++ flat st' /\ N.of_nat (length x) = want /\ net_ok (r_net st')
  | BoErr => (N.of_nat (length (flat st)) < want)%N
  | BoFuel => False
  end.
Proof.
  intros Hcap. revert want acc st. induction fuel as [|k IH]; intros want acc st Hok Hf; [lia|].
  cbn [body_loop]. case_decide as Hw.
  - exists []. subst. rewrite app_nil_r. done.
  - pose proof (buf_read_spec cap want st Hcap) as Hr.
    destruct (buf_read cap want st) as [[b st']|].
    + destruct Hr as (Hne & Hbl & Hfl & Hok'); [lia|done|].
      specialize (IH (want - N.of_nat (length b))%N (acc ++ b) st' Hok').
      rewrite Hfl in *. rewrite app_length in Hf.
      assert (length (flat st') < k) as Hk by (destruct b; simpl in *; [done|lia]).
      specialize (IH Hk). destruct (body_loop _ _ _ _ _) as [x st''| |]; [| |done].
      * destruct IH as (x' & -> & Hx & Hl & Hok''). exists (b ++ x').
        split; [by rewrite app_assoc|]. split; [by rewrite Hx, app_assoc|].
        split; [|done]. rewrite app_length. lia.
      * rewrite app_length. lia.
    + rewrite Hr by (done || lia). simpl. lia.
Qed.

Lemma buf_read_byte_spec cap st : 0 < cap -> net_ok (r_net st) ->
  match buf_read_byte cap st with
  | None => flat st = []
  | Some (c, st') => flat st = c :: flat st' /\ net_ok (r_net st')
  end.
Proof.
  intros Hcap Hok. unfold buf_read_byte. destruct (r_buf st) as [|c b] eqn:Hb.
  - unfold fill. rewrite Hb. simpl. pose proof (net_read_spec (cap - 0) (r_net st)) as Hn.
    destruct (net_read (cap - 0) (r_net st)) as [[b net']|].
    + destruct Hn as (H1 & H2 & H3 & H4); [lia|done|]. destruct b as [|c b]; [done|].
      split; [|done]. unfold flat. by rewrite Hb, H3.
    + unfold flat. rewrite Hb, Hn by (done || lia). done.
  - split; [|done]. unfold flat. by rewrite Hb.
Qed.

(** forget the buffering of a result *)
Definition bflat (r : bres) : rres :=
  match r with
  | BHeartbeat st => RHeartbeat (flat st)
  | BFrame f st => RFrame f (flat st)
  | BError e => RError e
  | BPanic => RPanic
  | BFuel => RFuel
  end.
Definition bres_ok (r : bres) : Prop :=
  match r with BHeartbeat st | BFrame _ st => net_ok (r_net st) | _ => True end.

Lemma read_line_spec fuel cap st :
  0 < cap -> net_ok (r_net st) -> length (flat st) < fuel ->
  match read_line fuel cap st with
  | LiErr => cut_after LF (flat st) = None
  | LiOk l st' => exists raw, cut_after LF (flat st) = Some (raw, flat st') /\ strip_eol raw = Some l /\ net_ok (r_net st')
  | LiPanic | LiFuel => False
  end.
Proof.
  intros Hcap Hok Hf. unfold read_line. pose proof (read_bytes_spec fuel cap LF [] st Hcap Hok Hf) as Hr.
  destruct (read_bytes fuel cap LF [] st) as [raw st'| |]; [|done|done].
  destruct Hr as (l & -> & Hc & Hok'). simpl. pose proof Hc as Hc'.
  apply cut_line_Some in Hc' as [[l' Hl] _]. rewrite (strip_eol_spec _ _ Hl). eauto using strip_eol_spec.
Qed.
Lemma cut_after_shorter d s a b : cut_after d s = Some (a, b) -> length b < length s.
Proof. intros (p & _ & _ & ->)%cut_after_Some. rewrite app_length. simpl. lia. Qed.

Lemma read_headers_fuel fuel s acc fuel' : length s < fuel -> length s < fuel' ->
  read_headers fuel s acc = read_headers fuel' s acc.
Proof.
  revert s acc fuel'. induction fuel as [|k IH]; intros s acc fuel' H1 H2; [lia|].
  destruct fuel' as [|k']; [lia|]. cbn [read_headers].
  destruct (cut_after LF s) as [[raw rest]|] eqn:Hc; [|done].
  apply cut_after_shorter in Hc. destruct (strip_eol raw) as [[|c l]|]; [done| |done].
  destruct (parse_header_line (c :: l)) as [[kv|]|]; [|done|done]. apply IH; lia.
Qed.

Lemma bread_headers_spec fuel fuel' cap st acc :
  0 < cap -> net_ok (r_net st) -> length (flat st) < fuel -> length (flat st) < fuel' ->
  match bread_headers fuel fuel' cap st acc with
  | BHOk h st' => read_headers fuel (flat st) acc = HOk h (flat st') /\ net_ok (r_net st') /\ length (flat st') <= length (flat st)
  | BHError e => read_headers fuel (flat st) acc = HError e
  | BHPanic => read_headers fuel (flat st) acc = HPanic
  | BHFuel => False
  end.
Proof.
  intros Hcap. revert st acc. induction fuel as [|k IH]; intros st acc Hok Hf Hf'; [lia|].
  cbn [bread_headers read_headers]. pose proof (read_line_spec fuel' cap st Hcap Hok Hf') as Hl.
  destruct (read_line fuel' cap st) as [l st'| | |]; [|by rewrite Hl|done|done].
  destruct Hl as (raw & Hc & Hs & Hok'). rewrite Hc, Hs. apply cut_after_shorter in Hc as Hlt.
  destruct l as [|c l]; [split; [done|split; [done|lia]]|].
  destruct (parse_header_line (c :: l)) as [[kv|]|]; [|done|done].
  specialize (IH st' (acc ++ [kv]) Hok').
  destruct (bread_headers k fuel' cap st' (acc ++ [kv])) as [h st''|e| |]; try (apply IH; lia).
  destruct IH as (H1 & H2 & H3); [lia|lia|]. split; [done|]. split; [done|lia].
Qed.

Lemma bread_body_spec fuel cap cmd h st :
  0 < cap -> net_ok (r_net st) -> length (flat st) < fuel ->
  bflat (bread_body fuel cap cmd h st) = read_body cmd h (flat st) /\ bres_ok (bread_body fuel cap cmd h st).
Proof.
  intros Hcap Hok Hf. unfold bread_body, read_body. destruct (hd_content_length h) as [| |n].
  - pose proof (read_bytes_spec fuel cap NUL [] st Hcap Hok Hf) as Hr.
    destruct (read_bytes fuel cap NUL [] st) as [raw st'| |]; [|by rewrite Hr|done].
    destruct Hr as (l & -> & Hc & Hok'). rewrite Hc. simpl.
    by destruct (go_slice 0 (length l - 1) l).
  - done.
  - pose proof (body_loop_spec fuel cap n [] st Hcap Hok Hf) as Hb.
    destruct (body_loop fuel cap n [] st) as [b st'| |]; [| |done].
    + destruct Hb as (x & -> & Hfl & Hn & Hok'). simpl.
      pose proof (buf_read_byte_spec cap st' Hcap Hok') as Hr.
      rewrite Hfl. destruct (N.ltb_spec (N.of_nat (length (x ++ flat st'))) n) as [Hl|_].
      { rewrite app_length in Hl. lia. }
      replace (N.to_nat n) with (length x) by lia. rewrite take_app, drop_app.
      destruct (buf_read_byte cap st') as [[t st'']|].
      * destruct Hr as [-> Hok'']. by case_decide.
      * by rewrite Hr.
    + destruct (N.ltb_spec (N.of_nat (length (flat st))) n); [done|lia].
Qed.

Lemma bread_spec cap st : 0 < cap -> net_ok (r_net st) ->
  bflat (bread cap st) = read_stream (flat st) /\ bres_ok (bread cap st).
Proof.
  intros Hcap Hok. unfold bread, read_stream.
  pose proof (read_line_spec (S (S (length (flat st)))) cap st Hcap Hok) as Hl.
  destruct (read_line (S (S (length (flat st)))) cap st) as [l st'| | |].
  2: { rewrite Hl by lia. done. }
  2-3: by destruct Hl; lia.
  destruct Hl as (raw & Hc & Hs & Hok'); [lia|]. rewrite Hc, Hs. apply cut_after_shorter in Hc as Hlt.
  destruct l as [|c l]; [done|]. case_decide; [|done].
  pose proof (bread_headers_spec (S (S (length (flat st)))) (S (S (length (flat st)))) cap st' [] Hcap Hok') as Hh.
  rewrite (read_headers_fuel (S (length (flat st'))) _ _ (S (S (length (flat st))))) by lia.
  destruct (bread_headers (S (S (length (flat st)))) (S (S (length (flat st)))) cap st' []) as [h st''|e| |].
  - destruct Hh as (Hh & Hok'' & Hle); [lia|lia|]. rewrite Hh. apply bread_body_spec; [done|done|lia].
  - rewrite Hh by lia. done.
  - rewrite Hh by lia. done.
  - destruct Hh; lia.
Qed.

Lemma bread_all_spec fuel cap st : 0 < cap -> net_ok (r_net st) ->
  fst (bread_all fuel cap st) = fst (read_all fuel (flat st)) /\
  bflat (snd (bread_all fuel cap st)) = snd (read_all fuel (flat st)).
Proof.
  intros Hcap. revert st. induction fuel as [|k IH]; intros st Hok; [done|].
  cbn [bread_all read_all]. destruct (bread_spec cap st Hcap Hok) as [Hb Hok'].
  rewrite <- Hb. destruct (bread cap st) as [st'|f st'|e| |]; try done; simpl.
  - destruct (IH st' Hok') as [H1 H2].
    destruct (bread_all k cap st') as [l r], (read_all k (flat st')) as [l' r']. simpl in *. by subst.
  - destruct (IH st' Hok') as [H1 H2].
    destruct (bread_all k cap st') as [l r], (read_all k (flat st')) as [l' r']. simpl in *. by subst.
Qed.

(** Errors other than the connection's persist when more bytes arrive. *)
Lemma read_headers_mono fuel s acc t : length s < fuel ->
  match read_headers fuel s acc with
  | HOk h rest => read_headers (fuel + length t) (s ++ t) acc = HOk h (rest ++ t)
  | HError EIO => True
  | HError e => read_headers (fuel + length t) (s ++ t) acc = HError e
  | _ => True
  end.
Proof.
  revert s acc. induction fuel as [|k IH]; intros s acc Hf; [lia|]. cbn [read_headers Nat.add].
  destruct (cut_after LF s) as [[raw rest]|] eqn:Hc; [|done].
  rewrite (cut_after_more _ _ _ _ t Hc). apply cut_after_shorter in Hc.
  destruct (strip_eol raw) as [[|c l]|]; [done| |done].
  destruct (parse_header_line (c :: l)) as [[kv|]|]; [|done|done]. apply IH. lia.
Qed.
Lemma read_body_mono cmd h s t e : read_body cmd h s = RError e -> e <> EIO ->
  read_body cmd h (s ++ t) = RError e.
Proof.
  unfold read_body. destruct (hd_content_length h) as [| |n].
  - destruct (cut_after NUL s) as [[raw rest]|] eqn:Hc; [|by intros; simplify_eq].
    by destruct (go_slice 0 (length raw - 1) raw).
  - done.
  - destruct (N.ltb_spec (N.of_nat (length s)) n) as [Hl|Hl]; [by intros; simplify_eq|].
    destruct (drop (N.to_nat n) s) as [|c rest] eqn:Hd; [by intros; simplify_eq|].
    destruct (N.ltb_spec (N.of_nat (length (s ++ t))) n) as [Hl'|_]; [rewrite app_length in Hl'; lia|].
    rewrite drop_app_le by lia. rewrite Hd. simpl. by case_decide.
Qed.
Lemma read_stream_error_mono s t e : read_stream s = RError e -> e <> EIO ->
  read_stream (s ++ t) = RError e.
Proof.
  unfold read_stream. destruct (cut_after LF s) as [[raw rest]|] eqn:Hc; [|by intros; simplify_eq].
  rewrite (cut_after_more _ _ _ _ t Hc).
  destruct (strip_eol raw) as [[|c l]|]; [done| |done]. case_decide; [|done].
  pose proof (read_headers_mono (S (length rest)) rest [] t) as Hm.
  rewrite app_length. change (S (length rest + length t)) with (S (length rest) + length t).
  destruct (read_headers (S (length rest)) rest []) as [h r|e'| |]; [| |done|done].
  - rewrite Hm by lia. apply read_body_mono.
  - intros He Hne. simplify_eq. destruct e; try done; rewrite Hm by lia; done.
Qed.
Lemma truncated_EIO f p q : writable f -> write_frame f = p ++ q -> q <> [] ->
  read_stream p = RError EIO.
Proof.
  intros Hw Hpq Hq. destruct (write_frame_prefix f p q Hw Hpq Hq) as [e He].
  assert ({e = EIO} + {e <> EIO}) as [->|Hne] by (destruct e; (by left) || (by right)); [done|].
  pose proof (read_stream_error_mono p q e He Hne) as H. rewrite <- Hpq in H.
  pose proof (read_write_frame f [] Hw) as H2. rewrite app_nil_r in H2. congruence.
Qed.

(* ================= writer ================= *)
Definition prefix_of (a b : str) : Prop := exists c, b = a ++ c.

Lemma value_pieces_concat run s : concat (snd <$> value_pieces run s) = run ++ encode_value s.
Proof.
  revert run. induction s as [|c s IH]; intros run; cbn [value_pieces].
  - destruct run; [done|]. simpl. by rewrite encode_nil, app_nil_r.
  - rewrite encode_cons. case_decide as Hc.
    + rewrite IH. rewrite Hc. by rewrite <- app_assoc.
    + rewrite fmap_app, concat_app. cbn [fmap list_fmap concat snd]. rewrite IH.
      destruct run; simpl; [done|]. by rewrite app_nil_r.
Qed.
Lemma item_pieces_concat o : concat (snd <$> item_pieces o) = write_item o.
Proof.
  destruct o as [f|]; [|done]. cbn [item_pieces write_item]. unfold write_frame.
  rewrite !fmap_app, !concat_app. cbn [fmap list_fmap concat snd].
  rewrite <- !app_assoc. f_equal. simpl. f_equal. f_equal; [|f_equal].
  - induction (f_hdr f) as [|[k v] h IH]; [done|].
    rewrite !fmap_cons. cbn [concat]. rewrite fmap_app, concat_app, IH. f_equal.
    unfold write_header. cbn [fst snd]. rewrite fmap_app, concat_app, value_pieces_concat. simpl.
    f_equal. f_equal. rewrite fmap_app, concat_app, value_pieces_concat. done.
  - by destruct (f_body f); simpl; rewrite ?app_nil_r.
Qed.

(** What one call did: [done w] = wire ++ buffer are the bytes accepted. *)
Definition accepted (w : bufw) : str := w_wire w ++ w_buf w.

Lemma sink_write_spec p w :
  let '(k, e, w') := sink_write p w in
  k <= length p /\ (e = false -> k = length p) /\
  w_wire w' = w_wire w ++ take k p /\ w_buf w' = w_buf w.
Proof.
  unfold sink_write. destruct (w_script w) as [|[n e] sc].
  - simpl. rewrite take_ge by lia. done.
  - set (k := N.to_nat (N.min n (N.of_nat (length p)))). cbn [w_wire w_buf].
    assert (k <= length p) by (unfold k; lia).
    split; [done|]. split; [|done]. intros He. apply orb_false_iff in He as [_ He].
    apply Nat.ltb_ge in He. lia.
Qed.
Lemma flush_spec w : w_err w = false ->
  let w' := bw_flush w in
  (w_err w' = false -> w_buf w' = [] /\ w_wire w' = accepted w) /\
  (w_err w' = true -> prefix_of (w_wire w') (accepted w)).
Proof.
  intros He. unfold bw_flush. rewrite He. destruct (w_buf w) as [|c b] eqn:Hb.
  - unfold accepted. rewrite Hb, app_nil_r. cbn zeta. split; [done|]. rewrite He. done.
  - pose proof (sink_write_spec (c :: b) w) as Hs.
    destruct (sink_write (c :: b) w) as [[k e] w']. destruct Hs as (H1 & H2 & H3 & H4).
    unfold accepted. rewrite Hb. destruct e; cbn -[take drop]; split; try done.
    + intros _. rewrite H3. exists (drop k (c :: b)). by rewrite <- app_assoc, take_drop.
    + intros _. split; [done|]. rewrite H3, H2 by done. by rewrite take_ge by lia.
Qed.
Lemma bw_write_spec fuel cap direct p w :
  0 < cap -> (w_err w = true /\ 0 < fuel) \/
    (w_err w = false /\ (length p + 1 < fuel \/ (w_buf w = [] /\ length p < fuel))) ->
  exists w', bw_write fuel cap direct p w = Some w' /\
    (w_err w = true -> w' = w) /\
    (w_err w' = false -> accepted w' = accepted w ++ p) /\
    (w_err w = false -> w_err w' = true -> prefix_of (w_wire w') (accepted w ++ p)).
Proof.
  intros Hcap. revert p w. induction fuel as [|k IH]; intros p w [[He Hf]|[He Hf]]; try lia; cbn [bw_write]; rewrite He.
  { exists w. split; [done|]. split; [done|]. split; congruence. }
  case_decide as Hfit.
  { eexists. split; [done|]. split; [congruence|]. simpl. split; [|done]. intros _. unfold accepted. simpl.
    by rewrite app_assoc. }
  destruct (direct && bool_decide (w_buf w = [])) eqn:Hd.
  - apply andb_true_iff in Hd as [_ Hb]. apply bool_decide_eq_true in Hb.
    pose proof (sink_write_spec p w) as Hs. destruct (sink_write p w) as [[n e] w'].
    destruct Hs as (H1 & H2 & H3 & H4). rewrite Hb in H4. destruct w' as [wb we ww ws]. simpl in *. subst wb.
    destruct (IH (drop n p) (mkBufw [] e ww ws)) as (w2 & -> & Hx & Hy & Hz).
    { simpl. destruct e; [left; split; [done|lia]|right]. split; [done|]. right. split; [done|].
      rewrite drop_length, H2 by done. lia. }
    exists w2. split; [done|]. split; [congruence|]. unfold accepted in *. simpl in *.
    rewrite Hb, app_nil_r in *. rewrite H3 in *. rewrite <- !app_assoc, take_drop in *. simpl in *.
    split; [done|]. intros _ Hw2. destruct e.
    + rewrite Hx by done. simpl. exists (drop n p). by rewrite <- app_assoc, take_drop.
    + by apply Hz.
  - clear Hd. set (n := cap - length (w_buf w)) in *.
    set (wf := mkBufw (w_buf w ++ take n p) false (w_wire w) (w_script w)).
    pose proof (flush_spec wf eq_refl) as [Hf1 Hf2].
    assert (accepted wf = accepted w ++ take n p) as Hacc.
    { unfold accepted. simpl. by rewrite app_assoc. }
    destruct (IH (drop n p) (bw_flush wf)) as (w2 & -> & Hx & Hy & Hz).
    { destruct (w_err (bw_flush wf)) eqn:E; [left; split; [done|lia]|right]. split; [done|]. right.
      split; [by apply Hf1|]. rewrite drop_length. destruct Hf as [Hf|[Hb Hf]]; [lia|].
      unfold n. rewrite Hb. simpl. lia. }
    exists w2. split; [done|]. split; [congruence|].
    destruct (w_err (bw_flush wf)) eqn:E.
    + rewrite Hx by done. rewrite E. split; [done|]. intros _ _.
      destruct (Hf2 eq_refl) as [c Hc]. exists (c ++ drop n p).
      rewrite app_assoc, <- Hc, Hacc, <- app_assoc, take_drop. done.
    + destruct (Hf1 eq_refl) as [Hb Hw].
      assert (accepted (bw_flush wf) ++ drop n p = accepted w ++ p) as Hac.
      { unfold accepted at 1. rewrite Hb, app_nil_r, Hw, Hacc, <- app_assoc, take_drop. done. }
      rewrite Hac in *. split; [done|]. intros _ Hw2. by apply Hz.
Qed.
Lemma write_pieces_spec cap l w : 0 < cap -> w_err w = false ->
  exists w', write_pieces cap l w = Some w' /\
    (w_err w' = false -> accepted w' = accepted w ++ concat (snd <$> l)) /\
    (w_err w' = true -> prefix_of (w_wire w') (accepted w ++ concat (snd <$> l))).
Proof.
  intros Hcap. revert w. induction l as [|[d p] l IH]; intros w He.
  - exists w. split; [done|]. simpl. rewrite app_nil_r. split; [done|]. congruence.
  - cbn [write_pieces]. rewrite fmap_cons. cbn [concat snd].
    destruct (bw_write_spec (S (S (length p))) cap d p w Hcap) as (w1 & -> & _ & Hy & Hz).
    { right. split; [done|]. left. lia. }
    destruct (w_err w1) eqn:E1.
    + exists w1. split; [done|]. rewrite E1. split; [done|]. intros _.
      destruct (Hz He eq_refl) as [c Hc]. exists (c ++ concat (snd <$> l)).
      by rewrite !app_assoc, <- Hc.
    + destruct (IH w1 E1) as (w2 & -> & H1 & H2). exists w2. split; [done|].
      rewrite (Hy eq_refl) in *. rewrite <- app_assoc in *. done.
Qed.
Lemma write_pieces_err cap o w : 0 < cap -> w_err w = true -> write_pieces cap (item_pieces o) w = Some w.
Proof.
  intros Hcap He. assert (exists d p l, item_pieces o = (d, p) :: l) as (d & p & l & ->).
  { destruct o; simpl; eauto. }
  cbn [write_pieces bw_write]. by rewrite He, He.
Qed.
Lemma fw_write_ok cap o w : 0 < cap -> w_err w = false -> w_buf w = [] ->
  exists e w', fw_write cap o w = Some (e, w') /\ w_err w' = e /\
    (e = false -> w_buf w' = [] /\ w_wire w' = w_wire w ++ write_item o) /\
    (e = true -> prefix_of (w_wire w') (w_wire w ++ write_item o)).
Proof.
  intros Hcap He Hb. unfold fw_write.
  destruct (write_pieces_spec cap (item_pieces o) w Hcap He) as (w1 & -> & H1 & H2).
  rewrite item_pieces_concat in *. unfold accepted in H1 at 2, H2. rewrite Hb, app_nil_r in *.
  destruct (w_err w1) eqn:E1.
  - exists true, w1. split; [done|]. split; [done|]. split; [done|]. intros _. by apply H2.
  - destruct (flush_spec w1 E1) as [Hf1 Hf2]. rewrite (H1 eq_refl) in *.
    eexists _, _. split; [done|]. split; [done|]. split; done.
Qed.
Lemma fw_write_err cap o w : 0 < cap -> w_err w = true -> fw_write cap o w = Some (true, w).
Proof. intros Hcap He. unfold fw_write. rewrite write_pieces_err by done. by rewrite He. Qed.

(** Specification of a session: [sent] are the bytes on the wire so far. *)
Inductive session_ok : str -> list (option frame) -> list (bool * str) -> Prop :=
| so_nil sent : session_ok sent [] []
| so_success sent o items res :
    session_ok (sent ++ write_item o) items res ->
    session_ok sent (o :: items) ((false, sent ++ write_item o) :: res)
| so_fail sent o items part rest :
    write_item o = part ++ rest ->
    session_ok sent (o :: items)
      ((true, sent ++ part) :: ((fun _ => (true, sent ++ part)) <$> items)).

Lemma session_err cap items w : 0 < cap -> w_err w = true ->
  fw_session cap items w = Some ((fun _ => (true, w_wire w)) <$> items).
Proof.
  intros Hcap He. induction items as [|o items IH]; [done|]. cbn [fw_session].
  rewrite fw_write_err by done. by rewrite IH.
Qed.
Lemma prefix_trans a b c : prefix_of a b -> prefix_of b c -> prefix_of a c.
Proof. intros [x ->] [y ->]. exists (x ++ y). by rewrite app_assoc. Qed.
Lemma prefix_refl a : prefix_of a a.
Proof. exists []. by rewrite app_nil_r. Qed.
Lemma flush_mono w : prefix_of (w_wire w) (w_wire (bw_flush w)).
Proof.
  unfold bw_flush. destruct (w_err w); [apply prefix_refl|].
  destruct (w_buf w) as [|c b]; [apply prefix_refl|].
  pose proof (sink_write_spec (c :: b) w) as Hs. destruct (sink_write (c :: b) w) as [[k e] w'].
  destruct Hs as (_ & _ & H3 & _). destruct e; simpl; rewrite H3; eexists; done.
Qed.
Lemma bw_write_mono fuel cap d p w w' : bw_write fuel cap d p w = Some w' -> prefix_of (w_wire w) (w_wire w').
Proof.
  revert p w. induction fuel as [|k IH]; intros p w; cbn [bw_write]; [done|].
  destruct (w_err w); [intros; simplify_eq; apply prefix_refl|].
  case_decide; [intros; simplify_eq; apply prefix_refl|].
  destruct (d && bool_decide (w_buf w = [])).
  - pose proof (sink_write_spec p w) as Hs. destruct (sink_write p w) as [[n e] w1].
    destruct Hs as (_ & _ & H3 & _). intros Hx%IH. simpl in Hx. rewrite H3 in Hx.
    eapply prefix_trans; [|exact Hx]. eexists; done.
  - intros Hx%IH. eapply prefix_trans; [|exact Hx].
    match goal with |- prefix_of _ (w_wire (bw_flush ?x)) => apply (flush_mono x) end.
Qed.
Lemma write_pieces_mono cap l w w' : write_pieces cap l w = Some w' -> prefix_of (w_wire w) (w_wire w').
Proof.
  revert w. induction l as [|[d p] l IH]; intros w; cbn [write_pieces].
  - intros; simplify_eq. apply prefix_refl.
  - destruct (bw_write (S (S (length p))) cap d p w) as [w1|] eqn:E; [|done].
    apply bw_write_mono in E. destruct (w_err w1); [by intros; simplify_eq|].
    intros Hx%IH. by eapply prefix_trans.
Qed.
Lemma fw_write_mono cap o w e w' : fw_write cap o w = Some (e, w') -> prefix_of (w_wire w) (w_wire w').
Proof.
  unfold fw_write. destruct (write_pieces cap (item_pieces o) w) as [w1|] eqn:E; [|done].
  apply write_pieces_mono in E. destruct (w_err w1); intros; simplify_eq; [done|].
  eapply prefix_trans; [done|]. apply flush_mono.
Qed.

Lemma session_spec cap items w : 0 < cap -> w_err w = false -> w_buf w = [] ->
  (exists res, fw_session cap items w = Some res /\ session_ok (w_wire w) items res).
Proof.
  intros Hcap. revert w. induction items as [|o items IH]; intros w He Hb.
  - eexists. split; [done|]. constructor.
  - cbn [fw_session]. destruct (fw_write_ok cap o w Hcap He Hb) as (e & w' & Hfw & Hw' & H1 & H2).
    rewrite Hfw. apply fw_write_mono in Hfw as [part Hp]. destruct e.
    + rewrite session_err by done. eexists. split; [done|].
      destruct (H2 eq_refl) as [c Hc]. rewrite Hp in *. rewrite <- app_assoc in Hc.
      apply app_inv_head in Hc. by econstructor.
    + destruct (H1 eq_refl) as [Hb' Hw]. destruct (IH w' Hw' Hb') as (res & -> & Hs).
      eexists. split; [done|]. rewrite Hw in *. by constructor.
Qed.

(* ---------- sessions without failures; reading item by item ---------- *)
Lemma flush_noscript w : w_err w = false -> w_script w = [] ->
  w_err (bw_flush w) = false /\ w_script (bw_flush w) = [].
Proof.
  intros He Hs. unfold bw_flush. rewrite He. destruct (w_buf w); [done|].
  unfold sink_write. rewrite Hs. done.
Qed.
Lemma bw_write_noscript fuel cap d p w w' : w_err w = false -> w_script w = [] ->
  bw_write fuel cap d p w = Some w' -> w_err w' = false /\ w_script w' = [].
Proof.
  revert p w. induction fuel as [|k IH]; intros p w He Hs; cbn [bw_write]; [done|].
  rewrite He. case_decide; [intros; by simplify_eq|].
  destruct (d && bool_decide (w_buf w = [])).
  - unfold sink_write. rewrite Hs. intros Hx. by apply IH in Hx.
  - intros Hx. apply IH in Hx; [done|..]; by apply flush_noscript.
Qed.
Lemma write_pieces_noscript cap l w w' : w_err w = false -> w_script w = [] ->
  write_pieces cap l w = Some w' -> w_err w' = false /\ w_script w' = [].
Proof.
  revert w. induction l as [|[d p] l IH]; intros w He Hs; cbn [write_pieces].
  - intros; by simplify_eq.
  - destruct (bw_write (S (S (length p))) cap d p w) as [w1|] eqn:E; [|done].
    apply bw_write_noscript in E as [E1 E2]; [|done..]. rewrite E1. by apply IH.
Qed.
Lemma fw_write_noscript cap o w e w' : w_err w = false -> w_script w = [] ->
  fw_write cap o w = Some (e, w') -> e = false /\ w_script w' = [].
Proof.
  intros He Hs. unfold fw_write. destruct (write_pieces cap (item_pieces o) w) as [w1|] eqn:E; [|done].
  apply write_pieces_noscript in E as [E1 E2]; [|done..]. rewrite E1. intros; simplify_eq.
  by apply flush_noscript.
Qed.
Definition final_wire (res : list (bool * str)) : str :=
  match last res with Some (_, w) => w | None => [] end.
Lemma session_noscript_aux cap items w : 0 < cap -> w_err w = false -> w_buf w = [] -> w_script w = [] ->
  exists res, fw_session cap items w = Some res /\ Forall (fun r => fst r = false) res /\
    length res = length items /\
    match last res with Some (_, x) => x | None => w_wire w end = w_wire w ++ concat (write_item <$> items).
Proof.
  intros Hcap. revert w. induction items as [|o items IH]; intros w He Hb Hs.
  - exists []. split; [done|]. split; [constructor|]. split; [done|]. simpl. by rewrite app_nil_r.
  - cbn [fw_session]. destruct (fw_write_ok cap o w Hcap He Hb) as (e & w' & Hfw & Hw' & H1 & _).
    rewrite Hfw. apply fw_write_noscript in Hfw as [-> Hs']; [|done..].
    destruct (H1 eq_refl) as [Hb' Hw]. destruct (IH w' Hw' Hb' Hs') as (res & -> & Hf & Hl & Hr).
    eexists. split; [done|]. split; [by constructor|]. split; [simpl; by rewrite Hl|].
    rewrite fmap_cons. cbn [concat]. rewrite app_assoc, <- Hw, <- Hr.
    destruct res as [|r res]; [done|]. change (last ((false, w_wire w') :: r :: res)) with (last (r :: res)).
    destruct (last (r :: res)) as [[b x]|] eqn:El; [done|]. by apply last_None in El.
Qed.
Lemma session_noscript cap items : 0 < cap ->
  exists res, fw_session cap items (bufw_init []) = Some res /\ Forall (fun r => fst r = false) res /\
    length res = length items /\ final_wire res = concat (write_item <$> items).
Proof. intros Hcap. by apply (session_noscript_aux cap items (bufw_init [])). Qed.

(** [reads cap st items st']: successive Read calls return exactly [items]. *)
Inductive reads (cap : nat) : bufr -> list (option frame) -> bufr -> Prop :=
| reads_nil st : reads cap st [] st
| reads_heartbeat st st1 items st' :
    bread cap st = BHeartbeat st1 -> reads cap st1 items st' -> reads cap st (None :: items) st'
| reads_frame st f st1 items st' :
    bread cap st = BFrame f st1 -> reads cap st1 items st' -> reads cap st (Some f :: items) st'.

Lemma bread_frame cap st f rest : 0 < cap -> net_ok (r_net st) -> read_stream (flat st) = RFrame f rest ->
  exists st', bread cap st = BFrame f st' /\ flat st' = rest /\ net_ok (r_net st').
Proof.
  intros Hcap Hok Hr. destruct (bread_spec cap st Hcap Hok) as [Hb Ho]. rewrite Hr in Hb.
  destruct (bread cap st); simpl in Hb; try done. simplify_eq. eauto.
Qed.
Lemma bread_heartbeat cap st rest : 0 < cap -> net_ok (r_net st) -> read_stream (flat st) = RHeartbeat rest ->
  exists st', bread cap st = BHeartbeat st' /\ flat st' = rest /\ net_ok (r_net st').
Proof.
  intros Hcap Hok Hr. destruct (bread_spec cap st Hcap Hok) as [Hb Ho]. rewrite Hr in Hb.
  destruct (bread cap st); simpl in Hb; try done. simplify_eq. eauto.
Qed.
Lemma bread_error cap st e : 0 < cap -> net_ok (r_net st) -> read_stream (flat st) = RError e ->
  bread cap st = BError e.
Proof.
  intros Hcap Hok Hr. destruct (bread_spec cap st Hcap Hok) as [Hb Ho]. rewrite Hr in Hb.
  destruct (bread cap st); simpl in Hb; try done. by simplify_eq.
Qed.
Lemma reads_items cap items st rest : 0 < cap -> net_ok (r_net st) -> Forall writable_item items ->
  flat st = concat (write_item <$> items) ++ rest ->
  exists st', reads cap st items st' /\ flat st' = rest /\ net_ok (r_net st').
Proof.
  intros Hcap. revert st. induction items as [|o items IH]; intros st Hok Hw Hf.
  - exists st. split; [constructor|]. done.
  - inversion_clear Hw as [|? ? Ho Hi]. rewrite fmap_cons in Hf. cbn [concat] in Hf. rewrite <- app_assoc in Hf.
    destruct o as [f|].
    + destruct (bread_frame cap st f (concat (write_item <$> items) ++ rest)) as (st1 & Hb & Hf1 & Hok1); [done..| |].
      { rewrite Hf. by apply read_write_frame. }
      destruct (IH st1 Hok1 Hi Hf1) as (st' & Hr & ?). exists st'. split; [by econstructor|done].
    + destruct (bread_heartbeat cap st (concat (write_item <$> items) ++ rest)) as (st1 & Hb & Hf1 & Hok1); [done..| |].
      { rewrite Hf. apply read_write_heartbeat. }
      destruct (IH st1 Hok1 Hi Hf1) as (st' & Hr & ?). exists st'. split; [by econstructor|done].
Qed.
