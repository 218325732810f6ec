(** Aliasing proofs for HeapModel. *)
From Verif Require Import GoBase HeaderModel FrameModel HeapModel HeapSpec.

Record heap_ok (h : heap) : Prop := {
  ok_slice : forall hid s, hp_hdrs h !! hid = Some s ->
    exists a, hp_arrs h !! sl_arr s = Some a /\ sl_len s <= length a;
  ok_sep : forall i j s t, hp_hdrs h !! i = Some s -> hp_hdrs h !! j = Some t -> sl_arr s = sl_arr t -> i = j;
  ok_frame : forall fid f hid, hp_frames h !! fid = Some f -> hf_hdr f = Some hid -> is_Some (hp_hdrs h !! hid);
  ok_body : forall fid f b, hp_frames h !! fid = Some f -> hf_body f = Some b ->
    exists a, hp_bytes h !! bs_arr b = Some a /\ bs_off b + bs_len b <= length a
}.

Lemma view_hdr_some h hid s : heap_ok h -> hp_hdrs h !! hid = Some s ->
  exists a, hp_arrs h !! sl_arr s = Some a /\ sl_len s <= length a /\ view_hdr h hid = Some (take (sl_len s) a).
Proof.
  intros Hok Hs. destruct (ok_slice h Hok _ _ Hs) as (a & Ha & Hl).
  exists a. unfold view_hdr. by rewrite Hs, Ha.
Qed.
Lemma view_bytes_some h fid f b : heap_ok h -> hp_frames h !! fid = Some f -> hf_body f = Some b ->
  exists l, view_bytes h b = Some l /\ length l = bs_len b.
Proof.
  intros Hok Hf Hb. destruct (ok_body h Hok _ _ _ Hf Hb) as (a & Ha & Hl).
  eexists. unfold view_bytes. rewrite Ha. split; [done|].
  rewrite take_length, drop_length. lia.
Qed.

(** Footprint of an update of header object [hid]: everything else stays. *)
Record hdr_step (h : heap) (hid : nat) (h' : heap) : Prop := {
  hs_ok : heap_ok h';
  hs_len : length (hp_hdrs h') = length (hp_hdrs h);
  hs_other : forall j, j <> hid -> hp_hdrs h' !! j = hp_hdrs h !! j;
  hs_view : forall j, j <> hid -> view_hdr h' j = view_hdr h j;
  hs_bytes : hp_bytes h' = hp_bytes h;
  hs_frames : hp_frames h' = hp_frames h
}.
Lemma hdr_step_refl h hid : heap_ok h -> hdr_step h hid h.
Proof. by intros; constructor. Qed.
Lemma hdr_step_trans h1 h2 h3 hid : hdr_step h1 hid h2 -> hdr_step h2 hid h3 -> hdr_step h1 hid h3.
Proof.
  intros [] []. constructor; try congruence; intros j Hj.
  - by rewrite hs_other1, hs_other0.
  - by rewrite hs_view1, hs_view0.
Qed.

Lemma go_append_step h hid s0 len xs e h' a :
  heap_ok h -> hp_hdrs h !! hid = Some s0 -> hp_arrs h !! sl_arr s0 = Some a -> len <= length a ->
  set_slice h hid (go_append (hp_arrs h) (mkSlice (sl_arr s0) len) xs e) = Some h' ->
  hdr_step h hid h' /\ view_hdr h' hid = Some (take len a ++ xs) /\
  exists a' s', hp_hdrs h' !! hid = Some s' /\ hp_arrs h' !! sl_arr s' = Some a' /\ sl_len s' <= length a'.
Proof.
  intros Hok Hs Ha Hl. unfold go_append. cbn [sl_arr sl_len]. rewrite Ha.
  pose proof (lookup_lt_Some _ _ _ Ha) as HaL. pose proof (lookup_lt_Some _ _ _ Hs) as HsL.
  assert (Hlt : length (take len a) = len) by (rewrite take_length; lia).
  destruct (decide (len + length xs <= length a)) as [Hc|Hc]; cbn; intros [= <-].
  - assert (Hview : forall j, j <> hid ->
      view_hdr (mkHeap (<[sl_arr s0:=take len a ++ xs ++ drop (len + length xs) a]> (hp_arrs h))
        (<[hid:=mkSlice (sl_arr s0) (len + length xs)]> (hp_hdrs h)) (hp_bytes h) (hp_frames h)) j = view_hdr h j).
    { intros j Hj. unfold view_hdr; cbn. rewrite list_lookup_insert_ne by done.
      destruct (hp_hdrs h !! j) as [t|] eqn:Ht; [|done].
      rewrite list_lookup_insert_ne; [done|]. intros E.
      apply Hj. by eapply (ok_sep h Hok j hid t s0). }
    split; [|split].
    + constructor; cbn; try done.
      * constructor; cbn.
        -- intros j t Ht. destruct (decide (j = hid)) as [->|Hj].
           ++ rewrite list_lookup_insert in Ht by done. injection Ht as <-. cbn.
              rewrite list_lookup_insert by done. eexists. split; [done|].
              rewrite !app_length, drop_length. lia.
           ++ rewrite list_lookup_insert_ne in Ht by done.
              destruct (ok_slice h Hok _ _ Ht) as (b & Hb & Hbl).
              rewrite list_lookup_insert_ne; [eauto|]. intros E. apply Hj. by eapply (ok_sep h Hok j hid t s0).
        -- intros i j s t Hi Hj E.
           destruct (decide (i = hid)) as [->|Hi'], (decide (j = hid)) as [->|Hj']; [done| | |].
           ++ rewrite list_lookup_insert in Hi by done. injection Hi as <-.
              rewrite list_lookup_insert_ne in Hj by done. cbn in E. by eapply (ok_sep h Hok hid j s0 t).
           ++ rewrite list_lookup_insert in Hj by done. injection Hj as <-.
              rewrite list_lookup_insert_ne in Hi by done. cbn in E. by eapply (ok_sep h Hok i hid s s0).
           ++ rewrite list_lookup_insert_ne in Hi, Hj by done. by eapply (ok_sep h Hok i j s t).
        -- intros fid f hid' Hf Hh. destruct (ok_frame h Hok _ _ _ Hf Hh) as [t Ht].
           apply lookup_lt_is_Some. rewrite insert_length. by eapply lookup_lt_Some.
        -- apply (ok_body h Hok).
      * by rewrite insert_length.
      * intros j Hj. by rewrite list_lookup_insert_ne.
    + unfold view_hdr; cbn. rewrite list_lookup_insert by done. cbn.
      rewrite list_lookup_insert by done. f_equal.
      rewrite app_assoc. rewrite take_app_alt; [done|]. rewrite app_length. lia.
    + eexists _, _. cbn. rewrite list_lookup_insert by done. cbn. split; [done|].
      rewrite list_lookup_insert by done. split; [done|]. cbn. rewrite !app_length, drop_length. lia.
  - set (a' := take len a ++ xs ++ replicate e []).
    assert (Hold : forall j t, hp_hdrs h !! j = Some t -> sl_arr t < length (hp_arrs h)).
    { intros j t Ht. destruct (ok_slice h Hok _ _ Ht) as (b & Hb & _). by eapply lookup_lt_Some. }
    assert (Hview : forall j, j <> hid ->
      view_hdr (mkHeap (hp_arrs h ++ [a'])
        (<[hid:=mkSlice (length (hp_arrs h)) (len + length xs)]> (hp_hdrs h)) (hp_bytes h) (hp_frames h)) j = view_hdr h j).
    { intros j Hj. unfold view_hdr; cbn. rewrite list_lookup_insert_ne by done.
      destruct (hp_hdrs h !! j) as [t|] eqn:Ht; [|done].
      rewrite lookup_app_l by eauto. done. }
    split; [|split].
    + constructor; cbn; try done.
      * constructor; cbn.
        -- intros j t Ht. destruct (decide (j = hid)) as [->|Hj].
           ++ rewrite list_lookup_insert in Ht by done. injection Ht as <-. cbn.
              rewrite lookup_app_r by lia. rewrite Nat.sub_diag. eexists. split; [done|].
              unfold a'. rewrite !app_length. lia.
           ++ rewrite list_lookup_insert_ne in Ht by done.
              destruct (ok_slice h Hok _ _ Ht) as (b & Hb & Hbl).
              rewrite lookup_app_l by eauto. eauto.
        -- intros i j s t Hi Hj E.
           destruct (decide (i = hid)) as [->|Hi'], (decide (j = hid)) as [->|Hj']; [done| | |].
           ++ rewrite list_lookup_insert in Hi by done. injection Hi as <-.
              rewrite list_lookup_insert_ne in Hj by done. cbn in E. specialize (Hold _ _ Hj). lia.
           ++ rewrite list_lookup_insert in Hj by done. injection Hj as <-.
              rewrite list_lookup_insert_ne in Hi by done. cbn in E. specialize (Hold _ _ Hi). lia.
           ++ rewrite list_lookup_insert_ne in Hi, Hj by done. by eapply (ok_sep h Hok i j s t).
        -- intros fid f hid' Hf Hh. destruct (ok_frame h Hok _ _ _ Hf Hh) as [t Ht].
           apply lookup_lt_is_Some. rewrite insert_length. by eapply lookup_lt_Some.
        -- apply (ok_body h Hok).
      * by rewrite insert_length.
      * intros j Hj. by rewrite list_lookup_insert_ne.
    + unfold view_hdr; cbn. rewrite list_lookup_insert by done. cbn.
      rewrite lookup_app_r by lia. rewrite Nat.sub_diag. cbn. f_equal.
      unfold a'. rewrite app_assoc. rewrite take_app_alt; [done|]. rewrite app_length. lia.
    + eexists _, _. cbn. rewrite list_lookup_insert by done. cbn. split; [done|]. cbn.
      rewrite lookup_app_r by lia. rewrite Nat.sub_diag. split; [done|]. unfold a'. cbn. rewrite !app_length. lia.
Qed.

Lemma m_add_step h hid k v e h' l : heap_ok h -> view_hdr h hid = Some l -> m_add h hid k v e = Some h' ->
  hdr_step h hid h' /\ view_hdr h' hid = Some (hadd l k v).
Proof.
  intros Hok Hv. unfold m_add. destruct (hp_hdrs h !! hid) as [s|] eqn:Hs; [|done]. intros H.
  destruct (view_hdr_some _ _ _ Hok Hs) as (a & Ha & Hl & Hv'). rewrite Hv in Hv'. injection Hv' as ->.
  destruct s as [ar n]. eapply (go_append_step h hid (mkSlice ar n) n) in H as (? & ? & _); eauto.
Qed.
Lemma m_set_step h hid k v e h' l : heap_ok h -> view_hdr h hid = Some l -> m_set h hid k v e = Some h' ->
  hdr_step h hid h' /\ view_hdr h' hid = hset l k v.
Proof.
  intros Hok Hv. unfold m_set, hset. rewrite Hv. destruct (hp_hdrs h !! hid) as [s|] eqn:Hs; [|done].
  destruct (view_hdr_some _ _ _ Hok Hs) as (a & Ha & Hl & Hv'). rewrite Hv in Hv'.
  assert (l = take (sl_len s) a) as -> by congruence.
  destruct (hindex k _) as [i|] eqn:Hi.
  - case_decide as Hd; [|done]. intros [= <-].
    pose proof (lookup_lt_Some _ _ _ Ha) as HaL.
    assert (Halt : forall p, p <> sl_arr s -> alter <[i + 1 := v]> (sl_arr s) (hp_arrs h) !! p = hp_arrs h !! p)
      by (intros p Hp; by rewrite list_lookup_alter_ne).
    assert (Hat : alter <[i + 1 := v]> (sl_arr s) (hp_arrs h) !! sl_arr s = Some (<[i + 1 := v]> a))
      by (rewrite list_lookup_alter, Ha; done).
    split.
    + constructor; cbn; try done.
      * constructor; cbn.
        -- intros j t Ht. destruct (ok_slice h Hok _ _ Ht) as (b & Hb & Hbl).
           destruct (decide (sl_arr t = sl_arr s)) as [E|E].
           ++ rewrite E, Hat. eexists. split; [done|]. rewrite insert_length. rewrite E, Ha in Hb. by injection Hb as ->.
           ++ rewrite Halt by done. eauto.
        -- apply (ok_sep h Hok).
        -- apply (ok_frame h Hok).
        -- apply (ok_body h Hok).
      * intros j Hj. unfold view_hdr; cbn. destruct (hp_hdrs h !! j) as [t|] eqn:Ht; [|done].
        rewrite Halt; [done|]. intros E. apply Hj. by eapply (ok_sep h Hok j hid t s).
    + unfold view_hdr; cbn. rewrite Hs, Hat. f_equal.
      rewrite take_length in Hd.
      apply list_eq. intros p. destruct (decide (p < sl_len s)) as [Hp|Hp].
      * rewrite lookup_take by done. destruct (decide (p = i + 1)) as [->|Hne].
        -- rewrite !list_lookup_insert; [done|rewrite take_length; lia|lia].
        -- rewrite !list_lookup_insert_ne by done. by rewrite lookup_take.
      * rewrite lookup_take_ge by lia. symmetry. apply lookup_ge_None. rewrite insert_length, take_length. lia.
  - intros H. destruct s as [ar n].
    eapply (go_append_step h hid (mkSlice ar n) n) in H as (? & ? & _); eauto.
Qed.
Lemma m_del_loop_step fuel : forall h hid k h' l, heap_ok h -> view_hdr h hid = Some l ->
  m_del_loop fuel h hid k = Some h' -> hdr_step h hid h' /\ view_hdr h' hid = hdel_loop fuel l k.
Proof.
  induction fuel as [|fuel IH]; intros h hid k h' l Hok Hv; [done|]. cbn. rewrite Hv.
  destruct (hp_hdrs h !! hid) as [s|] eqn:Hs; [|done].
  destruct (hindex k l) as [i|] eqn:Hi.
  - destruct (view_hdr_some _ _ _ Hok Hs) as (a & Ha & Hl & Hv'). rewrite Hv in Hv'.
    assert (l = take (sl_len s) a) as -> by congruence.
    case_decide as Hd; [|done].
    destruct (set_slice _ _ _) as [h1|] eqn:H1; [|done]. intros H.
    rewrite take_length in Hd.
    eapply (go_append_step h hid s i) in H1 as (Hst & Hv1 & _); [|done|done|done|lia].
    eapply IH in H as [Hst' Hv2]; [|by destruct Hst|done].
    split; [by eapply hdr_step_trans|]. rewrite Hv2. f_equal.
    f_equal. rewrite take_take. f_equal. lia.
  - intros [= <-]. split; [by apply hdr_step_refl|done].
Qed.
Lemma m_del_step h hid k h' l : heap_ok h -> view_hdr h hid = Some l -> m_del h hid k = Some h' ->
  hdr_step h hid h' /\ view_hdr h' hid = hdel l k.
Proof. intros Hok Hv. unfold m_del. rewrite Hv. intros H. by eapply m_del_loop_step in H. Qed.

(** Footprint of an operation on frame [g]. *)
Definition body_arr (f : hframe) : option nat := bs_arr <$> hf_body f.
Record fstep (h : heap) (g : nat) (h' : heap) : Prop := {
  st_ok : heap_ok h';
  st_keep : forall x f, hp_frames h !! x = Some f ->
     exists f', hp_frames h' !! x = Some f' /\ hf_hdr f' = hf_hdr f /\ hf_body f' = hf_body f /\ (x <> g -> f' = f);
  st_hdr : forall f hid, hp_frames h !! g = Some f -> hf_hdr f <> Some hid ->
     is_Some (hp_hdrs h !! hid) -> view_hdr h' hid = view_hdr h hid;
  st_hdrs : length (hp_hdrs h) <= length (hp_hdrs h');
  st_bytes : forall f b, hp_frames h !! g = Some f -> body_arr f <> Some (bs_arr b) ->
     is_Some (hp_bytes h !! bs_arr b) -> view_bytes h' b = view_bytes h b;
  st_blen : length (hp_bytes h) <= length (hp_bytes h');
  st_new : forall x f', hp_frames h !! x = None -> hp_frames h' !! x = Some f' ->
     (forall hid, hf_hdr f' = Some hid -> hp_hdrs h !! hid = None) /\
     (forall n, body_arr f' = Some n -> hp_bytes h !! n = None)
}.

Lemma hdr_step_fstep h g f hid h' : hp_frames h !! g = Some f -> hf_hdr f = Some hid ->
  hdr_step h hid h' -> fstep h g h'.
Proof.
  intros Hf Hh []. constructor; try done.
  - intros x fx Hx. exists fx. by rewrite hs_frames0.
  - intros f' hid' Hf' Hne _. apply hs_view0. congruence.
  - lia.
  - intros f' b Hf' Hne _. unfold view_bytes. by rewrite hs_bytes0.
  - by rewrite hs_bytes0.
  - intros x f' Hn Hs. rewrite hs_frames0 in Hs. congruence.
Qed.

Lemma clone_hdr_spec h hid h' hid' l : heap_ok h -> view_hdr h hid = Some l -> m_clone_hdr h hid = Some (h', hid') ->
  heap_ok h' /\ hid' = length (hp_hdrs h) /\ view_hdr h' hid' = Some l /\
  length (hp_hdrs h') = S (length (hp_hdrs h)) /\
  (forall j, is_Some (hp_hdrs h !! j) -> view_hdr h' j = view_hdr h j) /\
  hp_bytes h' = hp_bytes h /\ hp_frames h' = hp_frames h.
Proof.
  intros Hok Hv. unfold m_clone_hdr. rewrite Hv. intros [= <- <-]. cbn.
  assert (Hold : forall j t, hp_hdrs h !! j = Some t -> sl_arr t < length (hp_arrs h)).
  { intros j t Ht. destruct (ok_slice h Hok _ _ Ht) as (b & Hb & _). by eapply lookup_lt_Some. }
  split; [|split; [done|split; [|split; [|split]]]].
  - constructor; cbn.
    + intros j t Ht. apply lookup_app_Some in Ht as [Ht|[Hj Ht]].
      * destruct (ok_slice h Hok _ _ Ht) as (b & Hb & Hbl). rewrite lookup_app_l by eauto. eauto.
      * apply list_lookup_singleton_Some in Ht as [_ <-]. cbn. exists l.
        rewrite lookup_app_r by lia. by rewrite Nat.sub_diag.
    + intros i j s t Hi Hj E.
      apply lookup_app_Some in Hi as [Hi|[Hil Hi]]; apply lookup_app_Some in Hj as [Hj|[Hjl Hj]].
      * by eapply (ok_sep h Hok).
      * apply list_lookup_singleton_Some in Hj as [_ <-]. apply Hold in Hi. cbn in E. lia.
      * apply list_lookup_singleton_Some in Hi as [_ <-]. apply Hold in Hj. cbn in E. lia.
      * apply list_lookup_singleton_Some in Hi as [? _]. apply list_lookup_singleton_Some in Hj as [? _]. lia.
    + intros fid f hid' Hf Hh. destruct (ok_frame h Hok _ _ _ Hf Hh) as [t Ht].
      exists t. by apply lookup_app_l_Some.
    + apply (ok_body h Hok).
  - unfold view_hdr; cbn. rewrite lookup_app_r by lia. rewrite Nat.sub_diag. cbn.
    rewrite lookup_app_r by lia. rewrite Nat.sub_diag. cbn. by rewrite take_ge.
  - rewrite app_length. cbn. lia.
  - intros j [t Ht]. unfold view_hdr; cbn. rewrite (lookup_app_l_Some _ _ _ _ Ht), Ht.
    rewrite lookup_app_l by eauto. done.
  - done.
Qed.

(** The three parts of Frame.Clone put together. *)
Lemma m_clone_spec h fid h' fid' : heap_ok h -> m_clone h fid = Some (h', fid') ->
  fid' = length (hp_frames h) /\ fstep h fid h' /\ (forall x, x <> fid' -> view h' x = view h x) /\
  view h' fid' = view h fid /\ is_Some (view h fid) /\ length (hp_frames h') = S (length (hp_frames h)) /\
  (forall x f, hp_frames h !! x = Some f -> hp_frames h' !! x = Some f).
Proof.
  intros Hok. unfold m_clone. destruct (hp_frames h !! fid) as [f|] eqn:Hf; [|done].
  destruct f as [cmd hdr body]. cbn.
  (* header *)
  destruct (match hdr with None => _ | Some hid => _ end) as [[h1 hdr']|] eqn:H1; [|done].
  assert (H1s : heap_ok h1 /\ hp_bytes h1 = hp_bytes h /\ hp_frames h1 = hp_frames h /\
    length (hp_hdrs h) <= length (hp_hdrs h1) /\
    (forall j, is_Some (hp_hdrs h !! j) -> view_hdr h1 j = view_hdr h j) /\
    (hdr' ≫= view_hdr h1) = (hdr ≫= view_hdr h) /\
    (forall j, hdr' = Some j -> j = length (hp_hdrs h) /\ is_Some (hp_hdrs h1 !! j))).
  { destruct hdr as [hid|].
    - destruct (m_clone_hdr h hid) as [[h1' hid']|] eqn:Hc; [|done]. injection H1 as <- <-.
      destruct (ok_frame h Hok _ _ _ Hf eq_refl) as [s Hs].
      destruct (view_hdr_some _ _ _ Hok Hs) as (a & Ha & Hl & Hv).
      destruct (clone_hdr_spec _ _ _ _ _ Hok Hv Hc) as (? & -> & Hv' & Hlen & Hold & ? & ?).
      split; [done|]. split; [done|]. split; [done|]. split; [lia|]. split; [done|].
      split; [cbn; by rewrite Hv', Hv|]. intros j Hj. split; [congruence|].
      apply lookup_lt_is_Some. replace j with (length (hp_hdrs h)) by congruence. lia.
    - injection H1 as <- <-. by split_and!. }
  destruct H1s as (Hok1 & Hb1 & Hf1 & Hl1 & Hv1 & Hh1 & Hn1).
  (* body *)
  destruct (m_clone_body h1 body) as [[h2 body']|] eqn:H2; [|done].
  assert (H2s : heap_ok h2 /\ hp_arrs h2 = hp_arrs h1 /\ hp_hdrs h2 = hp_hdrs h1 /\ hp_frames h2 = hp_frames h1 /\
    length (hp_bytes h1) <= length (hp_bytes h2) /\
    (forall b, is_Some (hp_bytes h1 !! bs_arr b) -> view_bytes h2 b = view_bytes h1 b) /\
    (body' ≫= view_bytes h2) = (body ≫= view_bytes h1) /\
    (forall b, body' = Some b -> bs_arr b = length (hp_bytes h1) /\
       exists a, hp_bytes h2 !! bs_arr b = Some a /\ bs_off b + bs_len b <= length a)).
  { unfold m_clone_body in H2. destruct body as [b|].
    - destruct (view_bytes h1 b) as [l|] eqn:Hv; [|done]. injection H2 as <- <-. cbn.
      split_and!; try done.
      + constructor; cbn.
        * apply (ok_slice h1 Hok1).
        * apply (ok_sep h1 Hok1).
        * apply (ok_frame h1 Hok1).
        * intros x f' b' Hf' Hb'. destruct (ok_body h1 Hok1 _ _ _ Hf' Hb') as (a & Ha & Hl).
          exists a. split; [by apply lookup_app_l_Some|done].
      + rewrite app_length. lia.
      + intros b' [a Ha]. unfold view_bytes; cbn. by rewrite (lookup_app_l_Some _ _ _ _ Ha), Ha.
      + unfold view_bytes at 1; cbn. rewrite lookup_app_r by lia. rewrite Nat.sub_diag. cbn.
        rewrite Hv. f_equal. rewrite drop_0. by rewrite take_ge.
      + intros b' [= <-]. cbn. split; [done|]. exists l. rewrite lookup_app_r by lia. rewrite Nat.sub_diag. done.
    - injection H2 as <- <-. by split_and!. }
  destruct H2s as (Hok2 & Ha2 & Hh2 & Hf2 & Hl2 & Hv2 & Hbv2 & Hn2).
  intros [= <- <-].
  set (h' := mkHeap _ _ _ _).
  assert (Hvh : forall j, view_hdr h' j = view_hdr h1 j) by (intros j; unfold view_hdr; cbn; by rewrite Hh2, Ha2).
  assert (Hvb : forall b, view_bytes h' b = view_bytes h2 b) by done.
  assert (Hkeep : forall x fx, hp_frames h !! x = Some fx -> hp_frames h' !! x = Some fx).
  { intros x fx Hx. cbn. apply lookup_app_l_Some. by rewrite Hf2, Hf1. }
  assert (Hvw : forall x fx, hp_frames h !! x = Some fx ->
    (hf_hdr fx ≫= view_hdr h') = (hf_hdr fx ≫= view_hdr h) /\ (hf_body fx ≫= view_bytes h') = (hf_body fx ≫= view_bytes h)).
  { intros x fx Hx. split.
    - destruct (hf_hdr fx) as [hid|] eqn:E; [|done]. cbn. rewrite Hvh. apply Hv1. by eapply (ok_frame h Hok).
    - destruct (hf_body fx) as [b|] eqn:E; [|done]. cbn. rewrite Hvb.
      destruct (ok_body h Hok _ _ _ Hx E) as (a & Ha & _).
      rewrite Hv2 by (rewrite Hb1; eauto). unfold view_bytes. by rewrite Hb1. }
  assert (Hlen : length (hp_frames h2) = length (hp_frames h)) by (by rewrite Hf2, Hf1).
  assert (Hnew : hp_frames h' !! length (hp_frames h2) = Some (mkHframe cmd hdr' body')).
  { cbn. rewrite lookup_app_r by lia. by rewrite Nat.sub_diag. }
  assert (Hself : view h' (length (hp_frames h2)) = view h fid).
  { unfold view. rewrite Hnew, Hf. cbn. f_equal. f_equal.
    - rewrite <-Hh1. destruct hdr'; [|done]. cbn. apply Hvh.
    - destruct (Hvw fid _ Hf) as [_ Hb]. cbn in Hb. rewrite <-Hb.
      transitivity (body' ≫= view_bytes h2); [by destruct body'|]. rewrite Hbv2.
      destruct body as [b|]; [|done]. cbn. rewrite Hvb.
      destruct (ok_body h Hok _ _ _ Hf eq_refl) as (a & Ha & _). symmetry. apply Hv2. rewrite Hb1. eauto. }
  assert (Hother : forall x, x <> length (hp_frames h2) -> view h' x = view h x).
  { intros x Hx. unfold view. destruct (hp_frames h !! x) as [fx|] eqn:E.
    - rewrite (Hkeep _ _ E). destruct (Hvw _ _ E) as [-> ->]. done.
    - rewrite (lookup_ge_None_2 (hp_frames h')); [done|]. apply lookup_ge_None in E.
      cbn. rewrite app_length. cbn. lia. }
  split; [done|]. split; [|split; [done|split; [done|split; [unfold view; rewrite Hf; eauto|split; [cbn; rewrite app_length; cbn; lia|done]]]]].
  constructor.
  - constructor; cbn.
    + rewrite Hh2, Ha2. apply (ok_slice h1 Hok1).
    + rewrite Hh2. apply (ok_sep h1 Hok1).
    + intros x fx j Hx Hj. rewrite Hh2. apply lookup_app_Some in Hx as [Hx|[_ Hx]].
      * rewrite Hf2 in Hx. by eapply (ok_frame h1 Hok1).
      * apply list_lookup_singleton_Some in Hx as [_ <-]. by apply Hn1.
    + intros x fx b Hx Hb. apply lookup_app_Some in Hx as [Hx|[_ Hx]].
      * by eapply (ok_body h2 Hok2).
      * apply list_lookup_singleton_Some in Hx as [_ <-]. by apply Hn2.
  - intros x fx Hx. exists fx. split; [by apply Hkeep|done].
  - intros fx hid Hfx Hne Hs. rewrite Hvh. by apply Hv1.
  - cbn. rewrite Hh2. done.
  - intros fx b Hfx Hne Hs. rewrite Hvb. rewrite Hv2 by (by rewrite Hb1). unfold view_bytes. by rewrite Hb1.
  - cbn. rewrite <-Hb1. done.
  - intros x fx Hn Hx. cbn in Hx. apply lookup_app_Some in Hx as [Hx|[_ Hx]].
    + rewrite Hf2, Hf1 in Hx. congruence.
    + apply list_lookup_singleton_Some in Hx as [_ <-]. cbn. split.
      * intros hid ->. apply lookup_ge_None. destruct (Hn1 hid eq_refl). lia.
      * intros n Hb. apply lookup_ge_None. destruct body' as [b|]; [|done]. cbn in Hb. injection Hb as <-.
        destruct (Hn2 b eq_refl) as [-> _]. by rewrite Hb1.
Qed.

Lemma view_unfold h fid v : view h fid = Some v ->
  exists f, hp_frames h !! fid = Some f /\ v = mkFview (hf_cmd f) (hf_hdr f ≫= view_hdr h) (hf_body f ≫= view_bytes h).
Proof. unfold view. destruct (hp_frames h !! fid) as [f|]; [|done]. intros [= <-]. eauto. Qed.

Lemma m_op_step h g o h' : heap_ok h -> m_op h g o = Some h' ->
  fstep h g h' /\ exists v, view h g = Some v /\ view h' g = vop v o /\ is_Some (vop v o).
Proof.
  intros Hok. unfold m_op. destruct (hp_frames h !! g) as [f|] eqn:Hf; [|done].
  assert (Hv : view h g = Some (mkFview (hf_cmd f) (hf_hdr f ≫= view_hdr h) (hf_body f ≫= view_bytes h)))
    by (unfold view; by rewrite Hf).
  assert (Hhdr : forall hid l', hf_hdr f = Some hid -> hdr_step h hid h' -> view_hdr h' hid = Some l' ->
    fstep h g h' /\ view h' g = Some (mkFview (hf_cmd f) (Some l') (hf_body f ≫= view_bytes h))).
  { intros hid l' Hh Hst Hl. split; [by eapply hdr_step_fstep|].
    unfold view. rewrite (hs_frames _ _ _ Hst), Hf, Hh. cbn. rewrite Hl. f_equal. f_equal.
    destruct (hf_body f) as [b|]; [|done]. cbn. unfold view_bytes. by rewrite (hs_bytes _ _ _ Hst). }
  assert (Hl : forall hid, hf_hdr f = Some hid -> exists l, view_hdr h hid = Some l).
  { intros hid Hh. destruct (ok_frame h Hok _ _ _ Hf Hh) as [s Hs].
    destruct (view_hdr_some _ _ _ Hok Hs) as (a & _ & _ & E). eauto. }
  destruct o as [k v e|k v e|k|c|i x|].
  - destruct (hf_hdr f) as [hid|] eqn:Hh; [|done]. intros H. destruct (Hl hid eq_refl) as [l Hlv].
    destruct (m_add_step _ _ _ _ _ _ _ Hok Hlv H) as [Hst Hv'].
    destruct (Hhdr hid _ eq_refl Hst Hv') as [Hs Hvw]. split; [done|].
    eexists. split; [exact Hv|]. cbn. rewrite Hlv. cbn. split; [done|eauto].
  - destruct (hf_hdr f) as [hid|] eqn:Hh; [|done]. intros H. destruct (Hl hid eq_refl) as [l Hlv].
    destruct (m_set_step _ _ _ _ _ _ _ Hok Hlv H) as [Hst Hv'].
    assert (exists l', view_hdr h' hid = Some l') as [l' Hl'].
    { assert (is_Some (hp_hdrs h' !! hid)) as [s Hs].
      { apply lookup_lt_is_Some. rewrite (hs_len _ _ _ Hst). apply lookup_lt_is_Some. by eapply (ok_frame h Hok). }
      destruct (view_hdr_some _ _ _ (hs_ok _ _ _ Hst) Hs) as (a & _ & _ & E). eauto. }
    destruct (Hhdr hid _ eq_refl Hst Hl') as [Hs Hvw]. split; [done|].
    eexists. split; [exact Hv|]. cbn. rewrite Hlv. cbn. rewrite <-Hv', Hl'. split; [done|eauto].
  - destruct (hf_hdr f) as [hid|] eqn:Hh; [|done]. intros H. destruct (Hl hid eq_refl) as [l Hlv].
    destruct (m_del_step _ _ _ _ _ Hok Hlv H) as [Hst Hv'].
    assert (exists l', view_hdr h' hid = Some l') as [l' Hl'].
    { assert (is_Some (hp_hdrs h' !! hid)) as [s Hs].
      { apply lookup_lt_is_Some. rewrite (hs_len _ _ _ Hst). apply lookup_lt_is_Some. by eapply (ok_frame h Hok). }
      destruct (view_hdr_some _ _ _ (hs_ok _ _ _ Hst) Hs) as (a & _ & _ & E). eauto. }
    destruct (Hhdr hid _ eq_refl Hst Hl') as [Hs Hvw]. split; [done|].
    eexists. split; [exact Hv|]. cbn. rewrite Hlv. cbn. rewrite <-Hv', Hl'. split; [done|eauto].
  - intros [= <-]. pose proof (lookup_lt_Some _ _ _ Hf) as HfL. split.
    + constructor; cbn; try done.
      * constructor; cbn.
        -- apply (ok_slice h Hok).
        -- apply (ok_sep h Hok).
        -- intros x fx hid Hx Hh. destruct (decide (x = g)) as [->|Hne].
           ++ rewrite list_lookup_insert in Hx by done. injection Hx as <-. by eapply (ok_frame h Hok).
           ++ rewrite list_lookup_insert_ne in Hx by done. by eapply (ok_frame h Hok).
        -- intros x fx b Hx Hb. destruct (decide (x = g)) as [->|Hne].
           ++ rewrite list_lookup_insert in Hx by done. injection Hx as <-. by eapply (ok_body h Hok).
           ++ rewrite list_lookup_insert_ne in Hx by done. by eapply (ok_body h Hok).
      * intros x fx Hx. destruct (decide (x = g)) as [->|Hne].
        -- rewrite list_lookup_insert by done. eexists. split; [done|]. cbn. rewrite Hf in Hx. by injection Hx as ->.
        -- rewrite list_lookup_insert_ne by done. eauto.
      * intros x fx Hn Hs. destruct (decide (x = g)) as [->|Hne]; [congruence|].
        rewrite list_lookup_insert_ne in Hs by done. congruence.
    + eexists. split; [exact Hv|]. cbn. split; [|eauto].
      unfold view; cbn. by rewrite list_lookup_insert.
  - destruct (hf_body f) as [b|] eqn:Hb; [|done]. case_decide as Hi; [|done]. intros [= <-].
    destruct (ok_body h Hok _ _ _ Hf Hb) as (a & Ha & Hal).
    assert (Hat : alter <[bs_off b + i:=x]> (bs_arr b) (hp_bytes h) !! bs_arr b = Some (<[bs_off b + i := x]> a))
      by (rewrite list_lookup_alter, Ha; done).
    split.
    + constructor; cbn; try done.
      * constructor; cbn.
        -- apply (ok_slice h Hok).
        -- apply (ok_sep h Hok).
        -- apply (ok_frame h Hok).
        -- intros y fy b' Hy Hb'. destruct (ok_body h Hok _ _ _ Hy Hb') as (a' & Ha' & Hal').
           destruct (decide (bs_arr b' = bs_arr b)) as [E|E].
           ++ rewrite E, Hat. eexists. split; [done|]. rewrite insert_length. rewrite E, Ha in Ha'. by injection Ha' as ->.
           ++ rewrite list_lookup_alter_ne by done. eauto.
      * intros y fy Hy. eauto.
      * intros f' b' Hf' Hne Hs. rewrite Hf in Hf'. injection Hf' as <-.
        unfold view_bytes; cbn. rewrite list_lookup_alter_ne; [done|].
        unfold body_arr in Hne. rewrite Hb in Hne. cbn in Hne. congruence.
      * by rewrite alter_length.
      * intros y f' Hn Hs. congruence.
    + eexists. split; [exact Hv|].
      assert (Hvb : view_bytes h b = Some (take (bs_len b) (drop (bs_off b) a))) by (unfold view_bytes; by rewrite Ha).
      cbn. rewrite Hvb. rewrite decide_True by (rewrite take_length, drop_length; lia). split; [|eauto].
      unfold view; cbn. rewrite Hf, Hb. cbn. f_equal. f_equal. unfold view_bytes; cbn. rewrite Hat. f_equal.
      apply list_eq. intros p. destruct (decide (p < bs_len b)) as [Hp|Hp].
      * rewrite lookup_take by done. rewrite lookup_drop. destruct (decide (p = i)) as [->|Hne].
        -- rewrite !list_lookup_insert; [done|rewrite take_length, drop_length; lia|lia].
        -- rewrite !list_lookup_insert_ne by lia. rewrite lookup_take by done. by rewrite lookup_drop.
      * rewrite lookup_take_ge by lia. symmetry. apply lookup_ge_None. rewrite insert_length, take_length. lia.
  - destruct (m_clone h g) as [[h1 fid']|] eqn:Hc; [|done]. intros [= <-].
    destruct (m_clone_spec _ _ _ _ Hok Hc) as (-> & Hst & Hoth & _).
    split; [done|]. eexists. split; [exact Hv|]. cbn. split; [|eauto]. rewrite <-Hv. apply Hoth.
    apply lookup_lt_Some in Hf. lia.
Qed.

(** Frame [c] shares its header object and its body array with nobody. *)
Definition private (h : heap) (c : nat) : Prop :=
  exists fc, hp_frames h !! c = Some fc /\
    forall x fx, x <> c -> hp_frames h !! x = Some fx ->
      (forall hid, hf_hdr fc = Some hid -> hf_hdr fx <> Some hid) /\
      (forall n, body_arr fc = Some n -> body_arr fx <> Some n).

Lemma fstep_private h g h' c : heap_ok h -> fstep h g h' -> private h c -> private h' c.
Proof.
  intros Hok Hst (fc & Hfc & Hp).
  destruct (st_keep _ _ _ Hst _ _ Hfc) as (fc' & Hfc' & Hh & Hb & _).
  exists fc'. split; [done|]. intros x fx Hx Hfx.
  assert (Hba : body_arr fc' = body_arr fc) by (unfold body_arr; by rewrite Hb). rewrite Hh, Hba.
  destruct (hp_frames h !! x) as [fx0|] eqn:Hx0.
  - destruct (st_keep _ _ _ Hst _ _ Hx0) as (fx' & Hfx' & Hhx & Hbx & _).
    rewrite Hfx in Hfx'. injection Hfx' as <-.
    assert (body_arr fx = body_arr fx0) as -> by (unfold body_arr; by rewrite Hbx). rewrite Hhx. by apply (Hp x).
  - destruct (st_new _ _ _ Hst _ _ Hx0 Hfx) as [Hn1 Hn2]. split.
    + intros hid Hhid Hcon. apply Hn1 in Hcon. destruct (ok_frame h Hok _ _ _ Hfc Hhid) as [? ?]. congruence.
    + intros n Hn Hcon. apply Hn2 in Hcon. unfold body_arr in Hn. destruct (hf_body fc) as [b|] eqn:E; [|done].
      destruct (ok_body h Hok _ _ _ Hfc E) as (a & Ha & _). cbn in Hn. congruence.
Qed.

Lemma fstep_view_eq h g h' x fx : heap_ok h -> fstep h g h' -> hp_frames h !! x = Some fx -> x <> g ->
  (forall f, hp_frames h !! g = Some f ->
     (forall hid, hf_hdr fx = Some hid -> hf_hdr f <> Some hid) /\ (forall n, body_arr fx = Some n -> body_arr f <> Some n)) ->
  is_Some (hp_frames h !! g) ->
  view h' x = view h x.
Proof.
  intros Hok Hst Hx Hne Hsep [fg Hg]. destruct (Hsep _ Hg) as [H1 H2].
  destruct (st_keep _ _ _ Hst _ _ Hx) as (fx' & Hfx' & _ & _ & Hsame). rewrite (Hsame Hne) in Hfx'.
  unfold view. rewrite Hx, Hfx'. f_equal. f_equal.
  - destruct (hf_hdr fx) as [hid|] eqn:E; [|done]. cbn.
    eapply (st_hdr _ _ _ Hst); [done|by apply H1|exact (ok_frame h Hok _ _ _ Hx E)].
  - destruct (hf_body fx) as [b|] eqn:E; [|done]. cbn.
    eapply (st_bytes _ _ _ Hst); [done|apply H2; unfold body_arr; by rewrite E|].
    destruct (ok_body h Hok _ _ _ Hx E) as (a & -> & _). eauto.
Qed.

Lemma private_independent h c g o h' : heap_ok h -> private h c -> m_op h g o = Some h' ->
  (g <> c -> view h' c = view h c) /\
  (g = c -> forall x, x <> c -> is_Some (view h x) -> view h' x = view h x).
Proof.
  intros Hok (fc & Hfc & Hp) Hop.
  destruct (m_op_step _ _ _ _ Hok Hop) as [Hst (v & Hv & _)].
  destruct (view_unfold _ _ _ Hv) as (fg & Hfg & _).
  split.
  - intros Hne. eapply fstep_view_eq; [done|done|done|done| |eauto].
    intros f Hf. split.
    + intros hid Hh Hcon. by destruct (Hp g f Hne Hf) as [H _]; eapply H.
    + intros n Hn Hcon. by destruct (Hp g f Hne Hf) as [_ H]; eapply H.
  - intros -> x Hx [vx Hvx]. destruct (view_unfold _ _ _ Hvx) as (fx & Hfx & _).
    eapply fstep_view_eq; [done|done|done|done| |eauto].
    intros f Hf. rewrite Hfc in Hf. injection Hf as <-. split.
    + intros hid Hh Hcon. by destruct (Hp x fx Hx Hfx) as [H _]; eapply H.
    + intros n Hn Hcon. by destruct (Hp x fx Hx Hfx) as [_ H]; eapply H.
Qed.

Lemma clone_private h fid h' c : heap_ok h -> m_clone h fid = Some (h', c) -> private h' c.
Proof.
  intros Hok Hc. destruct (m_clone_spec _ _ _ _ Hok Hc) as (-> & Hst & _ & Hv & [v Hv0] & Hlen & _).
  rewrite Hv0 in Hv. destruct (view_unfold _ _ _ Hv) as (fc & Hfc & _).
  exists fc. split; [done|]. intros x fx Hx Hfx.
  assert (Hn : hp_frames h !! length (hp_frames h) = None) by (apply lookup_ge_None; lia).
  destruct (st_new _ _ _ Hst _ _ Hn Hfc) as [Hn1 Hn2].
  assert (exists fx0, hp_frames h !! x = Some fx0) as [fx0 Hx0].
  { apply lookup_lt_is_Some. apply lookup_lt_Some in Hfx. lia. }
  destruct (st_keep _ _ _ Hst _ _ Hx0) as (fx' & Hfx' & Hh & Hb & _).
  rewrite Hfx in Hfx'. injection Hfx' as <-. split.
  - intros hid Hhid Hcon. rewrite Hh in Hcon. apply Hn1 in Hhid. destruct (ok_frame h Hok _ _ _ Hx0 Hcon). congruence.
  - intros n Hbn Hcon. unfold body_arr in Hcon. rewrite Hb in Hcon. apply Hn2 in Hbn.
    destruct (hf_body fx0) as [b|] eqn:E; [|done]. destruct (ok_body h Hok _ _ _ Hx0 E) as (a & Ha & _). cbn in Hcon. congruence.
Qed.

Lemma m_run_inv ops : forall h h' c, heap_ok h -> private h c -> m_run h ops = Some h' -> heap_ok h' /\ private h' c.
Proof.
  induction ops as [|[g o] ops IH]; intros h h' c Hok Hp; cbn; [by intros [= <-]|].
  destruct (m_op h g o) as [h1|] eqn:H1; [|done]. intros H.
  destruct (m_op_step _ _ _ _ Hok H1) as [Hst _]. eapply IH; [by destruct Hst| |done]. by eapply fstep_private.
Qed.

Lemma clone_independent h fid h1 c : heap_ok h -> m_clone h fid = Some (h1, c) ->
  view h1 c = view h fid /\ is_Some (view h fid) /\ view h c = None /\
  (forall x, x <> c -> view h1 x = view h x) /\
  forall ops h2, m_run h1 ops = Some h2 ->
  forall g o h3, m_op h2 g o = Some h3 ->
    (g <> c -> view h3 c = view h2 c) /\
    (g = c -> forall x, x <> c -> is_Some (view h2 x) -> view h3 x = view h2 x) /\
    (exists v, view h2 g = Some v /\ view h3 g = vop v o).
Proof.
  intros Hok Hc. destruct (m_clone_spec _ _ _ _ Hok Hc) as (Hcid & Hst & Hoth & Hv & Hs & Hlen & _).
  split; [done|]. split; [done|]. split.
  { unfold view. rewrite lookup_ge_None_2 by lia. done. }
  split; [done|].
  intros ops h2 Hrun g o h3 Hop.
  destruct (m_run_inv _ _ _ _ (st_ok _ _ _ Hst) (clone_private _ _ _ _ Hok Hc) Hrun) as [Hok2 Hp2].
  destruct (private_independent _ _ _ _ _ Hok2 Hp2 Hop) as [Ha Hb].
  destruct (m_op_step _ _ _ _ Hok2 Hop) as [_ (v & ? & ? & _)]. eauto 10.
Qed.

(** Topic fan-out. *)
Lemma topic_all_spec subs : forall h fid e h' out v, heap_ok h -> private h fid -> view h fid = Some v ->
  m_topic_all h fid subs e = Some (h', out) ->
  heap_ok h' /\ private h' fid /\ fst <$> out = subs /\
  (forall x, x <> fid -> is_Some (view h x) -> view h' x = view h x) /\
  (subs = [] -> view h' fid = view h fid) /\
  Forall (fun sf => view h' (snd sf) = vop v (FSet h_subscription (fst sf) e) /\ private h' (snd sf)) out /\
  NoDup (snd <$> out) /\ (forall s f, (s, f) ∈ out -> f = fid \/ hp_frames h !! f = None) /\
  (forall x, is_Some (hp_frames h !! x) -> is_Some (hp_frames h' !! x)) /\
  (forall c, private h c -> private h' c).
Proof.
  induction subs as [|s rest IH]; intros h fid e h' out v Hok Hp Hv; [|destruct rest as [|s2 rest]].
  - intros [= <- <-]. split_and!; try done; [constructor|set_solver].
  - cbn. destruct (m_op h fid _) as [h1|] eqn:H1; [|done]. intros [= <- <-].
    destruct (m_op_step _ _ _ _ Hok H1) as [Hst (v' & Hv' & Hv2 & _)]. rewrite Hv in Hv'. injection Hv' as <-.
    destruct (private_independent _ _ _ _ _ Hok Hp H1) as [_ Hind].
    split; [by destruct Hst|]. split; [by eapply fstep_private|]. split; [done|]. split; [by intros; apply Hind|].
    split; [done|]. split; [|split; [|split; [|split]]].
    + constructor; [|done]. split; [done|by eapply fstep_private].
    + apply NoDup_singleton.
    + intros ? ? Hin. apply elem_of_list_singleton in Hin. left. congruence.
    + intros x [fx Hx]. destruct (st_keep _ _ _ Hst _ _ Hx) as (f' & -> & _). eauto.
    + intros c. by eapply fstep_private.
  - intros H. cbn [m_topic_all] in H.
    destruct (m_clone h fid) as [[h1 c]|] eqn:Hc; [|done].
    destruct (m_op h1 c _) as [h2|] eqn:H2; [|done].
    change (match m_topic_all h2 fid (s2 :: rest) e with Some (h3, out0) => Some (h3, (s, c) :: out0) | None => None end = Some (h', out)) in H.
    destruct (m_topic_all h2 fid (s2 :: rest) e) as [[h3 out']|] eqn:H3; [|done]. injection H as <- <-.
    destruct (m_clone_spec _ _ _ _ Hok Hc) as (Hcid & Hst1 & Hoth1 & Hvc & _ & Hlen1 & Hk1).
    pose proof (st_ok _ _ _ Hst1) as Hok1. pose proof (clone_private _ _ _ _ Hok Hc) as Hpc1.
    destruct (m_op_step _ _ _ _ Hok1 H2) as [Hst2 (v' & Hv' & Hv2 & Hsome)].
    rewrite Hvc, Hv in Hv'. injection Hv' as <-.
    pose proof (st_ok _ _ _ Hst2) as Hok2.
    destruct (private_independent _ _ _ _ _ Hok1 Hpc1 H2) as [_ Hind2].
    assert (Hfc : fid <> c). { destruct (view_unfold _ _ _ Hv) as (f & Hf & _). apply lookup_lt_Some in Hf. lia. }
    assert (Hv1f : view h1 fid = Some v) by (by rewrite Hoth1).
    assert (Hvf : view h2 fid = Some v) by (rewrite Hind2; [done|done|done|rewrite Hv1f; eauto]).
    assert (Hpf2 : private h2 fid) by (apply (fstep_private h1 c h2); [done|done|]; by apply (fstep_private h fid h1)).
    destruct (IH _ _ _ _ _ _ Hok2 Hpf2 Hvf H3) as (Hok3 & Hpf3 & Hfst & Hoth3 & _ & Hall & Hnd & Hin & Hkeep & Hpriv).
    assert (Hpc3 : private h3 c) by (apply Hpriv; by apply (fstep_private h1 c h2)).
    split; [done|]. split; [done|]. split; [rewrite <-Hfst; done|]. split; [|split; [done|split; [|split; [|split; [|split]]]]].
    + intros x Hx Hsx. destruct (decide (x = c)) as [->|Hxc].
      { destruct Hsx as [vx Hvx]. destruct (view_unfold _ _ _ Hvx) as (fx & Hfx & _). apply lookup_lt_Some in Hfx. lia. }
      assert (view h1 x = view h x) by (by apply Hoth1).
      assert (view h2 x = view h1 x) by (apply Hind2; [done|done|congruence]).
      rewrite Hoth3; [congruence|done|congruence].
    + constructor; [|done]. cbn. split; [|done]. rewrite Hoth3; [by rewrite Hv2|done|by rewrite Hv2].
    + cbn. apply NoDup_cons. split; [|done]. intros Hcin. apply elem_of_list_fmap in Hcin as ([s' f'] & -> & Hin').
      cbn in *. destruct (Hin _ _ Hin') as [->|Hnone]; [done|].
      destruct (Hpc1) as (fcc & Hfcc & _).
      destruct (st_keep _ _ _ Hst2 _ _ Hfcc) as (f2 & Hf2 & _). congruence.
    + intros s' f' Hin'. apply elem_of_cons in Hin' as [[= -> ->]|Hin'].
      * right. apply lookup_ge_None. lia.
      * destruct (Hin _ _ Hin') as [->|Hnone]; [by left|]. right.
        destruct (hp_frames h !! f') as [ff|] eqn:E; [|done]. apply Hk1 in E.
        destruct (st_keep _ _ _ Hst2 _ _ E) as (f2 & Hf2 & _). congruence.
    + intros x [fx Hx]. apply Hk1 in Hx. destruct (st_keep _ _ _ Hst2 _ _ Hx) as (f2 & Hf2 & _). eauto.
    + intros c' Hc'. apply Hpriv. apply (fstep_private h1 c h2); [done|done|]. by apply (fstep_private h fid h1).
Qed.

Lemma topic_copies h fid subs e h' out v : heap_ok h -> private h fid -> view h fid = Some v ->
  m_topic_all h fid subs e = Some (h', out) ->
  fst <$> out = subs /\ NoDup (snd <$> out) /\
  Forall (fun sf => view h' (snd sf) = vop v (FSet h_subscription (fst sf) e)) out /\
  (forall x, x <> fid -> is_Some (view h x) -> view h' x = view h x) /\
  forall ops h2, m_run h' ops = Some h2 ->
  forall g o h3, m_op h2 g o = Some h3 ->
  forall s c, (s, c) ∈ out -> g <> c -> view h3 c = view h2 c.
Proof.
  intros Hok Hp Hv H. destruct (topic_all_spec _ _ _ _ _ _ _ Hok Hp Hv H) as (Hok' & _ & Hfst & Hoth & _ & Hall & Hnd & _ & _ & _).
  split; [done|]. split; [done|]. split; [by eapply Forall_impl; [exact Hall|]; intros ? [? _]|]. split; [done|].
  intros ops h2 Hrun g o h3 Hop s c Hin Hne.
  rewrite Forall_forall in Hall. destruct (Hall _ Hin) as [_ Hpc]. cbn in Hpc.
  destruct (m_run_inv _ _ _ _ Hok' Hpc Hrun) as [Hok2 Hp2].
  exact (proj1 (private_independent _ _ _ _ _ Hok2 Hp2 Hop) Hne).
Qed.

Lemma m_new_ok h cmd l e body h' fid : heap_ok h -> m_new h cmd l e body = (h', fid) ->
  heap_ok h' /\ private h' fid /\ view h' fid = Some (mkFview cmd (Some l) body).
Proof.
  intros Hok. unfold m_new. intros [= <- <-].
  assert (Hold : forall j t, hp_hdrs h !! j = Some t -> sl_arr t < length (hp_arrs h)).
  { intros j t Ht. destruct (ok_slice h Hok _ _ Ht) as (b & Hb & _). by eapply lookup_lt_Some. }
  assert (Hb : forall fid f b, hp_frames h !! fid = Some f -> hf_body f = Some b -> bs_arr b < length (hp_bytes h)).
  { intros x f b Hf Hb. destruct (ok_body h Hok _ _ _ Hf Hb) as (a & Ha & _). by eapply lookup_lt_Some. }
  split; [|split].
  - constructor; cbn.
    + intros j t Ht. apply lookup_app_Some in Ht as [Ht|[Hj Ht]].
      * destruct (ok_slice h Hok _ _ Ht) as (b & Hbb & Hbl). rewrite lookup_app_l by eauto. eauto.
      * apply list_lookup_singleton_Some in Ht as [_ <-]. cbn.
        rewrite lookup_app_r by lia. rewrite Nat.sub_diag. eexists. split; [done|]. rewrite app_length. lia.
    + intros i j s t Hi Hj E.
      apply lookup_app_Some in Hi as [Hi|[Hil Hi]]; apply lookup_app_Some in Hj as [Hj|[Hjl Hj]].
      * by eapply (ok_sep h Hok).
      * apply list_lookup_singleton_Some in Hj as [_ <-]. apply Hold in Hi. cbn in E. lia.
      * apply list_lookup_singleton_Some in Hi as [_ <-]. apply Hold in Hj. cbn in E. lia.
      * apply list_lookup_singleton_Some in Hi as [? _]. apply list_lookup_singleton_Some in Hj as [? _]. lia.
    + intros x f hid Hf Hh. apply lookup_lt_is_Some. rewrite app_length. cbn. apply lookup_app_Some in Hf as [Hf|[_ Hf]].
      * destruct (ok_frame h Hok _ _ _ Hf Hh) as [t Ht]. apply lookup_lt_Some in Ht. lia.
      * apply list_lookup_singleton_Some in Hf as [_ <-]. cbn in Hh. injection Hh as <-. lia.
    + intros x f b Hf Hbb. apply lookup_app_Some in Hf as [Hf|[_ Hf]].
      * destruct (ok_body h Hok _ _ _ Hf Hbb) as (a & Ha & Hl). exists a. split; [|done].
        destruct body; [by apply lookup_app_l_Some|done].
      * apply list_lookup_singleton_Some in Hf as [_ <-]. cbn in Hbb. destruct body as [bb|]; [|done].
        injection Hbb as <-. cbn. exists bb. rewrite lookup_app_r by lia. by rewrite Nat.sub_diag.
  - eexists. cbn. rewrite lookup_app_r by lia. rewrite Nat.sub_diag. split; [done|].
    intros x fx Hx Hfx. apply lookup_app_Some in Hfx as [Hfx|[Hl Hfx]].
    + cbn. split.
      * intros hid [= <-] Hcon. destruct (ok_frame h Hok _ _ _ Hfx Hcon) as [? Hl%lookup_lt_Some]. lia.
      * intros n Hn Hcon. unfold body_arr in *. cbn in Hn. destruct body; [|done]. cbn in Hn. injection Hn as <-.
        destruct (hf_body fx) as [b|] eqn:E; [|done]. cbn in Hcon. specialize (Hb _ _ _ Hfx E). injection Hcon as Hcon. lia.
    + apply list_lookup_singleton_Some in Hfx as [? _]. lia.
  - unfold view; cbn. rewrite lookup_app_r by lia. rewrite Nat.sub_diag. cbn. f_equal. f_equal.
    + unfold view_hdr; cbn. rewrite lookup_app_r by lia. rewrite Nat.sub_diag. cbn.
      rewrite lookup_app_r by lia. rewrite Nat.sub_diag. cbn. f_equal. by rewrite take_app_alt.
    + destruct body as [bb|]; [|done]. cbn. unfold view_bytes; cbn. rewrite lookup_app_r by lia.
      rewrite Nat.sub_diag. cbn. by rewrite drop_0, take_ge.
Qed.

Lemma heap_reach_ok h : heap_reach h -> heap_ok h.
Proof.
  induction 1 as [|h cmd l e body _ IH|h fid b h' _ IH H|h fid o h' _ IH H].
  - constructor; cbn; intros; by rewrite lookup_nil in *.
  - destruct (m_new h cmd l e body) as [h' fid] eqn:E. by eapply m_new_ok in E as (? & _).
  - unfold m_share_body in H. destruct (hp_frames h !! fid) as [f|] eqn:Hf; [|done].
    destruct (hp_bytes h !! bs_arr b) as [a|] eqn:Ha; [|done]. case_decide; [|done]. injection H as <-.
    pose proof (lookup_lt_Some _ _ _ Hf) as HfL.
    constructor; cbn.
    + apply (ok_slice h IH).
    + apply (ok_sep h IH).
    + intros x fx hid Hx Hh. destruct (decide (x = fid)) as [->|Hne].
      * rewrite list_lookup_insert in Hx by done. injection Hx as <-. by eapply (ok_frame h IH).
      * rewrite list_lookup_insert_ne in Hx by done. by eapply (ok_frame h IH).
    + intros x fx b' Hx Hb. destruct (decide (x = fid)) as [->|Hne].
      * rewrite list_lookup_insert in Hx by done. injection Hx as <-. cbn in Hb. injection Hb as <-. eauto.
      * rewrite list_lookup_insert_ne in Hx by done. by eapply (ok_body h IH).
  - destruct (m_op_step _ _ _ _ IH H) as [[] _]. done.
Qed.

Lemma m_run_project ops : forall h h' c v, heap_ok h -> private h c -> view h c = Some v ->
  m_run h ops = Some h' -> view h' c = vrun c v ops.
Proof.
  induction ops as [|[g o] ops IH]; intros h h' c v Hok Hp Hv; cbn; [by intros [= <-]|].
  destruct (m_op h g o) as [h1|] eqn:H1; [|done]. intros H.
  destruct (m_op_step _ _ _ _ Hok H1) as [Hst (w & Hw & Hw' & [w' Hsome])].
  assert (heap_ok h1) by (by destruct Hst). assert (private h1 c) by (by apply (fstep_private h g h1)).
  case_decide as Hg.
  - subst g. rewrite Hv in Hw. injection Hw as <-. rewrite Hsome in Hw' |- *. by eapply IH.
  - eapply IH; [done|done| |done]. rewrite <-Hv. exact (proj1 (private_independent _ _ _ _ _ Hok Hp H1) Hg).
Qed.

Lemma clone_spec h fid h1 c : heap_reach h -> m_clone h fid = Some (h1, c) ->
  exists v, view h fid = Some v /\ view h c = None /\
  (forall x, view h1 x = if decide (x = c) then Some v else view h x) /\
  forall ops h2, m_run h1 ops = Some h2 ->
    view h2 c = vrun c v ops /\
    forall o h3, m_op h2 c o = Some h3 -> forall x, x <> c -> is_Some (view h2 x) -> view h3 x = view h2 x.
Proof.
  intros Hok%heap_reach_ok Hc. destruct (clone_independent _ _ _ _ Hok Hc) as (Hv & [v Hv0] & Hn & Hoth & Hrun).
  exists v. split; [done|]. split; [done|]. split.
  { intros x. case_decide as Hx; [subst; congruence|by apply Hoth]. }
  intros ops h2 H2. split.
  - destruct (m_clone_spec _ _ _ _ Hok Hc) as (_ & Hst & _).
    eapply m_run_project; [by destruct Hst|by eapply clone_private|congruence|done].
  - intros o h3 H3 x Hx Hs. destruct (Hrun _ _ H2 _ _ _ H3) as (_ & H & _). by apply H.
Qed.

(** A frame read from the network, then edited, then sent to a topic. *)
Lemma topic_spec h cmd l e body h1 fid pre h2 v subs e' h3 out :
  heap_reach h -> m_new h cmd l e body = (h1, fid) -> m_run h1 pre = Some h2 -> view h2 fid = Some v ->
  m_topic_all h2 fid subs e' = Some (h3, out) ->
  fst <$> out = subs /\ NoDup (snd <$> out) /\
  (forall x, x <> fid -> is_Some (view h2 x) -> view h3 x = view h2 x) /\
  forall s c, (s, c) ∈ out -> exists w, vop v (FSet h_subscription s e') = Some w /\ view h3 c = Some w /\
    forall ops h4, m_run h3 ops = Some h4 -> view h4 c = vrun c w ops.
Proof.
  intros Hr Hnew Hpre Hv Ht. apply heap_reach_ok in Hr.
  destruct (m_new_ok _ _ _ _ _ _ _ Hr Hnew) as (Hok1 & Hp1 & _).
  destruct (m_run_inv _ _ _ _ Hok1 Hp1 Hpre) as [Hok2 Hp2].
  destruct (topic_all_spec _ _ _ _ _ _ _ Hok2 Hp2 Hv Ht) as (Hok3 & _ & Hfst & Hoth & _ & Hall & Hnd & _).
  split; [done|]. split; [done|]. split; [done|]. intros s c Hin. rewrite Forall_forall in Hall.
  destruct (Hall _ Hin) as [Hvc Hpc]. cbn [fst snd] in Hvc, Hpc.
  destruct Hpc as (fc & Hfc & Hpc). assert (exists w, view h3 c = Some w) as [w Hw].
  { unfold view. rewrite Hfc. eauto. }
  exists w. split; [by etrans; [symmetry; exact Hvc|]|]. split; [done|]. intros ops h4 H4. eapply m_run_project; [done|by exists fc|done|done].
Qed.
