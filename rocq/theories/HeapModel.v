(** Frames in memory: Go slices with shared backing arrays.  The other models
    treat headers and bodies as values; this one keeps the arrays, so that
    aliasing between a frame and its clones can be stated.
    Models frame/header.go (Add, Set, Del, Clone), frame/frame.go (Clone) and
    server/topic/topic.go (Enqueue) with server/client/subscription.go
    (SendTopicFrame, setSubscriptionHeader). *)
From Verif Require Import GoBase HeaderModel FrameModel.

(** A []string whose first element is the first of its backing array (true of
    every Header.slice: they come from append, make and s[:i]); its capacity
    is the length of the array. *)
Record slice := mkSlice { sl_arr : nat; sl_len : nat }.
(** A []byte: part of a byte array; user-supplied bodies may overlap. *)
Record bslice := mkBslice { bs_arr : nat; bs_off : nat; bs_len : nat }.
(** frame/frame.go:9-13; Header is a pointer (None = nil). *)
Record hframe := mkHframe { hf_cmd : str; hf_hdr : option nat; hf_body : option bslice }.
(** Memory; an address is a position. *)
Record heap := mkHeap {
  hp_arrs : list (list str);     (* string arrays *)
  hp_hdrs : list slice;          (* Header objects: their slice field *)
  hp_bytes : list str;           (* byte arrays *)
  hp_frames : list hframe        (* Frame objects *)
}.

(** What a program sees when it looks at a frame. *)
Record fview := mkFview { v_cmd : str; v_hdr : option hslice; v_body : option str }.
Definition view_hdr (h : heap) (hid : nat) : option hslice :=
  match hp_hdrs h !! hid with
  | Some s => match hp_arrs h !! sl_arr s with Some a => Some (take (sl_len s) a) | None => None end
  | None => None
  end.
Definition view_bytes (h : heap) (b : bslice) : option str :=
  match hp_bytes h !! bs_arr b with Some a => Some (take (bs_len b) (drop (bs_off b) a)) | None => None end.
Definition view (h : heap) (fid : nat) : option fview :=
  match hp_frames h !! fid with
  | Some f => Some (mkFview (hf_cmd f) (hf_hdr f ≫= view_hdr h) (hf_body f ≫= view_bytes h))
  | None => None
  end.

(** Go's append(s, xs...): in place when the capacity suffices, otherwise into
    a new array; [extra] is the unspecified spare capacity of the new one. *)
Definition go_append (arrs : list (list str)) (s : slice) (xs : list str) (extra : nat)
    : option (list (list str) * slice) :=
  match arrs !! sl_arr s with
  | None => None
  | Some a =>
      let n := sl_len s + length xs in
      if decide (n <= length a)
      then Some (<[sl_arr s := take (sl_len s) a ++ xs ++ drop n a]> arrs, mkSlice (sl_arr s) n)
      else Some (arrs ++ [take (sl_len s) a ++ xs ++ replicate extra []], mkSlice (length arrs) n)
  end.
Definition set_slice (h : heap) (hid : nat) (r : option (list (list str) * slice)) : option heap :=
  match r with
  | Some (arrs, s) => Some (mkHeap arrs (<[hid := s]> (hp_hdrs h)) (hp_bytes h) (hp_frames h))
  | None => None
  end.

(** frame/header.go:71-73 (Add) *)
Definition m_add (h : heap) (hid : nat) (k v : str) (extra : nat) : option heap :=
  match hp_hdrs h !! hid with
  | Some s => set_slice h hid (go_append (hp_arrs h) s [k; v] extra)
  | None => None
  end.
(** frame/header.go:88-94 (Set): writes into the array in place. *)
Definition m_set (h : heap) (hid : nat) (k v : str) (extra : nat) : option heap :=
  match hp_hdrs h !! hid, view_hdr h hid with
  | Some s, Some l =>
      match hindex k l with
      | Some i => if decide (i + 1 < length l)
                  then Some (mkHeap (alter (<[i + 1 := v]>) (sl_arr s) (hp_arrs h)) (hp_hdrs h) (hp_bytes h) (hp_frames h))
                  else None
      | None => set_slice h hid (go_append (hp_arrs h) s [k; v] extra)
      end
  | _, _ => None
  end.
(** frame/header.go:139-143 (Del): h.slice = append(h.slice[:i], h.slice[i+2:]...)
    shifts the tail inside the same array.  [fuel] as in HeaderModel. *)
Fixpoint m_del_loop (fuel : nat) (h : heap) (hid : nat) (k : str) : option heap :=
  match fuel with
  | O => None
  | S fuel' =>
      match hp_hdrs h !! hid, view_hdr h hid with
      | Some s, Some l =>
          match hindex k l with
          | None => Some h
          | Some i => if decide (i + 2 <= length l)
                      then match set_slice h hid (go_append (hp_arrs h) (mkSlice (sl_arr s) i) (drop (i + 2) l) 0) with
                           | Some h' => m_del_loop fuel' h' hid k
                           | None => None
                           end
                      else None
          end
      | _, _ => None
      end
  end.
Definition m_del (h : heap) (hid : nat) (k : str) : option heap :=
  match view_hdr h hid with Some l => m_del_loop (S (length l)) h hid k | None => None end.

(** frame/header.go:151-155 (Clone): make + copy. *)
Definition m_clone_hdr (h : heap) (hid : nat) : option (heap * nat) :=
  match view_hdr h hid with
  | Some l => Some (mkHeap (hp_arrs h ++ [l]) (hp_hdrs h ++ [mkSlice (length (hp_arrs h)) (length l)])
                           (hp_bytes h) (hp_frames h), length (hp_hdrs h))
  | None => None
  end.
(** frame/frame.go:28-38 (Clone).  (The comment of the Go function says that
    the body is shared; the code copies it, and so does the model.) *)
Definition m_clone_body (h : heap) (b : option bslice) : option (heap * option bslice) :=
  match b with
  | None => Some (h, None)
  | Some b => match view_bytes h b with
              | Some l => Some (mkHeap (hp_arrs h) (hp_hdrs h) (hp_bytes h ++ [l]) (hp_frames h),
                                Some (mkBslice (length (hp_bytes h)) 0 (length l)))
              | None => None
              end
  end.
Definition m_clone (h : heap) (fid : nat) : option (heap * nat) :=
  match hp_frames h !! fid with
  | None => None
  | Some f =>
      match (match hf_hdr f with
             | None => Some (h, None)
             | Some hid => match m_clone_hdr h hid with Some (h', hid') => Some (h', Some hid') | None => None end
             end) with
      | None => None
      | Some (h1, hdr) =>
          match m_clone_body h1 (hf_body f) with
          | None => None
          | Some (h2, body) =>
              Some (mkHeap (hp_arrs h2) (hp_hdrs h2) (hp_bytes h2) (hp_frames h2 ++ [mkHframe (hf_cmd f) hdr body]),
                    length (hp_frames h2))
          end
      end
  end.

(** What a program can do to a frame: header updates through its Header
    pointer, assigning the command (server/client/conn.go:766 does), writing a
    body byte, cloning it. *)
Inductive fop :=
| FAdd (k v : str) (extra : nat) | FSet (k v : str) (extra : nat) | FDel (k : str)
| FCmd (c : str) | FByte (i : nat) (x : ascii) | FClone.
Definition m_op (h : heap) (fid : nat) (o : fop) : option heap :=
  match hp_frames h !! fid with
  | None => None
  | Some f =>
      match o with
      | FAdd k v e => match hf_hdr f with Some hid => m_add h hid k v e | None => None end
      | FSet k v e => match hf_hdr f with Some hid => m_set h hid k v e | None => None end
      | FDel k => match hf_hdr f with Some hid => m_del h hid k | None => None end
      | FCmd c => Some (mkHeap (hp_arrs h) (hp_hdrs h) (hp_bytes h) (<[fid := mkHframe c (hf_hdr f) (hf_body f)]> (hp_frames h)))
      | FByte i x => match hf_body f with
                     | Some b => if decide (i < bs_len b)
                                 then Some (mkHeap (hp_arrs h) (hp_hdrs h) (alter (<[bs_off b + i := x]>) (bs_arr b) (hp_bytes h)) (hp_frames h))
                                 else None
                     | None => None
                     end
      | FClone => match m_clone h fid with Some (h', _) => Some h' | None => None end
      end
  end.
Fixpoint m_run (h : heap) (ops : list (nat * fop)) : option heap :=
  match ops with
  | [] => Some h
  | (fid, o) :: ops' => match m_op h fid o with Some h' => m_run h' ops' | None => None end
  end.

(** frame/frame.go:18-24 (New) and frame/reader.go:47-140 (Read): a frame whose
    header and body are freshly allocated; [extra] is the spare capacity left
    by the appends. *)
Definition m_new (h : heap) (cmd : str) (l : hslice) (extra : nat) (body : option str) : heap * nat :=
  (mkHeap (hp_arrs h ++ [l ++ replicate extra []])
          (hp_hdrs h ++ [mkSlice (length (hp_arrs h)) (length l)])
          (match body with Some b => hp_bytes h ++ [b] | None => hp_bytes h end)
          (hp_frames h ++ [mkHframe cmd (Some (length (hp_hdrs h)))
                             (match body with Some b => Some (mkBslice (length (hp_bytes h)) 0 (length b)) | None => None end)]),
   length (hp_frames h)).

(** conn.go:616 "f.Body = body": the body becomes any slice of any existing
    byte array (here a program's own buffer), shared with it. *)
Definition m_share_body (h : heap) (fid : nat) (b : bslice) : option heap :=
  match hp_frames h !! fid, hp_bytes h !! bs_arr b with
  | Some f, Some a => if decide (bs_off b + bs_len b <= length a)
                      then Some (mkHeap (hp_arrs h) (hp_hdrs h) (hp_bytes h) (<[fid := mkHframe (hf_cmd f) (hf_hdr f) (Some b)]> (hp_frames h)))
                      else None
  | _, _ => None
  end.

(** Memories a program can produce through the API. *)
Inductive heap_reach : heap -> Prop :=
| hr_empty : heap_reach (mkHeap [] [] [] [])
| hr_new h cmd l extra body : heap_reach h -> heap_reach (fst (m_new h cmd l extra body))
| hr_share h fid b h' : heap_reach h -> m_share_body h fid b = Some h' -> heap_reach h'
| hr_op h fid o h' : heap_reach h -> m_op h fid o = Some h' -> heap_reach h'.

(** server/topic/topic.go:47-73 (Enqueue) over the list of subscription ids;
    each frame gets its subscription header (server/client/subscription.go:71-84)
    before the next copy is made.  Result: the frame handed to each one. *)
Fixpoint m_topic_all (h : heap) (fid : nat) (subs : list str) (extra : nat) : option (heap * list (str * nat)) :=
  match subs with
  | [] => Some (h, [])
  | [s] => match m_op h fid (FSet h_subscription s extra) with
           | Some h' => Some (h', [(s, fid)])
           | None => None
           end
  | s :: rest =>
      match m_clone h fid with
      | None => None
      | Some (h1, fid') =>
          match m_op h1 fid' (FSet h_subscription s extra) with
          | None => None
          | Some h2 => match m_topic_all h2 fid rest extra with
                       | Some (h3, out) => Some (h3, (s, fid') :: out)
                       | None => None
                       end
          end
      end
  end.

Global Arguments view_hdr : simpl never.
Global Arguments view_bytes : simpl never.
Global Arguments hdel : simpl never.
