(** C94: what a Read returned stays what it was. *)
From stdpp Require Import gmap.
From Verif Require Import GoBase HeaderModel FrameModel GrammarSpec MemModel MemSpec MemProofs.

(** Whatever a program does with several readers, of any buffer sizes and over
    connections that deliver their bytes in any pieces: at any later time the
    frames it got from a reader show, in order, the frames encoded at the
    start of that reader's bytes, with the bodies as the program itself has
    overwritten them since.  A reader that has failed stands before bytes that
    begin with no frame and no heart-beat. *)
Theorem C94_kept l u i s g : prun prog_init l = Some u -> p_bytes u !! i = Some s -> p_got u !! i = Some g ->
  exists items rest, on_wire s items rest /\ Forall2 (shows l u) g items /\ (p_rds u !! i = Some None -> forall x r, ~ on_wire rest [x] r).
Proof. apply frames_kept. Qed.
Print Assumptions C94_kept.

(** So for bytes a Writer wrote: the frames read so far are the first ones
    written, and a reader fails only at the end. *)
Theorem C94_written l u i items g : prun prog_init l = Some u -> p_bytes u !! i = Some (concat (write_item <$> items)) -> p_got u !! i = Some g ->
  Forall (fun o => match o with Some f => writable f | None => True end) items ->
  Forall2 (shows l u) g (take (length g) items) /\ length g <= length items /\ (p_rds u !! i = Some None -> length g = length items).
Proof. apply frames_written. Qed.
Print Assumptions C94_written.

(** A Read changes no frame that was there before. *)
Theorem C94_read l u al i u' k f : prun prog_init l = Some u -> pstep u (PRead al i) = Some u' -> p_frames u !! k = Some f ->
  p_frames u' !! k = Some f /\ look (p_mem u') f = look (p_mem u) f.
Proof. apply read_keeps. Qed.
Print Assumptions C94_read.

(** Writing into the body of a frame changes that byte of that body and
    nothing else in any frame: not even headers of the same frame, although
    they are strings made from byte slices without copying. *)
Theorem C94_own l u k i c u' : prun prog_init l = Some u -> pstep u (PPoke k i c) = Some u' ->
  p_frames u' = p_frames u /\ forall k' f, p_frames u !! k' = Some f ->
    look (p_mem u') f = if decide (k' = k) then mkFrame (f_cmd (look (p_mem u) f)) (f_hdr (look (p_mem u) f)) (<[i := c]> (f_body (look (p_mem u) f))) else look (p_mem u) f.
Proof. apply poke_frame. Qed.
Print Assumptions C94_own.

(** Two readers with tiny buffers, the second over bytes that come in other
    pieces; a body with and one without content-length; the program turns
    "hello" into "jello" between the Reads. *)
Definition shown (u : prog) : list (string * list (string * string) * string) :=
  (fun g => let f := look (p_mem u) g in (string_of_list_ascii (f_cmd f), (fun kv => (string_of_list_ascii kv.1, string_of_list_ascii kv.2)) <$> f_hdr f, string_of_list_ascii (f_body f))) <$> p_frames u.
Definition first_bytes : str := lit "SEND" ++ [LF] ++ lit "destination:/queue/a" ++ [LF; LF] ++ lit "hello" ++ [NUL; LF] ++ lit "MESSAGE" ++ [LF] ++ lit "content-length:3" ++ [LF; LF] ++ lit "abc" ++ [NUL].
Definition other_bytes : str := lit "RECEIPT" ++ [LF] ++ lit "receipt-id:r\c1" ++ [LF; LF; NUL].
Definition memory_case : list pact :=
  [POpen 3 [first_bytes]; POpen 16 ((fun c => [c]) <$> other_bytes); PRead (fun _ => true) 0; PRead (fun _ => false) 0; PPoke 0 0 "j"%char; PRead (fun _ => true) 1; PRead (fun _ => true) 0; PRead (fun _ => true) 0].
Example C94_case : exists u, prun prog_init memory_case = Some u /\
  shown u = [("SEND", [("destination", "/queue/a")], "jello"); ("RECEIPT", [("receipt-id", "r:1")], ""); ("MESSAGE", [("content-length", "3")], "abc")]%string /\
  p_got u = [[Some 0; None; Some 2]; [Some 1]] /\ (p_rds u !! 0 = Some None).
Proof. eexists. split; [vm_compute; reflexivity|]. by vm_compute. Qed.
