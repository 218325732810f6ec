(** What frames in memory ought to show. *)
From stdpp Require Import gmap.
From Verif Require Import GoBase HeaderModel FrameModel GrammarSpec MemModel.

(** s consists of the encodings of some frames and heart-beats, and rest. *)
Inductive on_wire : str -> list (option frame) -> str -> Prop :=
| ow_end s : on_wire s [] s
| ow_beat s raw l rest : eol_line raw [] -> on_wire s l rest -> on_wire (raw ++ s) (None :: l) rest
| ow_frame s raw f l rest : encodes raw f -> on_wire s l rest -> on_wire (raw ++ s) (Some f :: l) rest.

(** What a program makes of the body b of frame k by writing into it. *)
Definition scribbled (k : nat) (l : list pact) (b : str) : str :=
  foldl (fun b a => match a with PPoke k' i c => if decide (k' = k) then <[i := c]> b else b | _ => b end) b l.

(** After the actions l, the result o of a Read looks like item x. *)
Definition shows (l : list pact) (u : prog) (o : option nat) (x : option frame) : Prop :=
  match o, x with
  | None, None => True
  | Some k, Some f => exists g, p_frames u !! k = Some g /\ look (p_mem u) g = mkFrame (f_cmd f) (f_hdr f) (scribbled k l (f_body f))
  | _, _ => False
  end.
