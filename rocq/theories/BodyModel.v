(** Message bodies are not copied by Send: createSendFrame (conn.go:612-632)
    puts the caller's slice into the frame, the frame goes through the write
    channel (conn.go:541-576, 634-691; transaction.go:114-124), and the bytes
    are read when processLoop writes the frame (conn.go:400-458;
    frame/writer.go:80-85).  Meanwhile the program can store into the slice.

    A program of a client (ClientModel) and of byte slices that it passes to
    Send and Transaction.Send, and stores into when it likes.

    What is simplified: a slice keeps its length, and two slices have no byte
    in common; the bytes of a body are read one after the other, each of them
    once; what the code reads is what was stored last (no torn or stale
    bytes). *)
From stdpp Require Import gmap.
From Verif Require Import GoBase HeaderModel FrameModel NegotiationModel ClientApiModel ClientModel.

(** A frame being written: the call it is for, the frame, whether its write
    will succeed, the body so far. *)
Record wcur := mkCur { u_call : nat; u_frame : frame; u_ok : bool; u_body : str }.
(** The client, the slices, for every call with a slice of the program's which
    one, the frame being written, those written (call, frame, success), and
    for the statements: which call had returned when which was made. *)
Record bprog := mkB { b_cl : cl; b_bufs : list str; b_uses : gmap nat nat; b_cur : option wcur; b_wire : list (nat * frame * bool); b_past : list (nat * nat) }.
Definition b_init : bprog := mkB cl_init [] ∅ None [] [].

(** Steps of processLoop. *)
Definition of_loop (a : cact) : bool :=
  match a with XTakeRead | XTakeWrite _ | XReadTimeout | XBeat _ | XPick _ | XDeliver | XFinish => true | _ => false end.
Definition returned_calls (y : cl) : list nat :=
  omap (fun p => match g_pc p.2 with GDone _ => Some p.1 | _ => None end) (zip (seq 0 (length (c_gs y))) (c_gs y)).
(** A call is made: what had returned by then. *)
Definition past_of (y : cl) (a : cact) : list (nat * nat) :=
  match a with XCall _ => (fun g => (g, length (c_gs y))) <$> returned_calls y | _ => [] end.
(** The frame that the step from y to y' began to write: writer.Write
    (conn.go:421-449). *)
Definition begun (y y' : cl) : option wcur :=
  match drop (length (c_log y)) (c_log y') with
  | [PvReq q (Some (f, w))] => Some (mkCur (q_by q) f w [])
  | _ => None
  end.
Definition with_client (u : bprog) (a : cact) (y : cl) : bprog :=
  mkB y (b_bufs u) (b_uses u) (match begun (b_cl u) y with Some c => Some c | None => b_cur u end) (b_wire u) (b_past u ++ past_of (b_cl u) a).
(** The slice that a call's body is read from: the program's, or one that
    nobody changes. *)
Definition source (u : bprog) (c : wcur) : str :=
  match b_uses u !! u_call c with Some k => default [] (b_bufs u !! k) | None => f_body (u_frame c) end.
(** The frame of a call of Send or sendFrame. *)
Definition send_of (o : op) : option frame := match o with OSend (Some f) | OFrame f => Some f | _ => None end.

(** BClient: a step of the client, or a call with a body that nobody changes;
    processLoop does nothing else while it writes a frame.  BNew: a new slice.
    BCall o k: Send, or sendFrame for Transaction.Send, with slice k as body.
    BStore k i c: slice k, element i := c.  BCopy: the next byte of the body is
    read.  BEnd: the write is over, a failed one at any point. *)
Inductive bact := BClient (a : cact) | BNew (s : str) | BCall (o : op) (k : nat) | BStore (k i : nat) (c : ascii) | BCopy | BEnd.
Definition bstep (cfg : ccfg) (u : bprog) (a : bact) : option bprog :=
  match a with
  | BClient a =>
      if of_loop a && bool_decide (is_Some (b_cur u)) then None
      else match cstep cfg (b_cl u) a with Some (COk y) => Some (with_client u a y) | _ => None end
  | BNew s => Some (mkB (b_cl u) (b_bufs u ++ [s]) (b_uses u) (b_cur u) (b_wire u) (b_past u))
  | BCall o k =>
      match send_of o, b_bufs u !! k with
      | Some f, Some s =>
          if decide (f_body f = s) then
            match cstep cfg (b_cl u) (XCall o) with
            | Some (COk y) =>
                let u' := with_client u (XCall o) y in
                Some (mkB (b_cl u') (b_bufs u') (<[length (c_gs (b_cl u)) := k]> (b_uses u')) (b_cur u') (b_wire u') (b_past u'))
            | _ => None
            end
          else None
      | _, _ => None
      end
  | BStore k i c =>
      match b_bufs u !! k with
      | Some s => if decide (i < length s)
                  then Some (mkB (b_cl u) (<[k := <[i := c]> s]> (b_bufs u)) (b_uses u) (b_cur u) (b_wire u) (b_past u))
                  else None                                    (* index out of range *)
      | None => None
      end
  | BCopy =>
      match b_cur u with
      | Some c => match source u c !! length (u_body c) with
                  | Some x => Some (mkB (b_cl u) (b_bufs u) (b_uses u) (Some (mkCur (u_call c) (u_frame c) (u_ok c) (u_body c ++ [x]))) (b_wire u) (b_past u))
                  | None => None
                  end
      | None => None
      end
  | BEnd =>
      match b_cur u with
      | Some c => if negb (u_ok c) || bool_decide (length (u_body c) = length (source u c))
                  then Some (mkB (b_cl u) (b_bufs u) (b_uses u) None
                         (b_wire u ++ [(u_call c, mkFrame (f_cmd (u_frame c)) (f_hdr (u_frame c)) (u_body c), u_ok c)]) (b_past u))
                  else None
      | None => None
      end
  end.
Inductive breach (A : bprog -> bact -> Prop) (cfg : ccfg) : bprog -> Prop :=
| br_init : breach A cfg b_init
| br_step u a u' : breach A cfg u -> A u a -> bstep cfg u a = Some u' -> breach A cfg u'.
Fixpoint brun (cfg : ccfg) (u : bprog) (l : list bact) : option bprog :=
  match l with [] => Some u | a :: l => match bstep cfg u a with Some u => brun cfg u l | None => None end end.
