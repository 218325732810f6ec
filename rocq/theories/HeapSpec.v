(** What operations on a frame do to a frame that shares nothing with others:
    values only, no memory. *)
From Verif Require Import GoBase HeaderModel FrameModel HeapModel.

(** Pure effect of an operation on what is seen of the frame it is applied to. *)
Definition vop (v : fview) (o : fop) : option fview :=
  match o with
  | FAdd k x _ => match v_hdr v with Some l => Some (mkFview (v_cmd v) (Some (hadd l k x)) (v_body v)) | None => None end
  | FSet k x _ => match v_hdr v with Some l => match hset l k x with Some l' => Some (mkFview (v_cmd v) (Some l') (v_body v)) | None => None end | None => None end
  | FDel k => match v_hdr v with Some l => match hdel l k with Some l' => Some (mkFview (v_cmd v) (Some l') (v_body v)) | None => None end | None => None end
  | FCmd c => Some (mkFview c (v_hdr v) (v_body v))
  | FByte i x => match v_body v with Some b => if decide (i < length b) then Some (mkFview (v_cmd v) (v_hdr v) (Some (<[i := x]> b))) else None | None => None end
  | FClone => Some v
  end.

(** What frame [c] looks like after [ops]: only the operations applied to it count. *)
Fixpoint vrun (c : nat) (v : fview) (ops : list (nat * fop)) : option fview :=
  match ops with
  | [] => Some v
  | (g, o) :: ops' => if decide (g = c) then match vop v o with Some v' => vrun c v' ops' | None => None end
                      else vrun c v ops'
  end.
