(** The errors that the client package makes out of frames (errors.go,
    subscription.go). *)
From Verif Require Import GoBase HeaderModel FrameModel.

(** errors.go:28-31, 45-58: newError.  [e_frame]: the Frame field; the text
    returned by Error() (errors.go:33-35) is the Message field. *)
Record stomp_error := mkErr { e_text : str; e_frame : option frame }.
Definition new_error (f : frame) : stomp_error :=
  mkErr (if decide (f_cmd f = ERROR) then
           (if decide (hd_get (f_hdr f) h_message = []) then lit "ERROR frame, missing message header" else hd_get (f_hdr f) h_message)
         else lit "Unexpected frame: " ++ f_cmd f) (Some f).
(** subscription.go:205-216: the Err field of the message that a subscription
    puts into C for an ERROR frame. *)
Definition sub_error (f : frame) : stomp_error := mkErr (hd_get (f_hdr f) h_message) (Some f).
