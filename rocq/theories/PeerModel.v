(** This library's client talking to this library's server: the client model
    (ClientApiModel), the codec (FrameModel) and the server (SystemModel) put
    together.  Only one more function is needed. *)
From Verif Require Import GoBase HeaderModel FrameModel NegotiationModel ClientApiModel.

(** subscription.go:184-193 (readLoop, MESSAGE branch): the Message a
    subscription with this id and ack mode makes of a MESSAGE frame. *)
Definition message_of (sub : str * ackmode) (f : frame) : message :=
  mkMessage (hd_get (f_hdr f) h_destination) (hd_get (f_hdr f) h_content_type) true (Some sub) (Some (f_hdr f)) (f_body f).
