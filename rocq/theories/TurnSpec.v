(** Waiting for one's turn in the server. *)
From Verif Require Import GoBase FrameModel BrokerModel ServerConnModel ServerConnSpec SystemModel.

(** How often the processor takes a request, how often it puts something on a
    connection's channel, how often a connection takes from one of its
    channels. *)
Definition takes_request (a : act) : nat := match a with AProc => 1 | _ => 0 end.
Definition hands_over (a : act) : nat := match a with AOut => 1 | _ => 0 end.
Definition takes_from (c : nat) (x : sel) (a : act) : nat :=
  match a with
  | ATake c' x' _ _ => match x, x' with
                       | SelRead, SelRead | SelWrite, SelWrite | SelSub, SelSub => if decide (c' = c) then 1 else 0
                       | _, _ => 0
                       end
  | _ => 0
  end.
Definition total (f : act -> nat) (l : list act) : nat := sum_list_with f l.
(** What waits in a connection's channels, in order, and what was taken from
    each. *)
Definition line (x : sel) (n : sconn) : list cin :=
  match x with SelRead => InFrame <$> n_read n | SelWrite => InTopic <$> n_write n | SelSub => InSub <$> n_sub n | SelTimer => [] end.
Definition from_line (x : sel) (i : cin) : list cin :=
  match x, i with SelRead, InFrame _ | SelWrite, InTopic _ | SelSub, InSub _ => [i] | _, _ => [] end.
Definition past (x : sel) (n : sconn) : list cin := concat ((fun e => from_line x (v_in e)) <$> n_log n).
