(** examples/client_test/main.go: a program whose receiver subscribes to a queue
    and whose sender then sends numbered messages to it; the receiver compares
    what it gets with what it expects.  Its two goroutines make moves of NetModel:
    the receiver's connection is link 0, the sender's is link 1, and nobody else
    uses the server.

    Simplifications:
    - flag parsing and printing are left out; [d] is *queueName, [k] is
      *messageCount (0 if it is negative);
    - nothing follows the receiver's and the sender's last step (when both have
      finished, main returns and the process ends: main.go:41-42);
    - a comparison that fails only prints (main.go:91-94). *)
From stdpp Require Import gmap.
From Verif Require Import GoBase HeaderModel FrameModel NegotiationModel ClientApiModel ClientModel.
From Verif Require Import BrokerModel ServerConnModel SystemModel NetModel.

(** main.go:20-23 *)
Definition ex_opts : list copt := [OptLogin (lit "guest") (lit "guest"); OptHost (lit "/")].
(** main.go:57, 89: fmt.Sprintf("Message #%d", i) *)
Definition ex_text (i : nat) : str := lit "Message #" ++ format_uint (N.of_nat i).
(** main.go:58-59: conn.Send( *queueName, "text/plain", []byte(text), nil); the
    last argument is one nil option.  Nothing takes ids of this process but
    Subscribe, before. *)
Definition ex_send (d : str) (i : nat) : op := OSend (snd <$> create_send_frame 1 d (lit "text/plain") (ex_text i) [SoNil]).
(** main.go:80: conn.Subscribe( *queueName, stomp.AckAuto) *)
Definition ex_subscribe (d : str) : op := let '(_, f, id, rt) := create_subscribe 0 d AckAuto [] in OSubscribe (Some (f, id, rt)).

(** The client of link c, if it is connected. *)
Definition client_of (x : net) (c : nat) : option cl :=
  match x_links x !! c with
  | Some l => match l_peer l with PeerClient _ _ _ y => Some y | _ => None end
  | None => None
  end.
(** main.go:85, 37-39: Subscribe has returned a subscription, [subscribed] is
    closed and sendMessages starts. *)
Definition ex_subscribed (x : net) : Prop :=
  match client_of x 0 with Some y => exists r s, c_gs y !! 0 = Some r /\ g_pc r = GDone (RSub s) | None => False end.
(** What the program may do in state x. Everything that is not a step of the
    program's two goroutines, of the library or of the server is excluded. *)
Definition ex_allowed (d : str) (k : nat) (x : net) (a : nact) : Prop :=
  match a with
  | NDial _ opts _ => opts = ex_opts /\ (x_links x = [] \/ length (x_links x) = 1 /\ ex_subscribed x)   (* main.go:50, 73 *)
  | NOther | NBytes _ _ => False
  | NClient c (XCall o) _ =>
      match client_of x c with
      | Some y => match c with
                  | 0 => c_gs y = [] /\ o = ex_subscribe d                                              (* main.go:80 *)
                  | _ => Forall (fun r => g_pc r = GDone RNil) (c_gs y) /\ length (c_gs y) < k /\       (* main.go:56-64 *)
                         o = ex_send d (S (length (c_gs y)))
                  end
      | None => False
      end
  | NClient c (XConsume s) _ =>
      match client_of x c with
      | Some y => c = 0 /\ (exists r, c_gs y !! 0 = Some r /\ g_pc r = GDone (RSub s)) /\               (* main.go:87-88 *)
                  exists b, c_subs y !! s = Some b /\ length (b_read b) < k
      | None => False
      end
  | _ => True
  end.
Inductive ereach (cfg : scfg) (d : str) (k : nat) : net -> Prop :=
| er_init : ereach cfg d k net_init
| er_step x a x' : ereach cfg d k x -> ex_allowed d k x a -> nstep cfg x a = Some x' -> ereach cfg d k x'.

(** main.go:80: the subscription that Subscribe returned. *)
Definition ex_sub (x : net) : option csub :=
  match client_of x 0 with
  | Some y => match c_gs y !! 0 with
              | Some r => match g_pc r with GDone (RSub s) => c_subs y !! s | _ => None end
              | None => None
              end
  | None => None
  end.
(** main.go:88: what the receiver has read from sub.C. *)
Definition ex_read (x : net) : list cmsg := match ex_sub x with Some b => b_read b | None => [] end.
(** string(msg.Body), main.go:90; subscription.go:187-194, 206-217 (an ERROR
    frame), 164-171. *)
Definition ex_body (m : cmsg) : str := match m with CmMsg f | CmErr (Some f) => f_body f | CmErr None => [] end.
(** main.go:88-90: sub.C is closed and empty: the receiver gets a nil message
    and dereferences it. *)
Definition ex_panics (k : nat) (x : net) : Prop :=
  match ex_sub x with Some b => b_buf b = [] /\ b_cclosed b = true /\ length (b_read b) < k | None => False end.
