(** Independent specifications for the handshake: decimal pairs, comma lists,
    highest version, heart-beat safety. *)
From Verif Require Import GoBase HeaderModel FrameModel GrammarSpec.

(** "n,m" in decimal. *)
Definition hb_pair (s : str) (n m : N) : Prop :=
  exists a b, s = a ++ COMMA :: b /\ dec_text a n /\ dec_text b m.
(** "n,m" with 1 to 9 digits each. *)
Definition hb_pair9 (s : str) (n m : N) : Prop :=
  exists a b, s = a ++ COMMA :: b /\ dec_text a n /\ dec_text b m /\
              length a <= 9 /\ length b <= 9.

(** v is one of the comma separated items of s. *)
Definition comma_item (s v : str) : Prop :=
  COMMA ∉ v /\ exists pre post, s = pre ++ v ++ post /\
    (pre = [] \/ last pre = Some COMMA) /\ (post = [] \/ head post = Some COMMA).

(** The highest version the server knows among the items. *)
Inductive highest_version (listed : str -> Prop) : str -> Prop :=
| hv_12 : listed (lit "1.2") -> highest_version listed (lit "1.2")
| hv_11 : listed (lit "1.1") -> ~ listed (lit "1.2") -> highest_version listed (lit "1.1")
| hv_10 : listed (lit "1.0") -> ~ listed (lit "1.1") -> ~ listed (lit "1.2") ->
    highest_version listed (lit "1.0").

(** First entry, or empty text when there is none (Header.Get). *)
Definition value_or_empty (h : header) (k v : str) : Prop :=
  first_entry h k v \/ (no_entry h k /\ v = []).

(** A station that transmits every [interval] (0 or less: never) keeps a peer
    alive that gives up after [timeout] of silence (0 or less: never). *)
Definition keeps_alive (interval timeout : Z) : Prop :=
  (timeout <= 0 \/ 0 < interval <= timeout)%Z.

(** v' is v raised to the minimum mn, except that 0 (no heart-beats) stays. *)
Definition raised (mn v v' : Z) : Prop :=
  (v = 0 /\ v' = 0 \/ 0 < v /\ v' = Z.max v mn)%Z.
(** mn is duration d (ns) in whole milliseconds, at most 999999999. *)
Definition whole_ms (d mn : Z) : Prop :=
  (d < 0 /\ mn <= 0 \/ 0 <= d /\ (mn * 1000000 <= d < (mn + 1) * 1000000 /\ mn <= 999999999 \/ mn = 999999999 /\ 999999999 * 1000000 <= d))%Z.

(** What a list of connect options asks for: the last option of a kind counts,
    versions and custom headers accumulate. *)
From Verif Require Import NegotiationModel.
Fixpoint last_opt {A} (sel : copt -> option A) (d : A) (opts : list copt) : A :=
  match opts with
  | [] => d
  | x :: xs => last_opt sel (match sel x with Some a => a | None => d end) xs
  end.
Definition asked_login := last_opt (fun x => match x with OptLogin l p => Some (l, p) | _ => None end) ([], []).
Definition asked_host := last_opt (fun x => match x with OptHost h => Some h | _ => None end) [].
Definition asked_beats := last_opt (fun x => match x with OptHeartBeat s r => Some (s, r) | _ => None end) (60000 * 1000000, 60000 * 1000000)%Z.
Definition asked_versions (opts : list copt) : list str :=
  concat ((fun x => match x with OptAcceptVersion vs => vs | _ => [] end) <$> opts).
Definition asked_headers (opts : list copt) : header :=
  concat ((fun x => match x with OptHeader k v => [(k, v)] | _ => [] end) <$> opts).
