(** Model of frame/header.go: the header collection as the Go code stores it,
    a flat slice k0,v0,k1,v1,... of strings.  [None] results are Go run-time
    panics (index out of range).  All slices used by the package have even
    length; that is a theorem (HeaderProofs), not an assumption of the model. *)
From Verif Require Import GoBase.

Notation hslice := (list str).

(** frame/header.go:13-32 header names *)
Definition h_content_length := lit "content-length".
Definition h_content_type := lit "content-type".
Definition h_receipt := lit "receipt".
Definition h_accept_version := lit "accept-version".
Definition h_host := lit "host".
Definition h_version := lit "version".
Definition h_login := lit "login".
Definition h_passcode := lit "passcode".
Definition h_heart_beat := lit "heart-beat".
Definition h_session := lit "session".
Definition h_server := lit "server".
Definition h_destination := lit "destination".
Definition h_id := lit "id".
Definition h_ack := lit "ack".
Definition h_transaction := lit "transaction".
Definition h_receipt_id := lit "receipt-id".
Definition h_subscription := lit "subscription".
Definition h_message_id := lit "message-id".
Definition h_message := lit "message".

(** frame/header.go:179-186 (index): first even position holding the key. *)
Fixpoint hindex_from (key : str) (s : hslice) (i : nat) : option nat :=
  match s with
  | [] => None
  | k :: rest =>
      if decide (k = key) then Some i
      else match rest with
           | [] => None
           | _ :: rest' => hindex_from key rest' (i + 2)
           end
  end.
Definition hindex (key : str) (s : hslice) : option nat := hindex_from key s 0.

(** frame/header.go:61-68 (NewHeader): pads an odd list with "". *)
Definition hnew (entries : list str) : hslice :=
  if decide (length entries mod 2 = 0) then entries else entries ++ [[]].

(** frame/header.go:71-73 (Add) *)
Definition hadd (s : hslice) (key value : str) : hslice := s ++ [key; value].

(** frame/header.go:146-148 (Len) *)
Definition hlen (s : hslice) : nat := length s / 2.

(** frame/header.go:119-122 (GetAt) *)
Definition hget_at (s : hslice) (i : nat) : option (str * str) :=
  match s !! (2 * i), s !! (2 * i + 1) with
  | Some k, Some v => Some (k, v)
  | _, _ => None
  end.

(** frame/header.go:76-83 (AddHeader): loop over i < header.Len(). [n] counts
    the remaining iterations. *)
Fixpoint hadd_header_loop (n i : nat) (s other : hslice) : option hslice :=
  match n with
  | O => Some s
  | S n' => match hget_at other i with
            | Some (k, v) => hadd_header_loop n' (S i) (hadd s k v) other
            | None => None
            end
  end.
Definition hadd_header (s other : hslice) : option hslice :=
  hadd_header_loop (hlen other) 0 s other.

(** frame/header.go:88-94 (Set) *)
Definition hset (s : hslice) (key value : str) : option hslice :=
  match hindex key s with
  | Some i => if decide (i + 1 < length s) then Some (<[i + 1 := value]> s) else None
  | None => Some (s ++ [key; value])
  end.

(** frame/header.go:130-136 (Contains); outer [None] is a panic, inner [None]
    is ok=false. *)
Definition hcontains (s : hslice) (key : str) : option (option str) :=
  match hindex key s with
  | Some i => match s !! (i + 1) with Some v => Some (Some v) | None => None end
  | None => Some None
  end.

(** frame/header.go:98-101 (Get) *)
Definition hget (s : hslice) (key : str) : option str :=
  match hcontains s key with
  | None => None
  | Some None => Some []
  | Some (Some v) => Some v
  end.

(** frame/header.go:106-114 (GetAll) *)
Fixpoint hget_all (s : hslice) (key : str) : option (list str) :=
  match s with
  | [] => Some []
  | k :: rest =>
      match rest with
      | [] => if decide (k = key) then None else Some []
      | v :: rest' =>
          match hget_all rest' key with
          | None => None
          | Some vs => Some (if decide (k = key) then v :: vs else vs)
          end
      end
  end.

(** frame/header.go:139-143 (Del): repeat { find; s = s[:i] ++ s[i+2:] }.
    [fuel] bounds the number of iterations; running out is reported as [None]
    and proved impossible. *)
Fixpoint hdel_loop (fuel : nat) (s : hslice) (key : str) : option hslice :=
  match fuel with
  | O => None
  | S k =>
      match hindex key s with
      | None => Some s
      | Some i => if decide (i + 2 <= length s)
                  then hdel_loop k (take i s ++ drop (i + 2) s) key
                  else None
      end
  end.
Definition hdel (s : hslice) (key : str) : option hslice := hdel_loop (S (length s)) s key.

(** frame/header.go:151-155 (Clone), contents only; see HeapModel for aliasing. *)
Definition hclone (s : hslice) : hslice := s.

(** frame/header.go:161-175 (ContentLength) *)
Inductive clen := ClAbsent | ClError | ClValue (n : N).
Definition hcontent_length (s : hslice) : option clen :=
  match hcontains s h_content_length with
  | None => None
  | Some None => Some ClAbsent
  | Some (Some text) =>
      Some (match parse_uint 32 text with Some n => ClValue n | None => ClError end)
  end.

(* ------------------------------------------------------------------ *)
(** Abstract header: the list of entries.  Later models use this
    representation; HeaderProofs shows the flat slice refines it. *)
Notation header := (list (str * str)).

Fixpoint habs (s : hslice) : header :=
  match s with
  | k :: v :: rest => (k, v) :: habs rest
  | _ => []
  end.
Fixpoint hflat (h : header) : hslice :=
  match h with [] => [] | (k, v) :: t => k :: v :: hflat t end.

Definition hd_add (h : header) (k v : str) : header := h ++ [(k, v)].
Fixpoint hd_contains (h : header) (k : str) : option str :=
  match h with
  | [] => None
  | (k', v) :: t => if decide (k' = k) then Some v else hd_contains t k
  end.
Definition hd_get (h : header) (k : str) : str :=
  match hd_contains h k with Some v => v | None => [] end.
Fixpoint hd_set (h : header) (k v : str) : header :=
  match h with
  | [] => [(k, v)]
  | (k', v') :: t => if decide (k' = k) then (k', v) :: t else (k', v') :: hd_set t k v
  end.
Fixpoint hd_del (h : header) (k : str) : header :=
  match h with
  | [] => []
  | (k', v') :: t => if decide (k' = k) then hd_del t k else (k', v') :: hd_del t k
  end.
Fixpoint hd_get_all (h : header) (k : str) : list str :=
  match h with
  | [] => []
  | (k', v') :: t => if decide (k' = k) then v' :: hd_get_all t k else hd_get_all t k
  end.
Definition hd_content_length (h : header) : clen :=
  match hd_contains h h_content_length with
  | None => ClAbsent
  | Some text => match parse_uint 32 text with Some n => ClValue n | None => ClError end
  end.
