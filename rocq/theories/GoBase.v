(** Go base notions: byte strings, decimal text (strconv), strings.Split/Join.
    A Go [string] and a Go [[]byte] are both modelled as [list ascii]: every
    list element is one byte, all 256 values included. *)
From stdpp Require Export prelude strings list.
From Coq Require Export Ascii NArith ZArith Lia.
From Coq Require Import ZifyBool ZifyNat ZifyN.

Open Scope N_scope.
Open Scope nat_scope.

Global Arguments N.add : simpl never.
Global Arguments N.mul : simpl never.
Global Arguments N.sub : simpl never.
Global Arguments N.pow : simpl never.
Global Arguments N.div : simpl never.
Global Arguments N.modulo : simpl never.
Global Arguments N.of_nat : simpl never.
Global Arguments Z.add : simpl never.
Global Arguments Z.mul : simpl never.
Global Arguments Z.sub : simpl never.
Global Arguments Z.div : simpl never.
Global Arguments ascii_of_N : simpl never.
Global Arguments N_of_ascii : simpl never.

Notation str := (list ascii).

(** String literals of the Go source. *)
Definition lit (s : string) : str := String.list_ascii_of_string s.

(** frame/reader.go:12-16, frame/writer.go:10-13 *)
Definition NUL : ascii := ascii_of_N 0.
Definition LF : ascii := ascii_of_N 10.
Definition CR : ascii := ascii_of_N 13.
Definition COLON : ascii := ascii_of_N 58.
Definition BSLASH : ascii := ascii_of_N 92.
Definition COMMA : ascii := ascii_of_N 44.
Definition ch_r : ascii := ascii_of_N 114.
Definition ch_n : ascii := ascii_of_N 110.
Definition ch_c : ascii := ascii_of_N 99.

(** Decimal digits. *)
Definition is_digit (c : ascii) : bool :=
  (48 <=? N_of_ascii c)%N && (N_of_ascii c <=? 57)%N.
Definition digit_val (c : ascii) : N := (N_of_ascii c - 48)%N.
Definition digit_char (d : N) : ascii := ascii_of_N (48 + d).

Definition dec_step (acc : N) (c : ascii) : N := (acc * 10 + digit_val c)%N.
Definition dec_value (s : str) : N := fold_left dec_step s 0%N.

(** strconv.ParseUint(s, 10, bits): error on the empty text, on any
    non-digit (signs and underscores included, since the base is explicit)
    and on values that do not fit.  [None] is the error; the two kinds of
    Go error (ErrSyntax, ErrRange) are not distinguished because no caller
    distinguishes them. *)
Definition parse_uint (bits : N) (s : str) : option N :=
  match s with
  | [] => None
  | _ => if forallb is_digit s
         then let n := dec_value s in
              if (n <? 2 ^ bits)%N then Some n else None
         else None
  end.

(** strconv.FormatUint(n, 10) / strconv.Itoa for non-negative n. *)
Fixpoint fmt_aux (fuel : nat) (n : N) (acc : str) : str :=
  match fuel with
  | O => acc
  | S k => let acc' := digit_char (n mod 10) :: acc in
           if (n <? 10)%N then acc' else fmt_aux k (n / 10) acc'
  end.
Definition format_uint (n : N) : str := fmt_aux (S (N.to_nat (N.log2 n))) n [].

(** fmt "%d" of an int64/int: sign and magnitude. *)
Definition format_int (z : Z) : str :=
  match z with
  | Z.neg p => lit "-" ++ format_uint (Npos p)
  | _ => format_uint (Z.to_N z)
  end.

(** strings.Split(s, sep) for a one-byte separator: always at least one piece. *)
Fixpoint split_on (sep : ascii) (s : str) : list str :=
  match s with
  | [] => [[]]
  | c :: t =>
      if decide (c = sep) then [] :: split_on sep t
      else match split_on sep t with
           | [] => [[c]]                      (* unreachable *)
           | p :: ps => (c :: p) :: ps
           end
  end.

(** strings.Join(l, sep) for a one-byte separator. *)
Fixpoint join_with (sep : ascii) (l : list str) : str :=
  match l with
  | [] => []
  | [x] => x
  | x :: xs => x ++ sep :: join_with sep xs
  end.

(** strings.HasPrefix / bytes.HasSuffix *)
Fixpoint has_prefix (p s : str) : bool :=
  match p, s with
  | [], _ => true
  | _ :: _, [] => false
  | a :: p', b :: s' => if decide (a = b) then has_prefix p' s' else false
  end.
Definition has_suffix (s suf : str) : bool := has_prefix (rev suf) (rev s).

(** Go slicing s[lo:hi]; [None] is the run-time panic. *)
Definition go_slice (lo hi : nat) (s : str) : option str :=
  if (lo <=? hi) && (hi <=? length s) then Some (take (hi - lo) (drop lo s)) else None.

(** bytes.IndexByte: position of the first occurrence; -1 is [None]. *)
Fixpoint index_byte (c : ascii) (s : str) : option nat :=
  match s with
  | [] => None
  | x :: t => if decide (x = c) then Some 0 else S <$> index_byte c t
  end.
