(** Specification of the STOMP frame format, written as inductive relations
    and independent of the reader and writer functions.  Compare with the
    "Augmented BNF" of the STOMP 1.2 specification. *)
From Verif Require Import GoBase HeaderModel FrameModel.

(** [dec_text s n]: s is a non-empty decimal numeral with value n. *)
Inductive dec_text : str -> N -> Prop :=
| dt_one d : (d < 10)%N -> dec_text [ascii_of_N (48 + d)] d
| dt_snoc s n d : dec_text s n -> (d < 10)%N ->
    dec_text (s ++ [ascii_of_N (48 + d)]) (10 * n + d)%N.

(** [eol_line raw l]: raw is the line l followed by LF or CR LF. *)
Inductive eol_line : str -> str -> Prop :=
| el_lf l : LF ∉ l -> last l <> Some CR -> eol_line (l ++ [LF]) l
| el_crlf l : LF ∉ l -> eol_line (l ++ [CR; LF]) l.

(** [unescaped raw v]: v is raw with \r \n \c \\ replaced; a backslash that
    starts none of these stands for itself. *)
Inductive unescaped : str -> str -> Prop :=
| un_nil : unescaped [] []
| un_plain c s v : c <> BSLASH -> unescaped s v -> unescaped (c :: s) (c :: v)
| un_cr s v : unescaped s v -> unescaped (BSLASH :: ch_r :: s) (CR :: v)
| un_lf s v : unescaped s v -> unescaped (BSLASH :: ch_n :: s) (LF :: v)
| un_colon s v : unescaped s v -> unescaped (BSLASH :: ch_c :: s) (COLON :: v)
| un_bslash s v : unescaped s v -> unescaped (BSLASH :: BSLASH :: s) (BSLASH :: v)
| un_end : unescaped [BSLASH] [BSLASH]
| un_other c s v : c <> ch_r -> c <> ch_n -> c <> ch_c -> c <> BSLASH ->
    unescaped (c :: s) v -> unescaped (BSLASH :: c :: s) (BSLASH :: v).

(** A header line: non-empty name up to the first colon, then the value. *)
Inductive header_line : str -> str * str -> Prop :=
| hl rn rv n v : rn <> [] -> COLON ∉ rn -> unescaped rn n -> unescaped rv v ->
    header_line (rn ++ COLON :: rv) (n, v).

(** The header section, closed by an empty line. *)
Inductive header_section : str -> header -> Prop :=
| hs_nil raw : eol_line raw [] -> header_section raw []
| hs_cons raw l kv rest h : eol_line raw l -> header_line l kv ->
    header_section rest h -> header_section (raw ++ rest) (kv :: h).

(** [first_entry h k v]: the first entry of h with name k has value v. *)
Definition first_entry (h : header) (k v : str) : Prop :=
  exists h1 h2, h = h1 ++ (k, v) :: h2 /\ forall v', (k, v') ∉ h1.
Definition no_entry (h : header) (k : str) : Prop := forall v, (k, v) ∉ h.

(** The body and its terminating NUL. *)
Inductive body_section (h : header) : str -> str -> Prop :=
| bs_length t n b : first_entry h h_content_length t -> dec_text t n ->
    (n < 2 ^ 32)%N -> N.of_nat (length b) = n -> body_section h (b ++ [NUL]) b
| bs_nul b : no_entry h h_content_length -> NUL ∉ b -> body_section h (b ++ [NUL]) b.

Definition stomp_command (c : str) : Prop :=
  c ∈ [lit "CONNECT"; lit "STOMP"; lit "CONNECTED"; lit "SEND"; lit "SUBSCRIBE";
       lit "UNSUBSCRIBE"; lit "ACK"; lit "NACK"; lit "BEGIN"; lit "COMMIT";
       lit "ABORT"; lit "DISCONNECT"; lit "MESSAGE"; lit "RECEIPT"; lit "ERROR"].

(** [encodes raw f]: raw is an encoding of frame f. *)
Inductive encodes : str -> frame -> Prop :=
| en_frame craw cmd hraw h braw b :
    eol_line craw cmd -> stomp_command cmd -> header_section hraw h ->
    body_section h braw b -> encodes (craw ++ hraw ++ braw) (mkFrame cmd h b).

(** Frames a program may write: STOMP command, non-empty header names, and a
    body that the headers describe. *)
Record writable (f : frame) : Prop := {
  wr_cmd : stomp_command (f_cmd f);
  wr_names : forall k v, (k, v) ∈ f_hdr f -> k <> [];
  wr_body : (exists t, first_entry (f_hdr f) h_content_length t /\
                       dec_text t (N.of_nat (length (f_body f))) /\
                       (N.of_nat (length (f_body f)) < 2 ^ 32)%N) \/
            (no_entry (f_hdr f) h_content_length /\ NUL ∉ f_body f)
}.
