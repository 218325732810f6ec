(** Specification of the header collection as an ordered multimap, in terms
    of lists of entries only (independent of the slice representation and of
    the model functions). *)
From Verif Require Import GoBase HeaderModel FrameModel GrammarSpec.

(** Mutating API calls.  [OpAddHeader l]: AddHeader(NewHeader(l...)). *)
Inductive hop :=
| OpAdd (k v : str)
| OpAddHeader (entries : list str)
| OpSet (k v : str)
| OpDel (k : str)
| OpClone.

(** Entries denoted by the argument list of NewHeader (odd list padded). *)
Fixpoint entries_of (l : list str) : header :=
  match l with
  | [] => []
  | [k] => [(k, [])]
  | k :: v :: t => (k, v) :: entries_of t
  end.

(** What each call must do to the list of entries. *)
Inductive hop_spec (h : header) : hop -> header -> Prop :=
| hs_add k v : hop_spec h (OpAdd k v) (h ++ [(k, v)])
| hs_addheader l : hop_spec h (OpAddHeader l) (h ++ entries_of l)
| hs_set_new k v : no_entry h k -> hop_spec h (OpSet k v) (h ++ [(k, v)])
| hs_set_old k v v0 h1 h2 : h = h1 ++ (k, v0) :: h2 -> no_entry h1 k ->
    hop_spec h (OpSet k v) (h1 ++ (k, v) :: h2)
| hs_del k : hop_spec h (OpDel k) (filter (fun e => fst e <> k) h)
| hs_clone : hop_spec h OpClone h.

Inductive hops_spec : header -> list hop -> header -> Prop :=
| hss_nil h : hops_spec h [] h
| hss_cons h o h' ops h'' : hop_spec h o h' -> hops_spec h' ops h'' ->
    hops_spec h (o :: ops) h''.

(** The same calls on the modelled representation; [None] = panic. *)
Definition run_hop (s : hslice) (o : hop) : option hslice :=
  match o with
  | OpAdd k v => Some (hadd s k v)
  | OpAddHeader l => hadd_header s (hnew l)
  | OpSet k v => hset s k v
  | OpDel k => hdel s k
  | OpClone => Some (hclone s)
  end.
Fixpoint run_hops (s : hslice) (ops : list hop) : option hslice :=
  match ops with
  | [] => Some s
  | o :: ops' => match run_hop s o with Some s' => run_hops s' ops' | None => None end
  end.

(** What the observers must report for a list of entries h. *)
Record observes (s : hslice) (h : header) : Prop := {
  ob_len : hlen s = length h;
  ob_at : forall i, hget_at s i = h !! i;
  ob_contains : forall k v, hcontains s k = Some (Some v) <-> first_entry h k v;
  ob_absent : forall k, hcontains s k = Some None <-> no_entry h k;
  ob_contains_nopanic : forall k, hcontains s k <> None;
  ob_get : forall k v, first_entry h k v -> hget s k = Some v;
  ob_get_absent : forall k, no_entry h k -> hget s k = Some [];
  ob_get_all : forall k, hget_all s k = Some (snd <$> filter (fun e => fst e = k) h);
  ob_clen : forall t, first_entry h h_content_length t ->
     (forall n, dec_text t n -> (n < 2 ^ 32)%N -> hcontent_length s = Some (ClValue n)) /\
     ((forall n, dec_text t n -> ~ (n < 2 ^ 32)%N) -> hcontent_length s = Some ClError);
  ob_clen_absent : no_entry h h_content_length -> hcontent_length s = Some ClAbsent
}.
