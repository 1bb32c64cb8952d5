(** Specification vocabulary for filters and sampling. Uses the definition
    records of Filters.v (what the client writes) but none of its functions. *)
From Verif Require Import Base Paths Level Kernel Defaults Filters.
Local Open Scope string_scope.

(** The node is within the scope: some scope bit in common; an undefined scope
    means every node. *)
Definition in_scope (sc : N) (n : node) : Prop := sc = 0%N \/ N.land sc (n_scope n) <> 0%N.
Definition in_scope_b (sc : N) (n : node) : bool := (sc =? 0)%N || negb (N.land sc (n_scope n) =? 0)%N.

(** What the pattern says about a name. *)
Definition pattern_says (mt : matchers) (d : filter_def) (name : string) : bool :=
  match fd_type d with
  | FtGlob => mt_glob mt (fd_pattern d) name
  | FtRegex => match mt_regex mt (fd_pattern d) with inl rex => rex name | inr _ => false end
  | _ => false
  end.
(** IfNotApplicable: true unless set to false. *)
Definition if_not_applicable (d : filter_def) : bool :=
  match fd_ifna d with TriFalse => false | _ => true end.
(** The answer of a glob or regex filter. *)
Definition accepts (mt : matchers) (d : filter_def) (n : node) : bool :=
  if in_scope_b (fd_scope d) n
  then xorb (fd_negate d) (pattern_says mt d (n_name n))
  else if_not_applicable d.

(** A node scope as the traversal makes it. *)
Definition scope_ok (n : node) : Prop := (0 < n_scope n < 4294967296)%N.

Definition with_negate (b : bool) (d : filter_def) : filter_def :=
  mkFilterDef (fd_type d) (fd_desc d) (fd_pattern d) (fd_scope d) b (fd_ifna d) (fd_poly d).

(** Options which hold just this node filter. *)
Definition only_node (d : filter_def) : filter_options := mkFilterOptions (Some d) None None None.

(** ** Extended glob *)

(** A list item of an extended glob: "base.ext" or "base.!ext". *)
Record item := mkItem { it_base : string; it_neg : bool; it_ext : string }.
Definition item_text (i : item) : string := it_base i ++ "." ++ (if it_neg i then "!" else "") ++ it_ext i.
(** The glob which an item stands for: an absent base means any. *)
Definition item_glob (i : item) : string := (if String.eqb (it_base i) "" then "*" else it_base i) ++ "." ++ it_ext i.

Fixpoint all_chars (p : ascii -> bool) (s : string) : bool :=
  match s with EmptyString => true | String a r => p a && all_chars p r end.
Definition free_of (ch : ascii) (s : string) : Prop := all_chars (fun a => negb (Ascii.eqb a ch)) s = true.
Definition plain_char (a : ascii) : bool :=
  let n := N_of_ascii a in
  negb ((n <=? 32) || (n =? 44) || (n =? 124))%N.
(** An item is well formed: no white space, control character, comma or bar; the extension is not empty, has no dot, and does not begin with '!'. *)
Definition item_ok (i : item) : Prop :=
  all_chars plain_char (it_base i) = true /\ all_chars plain_char (it_ext i) = true /\
  it_ext i <> "" /\ free_of "."%char (it_ext i) /\
  (forall r, it_ext i <> String "!" r).

(** The pattern with this directory glob, an exclusion (may be empty), and items. *)
Definition globex_text (dir excl : string) (items : list item) : string :=
  (if String.eqb excl "" then dir else dir ++ "/" ++ excl) ++ "|" ++ String.concat "," (map item_text items).
Definition dir_part_ok (s : string) : Prop := all_chars plain_char s = true /\ free_of "/"%char s.

(** The file name is accepted by the list: going through the items in order, the
    first item which is negated, or whose glob matches, decides: a negated item
    accepts the names which its glob does not match. No such item: rejected. *)
Inductive listed (glob : string -> string -> bool) (name : string) : list item -> bool -> Prop :=
| listed_none : listed glob name [] false
| listed_match : forall i l, it_neg i = false -> glob (item_glob i) name = true -> listed glob name (i :: l) true
| listed_negated : forall i l, it_neg i = true -> listed glob name (i :: l) (negb (glob (item_glob i) name))
| listed_next : forall i l b, it_neg i = false -> glob (item_glob i) name = false ->
    listed glob name l b -> listed glob name (i :: l) b.

(** The definition of an extended glob filter. *)
Definition globex_def (dir excl : string) (items : list item) (sc : N) (neg : bool) (na : tristate) : filter_def :=
  mkFilterDef FtGlobEx "" (globex_text dir excl items) sc neg na None.

(** The parent directory's name is accepted by the directory glob and not
    excluded; the root has no parent. *)
Definition directory_accepted (glob : string -> string -> bool) (dir excl : string) (n : node) : bool :=
  match n_parent n with
  | None => true
  | Some p => glob (to_lower dir) (to_lower (n_name p)) && negb (glob (to_lower excl) (to_lower (n_name p)))
  end.

(** A node whose scope says whether it is a file, as the traversal makes it. *)
Definition file_bit (n : node) : Prop := N.land ScopeFile (n_scope n) <> 0%N <-> n_isdir n = false.
Definition dir_bit (n : node) : Prop := N.land ScopeDirectory (n_scope n) <> 0%N <-> n_isdir n = true.

(** ** Poly *)
Definition poly_def (file directory : filter_def) : filter_def :=
  mkFilterDef FtPoly "" "" 0 false TriUndefined (Some (file, directory)).

(** ** Sampling *)

(** [taken rev n l r]: [r] are the first (last) [n] of [l], all if there are
    fewer or if [n] is 0. *)
Definition taken {A} (reverse : bool) (n : nat) (l r : list A) : Prop :=
  length r = (if Nat.eqb n 0 then length l else Nat.min n (length l)) /\
  exists rest, l = if reverse then (rest ++ r)%list else (r ++ rest)%list.

(** A poly filter of a file and a directory definition, each glob or regex: every
    directory is accepted; a file is iff both agree. *)
Definition poly_accepts (mt : matchers) (file directory : filter_def) (n : node) : bool :=
  n_isdir n ||
  match n_parent n with
  | Some p => xorb (fd_negate directory) (pattern_says mt directory (n_name p)) &&
              xorb (fd_negate file) (pattern_says mt file (n_name n))
  | None => false
  end.
(** A definition which yields a glob or regex filter. *)
Definition compiles (mt : matchers) (d : filter_def) : Prop :=
  fd_type d = FtGlob \/ (fd_type d = FtRegex /\ exists rex, mt_regex mt (fd_pattern d) = inl rex).
