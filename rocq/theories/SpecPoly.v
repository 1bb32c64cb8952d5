(** Poly filters with parts of any kind: what is said about them. *)
From Verif Require Import Base Paths Level Kernel Defaults Filters SpecFilter.

(** [part_says mt files d a]: the definition [d], as the part of a poly filter for
    files (for directories), can be used and answers [a] about a file (a directory): glob and
    regex by the pattern alone, whatever scope and IfNotApplicable are; an
    extended glob about files as on its own (C63); about directories, the kind of node
    it is never applicable to, always IfNotApplicable. *)
Inductive part_says (mt : matchers) : bool -> filter_def -> (node -> bool) -> Prop :=
| says_pattern : forall files d, compiles mt d ->
    part_says mt files d (fun n => xorb (fd_negate d) (pattern_says mt d (n_name n)))
| says_globex_files : forall dir excl items sc neg na ans, dir_part_ok dir -> dir_part_ok excl -> Forall item_ok items ->
    (forall name, listed (fun p x => mt_glob mt (to_lower p) x) name items (ans name)) ->
    part_says mt true (globex_def dir excl items sc neg na)
      (fun n => if directory_accepted (mt_glob mt) dir excl n then xorb neg (ans (n_name n))
                else if_not_applicable (globex_def dir excl items sc neg na))
| says_globex_directories : forall dir excl items sc neg na, dir_part_ok dir -> dir_part_ok excl -> Forall item_ok items ->
    part_says mt false (globex_def dir excl items sc neg na)
      (fun _ => if_not_applicable (globex_def dir excl items sc neg na)).

(** Every directory is accepted, a file iff both parts say so. *)
Definition both_parts (file directory : node -> bool) (n : node) : bool :=
  n_isdir n || match n_parent n with Some p => directory p && file n | None => false end.
