(** Vocabulary of C110 and C111: the filtering sink and the client's definitions. *)
From Verif Require Import Base Paths Level Kernel Filters Sink.

(** [matches mt f n]: the filter's IsMatch returns true for the node. *)
Definition matches (mt : matchers) (f : nfilter) (n : node) : bool :=
  match is_match mt f (Some n) with Ret b => b | _ => false end.

(** A definition of one of the types Glob, Regex, GlobEx. *)
Definition simple (d : filter_def) : Prop := fd_type d = FtGlob \/ fd_type d = FtRegex \/ fd_type d = FtGlobEx.

(** [but_scope d d']: the two differ at most in their scope, [but_scopes]: or in
    those of the definitions within. *)
Definition but_scope (d d' : filter_def) : Prop := exists sc, d' = with_scope sc d.
Definition but_scopes (d d' : filter_def) : Prop :=
  match fd_poly d, fd_poly d' with
  | Some (f, g), Some (f', g') => but_scope f f' /\ but_scope g g' /\ but_scope (with_poly None d) (with_poly None d')
  | None, None => but_scope d d'
  | _, _ => False
  end.

(** Options whose node filter definition is [d]. *)
Definition with_node (d : filter_def) (fo : filter_options) : filter_options :=
  mkFilterOptions (Some d) (fo_child fo) (fo_sample fo) (fo_custom fo).

(** The scope a filter made from a definition has: an extended glob applies to
    files; none given means all. *)
Definition scope_used (d : filter_def) : N :=
  match fd_type d with
  | FtGlobEx => ScopeFile
  | _ => if (fd_scope d =? 0)%N then ScopeAll else fd_scope d
  end.
