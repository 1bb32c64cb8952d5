(** Specification vocabulary for child filters, a client's own filter, and
    what else is configured. *)
From Verif Require Import Base Paths Level Kernel Session Defaults Spec Filters SpecFilter Hooks Life SpecHooks Options Build SpecBuild.

(** Options holding a child filter and perhaps a node filter; a client's own
    filter. *)
Definition with_child (od : option filter_def) (cd : child_def) : filter_options := mkFilterOptions od (Some cd) None None.
Definition own_filter (cu : custom_filter) : filter_options := mkFilterOptions None None None (Some cu).

(** What a glob or regex child filter says about the name of a file. *)
Definition child_keeps (mt : matchers) (cd : child_def) (name : string) : bool :=
  let says := match cd_type cd with
    | FtGlob => mt_glob mt (cd_pattern cd) name
    | FtRegex => match mt_regex mt (cd_pattern cd) with inl rex => rex name | inr _ => false end
    | _ => false
    end in
  if cd_negate cd then negb says else says.
Definition child_compiles (mt : matchers) (cd : child_def) : Prop :=
  cd_type cd = FtGlob \/ (cd_type cd = FtRegex /\ exists rex, mt_regex mt (cd_pattern cd) = inl rex).
(** The node filter, if there is one, compiles; what it says. *)
Definition node_part_ok (mt : matchers) (od : option filter_def) : Prop :=
  match od with None => True | Some d => compiles mt d /\ fd_pattern d <> EmptyString end.
Definition node_part (mt : matchers) (od : option filter_def) (n : node) : bool :=
  match od with None => true | Some d => accepts mt d n end.
(** The sub path hooks do not look at the children. *)
Definition subpath_blind (ws : list with_option) : Prop := forall tree keep n,
  latest sets_dir_sub ws default_subpath tree keep (strip n) = latest sets_dir_sub ws default_subpath tree keep n /\
  latest sets_file_sub ws default_subpath tree keep (strip n) = latest sets_file_sub ws default_subpath tree keep n.
(** How many of [k] files are taken. *)
Definition sampled_count (so : sampling_options) (k : nat) : nat :=
  match so_type so with
  | StUndefined => k
  | _ => if Nat.eqb (so_files so) 0 then k else Nat.min (so_files so) k
  end.

(** The kind of handler which an event is told to. *)
Inductive told_to : event -> notice -> Prop :=
| tt_begin : forall p, told_to (EvBegin p) NtBegin
| tt_end : forall m, told_to (EvEnd m) NtEnd
| tt_descend : forall n, told_to (EvDescend n) NtDescend
| tt_ascend : forall n, told_to (EvAscend n) NtAscend
| tt_wake : told_to EvWake NtWake
| tt_sleep : told_to EvSleep NtSleep.
(** [heard hs tr l]: the handlers [hs k] registered for each notification [k]
    hear the events [tr] one after the other: [l]. *)
Inductive heard (hs : notice -> list nat) : list event -> list (nat * event) -> Prop :=
| heard_none : heard hs [] []
| heard_one : forall e k tr l, told_to e k -> heard hs tr l -> heard hs (e :: tr) (map (fun h => (h, e)) (hs k) ++ l)
| heard_other : forall e tr l, (forall k, ~ told_to e k) -> heard hs tr l -> heard hs (e :: tr) l.
