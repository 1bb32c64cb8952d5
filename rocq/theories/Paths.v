(** Unix path functions of Go's standard library which the code calls
    (path/filepath: Join, Clean, Split with Separator '/'), on byte strings. *)
From Verif Require Import Base.
Local Open Scope string_scope.

Definition sep : ascii := "/"%char.
Definition seps : string := "/".

(** strings.Split(s, "/"): always at least one piece.
    Used by internal/level/periscope.go:60-61 and, in the model, by [clean]. *)
Fixpoint split_sep (s : string) : list string :=
  match s with
  | EmptyString => [EmptyString]
  | String c r =>
      if Ascii.eqb c sep then EmptyString :: split_sep r
      else match split_sep r with
           | [] => [String c EmptyString] (* never: split_sep is not empty *)
           | h :: t => String c h :: t
           end
  end.

(** strings.Join(ss, "/") *)
Fixpoint join_sep (ss : list string) : string :=
  match ss with
  | [] => EmptyString
  | [s] => s
  | s :: r => s ++ seps ++ join_sep r
  end.

Definition starts_with_sep (s : string) : bool :=
  match s with String c _ => Ascii.eqb c sep | EmptyString => false end.

(** One step of filepath.Clean over the path elements; [st] is the output
    stack, innermost element first. *)
Definition clean_step (rooted : bool) (st : list string) (x : string) : list string :=
  if String.eqb x "" then st
  else if String.eqb x "." then st
  else if String.eqb x ".." then
    match st with
    | [] => if rooted then [] else [x]
    | top :: rest => if String.eqb top ".." then x :: st else rest
    end
  else x :: st.

(** filepath.Clean (Go standard library, Unix) *)
Definition clean (p : string) : string :=
  let rooted := starts_with_sep p in
  let segs := rev (fold_left (clean_step rooted) (split_sep p) []) in
  let body := join_sep segs in
  let out := if rooted then seps ++ body else body in
  if String.eqb out "" then "." else out.

(** filepath.Join(a, b) (Go standard library, Unix), as called at
    internal/kernel/navigator-agent.go:153 *)
Definition join (a b : string) : string :=
  if String.eqb a "" then
    if String.eqb b "" then "" else clean b
  else clean (a ++ seps ++ b).

(** filepath.Split (Go standard library, Unix), as called at
    internal/kernel/extend.go:29: everything up to and including the last
    separator, and the rest. *)
Fixpoint split_path (p : string) : string * string :=
  match p with
  | EmptyString => (EmptyString, EmptyString)
  | String c r =>
      let '(d, f) := split_path r in
      if Ascii.eqb c sep then (String c d, f)
      else match d with
           | EmptyString => (EmptyString, String c f)
           | _ => (String c d, f)
           end
  end.
