(** What is said about sub paths and scopes: vocabulary of the statements. *)
From Verif Require Import Base Paths Level Kernel Defaults PathFacts Persist SpecPersist.
Local Open Scope string_scope.

(** The text made of these code points, in UTF-8. *)
Definition text (cs : list N) : string := string_of_list_ascii (flat_map rune_bytes cs).
(** Where a node lies below the root of the walk: a separator and the name for
    every object on the way to it; nothing for the root. *)
Fixpoint rel_path (n : node) : string :=
  match n_parent n with None => "" | Some p => rel_path p ++ "/" ++ fname (n_src n) end.
(** All objects below [t] have such a name. *)
Inductive names_are (P : string -> Prop) : fsnode -> Prop :=
| na : forall t, (forall e, In e (fkids t) -> P (fname e) /\ names_are P e) -> names_are P t.
(** Only code points below 128. *)
Definition is_ascii (s : string) : Prop := Forall (fun ch => (byte ch < 128)%N) (list_ascii_of_string s).

(** Membership of a set of scopes, by bit. *)
Definition has (f : N) (i : N) : Prop := N.testbit f i = true.
Definition uint32 (f : N) : Prop := (f < 2 ^ 32)%N.
