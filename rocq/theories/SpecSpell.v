(** Specification vocabulary for how the list of an extended glob may be spelled. *)
From Verif Require Import Base Paths Kernel Session Defaults Filters SpecFilter.
Local Open Scope string_scope.

(** Space, tab, line feed, vertical tab, form feed, carriage return. *)
Definition white (a : ascii) : bool := existsb (fun k => (N_of_ascii a =? k)%N) [32; 9; 10; 11; 12; 13]%N.

(** [b] is [a] in other letter case with white space around it, or [a] itself. *)
Definition respelled (a b : string) : Prop :=
  a = b \/
  exists before core after, b = before ++ core ++ after /\ all_chars white before = true /\ all_chars white after = true /\
    all_chars plain_char a = true /\ all_chars plain_char core = true /\ to_lower core = to_lower a /\ a <> "" /\ a <> "!".

(** The pattern with what is before the bar and the items of the list. *)
Definition barred (seg : string) (items : list string) : string := seg ++ "|" ++ String.concat "," items.
Definition listable (s : string) : Prop := free_of "," s /\ free_of "|" s.

(** Two results of making a filter: both are refused with the same error, or both
    are filters which answer the same for every node. *)
Definition same_answers (mt : matchers) (r1 r2 : outcome (option nfilter * option error)) : Prop :=
  match r1, r2 with
  | Ret (Some f, None), Ret (Some g, None) => forall n, is_match mt f n = is_match mt g n
  | Ret (None, Some e), Ret (None, Some e') => e = e'
  | _, _ => False
  end.
