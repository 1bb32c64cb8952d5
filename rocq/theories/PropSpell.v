(** Property C122: how the list of an extended glob may be spelled. Vocabulary:
    SpecSpell.v ([barred seg items]: the pattern with [seg] before the bar and the
    items of the list, separated by commas; [respelled]: the item in other letter
    case with white space around it), SpecFilter.v, SpecBuild.v. *)
From Verif Require Import Base Paths Level Kernel Defaults Session Spec Filters SpecFilter FiltersFacts Hooks Life Options Build SpecBuild
  FilterProps Cases CasesFacts BuildFacts BuildCases FilterCases AskFacts SpecSpell SpellFacts.
Local Open Scope string_scope.

(** *** C122 *)
(** Letter case and white space around the items do not matter: both definitions
    are refused with the same error or make filters which answer alike for every
    node. Nothing is asked of the glob matcher. *)
Theorem c122_spelling_of_the_list : forall mt d d' fo seg l l', fo_custom fo = None ->
  fd_type d = FtGlobEx -> fd_pattern d = barred seg l ->
  d' = mkFilterDef (fd_type d) (fd_desc d) (barred seg l') (fd_scope d) (fd_negate d) (fd_ifna d) (fd_poly d) ->
  l <> [] -> free_of "|" seg -> Forall listable l -> Forall listable l' -> Forall2 respelled l l' ->
  same_answers mt (new_filter mt d fo) (new_filter mt d' fo).
Proof. exact respelled_answers. Qed.
Print Assumptions c122_spelling_of_the_list.
(** End to end: the same nodes, in the same order, and the same outcome. *)
Theorem c122_same_session : forall env mt u ws t sub d d' seg l l', ordinary u ws sub -> sub <> SubDirectoriesWithFiles ->
  fd_type d = FtGlobEx -> fd_pattern d = barred seg l ->
  d' = mkFilterDef (fd_type d) (fd_desc d) (barred seg l') (fd_scope d) (fd_negate d) (fd_ifna d) (fd_poly d) ->
  l <> [] -> free_of "|" seg -> Forall listable l -> Forall listable l' -> Forall2 respelled l l' ->
  let R := walk_prime env mt (FacUsing u) (options_of env (ws ++ [WithFilter (only_node d)])) t in
  let R' := walk_prime env mt (FacUsing u) (options_of env (ws ++ [WithFilter (only_node d')])) t in
  rp_outcome R = rp_outcome R' /\ nodes_of R = nodes_of R'.
Proof. exact spelled_session. Qed.
Print Assumptions c122_same_session.
(** Refuted: an item of white space alone is not left out as an empty one is; the
    definition is refused. *)
Theorem c122_blank_item_refused : forall mt d fo seg l w, fo_custom fo = None -> fd_type d = FtGlobEx -> fd_pattern d = barred seg l ->
  free_of "|" seg -> Forall listable l -> In w l -> all_chars white w = true -> w <> "" ->
  new_filter mt d fo = Ret (None, Some err_sub_pattern).
Proof. exact blank_item_refused. Qed.
Print Assumptions c122_blank_item_refused.
Definition tab : string := String (Ascii.ascii_of_nat 9) "".
Definition line : string := String (Ascii.ascii_of_nat 10) "".
Definition spelled (items : list string) : filter_def := mkFilterDef FtGlobEx "" (barred "*" items) 0 false TriFalse None.
Definition songs : fsnode := Dir "r" [File "a.mp3"; File "a.txt"; File "c"; Dir "B" [File "d.TXT"; File "e.mp3"]].
Example c122_case :
  let l := ["*.mp3"; "*.txt"] in let l' := [tab ++ "*.Mp3"; "  *.TXT " ++ line] in
  Forall listable l /\ Forall listable l' /\ Forall2 respelled l l' /\
  prime_run SubUniversal [WithFilter (only_node (spelled l))] songs = (Ret None, ["/r/B/e.mp3"; "/r/a.mp3"; "/r/a.txt"]) /\
  prime_run SubUniversal [WithFilter (only_node (spelled l'))] songs = (Ret None, ["/r/B/e.mp3"; "/r/a.mp3"; "/r/a.txt"]) /\
  prime_run SubUniversal [WithFilter (only_node (spelled ["*.mp3"; ""]))] songs = (Ret None, ["/r/B/e.mp3"; "/r/a.mp3"]) /\
  prime_run SubUniversal [WithFilter (only_node (spelled ["*.mp3"; " "]))] songs = (Ret (Some err_sub_pattern), []).
Proof.
  cbv zeta. assert (R : forall b c a, all_chars white b = true -> all_chars white a = true -> all_chars plain_char c = true ->
    all_chars plain_char (to_lower c) = true -> to_lower (to_lower c) = to_lower c -> to_lower c <> "" -> to_lower c <> "!" -> respelled (to_lower c) (b ++ c ++ a)).
  { intros b c a B A C L E N M. right. exists b, c, a. repeat (split; [first [reflexivity|assumption|symmetry; assumption]|]). exact M. }
  split; [repeat constructor; reflexivity|]. split; [repeat constructor; reflexivity|]. split.
  { constructor; [apply (R tab "*.Mp3" ""); try reflexivity; discriminate|].
    constructor; [apply (R "  " "*.TXT" (" " ++ line)); try reflexivity; discriminate|constructor]. }
  repeat (split; [vm_compute; reflexivity|]). vm_compute; reflexivity.
Qed.
