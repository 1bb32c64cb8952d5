(** Property C24, continued: poly filters with parts of any kind. Vocabulary:
    SpecPoly.v, SpecFilter.v, SpecBuild.v. *)
From Verif Require Import Base Paths Level Kernel Defaults Session Spec Filters SpecFilter FiltersFacts Hooks Life Options Build SpecBuild
  FilterProps Cases CasesFacts BuildFacts BuildCases FilterCases SpecPoly PolyFacts.
Local Open Scope string_scope.

(** *** C24 *)
(** End to end, for a root which is a directory, the parts being glob, regex or
    extended glob filters in any combination: every directory is visited, a file iff both parts
    say so. *)
Theorem c24_poly_parts_partial : forall env mt u ws t sub, ordinary u ws sub -> sub <> SubDirectoriesWithFiles ->
  forall file directory af ad, part_says mt true file af -> part_says mt false directory ad -> fisdir t = true ->
  selected (both_parts af ad) (fun n => n)
    (walk_prime env mt (FacUsing u) (options_of env (ws ++ [WithFilter (only_node (poly_def file directory))])) t)
    (walk_prime env mt (FacUsing u) (options_of env (ws ++ [WithFilter no_filter])) t).
Proof. exact parts_session. Qed.
Print Assumptions c24_poly_parts_partial.

(** Refuted for an extended glob as the directory part: with IfNotApplicable left
    undefined it makes no difference what it says; every file which the file part
    accepts is visited. *)
Theorem c24_directory_extended_glob_refuted : forall env mt u ws t sub, ordinary u ws sub -> sub <> SubDirectoriesWithFiles ->
  forall file af dir excl items sc neg, part_says mt true file af -> dir_part_ok dir -> dir_part_ok excl -> Forall item_ok items ->
  fisdir t = true ->
  selected (both_parts af (fun _ => true)) (fun n => n)
    (walk_prime env mt (FacUsing u) (options_of env (ws ++ [WithFilter (only_node (poly_def file (globex_def dir excl items sc neg TriUndefined)))])) t)
    (walk_prime env mt (FacUsing u) (options_of env (ws ++ [WithFilter no_filter])) t).
Proof.
  intros env mt u ws t sub OR ND file af dir excl items sc neg PF D E F DT.
  exact (parts_session env mt u ws t sub OR ND file _ af _ PF (says_globex_directories mt dir excl items sc neg TriUndefined D E F) DT).
Qed.
Print Assumptions c24_directory_extended_glob_refuted.

Definition song_tree : fsnode := Dir "r" [File "a.mp3"; Dir "A" [File "d.txt"; File "e.mp3"]; Dir "C" [File "f.mp3"]].
(** Files *.mp3 in directories called A: with a
    glob for the directory part; and with an extended glob in its place. *)
Example c24_parts_case :
  let items := [mkItem "*" false "mp3"] in
  let file := globex_def "*" "" items 0 false TriFalse in
  let directory := def_of FtGlob "A" 0 in
  (exists af, part_says mt0 true file af) /\ (exists ad, part_says mt0 false directory ad) /\
  (exists ad, part_says mt0 false (globex_def "A" "" items 0 false TriUndefined) ad) /\
  prime_run SubUniversal [WithFilter (only_node (poly_def file directory))] song_tree = (Ret None, ["/r"; "/r/A"; "/r/A/e.mp3"; "/r/C"]) /\
  prime_run SubUniversal [WithFilter (only_node (poly_def file (globex_def "A" "" items 0 false TriUndefined)))] song_tree =
    (Ret None, ["/r"; "/r/A"; "/r/A/e.mp3"; "/r/C"; "/r/C/f.mp3"; "/r/a.mp3"]).
Proof.
  cbv zeta.
  assert (I : Forall item_ok [mkItem "*" false "mp3"]) by (repeat constructor; try reflexivity; discriminate).
  split; [eexists; apply says_globex_files with (ans := fun x => mt_glob mt0 "*.mp3" x); [split; reflexivity|split; reflexivity|exact I|]|].
  { intro name. destruct (mt_glob mt0 "*.mp3" name) eqn:G; [apply listed_match|apply listed_next; [| |constructor]]; try reflexivity; exact G. }
  split; [eexists; apply says_pattern; left; reflexivity|].
  split; [eexists; apply says_globex_directories; [split; reflexivity|split; reflexivity|exact I]|].
  split; vm_compute; reflexivity.
Qed.
