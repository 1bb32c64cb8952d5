(** Property C68: a walk with the default options, from the facade to the
    callbacks. Vocabulary: SpecDefault.v. *)
From Verif Require Import Base Paths Level Kernel Session Defaults Spec SpecDefault Filters Hooks Life Options Build SpecBuild
  DefaultFacts Cases BuildCases FilterCases.
From Coq Require Import Permutation Sorted.
Local Open Scope string_scope.

(** Everything is visited once, except what is named .DS_Store (with its
    contents) and what is in a directory which cannot be read. *)
Theorem c68_visits_everything : forall env mt u t sub, us_options u = None -> complete_facade u ->
  us_sub u = Some sub -> us_handler u = Some (fun _ _ => CNil) -> en_stat env t = None -> fisdir t = true ->
  exists tr m, walk_prime env mt (FacUsing u) [] t = mkReport (Ret None) tr (Some m) /\
  Permutation (map (fun x => (n_path (fst x), fisdir (n_src (fst x)))) (calls tr))
    (filter (subscribed sub) (everything (us_tree u) t)).
Proof. exact default_walk_visits. Qed.
Print Assumptions c68_visits_everything.

(** In pre-order: a directory, then its entries, the directories before the
    files, each group by name, disregarding upper and lower case. *)
Theorem c68_in_order : forall env mt u t sub, us_options u = None -> complete_facade u ->
  us_sub u = Some sub -> us_handler u = Some (fun _ _ => CNil) -> en_stat env t = None ->
  exists tr m P, walk_prime env mt (FacUsing u) [] t = mkReport (Ret None) tr (Some m) /\
  preorder (fun _ => default_entries sub) [] (us_tree u) t P /\
  map place_of (map fst (calls tr)) = told sub P.
Proof. exact default_walk_listing. Qed.
Print Assumptions c68_in_order.
Theorem c68_entries_of_a_directory : forall sub t, exists ds fs,
  default_entries sub t = (ds ++ match sub with SubFiles | SubUniversal => fs | _ => [] end)%list /\
  StronglySorted lower_le ds /\ StronglySorted lower_le fs /\
  Permutation (ds ++ fs) (filter (fun e => negb (String.eqb (fname e) ".DS_Store"))
    (if fisdir t then match fread t with None => fkids t | Some _ => [] end else [])) /\
  (forall e, In e ds -> fisdir e = true) /\ (forall e, In e fs -> fisdir e = false).
Proof. exact default_entries_order. Qed.
Print Assumptions c68_entries_of_a_directory.

Definition mac_tree : fsnode :=
  Dir "r" [File ".DS_Store"; File "z"; Dir "B" [File ".DS_Store"; File "x"]; File "DS_Store"; Dir "a" [];
           BadDir "c" (Err (Plain 9)) [File "hidden"]; Dir ".DS_Store" [File "y"]].
Example c68_case :
  us_options (using_ SubUniversal None) = None /\ complete_facade (using_ SubUniversal None) /\ en_stat env0 mac_tree = None /\
  prime_run SubUniversal [] mac_tree = (Ret None, ["/r"; "/r/a"; "/r/B"; "/r/B/x"; "/r/c"; "/r/DS_Store"; "/r/z"]) /\
  filter (subscribed SubFiles) (everything "/r" mac_tree) = [("/r/z", false); ("/r/B/x", false); ("/r/DS_Store", false)].
Proof. repeat split; try discriminate; vm_compute; reflexivity. Qed.
