(** Property C121: a client's own filter. Vocabulary: SpecBuild.v ([selected],
    [ordinary]), [own_filter] of OwnFilter.v (the filter settings with the own
    filter [cu] and, for nodes and samples, any definitions or none). *)
From Verif Require Import Base Paths Level Kernel Defaults Session Spec Filters SpecFilter FiltersFacts Hooks Life Options Build SpecBuild
  FilterProps Cases CasesFacts BuildFacts BuildCases FilterCases AskFacts OwnFilter.
Local Open Scope string_scope.

(** *** C121 *)
(** It alone decides: the callback is called for exactly the nodes it accepts,
    in the order of the unfiltered session, with the same outcome. The other
    definitions, usable or not, do not matter. *)
Theorem c121_own_filter_decides_alone : forall env mt u ws t sub cu node sample ans, ordinary u ws sub -> sub <> SubDirectoriesWithFiles ->
  cu_validate cu = None -> (forall n, proper t n -> cu_match cu (Some n) = inl (ans n)) ->
  selected ans (fun n => n)
    (walk_prime env mt (FacUsing u) (options_of env (ws ++ [WithFilter (own_filter cu node sample)])) t)
    (walk_prime env mt (FacUsing u) (options_of env (ws ++ [WithFilter no_filter])) t).
Proof. exact own_session. Qed.
Print Assumptions c121_own_filter_decides_alone.
(** One which says it is not valid: its error is returned, nothing is called. *)
Theorem c121_invalid_own_filter_refused : forall env mt u ws t sub cu node sample e, ordinary u ws sub -> cu_validate cu = Some e ->
  walk_prime env mt (FacUsing u) (options_of env (ws ++ [WithFilter (own_filter cu node sample)])) t = mkReport (Ret (Some e)) [] None.
Proof. exact own_refused. Qed.
Print Assumptions c121_invalid_own_filter_refused.
(** Here with a definition which on its own would be refused and a sample definition which would panic. *)
Definition long_names : custom_filter := mkCustom None (fun n => match n with Some n => inl (5 <? String.length (n_path n))%nat | None => inr nil_deref end).
Definition unusable : option filter_def := Some (def_of FtRegex "(" 0).
Definition unusable_sample : option sample_def := Some (mkSampleDef FtPoly "" "x" 0 false None None).
Example c121_case :
  prime_run SubUniversal [WithFilter (mkFilterOptions unusable None None None)] tree1 = (Ret (Some (Err (Plain 99))), []) /\
  prime_run SubUniversal [WithFilter (mkFilterOptions None None unusable_sample None)] tree1 = (Pan nil_deref, []) /\
  prime_run SubUniversal [WithFilter (own_filter long_names unusable unusable_sample)] tree1 = (Ret None, ["/r/A/B"; "/r/A/B/y"; "/r/A/x"]) /\
  prime_run SubUniversal [WithFilter (own_filter (mkCustom (Some (Err (Plain 7))) (fun _ => inl true)) None None)] tree1 = (Ret (Some (Err (Plain 7))), []) /\
  (forall n, cu_match long_names (Some n) = inl (5 <? String.length (n_path n))%nat).
Proof. repeat (split; [vm_compute; reflexivity|]). intro n. reflexivity. Qed.
