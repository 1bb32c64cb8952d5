(** Property C119, the resumes of both kinds. Vocabulary: SpecMixed.v. *)
From Verif Require Import Base Paths Level Kernel Session Defaults Spec PathFacts WalkProps Cases CasesFacts Filters Hooks Life Options Build SpecBuild
  BuildCases FilterCases Persist SpecPersist PersistFacts Resume SpecResume ResumeCases SpecRelay PropResume PropRelay SpecJourney JourneyFacts
  PropJourney SpecMixed MixedFacts.
Local Open Scope string_scope.
Local Open Scope list_scope.

(** *** C119 *)

(** A universal walk without filter or hibernation, stopped by panics of the
    client, each time resumed by either strategy, a session started once more from
    the same file included: the next resume, of either strategy, which is not
    stopped returns no error, calls for the end of the listing, and all the sessions
    together called for every entry and for nothing else. *)
Theorem c119_mixed_nothing_lost_partial : forall c pc dk P,
  hooks_ok c -> root_ok c (dk (c_tree c)) -> default_skip c -> plain c -> c_sub c = SubUniversal -> c_depth c = 0%N ->
  stable_sort c -> clean (c_tree c) = c_tree c -> proper_names (dk (c_tree c)) -> distinct_names c (c_tree c) (dk (c_tree c)) ->
  preorder (entries_all c) [] (c_tree c) (dk (c_tree c)) P -> tidy c pc dk P -> passable c pc P ->
  forall V sv sampling, mixed_relay c pc dk V sv ->
  (exists s bef, spawn_session (with_client client_nil c) sampling pc dk sv = (Ret None, true, s) /\
    map thing P = bef ++ things s /\ (forall q, In q (V ++ things s) <-> In q (map thing P))) /\
  (exists s bef, fastward_session true (with_client client_nil c) sampling pc dk sv = (Ret None, s) /\
    map thing P = bef ++ things s /\ (forall q, In q (V ++ things s) <-> In q (map thing P))).
Proof. exact mixed_finished. Qed.
Print Assumptions c119_mixed_nothing_lost_partial.

(** The same from facade to facade, through the documents which are written and loaded. *)
Theorem c119_mixed_from_facade_to_facade_partial : forall env mt ws tree pc dk P,
  unfiltered ws -> hooks_sound ws -> undisturbed env ws (dk tree) -> depth_asked ws = 0%N ->
  tree <> "" -> clean tree = tree -> utf8 tree -> proper_names (dk tree) ->
  let c := session_cfg env ws tree SubUniversal client_nil (reads ws) None None in
  stable_sort c -> distinct_names c tree (dk tree) -> preorder (entries_all c) [] tree (dk tree) P -> tidy c pc dk P -> passable c pc P ->
  Forall (fun q => utf8 (pl_path q)) P ->
  forall V doc st, mixed_journey env mt ws tree pc dk V doc -> st = StrategySpawn \/ st = StrategyFastward ->
  let r := resumed_from env mt ws st pc dk doc client_nil in
  rr_outcome r = Ret None /\ rr_complete r = true /\
  (exists bef, map thing P = bef ++ map thing (places_called (rr_trace r))) /\
  (forall q, In q (map thing (V ++ places_called (rr_trace r))) <-> In q (map thing P)).
Proof. exact mixed_journey_finished. Qed.
Print Assumptions c119_mixed_from_facade_to_facade_partial.

Local Notation begun := (started env0 mt0 [] "/r" SubUniversal disk4 (stopping_at "/r/A/c/y")).
Local Notation resumption st doc q := (resumed_from env0 mt0 [] st unix_calc disk4 doc (stopping_at q)).

(** Stopped at /r/A/c/y; resumed by spawn and stopped at /r/D/w; by fastward from
    what spawn wrote and stopped at /r/e; what is then called for by each strategy. *)
Example c119_mixed_case : exists V,
  mixed_journey env0 mt0 [] "/r" unix_calc disk4 V (doc2 StrategySpawn) /\
  map pl_path V = ["/r"; "/r/A"; "/r/A/c"; "/r/A/c/y";
                   "/r/A/c"; "/r/A/c/y"; "/r/A/c/z"; "/r/A/x"; "/r/D"; "/r/D/w";
                   "/r/D"; "/r/D/w"; "/r/e"].
Proof.
  assert (S2 : exists n sv, stopped_at (rr_trace (resumption StrategySpawn doc1 "/r/D/w")) n /\
    rescues (rr_trace (resumption StrategySpawn doc1 "/r/D/w")) = [sv] /\
    marshal (afterwards options1) (mkActive sv false false) None = (Some (doc2 StrategySpawn), None)).
  { eexists _, _. split; [eapply stopped_by; vm_compute; reflexivity|]. split; vm_compute; reflexivity. }
  assert (S3 : exists n, stopped_at (rr_trace (resumption StrategyFastward (doc2 StrategySpawn) "/r/e")) n).
  { eexists. eapply stopped_by; vm_compute; reflexivity. }
  assert (T1 : map n_path (map fst (calls (rp_trace begun))) = ["/r"; "/r/A"; "/r/A/c"; "/r/A/c/y"]) by (vm_compute; reflexivity).
  assert (T2 : map n_path (map fst (calls (rr_trace (resumption StrategySpawn doc1 "/r/D/w")))) =
    ["/r/A/c"; "/r/A/c/y"; "/r/A/c/z"; "/r/A/x"; "/r/D"; "/r/D/w"]) by (vm_compute; reflexivity).
  assert (T3 : map n_path (map fst (calls (rr_trace (resumption StrategyFastward (doc2 StrategySpawn) "/r/e")))) =
    ["/r/D"; "/r/D/w"; "/r/e"]) by (vm_compute; reflexivity).
  destruct begun_stopped as (n1 & sv1 & A1 & B1 & C1 & D1), S2 as (n & sv & A & B & C), S3 as (n3 & D), loaded1_is as [a L].
  pose proof (mixed_starts env0 mt0 [] "/r" unix_calc disk4 (stopping_at "/r/A/c/y") n1 sv1 doc1 A1 B1 C1 D1) as J1.
  pose proof (mixed_goes_on env0 mt0 [] "/r" unix_calc disk4 _ doc1 StrategySpawn (stopping_at "/r/D/w") n sv a options1 (doc2 StrategySpawn)
    J1 (or_introl eq_refl) (ex_intro _ (stop_at "/r/D/w") eq_refl) A ltac:(discriminate) B L C) as J2.
  pose proof (mixed_once_more env0 mt0 [] "/r" unix_calc disk4 _ (doc2 StrategySpawn) StrategyFastward (stopping_at "/r/e") n3
    J2 (or_intror eq_refl) (ex_intro _ (stop_at "/r/e") eq_refl) D) as J3.
  eexists. split; [exact J3|]. rewrite !map_app, !paths_called, T1, T2, T3. reflexivity.
Qed.
(** And resumed by fastward first, by spawn from what fastward wrote. The remaining
    hypotheses are those of c119_facade_hypotheses_case. *)
Example c119_mixed_other_case : exists V,
  mixed_journey env0 mt0 [] "/r" unix_calc disk4 V (doc2 StrategyFastward) /\
  map pl_path V = ["/r"; "/r/A"; "/r/A/c"; "/r/A/c/y";
                   "/r/A/c"; "/r/A/c/y"; "/r/A/c/z"; "/r/A/x"; "/r/D"; "/r/D/w"; "/r/D"] /\
  map n_path (map fst (calls (rr_trace (resumed_from env0 mt0 [] StrategySpawn unix_calc disk4 (doc2 StrategyFastward) client_nil)))) =
    ["/r/D"; "/r/D/w"; "/r/e"] /\
  map n_path (map fst (calls (rr_trace (resumed_from env0 mt0 [] StrategyFastward unix_calc disk4 (doc2 StrategySpawn) client_nil)))) =
    ["/r/D"; "/r/D/w"; "/r/e"].
Proof.
  assert (S2 : exists n sv, stopped_at (rr_trace (resumption StrategyFastward doc1 "/r/D/w")) n /\ deep n /\
    rescues (rr_trace (resumption StrategyFastward doc1 "/r/D/w")) = [sv] /\
    marshal (afterwards options1) (mkActive sv false false) None = (Some (doc2 StrategyFastward), None)).
  { eexists _, _. split; [eapply stopped_by; vm_compute; reflexivity|]. split; [eexists _, _; split; vm_compute; reflexivity|].
    split; vm_compute; reflexivity. }
  assert (S3 : exists n, stopped_at (rr_trace (resumption StrategySpawn (doc2 StrategyFastward) "/r/D")) n).
  { eexists. eapply stopped_by; vm_compute; reflexivity. }
  assert (T1 : map n_path (map fst (calls (rp_trace begun))) = ["/r"; "/r/A"; "/r/A/c"; "/r/A/c/y"]) by (vm_compute; reflexivity).
  assert (T2 : map n_path (map fst (calls (rr_trace (resumption StrategyFastward doc1 "/r/D/w")))) =
    ["/r/A/c"; "/r/A/c/y"; "/r/A/c/z"; "/r/A/x"; "/r/D"; "/r/D/w"]) by (vm_compute; reflexivity).
  assert (T3 : map n_path (map fst (calls (rr_trace (resumption StrategySpawn (doc2 StrategyFastward) "/r/D")))) = ["/r/D"]) by (vm_compute; reflexivity).
  destruct begun_stopped as (n1 & sv1 & A1 & B1 & C1 & D1), S2 as (n & sv & A & DP & B & C), S3 as (n3 & D), loaded1_is as [a L].
  pose proof (mixed_starts env0 mt0 [] "/r" unix_calc disk4 (stopping_at "/r/A/c/y") n1 sv1 doc1 A1 B1 C1 D1) as J1.
  pose proof (mixed_goes_on env0 mt0 [] "/r" unix_calc disk4 _ doc1 StrategyFastward (stopping_at "/r/D/w") n sv a options1 (doc2 StrategyFastward)
    J1 (or_intror eq_refl) (ex_intro _ (stop_at "/r/D/w") eq_refl) A (fun _ => DP) B L C) as J2.
  pose proof (mixed_once_more env0 mt0 [] "/r" unix_calc disk4 _ (doc2 StrategyFastward) StrategySpawn (stopping_at "/r/D") n3
    J2 (or_introl eq_refl) (ex_intro _ (stop_at "/r/D") eq_refl) D) as J3.
  eexists. split; [exact J3|]. split; [rewrite !map_app, !paths_called, T1, T2, T3; reflexivity|].
  split; vm_compute; reflexivity.
Qed.
