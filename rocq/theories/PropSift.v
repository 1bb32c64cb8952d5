(** Property C124. Vocabulary: Spec.v, SpecResume.v, SpecJourney.v. *)
From Verif Require Import Base Paths Level Kernel Session Defaults Spec WalkCor PathFacts WalkProps Simulate Feature Cases CasesFacts Filters SpecFilter Hooks Life Options Build SpecBuild
  BuildCases FilterCases Persist SpecPersist Resume SpecResume ResumeCases ResumeRefuted SpecRelay SpecJourney ResumeFilter SiftFacts PropResume PropJourney.
Local Open Scope string_scope.
Local Open Scope list_scope.

(** *** C124 *)

(** Spawn, with any callback [g] which answers by what it was called with before:
    the resume with the filter is the resume without a filter whose callback ignores
    the nodes which are not accepted. *)
Theorem c124_spawn_selects : forall c f g sampling cl2, c_sub c <> SubDirectoriesWithFiles ->
  (forall tr n, cl2 tr n = ignoring f g tr n) ->
  forall pc dk sv o1 ok1 s1 o2 ok2 s2,
  spawn_session (with_features (node_filter f) None (on_calls g) c) sampling pc dk sv = (o1, ok1, s1) ->
  spawn_session (with_features None None cl2 c) sampling pc dk sv = (o2, ok2, s2) ->
  alike o1 o2 /\ ok1 = ok2 /\ calls (s_trace s1) = filter (fun x => f (fst x)) (calls (s_trace s2)).
Proof.
  intros c f g sampling cl2 ND CE pc dk sv o1 ok1 s1 o2 ok2 s2 H1 H2.
  destruct (selected_spawn c f g sampling ND cl2 CE pc dk sv o1 ok1 s1 o2 ok2 s2 H1 H2) as (A & B & C).
  split; [exact (agree_alike _ _ _ A)|]. split; assumption.
Qed.
Print Assumptions c124_spawn_selects.
(** With a callback which returns nil. *)
Theorem c124_spawn_visits_the_accepted : forall c f sampling pc dk sv o1 ok1 s1 o2 ok2 s2, c_sub c <> SubDirectoriesWithFiles ->
  spawn_session (with_features (node_filter f) None cnil c) sampling pc dk sv = (o1, ok1, s1) ->
  spawn_session (with_features None None cnil c) sampling pc dk sv = (o2, ok2, s2) ->
  o1 = o2 /\ ok1 = ok2 /\ visited s1 = filter f (visited s2).
Proof.
  intros c f sampling pc dk sv o1 ok1 s1 o2 ok2 s2 ND H1 H2.
  destruct (selected_spawn c f (fun _ _ => CNil) sampling ND cnil) with (3 := H2) (pc := pc) (dk := dk) (sv := sv) (o1 := o1) (ok1 := ok1) (s1 := s1)
    as (A & B & C); [|exact H1|].
  - intros tr n. unfold ignoring. rewrite if_same. reflexivity.
  - split; [exact (never_raises _ _ A)|]. split; [exact B|]. unfold visited. rewrite C, map_fst_filter. reflexivity.
Qed.
Print Assumptions c124_spawn_visits_the_accepted.

(** Fastward: so too, if the filter accepts the saved node (the first which the
    resume without a filter visits). If it does not, nothing is visited. *)
Theorem c124_fastward_partial : forall c f sampling pc dk sv o1 s1 o2 s2,
  c_sub c <> SubDirectoriesWithFiles -> c_tree c = sv_tree sv ->
  let d := pc_dir pc (sv_path sv) in
  let b := pc_base pc (sv_path sv) in
  d <> "." -> b <> "" -> b <> snd (split_path (sv_tree sv)) ->
  fastward_session true (with_features (node_filter f) None cnil c) sampling pc dk sv = (o1, s1) ->
  fastward_session true (with_features None None cnil c) sampling pc dk sv = (o2, s2) ->
  alike o1 o2 /\
  (visited s2 = [] -> visited s1 = []) /\
  (forall x rest, visited s2 = x :: rest ->
    node_is d b x = true /\
    (f x = true -> visited s1 = filter f (visited s2)) /\
    (f x = false -> (forall y, In y rest -> node_is d b y = false) -> visited s1 = [])).
Proof. exact selected_fastward. Qed.
Print Assumptions c124_fastward_partial.

(** Stopped at /r/A/c/y with a filter which accepts everything but c. *)
Definition but_c : list with_option := [WithFilter (only_node (mkFilterDef FtRegex "" "c" ScopeUndefined true TriFalse None))].
Local Notation begun := (started env0 mt0 but_c "/r" SubUniversal disk4 (stopping_at "/r/A/c/y")).
Definition doc_but_c : jv :=
  written (snd (build_prime env0 mt0 (FacUsing (mkUsing "/r" (Some SubUniversal) (Some (stopping_at "/r/A/c/y")) None)) (options_of env0 but_c)))
    (rp_trace begun).
Local Notation whole := (started env0 mt0 but_c "/r" SubUniversal disk4 client_nil).
Local Notation resumed st := (resumed_from env0 mt0 but_c st unix_calc disk4 doc_but_c client_nil).

(** From facade to facade: resumed by fastward nothing more is visited, no error is
    returned and the result is complete, although accepted entries remain; resumed
    by spawn these are visited. *)
Theorem c124_fastward_loses_refuted : exists env mt ws tree cl n sv dk pc doc q,
  stopped_at (rp_trace (started env mt ws tree SubUniversal dk cl)) n /\
  rescues (rp_trace (started env mt ws tree SubUniversal dk cl)) = [sv] /\
  marshal (snd (build_prime env mt (FacUsing (mkUsing tree (Some SubUniversal) (Some cl) None)) (options_of env ws)))
    (mkActive sv false false) None = (Some doc, None) /\
  In q (map pl_path (places_called (rp_trace (started env mt ws tree SubUniversal dk client_nil)))) /\
  ~ In q (map pl_path (places_called (rp_trace (started env mt ws tree SubUniversal dk cl)))) /\
  let r := resumed_from env mt ws StrategyFastward pc dk doc client_nil in
  rr_outcome r = Ret None /\ rr_complete r = true /\ calls (rr_trace r) = [] /\
  In q (map pl_path (places_called (rr_trace (resumed_from env mt ws StrategySpawn pc dk doc client_nil)))).
Proof.
  assert (S : exists n sv, stopped_at (rp_trace begun) n /\ rescues (rp_trace begun) = [sv] /\
    marshal (snd (build_prime env0 mt0 (FacUsing (mkUsing "/r" (Some SubUniversal) (Some (stopping_at "/r/A/c/y")) None)) (options_of env0 but_c)))
      (mkActive sv false false) None = (Some doc_but_c, None)).
  { eexists _, _. split; [eapply stopped_by; vm_compute; reflexivity|]. split; vm_compute; reflexivity. }
  assert (T0 : map n_path (map fst (calls (rp_trace whole))) = ["/r"; "/r/A"; "/r/A/c/y"; "/r/A/c/z"; "/r/A/x"; "/r/D"; "/r/D/w"; "/r/e"])
    by (vm_compute; reflexivity).
  assert (T1 : map n_path (map fst (calls (rp_trace begun))) = ["/r"; "/r/A"; "/r/A/c/y"]) by (vm_compute; reflexivity).
  assert (T2 : rr_outcome (resumed StrategyFastward) = Ret None) by (vm_compute; reflexivity).
  assert (T3 : rr_complete (resumed StrategyFastward) = true) by (vm_compute; reflexivity).
  assert (T4 : calls (rr_trace (resumed StrategyFastward)) = []) by (vm_compute; reflexivity).
  assert (T5 : map n_path (map fst (calls (rr_trace (resumed StrategySpawn)))) =
    ["/r/A/c/y"; "/r/A/c/z"; "/r/A/x"; "/r/D"; "/r/D/w"; "/r/e"]) by (vm_compute; reflexivity).
  destruct S as (n & sv & A & B & C).
  exists env0, mt0, but_c, "/r", (stopping_at "/r/A/c/y"), n, sv, disk4, unix_calc, doc_but_c, "/r/A/x".
  split; [exact A|]. split; [exact B|]. split; [exact C|]. rewrite !paths_called, T0, T1, T5.
  split; [cbn; tauto|]. split; [cbn; intuition discriminate|].
  split; [exact T2|]. split; [exact T3|]. split; [exact T4|]. cbn; tauto.
Qed.
Print Assumptions c124_fastward_loses_refuted.

(** The hypotheses of c124_fastward_partial, and both of its cases. *)
Local Notation sift_cfg k := (with_features (node_filter (fun n => negb (String.eqb (n_name n) k))) None cnil cfg4).
Example c124_case :
  c_sub cfg4 = SubUniversal /\ c_tree cfg4 = sv_tree saved4 /\
  pc_dir unix_calc (sv_path saved4) = "/r/A" /\ pc_base unix_calc (sv_path saved4) = "c" /\ snd (split_path (sv_tree saved4)) = "r" /\
  map n_path (visited (snd (fastward_session true (with_features None None cnil cfg4) false unix_calc disk4 saved4))) =
    ["/r/A/c"; "/r/A/c/y"; "/r/A/c/z"; "/r/A/x"; "/r/D"; "/r/D/w"; "/r/e"] /\
  map n_path (visited (snd (fastward_session true (sift_cfg "z") false unix_calc disk4 saved4))) =
    ["/r/A/c"; "/r/A/c/y"; "/r/A/x"; "/r/D"; "/r/D/w"; "/r/e"] /\
  map n_path (visited (snd (fastward_session true (sift_cfg "c") false unix_calc disk4 saved4))) = [] /\
  map n_path (visited (snd (spawn_session (sift_cfg "c") false unix_calc disk4 saved4))) =
    ["/r/A/c/y"; "/r/A/c/z"; "/r/A/x"; "/r/D"; "/r/D/w"; "/r/e"].
Proof.
  split; [reflexivity|]. split; [reflexivity|]. split; [vm_compute; reflexivity|]. split; [vm_compute; reflexivity|].
  split; [vm_compute; reflexivity|]. split; [vm_compute; reflexivity|]. split; [vm_compute; reflexivity|].
  split; vm_compute; reflexivity.
Qed.

(** ** A filtered walk stopped by a panic, and resumed *)

(** As C33, with a filter [f] which looks at the path and the object only, and any
    callback: the walk and its spawn resume, both with the filter, together visit
    every accepted entry of the listing [P]; the resume visits those of the saved
    directory [dn] (if it is accepted), of what is below it and of what was still
    to come. *)
Theorem c124_spawn_nothing_lost_partial : forall c f h g sampling pc dk o s pre n dn gd p P,
  let t := dk (c_tree c) in
  hooks_ok c -> root_ok c t -> default_skip c -> c_sub c = SubUniversal -> c_depth c = 0%N ->
  stable_sort c -> clean (c_tree c) = c_tree c -> proper_names t ->
  preorder (entries_all c) [] (c_tree c) t P -> tidy c pc dk P ->
  (forall m, f m = h (thing (place_of m))) ->
  session (with_features (node_filter f) None (on_calls g) c) sampling t = (o, s) ->
  calls (s_trace s) = pre ++ [(n, CPanic p)] -> Forall (fun x => snd x = CNil) pre ->
  n_parent n = Some dn -> n_parent dn = Some gd ->
  exists sv old again new,
    rescues (s_trace s) = [sv] /\ sv_tree sv = c_tree c /\ sv_path sv = n_path dn /\
    P = (old ++ place_of dn :: again) ++ new /\
    map place_of (visited s) = filter (fun q => h (thing q)) (old ++ place_of dn :: again) /\
    Forall (fun q => above (n_pos dn) (pl_pos q) = true) again /\
    forall sv', sv_tree sv' = sv_tree sv -> sv_path sv' = sv_path sv ->
    exists s2, spawn_session (with_features (node_filter f) None client_nil c) sampling pc dk sv' = (Ret None, true, s2) /\
      map thing (map place_of (visited s2)) = filter h (map thing (place_of dn :: again ++ new)).
Proof. exact filtered_spawn_recovers. Qed.
Print Assumptions c124_spawn_nothing_lost_partial.

(** As C36, with a filter which may look at the position too, if it accepts the
    saved directory (if not: c124_fastward_loses_refuted). *)
Theorem c124_fastward_nothing_lost_partial : forall c f h g sampling pc dk o s pre n dn gd p P,
  let t := dk (c_tree c) in
  hooks_ok c -> root_ok c t -> default_skip c -> c_sub c = SubUniversal \/ c_sub c = SubDirectories ->
  clean (c_tree c) = c_tree c -> proper_names t ->
  preorder (entries c) [] (c_tree c) t P -> distinct_names c (c_tree c) t ->
  (forall m, f m = h (place_of m)) ->
  session (with_features (node_filter f) None (on_calls g) c) sampling t = (o, s) ->
  calls (s_trace s) = pre ++ [(n, CPanic p)] -> Forall (fun x => snd x = CNil) pre ->
  n_parent n = Some dn -> n_parent dn = Some gd ->
  n_name dn <> snd (split_path (c_tree c)) -> n_path gd <> "." -> sound_at pc (n_path gd) ->
  f dn = true ->
  exists sv old again new,
    rescues (s_trace s) = [sv] /\ sv_tree sv = c_tree c /\ sv_path sv = n_path dn /\
    filter (within (c_depth c) 0) P = (old ++ place_of dn :: again) ++ new /\
    map place_of (visited s) = filter h (old ++ place_of dn :: again) /\
    Forall (fun q => above (n_pos dn) (pl_pos q) = true) again /\
    forall sv', sv_tree sv' = sv_tree sv -> sv_path sv' = sv_path sv ->
    exists s2, fastward_session true (with_features (node_filter f) None client_nil c) sampling pc dk sv' = (Ret None, s2) /\
      map place_of (visited s2) = filter h (place_of dn :: again ++ new).
Proof. exact filtered_fastward_recovers. Qed.
Print Assumptions c124_fastward_nothing_lost_partial.

(** A filter which rejects what is called y or e, for the tree of c33_case; the
    callback panics at /r/A/c/z. The other hypotheses: c33_case, c36_distinct_case. *)
Definition no_ye (q : string * fsnode) : bool := negb (String.eqb (fname (snd q)) "y" || String.eqb (fname (snd q)) "e").
Definition at_z (_ : list (node * cbres)) (n : node) : cbres := if String.eqb (n_path n) "/r/A/c/z" then CPanic (PVal 1) else CNil.
Local Notation no_ye_filter := (node_filter (fun m => no_ye (thing (place_of m)))).
Example c124_nothing_lost_case :
  map trio (calls (s_trace (snd (session (with_features no_ye_filter None (on_calls at_z) cfg4) false (disk4 "/r"))))) =
    [("/r", None, None, CNil); ("/r/A", Some "/r", None, CNil); ("/r/A/c", Some "/r/A", Some "/r", CNil);
     ("/r/A/c/z", Some "/r/A/c", Some "/r/A", CPanic (PVal 1))] /\
  map n_path (visited (snd (spawn_session (with_features no_ye_filter None client_nil cfg4) false unix_calc disk4 saved4))) =
    ["/r/A/c"; "/r/A/c/z"; "/r/A/x"; "/r/D"; "/r/D/w"] /\
  map n_path (visited (snd (fastward_session true (with_features no_ye_filter None client_nil cfg4) false unix_calc disk4 saved4))) =
    ["/r/A/c"; "/r/A/c/z"; "/r/A/x"; "/r/D"; "/r/D/w"].
Proof. split; [vm_compute; reflexivity|]. split; vm_compute; reflexivity. Qed.
