(** Property C124, from the facade to the report. Vocabulary: Spec.v, SpecBuild.v,
    SpecPersist.v, SpecResume.v. *)
From Verif Require Import Base Paths Level Kernel Session Defaults Spec PathFacts WalkProps Feature Cases CasesFacts Filters SpecFilter FiltersFacts Hooks Life Options Build SpecBuild
  BuildCases FilterCases Persist SpecPersist PersistFacts Resume SpecResume ResumeCases ResumeRefuted FastRelayFacts ResumeBuild SpecRelay SpecJourney PropResume PropJourney PropSift SiftWalk.
Local Open Scope string_scope.
Local Open Scope list_scope.

(** With the client's own filter [h], which looks at the path and the object only
    (it may be given along with other definitions), with or without sampling, and
    any callback which answers by what it was called with before: stopped by a
    panic, saved, and resumed by spawn with the same settings and a callback which
    returns nil, the two together visit every accepted entry. *)
Theorem c124_from_facade_to_facade_partial : forall env mt ws tree g cu node sample h pc dk P rs rl r pre n dn gd p a b,
  let u := mkUsing tree (Some SubUniversal) (Some (on_calls g)) None in
  let t := dk tree in
  let c := session_cfg env ws tree SubUniversal client_nil (reads ws) None None in
  latest sets_filter ws no_filter = mkFilterOptions node None sample (Some cu) -> no_hibernation ws ->
  cu_validate cu = None -> (forall m, cu_match cu (Some m) = inl (h (thing (place_of m)))) ->
  tree <> EmptyString -> hooks_sound ws -> undisturbed env ws t -> depth_asked ws = 0%N ->
  stable_sort c -> clean tree = tree -> proper_names t ->
  preorder (entries_all c) [] tree t P -> tidy c pc dk P ->
  walk_prime env mt (FacUsing u) (options_of env ws) t = r ->
  calls (rp_trace r) = pre ++ [(n, CPanic p)] -> Forall (fun x => snd x = CNil) pre ->
  n_parent n = Some dn -> n_parent dn = Some gd ->
  Forall utf8 (option_texts (snd (build_prime env mt (FacUsing u) (options_of env ws)))) ->
  utf8 tree -> utf8 (n_path dn) ->
  exists sv old again new,
    rescues (rp_trace r) = [sv] /\
    P = (old ++ place_of dn :: again) ++ new /\
    map place_of (nodes_of r) = filter (fun q => h (thing q)) (old ++ place_of dn :: again) /\
    Forall (fun q => above (n_pos dn) (pl_pos q) = true) again /\
    forall v, marshal (snd (build_prime env mt (FacUsing u) (options_of env ws))) (mkActive sv a b) None = (Some v, None) ->
    rs_file rs (re_from rl) = inl v -> forest_error rs (mkActive sv a b) = None ->
    re_strategy rl = StrategySpawn -> re_handler rl = Some client_nil ->
    let r2 := walk_resume env mt rs (FacRelic rl) (options_of env ws) pc dk in
    rr_outcome r2 = Ret None /\ rr_complete r2 = true /\
    map thing (map place_of (map fst (calls (rr_trace r2)))) = filter h (map thing (place_of dn :: again ++ new)).
Proof. exact own_filter_recovers. Qed.
Print Assumptions c124_from_facade_to_facade_partial.

(** The tree of c33_case and the filter of c124_nothing_lost_case. *)
Definition own_no_ye : custom_filter :=
  mkCustom None (fun m => match m with Some x => inl (no_ye (thing (place_of x))) | None => inl false end).
Definition sifted : list with_option := [WithFilter (mkFilterOptions None None None (Some own_no_ye))].
Local Notation begun := (started env0 mt0 sifted "/r" SubUniversal disk4 (on_calls at_z)).
Local Notation sift_using := (mkUsing "/r" (Some SubUniversal) (Some (on_calls at_z)) None).
Definition sift_doc : jv := Eval vm_compute in
  written (snd (build_prime env0 mt0 (FacUsing sift_using) (options_of env0 sifted))) (rp_trace begun).
Local Notation sc4 := (session_cfg env0 sifted "/r" SubUniversal client_nil (reads sifted) None None).
Example c124_facade_case :
  no_hibernation sifted /\ hooks_sound sifted /\ undisturbed env0 sifted (disk4 "/r") /\ depth_asked sifted = 0%N /\
  stable_sort sc4 /\ clean "/r" = "/r" /\ proper_names (disk4 "/r") /\
  preorder (entries_all sc4) [] "/r" (disk4 "/r") places4 /\ tidy sc4 unix_calc disk4 places4 /\
  option_texts (snd (build_prime env0 mt0 (FacUsing sift_using) (options_of env0 sifted))) = [] /\
  utf8 "/r" /\ utf8 "/r/A/c" /\
  map trio (calls (rp_trace begun)) =
    [("/r", None, None, CNil); ("/r/A", Some "/r", None, CNil); ("/r/A/c", Some "/r/A", Some "/r", CNil);
     ("/r/A/c/z", Some "/r/A/c", Some "/r/A", CPanic (PVal 1))] /\
  map n_path (map fst (calls (rr_trace (resumed_from env0 mt0 sifted StrategySpawn unix_calc disk4 sift_doc client_nil)))) =
    ["/r/A/c"; "/r/A/c/z"; "/r/A/x"; "/r/D"; "/r/D/w"].
Proof.
  split; [split; reflexivity|]. split; [exact default_hooks_sound|]. split; [split; reflexivity|]. split; [reflexivity|].
  split; [exact (base_stable SubUniversal)|]. split; [vm_compute; reflexivity|]. split; [exact proper4|].
  split; [exact listed4|]. split; [exact tidy4|]. split; [vm_compute; reflexivity|].
  split; [apply utf8_clean_iff; vm_compute; reflexivity|]. split; [apply utf8_clean_iff; vm_compute; reflexivity|].
  split; vm_compute; reflexivity.
Qed.

(** With a glob or regex filter, of files, of directories or of both: the accepted
    entries are those whose name the pattern matches (does not match, with Negate);
    those out of scope are accepted or not as IfNotApplicable says
    (pattern_accepts, in SiftWalk.v). *)
Theorem c124_pattern_from_facade_to_facade_partial : forall env mt ws tree g d pc dk P rs rl r pre n dn gd p a b,
  let u := mkUsing tree (Some SubUniversal) (Some (on_calls g)) None in
  let t := dk tree in
  let c := session_cfg env ws tree SubUniversal client_nil (reads ws) None None in
  let h := pattern_accepts mt d in
  latest sets_filter ws no_filter = only_node d -> no_hibernation ws ->
  compiles mt d -> fd_pattern d <> EmptyString -> In (fd_scope d) [ScopeUndefined; ScopeFile; ScopeDirectory] ->
  tree <> EmptyString -> hooks_sound ws -> undisturbed env ws t -> depth_asked ws = 0%N ->
  stable_sort c -> clean tree = tree -> proper_names t ->
  preorder (entries_all c) [] tree t P -> tidy c pc dk P ->
  walk_prime env mt (FacUsing u) (options_of env ws) t = r ->
  calls (rp_trace r) = pre ++ [(n, CPanic p)] -> Forall (fun x => snd x = CNil) pre ->
  n_parent n = Some dn -> n_parent dn = Some gd ->
  Forall utf8 (option_texts (snd (build_prime env mt (FacUsing u) (options_of env ws)))) ->
  utf8 tree -> utf8 (n_path dn) ->
  exists sv old again new,
    rescues (rp_trace r) = [sv] /\
    P = (old ++ place_of dn :: again) ++ new /\
    map place_of (nodes_of r) = filter (fun q => h (thing q)) (old ++ place_of dn :: again) /\
    Forall (fun q => above (n_pos dn) (pl_pos q) = true) again /\
    forall v, marshal (snd (build_prime env mt (FacUsing u) (options_of env ws))) (mkActive sv a b) None = (Some v, None) ->
    rs_file rs (re_from rl) = inl v -> forest_error rs (mkActive sv a b) = None ->
    re_strategy rl = StrategySpawn -> re_handler rl = Some client_nil ->
    let r2 := walk_resume env mt rs (FacRelic rl) (options_of env ws) pc dk in
    rr_outcome r2 = Ret None /\ rr_complete r2 = true /\
    map thing (map place_of (map fst (calls (rr_trace r2)))) = filter h (map thing (place_of dn :: again ++ new)).
Proof. exact pattern_recovers. Qed.
Print Assumptions c124_pattern_from_facade_to_facade_partial.

(** Everything but y; stopped at /r/A/c/z. The other hypotheses: c124_facade_case. *)
Definition def_but_y : filter_def := mkFilterDef FtRegex "" "y" ScopeUndefined true TriFalse None.
Definition but_y : list with_option := [WithFilter (only_node def_but_y)].
Local Notation begun_y := (started env0 mt0 but_y "/r" SubUniversal disk4 (on_calls at_z)).
Local Notation primed_y := (build_prime env0 mt0 (FacUsing (mkUsing "/r" (Some SubUniversal) (Some (on_calls at_z)) None)) (options_of env0 but_y)).
Definition y_doc : jv := Eval vm_compute in written (snd primed_y) (rp_trace begun_y).
Example c124_pattern_case :
  no_hibernation but_y /\ compiles mt0 def_but_y /\ fd_pattern def_but_y <> "" /\ Forall utf8 (option_texts (snd primed_y)) /\
  fst (marshal (snd primed_y) (mkActive saved4 false false) None) <> None /\
  map trio (calls (rp_trace begun_y)) =
    [("/r", None, None, CNil); ("/r/A", Some "/r", None, CNil); ("/r/A/c", Some "/r/A", Some "/r", CNil);
     ("/r/A/c/z", Some "/r/A/c", Some "/r/A", CPanic (PVal 1))] /\
  map n_path (map fst (calls (rr_trace (resumed_from env0 mt0 but_y StrategySpawn unix_calc disk4 y_doc client_nil)))) =
    ["/r/A/c"; "/r/A/c/z"; "/r/A/x"; "/r/D"; "/r/D/w"; "/r/e"].
Proof.
  split; [split; reflexivity|]. split; [right; split; [reflexivity|eexists; reflexivity]|]. split; [discriminate|].
  split.
  { replace (option_texts (snd primed_y)) with ["" : string; "y"] by (vm_compute; reflexivity).
    repeat constructor; apply utf8_clean_iff; vm_compute; reflexivity. }
  split; [vm_compute; discriminate|]. split; vm_compute; reflexivity.
Qed.

(** ** By fastward *)

(** As above, if the filter, which may look at the position too, accepts the saved
    directory (if not: c124_fastward_loses_refuted); the distinct names and paths of
    C36. *)
Theorem c124_fastward_from_facade_to_facade_partial : forall env mt ws tree sub g cu node sample h pc dk P rs rl r pre n dn gd p a b,
  let u := mkUsing tree (Some sub) (Some (on_calls g)) None in
  let t := dk tree in
  let c := session_cfg env ws tree sub client_nil (reads ws) None None in
  latest sets_filter ws no_filter = mkFilterOptions node None sample (Some cu) -> no_hibernation ws ->
  cu_validate cu = None -> (forall m, cu_match cu (Some m) = inl (h (place_of m))) ->
  sub = SubUniversal \/ sub = SubDirectories ->
  tree <> EmptyString -> hooks_sound ws -> undisturbed env ws t -> clean tree = tree -> proper_names t ->
  preorder (entries c) [] tree t P -> distinct_names c tree t ->
  walk_prime env mt (FacUsing u) (options_of env ws) t = r ->
  calls (rp_trace r) = pre ++ [(n, CPanic p)] -> Forall (fun x => snd x = CNil) pre ->
  n_parent n = Some dn -> n_parent dn = Some gd ->
  n_name dn <> snd (split_path tree) -> n_path gd <> "."%string -> sound_at pc (n_path gd) -> h (place_of dn) = true ->
  Forall utf8 (option_texts (snd (build_prime env mt (FacUsing u) (options_of env ws)))) ->
  utf8 tree -> utf8 (n_path dn) ->
  exists sv old again new,
    rescues (rp_trace r) = [sv] /\
    filter (within (depth_asked ws) 0) P = (old ++ place_of dn :: again) ++ new /\
    map place_of (nodes_of r) = filter h (old ++ place_of dn :: again) /\
    Forall (fun q => above (n_pos dn) (pl_pos q) = true) again /\
    forall v, marshal (snd (build_prime env mt (FacUsing u) (options_of env ws))) (mkActive sv a b) None = (Some v, None) ->
    rs_file rs (re_from rl) = inl v -> forest_error rs (mkActive sv a b) = None ->
    re_strategy rl = StrategyFastward -> re_handler rl = Some client_nil ->
    let r2 := walk_resume env mt rs (FacRelic rl) (options_of env ws) pc dk in
    rr_outcome r2 = Ret None /\ rr_complete r2 = true /\
    map place_of (map fst (calls (rr_trace r2))) = filter h (place_of dn :: again ++ new).
Proof. exact own_filter_fastward_recovers. Qed.
Print Assumptions c124_fastward_from_facade_to_facade_partial.
Theorem c124_fastward_pattern_from_facade_to_facade_partial : forall env mt ws tree sub g d pc dk P rs rl r pre n dn gd p a b,
  let u := mkUsing tree (Some sub) (Some (on_calls g)) None in
  let t := dk tree in
  let c := session_cfg env ws tree sub client_nil (reads ws) None None in
  let h := fun x => pattern_accepts mt d (thing x) in
  latest sets_filter ws no_filter = only_node d -> no_hibernation ws ->
  compiles mt d -> fd_pattern d <> EmptyString -> In (fd_scope d) [ScopeUndefined; ScopeFile; ScopeDirectory] ->
  sub = SubUniversal \/ sub = SubDirectories ->
  tree <> EmptyString -> hooks_sound ws -> undisturbed env ws t -> clean tree = tree -> proper_names t ->
  preorder (entries c) [] tree t P -> distinct_names c tree t ->
  walk_prime env mt (FacUsing u) (options_of env ws) t = r ->
  calls (rp_trace r) = pre ++ [(n, CPanic p)] -> Forall (fun x => snd x = CNil) pre ->
  n_parent n = Some dn -> n_parent dn = Some gd ->
  n_name dn <> snd (split_path tree) -> n_path gd <> "."%string -> sound_at pc (n_path gd) -> h (place_of dn) = true ->
  Forall utf8 (option_texts (snd (build_prime env mt (FacUsing u) (options_of env ws)))) ->
  utf8 tree -> utf8 (n_path dn) ->
  exists sv old again new,
    rescues (rp_trace r) = [sv] /\
    filter (within (depth_asked ws) 0) P = (old ++ place_of dn :: again) ++ new /\
    map place_of (nodes_of r) = filter h (old ++ place_of dn :: again) /\
    Forall (fun q => above (n_pos dn) (pl_pos q) = true) again /\
    forall v, marshal (snd (build_prime env mt (FacUsing u) (options_of env ws))) (mkActive sv a b) None = (Some v, None) ->
    rs_file rs (re_from rl) = inl v -> forest_error rs (mkActive sv a b) = None ->
    re_strategy rl = StrategyFastward -> re_handler rl = Some client_nil ->
    let r2 := walk_resume env mt rs (FacRelic rl) (options_of env ws) pc dk in
    rr_outcome r2 = Ret None /\ rr_complete r2 = true /\
    map place_of (map fst (calls (rr_trace r2))) = filter h (place_of dn :: again ++ new).
Proof. exact pattern_fastward_recovers. Qed.
Print Assumptions c124_fastward_pattern_from_facade_to_facade_partial.

(** The sessions of c124_facade_case and c124_pattern_case, which meet the other
    hypotheses; the names are distinct: c36_distinct_case. *)
Example c124_fastward_facade_case :
  preorder (entries sc4) [] "/r" (disk4 "/r") places4 /\ distinct_names sc4 "/r" (disk4 "/r") /\
  "c" <> snd (split_path "/r") /\ "/r/A" <> "." /\
  map n_path (map fst (calls (rr_trace (resumed_from env0 mt0 sifted StrategyFastward unix_calc disk4 sift_doc client_nil)))) =
    ["/r/A/c"; "/r/A/c/z"; "/r/A/x"; "/r/D"; "/r/D/w"] /\
  map n_path (map fst (calls (rr_trace (resumed_from env0 mt0 but_y StrategyFastward unix_calc disk4 y_doc client_nil)))) =
    ["/r/A/c"; "/r/A/c/z"; "/r/A/x"; "/r/D"; "/r/D/w"; "/r/e"].
Proof.
  split; [exact listed4|]. split; [exact c36_distinct_case|]. split; [vm_compute; discriminate|]. split; [discriminate|].
  split; vm_compute; reflexivity.
Qed.
