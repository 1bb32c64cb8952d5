(** Properties C22-C24, C28-C30 and C62-C65: filters, sampling and hibernation as
    configured. Vocabulary: SpecFilter.v, SpecBuild.v; [walk_prime]: what
    Walk().Configure().Extent(Prime(facade, settings...)).Navigate(ctx) does.
    In the end-to-end theorems two sessions with the same settings [ws] are
    compared which differ in the option added at the end. *)
From Verif Require Import Base Paths Level Kernel Defaults Session Spec Filters SpecFilter FiltersFacts Hooks Life Options Build SpecBuild
  Feature FilterProps SampleProps HiberProps Cases CasesFacts BuildFacts BuildCases FilterCases.
Local Open Scope string_scope.

(** *** C22 *)
(** What a glob or regex filter answers: [accepts]. *)
Theorem c22_answer : forall mt d fo f n, fo_custom fo = None ->
  fd_type d = FtGlob \/ fd_type d = FtRegex -> scope_ok n ->
  new_filter mt d fo = Ret (Some f, None) -> is_match mt f (Some n) = Ret (accepts mt d n).
Proof. exact new_filter_accepts. Qed.
Print Assumptions c22_answer.
(** and that says what is claimed. *)
Theorem c22_negation_and_scope : forall mt d n,
  (in_scope (fd_scope d) n -> accepts mt (with_negate true d) n = negb (accepts mt (with_negate false d) n)) /\
  (~ in_scope (fd_scope d) n -> forall b, accepts mt (with_negate b d) n = if_not_applicable d).
Proof. exact negation_flips. Qed.
Print Assumptions c22_negation_and_scope.
Theorem c22_undefined_scope_is_every_node : forall d n, fd_scope d = 0%N -> in_scope (fd_scope d) n.
Proof. intros d n E. left. exact E. Qed.
Print Assumptions c22_undefined_scope_is_every_node.
(** End to end: exactly the accepted nodes are visited, in order; the others are
    counted as filtered out. *)
Theorem c22_filtered_session : forall env mt u ws t sub, ordinary u ws sub -> sub <> SubDirectoriesWithFiles ->
  forall d, compiles mt d -> fd_pattern d <> "" ->
  selected (accepts mt d) (fun n => n)
    (walk_prime env mt (FacUsing u) (options_of env (ws ++ [WithFilter (only_node d)])) t)
    (walk_prime env mt (FacUsing u) (options_of env (ws ++ [WithFilter no_filter])) t).
Proof. exact glob_regex_session. Qed.
Print Assumptions c22_filtered_session.
Example c22_case :
  ordinary (using_ SubUniversal None) [] SubUniversal /\ compiles mt0 (def_of FtGlob "x" ScopeFile) /\
  prime_run SubUniversal [WithFilter (only_node (def_of FtGlob "x" ScopeFile))] tree1 =
    (Ret None, ["/r"; "/r/A"; "/r/A/B"; "/r/A/x"; "/r/b"]) /\
  prime_run SubUniversal [WithFilter (only_node (mkFilterDef FtRegex "" "x" ScopeFile true TriFalse None))] tree1 =
    (Ret None, ["/r/A/B/y"; "/r/c"; "/r/Z"]).
Proof. split; [apply ordinary_default|]. split; [left; reflexivity|]. split; vm_compute; reflexivity. Qed.

(** *** C62: a node filter definition without pattern and Poly is ignored. *)
Theorem c62_blank_definition_ignored : forall env mt u ws t sub, ordinary u ws sub ->
  forall d, fd_pattern d = "" -> fd_poly d = None ->
  walk_prime env mt (FacUsing u) (options_of env (ws ++ [WithFilter (only_node d)])) t =
  walk_prime env mt (FacUsing u) (options_of env (ws ++ [WithFilter no_filter])) t.
Proof. exact blank_session. Qed.
Print Assumptions c62_blank_definition_ignored.
Example c62_case : ordinary (using_ SubFiles None) [WithDepth 1] SubFiles /\
  prime_run SubFiles [WithDepth 1; WithFilter (only_node (def_of FtUndefined "" 0))] tree1 = (Ret None, ["/r/c"; "/r/Z"]).
Proof. split; [apply ordinary_using; [split; reflexivity|apply default_hooks_sound]|vm_compute; reflexivity]. Qed.

(** *** C23: refuted. *)
(** The pattern in the documentation is refused, *)
Theorem c23_documented_pattern_refused_refuted : forall mt fo, fo_custom fo = None ->
  fd_pattern documented = "cover.*|.jpg,jpeg" /\ new_filter mt documented fo = Ret (None, Some err_sub_pattern).
Proof. intros mt fo C. split; [reflexivity|exact (documented_refused mt fo C)]. Qed.
Print Assumptions c23_documented_pattern_refused_refuted.
(** and letter case matters. *)
Theorem c23_case_matters_refuted : exists env mt u t a b,
  ordinary u [] SubUniversal /\ t = Dir "r" [File "x.FLAC"; File "x.flac"] /\
  mt_glob mt "*.flac" "x.flac" = true /\
  let r := walk_prime env mt (FacUsing u) (options_of env [WithFilter (only_node (def_of FtGlobEx "*|*.flac" 0))]) t in
  rp_outcome r = Ret None /\ nodes_of r = [a; b] /\ n_src a = t /\ n_src b = File "x.flac".
Proof.
  exists env0, mt0, (using_ SubUniversal None), flac_tree. eexists _, _.
  split; [apply ordinary_default|]. split; [reflexivity|]. split; [reflexivity|]. cbv zeta.
  split; [vm_compute; reflexivity|]. split; [vm_compute; reflexivity|]. split; reflexivity.
Qed.
Print Assumptions c23_case_matters_refuted.

(** *** C63: what an extended glob filter does. A file is accepted iff the name of
    its parent directory is accepted, without regard to letter case, and the
    list of items (as lower case globs) accepts its name as it is; a
    directory, or a file in a directory not accepted: IfNotApplicable. *)
Theorem c63_answer : forall mt dir excl items sc neg na fo n b, dir_part_ok dir -> dir_part_ok excl -> Forall item_ok items ->
  fo_custom fo = None -> file_bit n ->
  listed (fun p x => mt_glob mt (to_lower p) x) (n_name n) items b ->
  exists f, new_filter mt (globex_def dir excl items sc neg na) fo = Ret (Some f, None) /\
    is_match mt f (Some n) = Ret (if negb (n_isdir n) && directory_accepted (mt_glob mt) dir excl n
                                  then xorb neg b else if_not_applicable (globex_def dir excl items sc neg na)).
Proof. exact globex_answer. Qed.
Print Assumptions c63_answer.
Theorem c63_list_always_answers : forall glob name items, exists b, listed glob name items b.
Proof. exact listed_total. Qed.
Print Assumptions c63_list_always_answers.
Theorem c63_filtered_session : forall env mt u ws t sub, ordinary u ws sub -> sub <> SubDirectoriesWithFiles ->
  forall dir excl items sc neg na ans, dir_part_ok dir -> dir_part_ok excl -> Forall item_ok items ->
  (forall name, listed (fun p x => mt_glob mt (to_lower p) x) name items (ans name)) ->
  selected (fun n => if negb (n_isdir n) && directory_accepted (mt_glob mt) dir excl n then xorb neg (ans (n_name n))
                     else if_not_applicable (globex_def dir excl items sc neg na)) (fun n => n)
    (walk_prime env mt (FacUsing u) (options_of env (ws ++ [WithFilter (only_node (globex_def dir excl items sc neg na))])) t)
    (walk_prime env mt (FacUsing u) (options_of env (ws ++ [WithFilter no_filter])) t).
Proof. exact globex_session. Qed.
Print Assumptions c63_filtered_session.
Example c63_case :
  dir_part_ok "*" /\ dir_part_ok "b" /\ Forall item_ok [mkItem "*" false "mp3"; mkItem "" true "txt"] /\
  globex_text "*" "b" [mkItem "*" false "mp3"; mkItem "" true "txt"] = "*/b|*.mp3,.!txt" /\
  prime_run SubUniversal [WithFilter (only_node (mkFilterDef FtGlobEx "" "*/B|*.mp3,.!txt" 0 false TriFalse None))]
    (Dir "r" [File "a.mp3"; File "a.txt"; File "c"; Dir "B" [File "d.txt"; File "e.mp3"]; Dir "C" [File "f.mp3"; File "g.txt"]]) =
    (Ret None, ["/r/C/f.mp3"; "/r/a.mp3"; "/r/c"]).
Proof.
  assert (I : forall b n e, all_chars plain_char b = true -> all_chars plain_char e = true -> e <> "" -> free_of "."%char e ->
    (forall r, e <> String "!" r) -> item_ok (mkItem b n e)) by (intros; repeat split; assumption).
  split; [split; reflexivity|]. split; [split; reflexivity|].
  split; [repeat constructor; try reflexivity; discriminate|]. split; [reflexivity|vm_compute; reflexivity].
Qed.

(** *** C24 *)
(** End to end, for a root which is a directory: every directory is visited, a file iff both say so. *)
Theorem c24_poly_session_partial : forall env mt u ws t sub, ordinary u ws sub -> sub <> SubDirectoriesWithFiles ->
  forall file directory, compiles mt file -> compiles mt directory -> fisdir t = true ->
  selected (poly_accepts mt file directory) (fun n => n)
    (walk_prime env mt (FacUsing u) (options_of env (ws ++ [WithFilter (only_node (poly_def file directory))])) t)
    (walk_prime env mt (FacUsing u) (options_of env (ws ++ [WithFilter no_filter])) t).
Proof. exact poly_session. Qed.
Print Assumptions c24_poly_session_partial.
(** Refuted when the root is a file: a panic leaves Navigate. *)
Theorem c24_root_file_panics_refuted : exists env mt u d1 d2, ordinary u [] SubUniversal /\ compiles mt d1 /\ compiles mt d2 /\
  rp_outcome (walk_prime env mt (FacUsing u) (options_of env [WithFilter (only_node (poly_def d1 d2))]) (File "r")) = Pan nil_deref.
Proof.
  exists env0, mt0, (using_ SubUniversal None), (def_of FtGlob "*" 0), (def_of FtGlob "*" 0).
  split; [apply ordinary_default|]. split; [left; reflexivity|]. split; [left; reflexivity|]. vm_compute. reflexivity.
Qed.
Print Assumptions c24_root_file_panics_refuted.
Example c24_case :
  prime_run SubUniversal [WithFilter (only_node (poly_def (def_of FtGlob "*" 0) (def_of FtGlob "A" 0)))] tree1 =
    (Ret None, ["/r"; "/r/A"; "/r/A/B"; "/r/A/x"; "/r/b"]).
Proof. vm_compute. reflexivity. Qed.

(** *** C28 *)
(** The entries of each directory are, arranged as ever, the files and the
    directories taken from it; the nodes visited are their preorder (within
    the depth limit; only the files for a files subscription). *)
Theorem c28_sampled_session : forall env mt u ws t sub, ordinary u ws sub -> undisturbed env ws t ->
  let so := latest sets_sampling ws no_sampling in
  latest sets_filter ws no_filter = no_filter -> sampling_active so = true ->
  exists es P tr m, walk_prime env mt (FacUsing u) (options_of env ws) t = mkReport (Ret None) tr (Some m) /\
    (forall p e, exists fs ds, es p e = arranged ws sub fs ds /\
       taken (so_reverse so) (so_files so) (files_read ws p e) fs /\ taken (so_reverse so) (so_dirs so) (dirs_read ws p e) ds) /\
    preorder es [] (us_tree u) t P /\
    map place_of (map fst (calls tr)) = told sub (filter (within (depth_asked ws) 0) P).
Proof. exact sampled_session. Qed.
Print Assumptions c28_sampled_session.
Example c28_case :
  let ws := [WithSamplingOptions (mkSampling StSlice true 1 1)] in
  ordinary (using_ SubUniversal None) ws SubUniversal /\ undisturbed env0 ws tree1 /\
  latest sets_filter ws no_filter = no_filter /\ sampling_active (latest sets_sampling ws no_sampling) = true /\
  prime_run SubUniversal ws tree1 = (Ret None, ["/r"; "/r/A"; "/r/A/B"; "/r/A/B/y"; "/r/A/x"; "/r/Z"]).
Proof.
  split; [apply ordinary_using; [split; reflexivity|apply default_hooks_sound]|].
  split; [split; reflexivity|]. split; [reflexivity|]. split; [reflexivity|vm_compute; reflexivity].
Qed.

(** *** C29 *)
(** A filter about files and not about directories: in each directory the files
    which match are kept and all the directories. Any other (about directories, about
    both, about neither): the directories which match are kept and all the
    files; it also decides on the root, whose entries are visited all the same.
    Then sampling takes place. *)
Theorem c29_sample_filter_session : forall env mt u ws t sub, ordinary u ws sub -> undisturbed env ws t ->
  let so := latest sets_sampling ws no_sampling in
  forall sd, sub <> SubDirectoriesWithFiles ->
  latest sets_filter ws no_filter = only_sample sd -> sample_compiles mt sd ->
  (asks_for sd ScopeFile -> so_files so <> 0) -> (asks_for sd ScopeDirectory -> so_dirs so <> 0) ->
  so_type so <> StUndefined \/ clean_reads ws ->
  let only_files := asks_for sd ScopeFile /\ ~ asks_for sd ScopeDirectory in
  exists es P tr m root_too, walk_prime env mt (FacUsing u) (options_of env ws) t = mkReport (Ret None) tr (Some m) /\
    (forall p e, exists fs ds, es p e = arranged ws sub fs ds /\
      (only_files -> sampled_part so (so_files so) (filter (fun x => sample_keeps mt sd (fname x)) (files_read ws p e)) fs /\
         sampled_part so (so_dirs so) (dirs_read ws p e) ds) /\
      (~ only_files -> sampled_part so (so_files so) (files_read ws p e) fs /\
         sampled_part so (so_dirs so) (filter (fun x => sample_keeps mt sd (fname x)) (dirs_read ws p e)) ds)) /\
    preorder es [] (us_tree u) t P /\
    (root_too = true <-> (~ only_files -> fisdir t = true -> sample_keeps mt sd (fname t) = true)) /\
    map place_of (map fst (calls tr)) = filter (unless_root root_too) (told sub (filter (within (depth_asked ws) 0) P)).
Proof. exact sample_filter_session. Qed.
Print Assumptions c29_sample_filter_session.
(** A client's own sample filter: what it returns of the entries read; it is asked
    about the root alone too. *)
Theorem c29_own_sample_filter_session : forall env mt u ws t sub, ordinary u ws sub -> undisturbed env ws t ->
  let so := latest sets_sampling ws no_sampling in
  forall sd keep, sub <> SubDirectoriesWithFiles ->
  latest sets_filter ws no_filter = only_sample sd -> sd_type sd = FtCustom -> sd_custom sd = Some (None, keep) ->
  (forall l e, In e (keep l) -> In e l) ->
  (asks_for sd ScopeFile -> so_files so <> 0) -> (asks_for sd ScopeDirectory -> so_dirs so <> 0) ->
  so_type so <> StUndefined \/ clean_reads ws ->
  exists es P tr m root_too, walk_prime env mt (FacUsing u) (options_of env ws) t = mkReport (Ret None) tr (Some m) /\
    (forall p e, let kept := keep (fst (latest sets_read ws default_read p e)) in
      exists fs ds, es p e = arranged ws sub fs ds /\
        sampled_part so (so_files so) (filter (fun x => negb (fisdir x)) kept) fs /\ sampled_part so (so_dirs so) (filter fisdir kept) ds) /\
    preorder es [] (us_tree u) t P /\
    (root_too = true <-> (fisdir t = true -> keep [t] <> [])) /\
    map place_of (map fst (calls tr)) = filter (unless_root root_too) (told sub (filter (within (depth_asked ws) 0) P)).
Proof. exact own_sample_session. Qed.
Print Assumptions c29_own_sample_filter_session.
(** Refuted: a filter about files and directories leaves files which do not match;
    so does one of undefined scope. *)
Theorem c29_files_left_refuted : forall sc, sc = N.lor ScopeFile ScopeDirectory \/ sc = ScopeUndefined ->
  exists mt so m l, new_sample mt (mkSampleDef FtGlob "" "A" sc false None None) so = (Some m, None) /\
    mt_glob mt "A" "c" = false /\ l = [File "c"; Dir "A" []; Dir "b" []] /\ m l = [Dir "A" []; File "c"].
Proof.
  intros sc S. exists mt0, (mkSampling StSlice false 5 5). destruct S as [-> | ->]; eexists _, _;
    (split; [reflexivity|]); split; try reflexivity; split; reflexivity.
Qed.
Print Assumptions c29_files_left_refuted.
Definition tail_of (l : list fsnode) : list fsnode := match l with _ :: r => r | [] => [] end.
Example c29_case :
  let sd sc := mkSampleDef FtGlob "" "A" sc false None None in
  let own := mkSampleDef FtCustom "" "x" 0 false None (Some (None, tail_of)) in
  let so := mkSampling StSlice false 5 5 in
  let ws d := [WithFilter (only_sample d); WithSamplingOptions so] in
  (asks_for (sd ScopeFile) ScopeFile /\ ~ asks_for (sd ScopeFile) ScopeDirectory) /\ asks_for (sd ScopeDirectory) ScopeDirectory /\
  sample_compiles mt0 (sd ScopeFile) /\ so_files so <> 0 /\ so_dirs so <> 0 /\ (forall l e, In e (tail_of l) -> In e l) /\
  prime_run SubUniversal (ws (sd ScopeFile)) tree1 = (Ret None, ["/r"; "/r/A"; "/r/A/B"; "/r/b"]) /\
  prime_run SubUniversal (ws (sd ScopeDirectory)) tree1 = (Ret None, ["/r/A"; "/r/A/x"; "/r/c"; "/r/Z"]) /\
  prime_run SubUniversal (ws (sd (N.lor ScopeFile ScopeDirectory))) tree1 = (Ret None, ["/r/A"; "/r/A/x"; "/r/c"; "/r/Z"]) /\
  prime_run SubUniversal (ws (sd ScopeUndefined)) tree1 = (Ret None, ["/r/A"; "/r/A/x"; "/r/c"; "/r/Z"]) /\
  prime_run SubUniversal (ws own) tree1 = (Ret None, ["/r/A"; "/r/A/B"; "/r/b"; "/r/Z"]).
Proof.
  cbv zeta. split; [split; [discriminate|intro X; apply X; reflexivity]|]. split; [discriminate|]. split; [left; reflexivity|].
  split; [discriminate|]. split; [discriminate|]. split; [intros [|x l] e I; [destruct I|right; exact I]|].
  repeat (split; [vm_compute; reflexivity|]). vm_compute; reflexivity.
Qed.

(** *** C30, end to end, for glob and regex conditions: the nodes of the session
    without hibernation from the first which the wake definition accepts up to
    the first later one which the sleep definition accepts (see c30_segment_start, c30_segment_end). *)
Theorem c30_hibernating_session : forall env mt u ws t sub, ordinary u ws sub -> sub <> SubDirectoriesWithFiles ->
  latest sets_filter ws no_filter = no_filter ->
  forall ho, conditions_compile mt ho ->
  nodes_of (walk_prime env mt (FacUsing u) (options_of env (ws ++ [WithHibernationOptions ho])) t) =
  segment (asked_conditions mt ho) (nodes_of (walk_prime env mt (FacUsing u) (options_of env ws) t)).
Proof. exact hibernation_session. Qed.
Print Assumptions c30_hibernating_session.
Example c30_configured_case :
  conditions_compile mt0 (mkHibOptions (Some (def_of FtGlob "B" 0)) (Some (def_of FtGlob "c" 0)) true true) /\
  prime_run SubUniversal [WithHibernationOptions (mkHibOptions (Some (def_of FtGlob "B" 0)) (Some (def_of FtGlob "c" 0)) true true)] tree1 =
    (Ret None, ["/r/A/B"; "/r/A/B/y"; "/r/A/x"; "/r/b"; "/r/c"]).
Proof. split; [split; intros d E; inversion E; left; reflexivity|vm_compute; reflexivity]. Qed.

(** *** C64: the hibernation conditions do not depend on the filter. Refuted: with
    a client's own node filter (here one which accepts every node) this filter is
    the condition, whatever the definition. *)
Theorem c64_custom_filter_replaces_conditions_refuted : forall mt d cu,
  fd_type d = FtGlob \/ fd_type d = FtRegex ->
  new_filter mt d (only_custom cu) = Ret (Some (NfCustom cu), None).
Proof. intros mt d cu [T|T]; unfold new_filter, or_func, build_poly; rewrite T; reflexivity. Qed.
Print Assumptions c64_custom_filter_replaces_conditions_refuted.
(** Both parts of a condition of type poly too. *)
Theorem c64_custom_filter_replaces_parts_refuted : forall mt cu file directory, cu_validate cu = None ->
  fd_type file <> FtPoly -> fd_type directory <> FtPoly ->
  let d := poly_def file directory in
  new_filter mt d (mkFilterOptions (Some d) None None (Some cu)) = Ret (Some (NfPoly (NfCustom cu) (NfCustom cu)), None).
Proof.
  intros mt cu file directory V F D. cbv zeta. unfold new_filter, or_func, build_poly, build_constituent, or_func, get_custom.
  cbn [fd_type poly_def is_poly_type fo_node fo_custom fd_poly option_map validate_again with_scope]. rewrite V.
  assert (K : forall k, k <> FtPoly -> is_poly_type k = false) by (intros [] N; try reflexivity; contradiction).
  rewrite (K _ F), (K _ D). reflexivity.
Qed.
Print Assumptions c64_custom_filter_replaces_parts_refuted.
(** Such a condition is refused with the own filter's error when this filter says that it is not valid. *)
Theorem c64_invalid_own_filter_refuses_parts : forall mt cu file directory e, cu_validate cu = Some e ->
  fd_type file <> FtPoly -> fd_type directory <> FtPoly ->
  let d := poly_def file directory in
  new_filter mt d (mkFilterOptions (Some d) None None (Some cu)) = Ret (None, Some e).
Proof.
  intros mt cu file directory e V F D. cbv zeta. unfold new_filter, or_func, build_poly, build_constituent, or_func, get_custom.
  cbn [fd_type poly_def is_poly_type fo_node fo_custom fd_poly option_map validate_again with_scope].
  assert (K : forall k, k <> FtPoly -> is_poly_type k = false) by (intros [] N; try reflexivity; contradiction).
  rewrite (K _ F), (K _ D), V. reflexivity.
Qed.
Print Assumptions c64_invalid_own_filter_refuses_parts.
Example c64_parts_case : cu_validate accept_all = None /\ cu_validate (mkCustom (Some (Err (Plain 7))) (fun _ => inl true)) = Some (Err (Plain 7)) /\ fd_type (def_of FtRegex "(" 0) <> FtPoly /\ fd_type (def_of FtGlob "x" 0) <> FtPoly.
Proof. repeat split; discriminate. Qed.
Theorem c64_wakes_at_once_refuted : exists env mt u t d, compiles mt d /\
  let run fo := map n_path (nodes_of (walk_prime env mt (FacUsing u)
      (options_of env [WithFilter fo; WithHibernationFilterWake (Some d)]) t)) in
  run no_filter = ["/r/A/B"; "/r/A/B/y"; "/r/A/x"; "/r/b"; "/r/c"; "/r/Z"] /\
  run (only_custom (mkCustom None (fun _ => inl true))) = ["/r"; "/r/A"; "/r/A/B"; "/r/A/B/y"; "/r/A/x"; "/r/b"; "/r/c"; "/r/Z"].
Proof.
  exists env0, mt0, (using_ SubUniversal None), tree1, (def_of FtGlob "B" 0). split; [left; reflexivity|]. split; vm_compute; reflexivity.
Qed.
Print Assumptions c64_wakes_at_once_refuted.

(** *** C65: a filter definition which cannot be used is refused with an error.
    Refuted: each of these makes Navigate panic; no callback is made. *)
Theorem c65_unusable_definitions_panic_refuted : forall fo,
  In fo [only_sample (mkSampleDef FtGlobEx "" "*|.x" 0 false None None); only_sample (mkSampleDef FtPoly "" "x" 0 false None None);
         mkFilterOptions None (Some (mkChildDef FtPoly "" "x" false)) None None;
         only_node (def_of FtPoly "x" 0); only_node (def_of FtCustom "x" 0);
         only_node (poly_def (def_of FtGlob "x" 0) (def_of FtCustom "x" 0)); only_node (poly_def (def_of FtCustom "x" 0) (def_of FtGlob "x" 0))] ->
  prime_run SubUniversal [WithFilter fo] tree1 = (Pan nil_deref, []).
Proof. intros fo I. repeat (destruct I as [<-|I]; [vm_compute; reflexivity|]). destruct I. Qed.
Print Assumptions c65_unusable_definitions_panic_refuted.
(** An undefined type, a regular expression which does not compile and an
    extended glob without bar are refused. *)
Theorem c65_refused_partial : forall env mt u ws t sub d e, ordinary u ws sub ->
  fd_pattern d <> "" -> fd_poly d = None ->
  (fd_type d = FtUndefined /\ e = err_missing_type) \/
  (fd_type d = FtRegex /\ mt_regex mt (fd_pattern d) = inr e) \/
  (fd_type d = FtGlobEx /\ free_of "|"%char (fd_pattern d) /\ e = err_missing_separator) ->
  walk_prime env mt (FacUsing u) (options_of env (ws ++ [WithFilter (only_node d)])) t = mkReport (Ret (Some e)) [] None.
Proof. exact refused_definitions. Qed.
Print Assumptions c65_refused_partial.
Example c65_case : prime_run SubFiles [WithFilter (only_node (def_of FtRegex "(" 0))] tree1 = (Ret (Some (Err (Plain 99))), []).
Proof. vm_compute. reflexivity. Qed.
