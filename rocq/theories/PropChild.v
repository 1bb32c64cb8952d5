(** Properties C26 (as configured), C41 (in a session), C65, C75-C77: child
    filters, a client's own filter, concurrency settings, handlers. Vocabulary:
    SpecFilter.v, SpecBuild.v, SpecChild.v; [walk_prime]: what
    Walk().Configure().Extent(Prime(facade, settings...)).Navigate(ctx) does. *)
From Verif Require Import Base Paths Level Kernel Defaults Session Spec Filters SpecFilter FiltersFacts Hooks Life SpecHooks Options Build SpecBuild
  Feature FilterProps SampleProps HiberProps SpecChild ChildProps OwnProps Cases CasesFacts BuildFacts BuildCases FilterCases.
Local Open Scope string_scope.

(** *** C26, end to end: a glob or regex child filter, perhaps together with a
    glob or regex node filter. The directories visited are those of the session without
    filters which the node filter accepts (compared without their children); the
    children of each are the files of the directory (sampled, if sampling is
    on), sorted, which match; both kinds are counted. *)
Theorem c26_configured_session : forall env mt u ws t sub, ordinary u ws sub -> undisturbed env ws t ->
  sub = SubDirectories \/ sub = SubDirectoriesWithFiles -> subpath_blind ws ->
  let so := latest sets_sampling ws no_sampling in
  forall od cd, node_part_ok mt od -> child_compiles mt cd -> cd_pattern cd <> "" ->
  let r1 := walk_prime env mt (FacUsing u) (options_of env (ws ++ [WithFilter (with_child od cd)])) t in
  let r2 := walk_prime env mt (FacUsing u) (options_of env (ws ++ [WithFilter no_filter])) t in
  rp_outcome r1 = rp_outcome r2 /\
  map strip (nodes_of r1) = filter (node_part mt od) (map strip (nodes_of r2)) /\
  Forall (fun n => exists fs, sampled_part so (so_files so) (files_read ws (n_path n) (n_src n)) fs /\
     n_children n = filter (fun e => child_keeps mt cd (fname e)) (latest sets_sort ws default_sort fs)) (nodes_of r1) /\
  exists m1 m2, rp_metrics r1 = Some m1 /\ rp_metrics r2 = Some m2 /\
    m_dirs m1 + m_dirs_out m1 = m_dirs m2 /\
    m_child m1 = total (fun n => length (n_children n)) (nodes_of r1) /\
    m_child m1 + m_child_out m1 = total (fun n => sampled_count so (length (files_read ws (n_path n) (n_src n)))) (nodes_of r1).
Proof.
  intros env mt u ws t sub OR UD SB HB so od cd NP CC PA.
  exact (child_session env mt u ws t sub OR UD SB od cd NP CC PA HB).
Qed.
Print Assumptions c26_configured_session.
Example c26_configured_case :
  let cd := mkChildDef FtGlob "" "x" true in
  let d := def_of FtRegex "r" ScopeDirectory in
  let run fo := walk_prime env0 mt0 (FacUsing (using_ SubDirectories None)) (options_of env0 [WithFilter fo]) tree1 in
  let seen r := map (fun n => (n_path n, map fname (n_children n))) (nodes_of r) in
  ordinary (using_ SubDirectories None) [] SubDirectories /\ undisturbed env0 [] tree1 /\ subpath_blind [] /\
  node_part_ok mt0 (Some d) /\ child_compiles mt0 cd /\
  seen (run (with_child None cd)) = [("/r", ["c"; "Z"]); ("/r/A", []); ("/r/A/B", ["y"]); ("/r/b", [])] /\
  seen (run (with_child (Some d) cd)) = [("/r", ["c"; "Z"])].
Proof.
  split; [apply ordinary_default|]. split; [split; reflexivity|]. split; [intros tr keep n; destruct n; split; reflexivity|].
  split; [split; [right; split; [reflexivity|eexists; reflexivity]|discriminate]|]. split; [left; reflexivity|].
  split; vm_compute; reflexivity.
Qed.

(** *** C75: with a directories-with-files subscription the nodes which a node
    filter accepts come with their files. Refuted: with a node filter alone the callback sees no children. *)
Theorem c75_node_filter_takes_children_refuted : forall env mt u ws t sub, ordinary u ws sub -> undisturbed env ws t ->
  sub = SubDirectoriesWithFiles -> subpath_blind ws ->
  forall d, compiles mt d -> fd_pattern d <> "" ->
  let r1 := walk_prime env mt (FacUsing u) (options_of env (ws ++ [WithFilter (only_node d)])) t in
  let r2 := walk_prime env mt (FacUsing u) (options_of env (ws ++ [WithFilter no_filter])) t in
  rp_outcome r1 = rp_outcome r2 /\ nodes_of r1 = filter (accepts mt d) (map strip (nodes_of r2)) /\
  Forall (fun n => n_children n = []) (nodes_of r1).
Proof.
  intros env mt u ws t sub OR UD SB HB d C P. destruct (node_filter_children env mt u ws t sub OR UD d SB HB C P) as [A B].
  cbv zeta. split; [exact A|]. split; [exact B|]. rewrite B. apply Forall_forall. intros n I. apply filter_In in I. destruct I as [I _].
  apply in_map_iff in I. destruct I as (m & <- & _). destruct m. reflexivity.
Qed.
Print Assumptions c75_node_filter_takes_children_refuted.
Example c75_case :
  let run ws := walk_prime env0 mt0 (FacUsing (using_ SubDirectoriesWithFiles None)) (options_of env0 ws) tree1 in
  let seen r := map (fun n => (n_path n, map fname (n_children n))) (nodes_of r) in
  seen (run []) = [("/r", ["c"; "Z"]); ("/r/A", ["x"]); ("/r/A/B", ["y"]); ("/r/b", [])] /\
  seen (run [WithFilter (only_node (def_of FtGlob "*" 0))]) = [("/r", []); ("/r/A", []); ("/r/A/B", []); ("/r/b", [])].
Proof. split; vm_compute; reflexivity. Qed.

(** *** C76: a client's own filter. *)
Theorem c76_own_filter_session : forall env mt u ws t sub, ordinary u ws sub ->
  forall validate ans, sub <> SubDirectoriesWithFiles -> validate = None ->
  selected ans (fun n => n)
    (walk_prime env mt (FacUsing u) (options_of env (ws ++ [WithFilter (own_filter
      (mkCustom validate (fun on => match on with Some n => inl (ans n) | None => inr nil_deref end)))])) t)
    (walk_prime env mt (FacUsing u) (options_of env (ws ++ [WithFilter no_filter])) t).
Proof. exact own_session. Qed.
Print Assumptions c76_own_filter_session.
Theorem c76_own_filter_refused : forall env mt u ws t sub, ordinary u ws sub ->
  forall cu e, cu_validate cu = Some e ->
  walk_prime env mt (FacUsing u) (options_of env (ws ++ [WithFilter (own_filter cu)])) t = mkReport (Ret (Some e)) [] None.
Proof. exact own_refused. Qed.
Print Assumptions c76_own_filter_refused.
Example c76_case :
  let cu v := own_filter (mkCustom v (fun on => match on with Some n => inl (n_isdir n) | None => inr nil_deref end)) in
  prime_run SubUniversal [WithFilter (cu None)] tree1 = (Ret None, ["/r"; "/r/A"; "/r/A/B"; "/r/b"]) /\
  prime_run SubUniversal [WithFilter (cu (Some (Err (Plain 7))))] tree1 = (Ret (Some (Err (Plain 7))), []).
Proof. split; vm_compute; reflexivity. Qed.

(** *** C65, child filters: an undefined type, an extended glob, type custom and a
    regular expression which does not compile are refused. *)
Theorem c65_child_refused_partial : forall env mt u ws t sub, ordinary u ws sub ->
  forall cd e, cd_pattern cd <> "" ->
  (cd_type cd = FtUndefined /\ e = err_undefined) \/ (cd_type cd = FtGlobEx /\ e = err_child_globex) \/
  (cd_type cd = FtCustom /\ e = err_child_custom) \/ (cd_type cd = FtRegex /\ mt_regex mt (cd_pattern cd) = inr e) ->
  walk_prime env mt (FacUsing u) (options_of env (ws ++ [WithFilter (with_child None cd)])) t = mkReport (Ret (Some e)) [] None.
Proof. exact child_refused. Qed.
Print Assumptions c65_child_refused_partial.
(** Sample filters: no number for what is to be sampled, an undefined type, a
    regular expression which does not compile, the client's own filter missing or
    not valid. *)
Theorem c65_sample_refused_partial : forall env mt u ws t sub, ordinary u ws sub ->
  forall sd e, sample_unusable mt sd (latest sets_sampling ws no_sampling) e ->
  walk_prime env mt (FacUsing u) (options_of env (ws ++ [WithFilter (only_sample sd)])) t = mkReport (Ret (Some e)) [] None.
Proof. exact sample_refused. Qed.
Print Assumptions c65_sample_refused_partial.
Example c65_sample_case :
  let own v := only_sample (mkSampleDef FtCustom "" "" ScopeFile false None (Some (v, fun l => l))) in
  let sampling := WithSamplingOptions (mkSampling StSlice false 1 0) in
  prime_run SubUniversal [sampling; WithFilter (own (Some (Err (Plain 7))))] tree1 = (Ret (Some (Err (Plain 7))), []) /\
  fst (prime_run SubUniversal [sampling; WithFilter (own None)] tree1) = Ret None /\
  prime_run SubUniversal [WithFilter (own None)] tree1 = (Ret (Some err_missing_files), []).
Proof. split; [|split]; vm_compute; reflexivity. Qed.
(** A wake condition of type custom without a custom filter is not refused: given
    also a sleep condition, the session starts awake; *)
Theorem c65_nil_wake_is_true_refuted : forall env mt u ws t sub dw ds iw is, ordinary u ws sub -> sub <> SubDirectoriesWithFiles ->
  latest sets_filter ws no_filter = no_filter -> fd_type dw = FtCustom -> compiles mt ds ->
  nodes_of (walk_prime env mt (FacUsing u) (options_of env (ws ++ [WithHibernationOptions (mkHibOptions (Some dw) (Some ds) iw is)])) t) =
  segment (mkHib (Some (fun _ => inl true)) (Some (fun n => inl (accepts mt ds n))) iw is)
    (nodes_of (walk_prime env mt (FacUsing u) (options_of env ws) t)).
Proof. exact nil_wake_session. Qed.
Print Assumptions c65_nil_wake_is_true_refuted.
(** without, Navigate panics. *)
Example c65_child_case :
  prime_run SubDirectories [WithFilter (with_child None (mkChildDef FtGlobEx "" "*|.x" false))] tree1 = (Ret (Some err_child_globex), []) /\
  prime_run SubUniversal [WithHibernationOptions (mkHibOptions (Some (def_of FtCustom "q" 0)) (Some (def_of FtGlob "c" 0)) true true)] tree1 =
    (Ret None, ["/r"; "/r/A"; "/r/A/B"; "/r/A/B/y"; "/r/A/x"; "/r/b"; "/r/c"]) /\
  prime_run SubUniversal [WithHibernationOptions (mkHibOptions (Some (def_of FtCustom "q" 0)) None true true)] tree1 = (Pan nil_deref, []).
Proof. split; [|split]; vm_compute; reflexivity. Qed.

(** *** C62, child filters *)
Theorem c62_blank_child_ignored : forall env mt u ws t sub, ordinary u ws sub ->
  forall cd, cd_pattern cd = "" ->
  walk_prime env mt (FacUsing u) (options_of env (ws ++ [WithFilter (with_child None cd)])) t =
  walk_prime env mt (FacUsing u) (options_of env (ws ++ [WithFilter no_filter])) t.
Proof. exact child_blank. Qed.
Print Assumptions c62_blank_child_ignored.
Example c62_child_case :
  prime_run SubFiles [WithFilter (with_child None (mkChildDef FtUndefined "" "" true))] tree1 = prime_run SubFiles [] tree1.
Proof. vm_compute. reflexivity. Qed.

(** *** C77: the numbers which a concurrent run uses: as many workers as asked for
    last (CPUs if not asked), as many inputs as workers, and for the outputs, if
    they are on, the size asked for or the number of workers. *)
Theorem c77_concurrency_settings : forall env mt u ws, us_options u = None ->
  let o := snd (build_prime env mt (FacUsing u) (options_of env ws)) in
  let workers := latest (sets_workers (en_cpus env)) ws (en_cpus env) in
  let asked := latest sets_output ws (0%N, false) in
  co_now (op_conc o) = workers /\ co_input (op_conc o) = workers /\
  co_output_on (op_conc o) = snd asked /\
  co_output (op_conc o) = (if snd asked && (fst asked =? 0)%N then workers else fst asked).
Proof. intros env mt u ws N. destruct (built_conc env mt u ws N) as (A & B & C & D & _). auto. Qed.
Print Assumptions c77_concurrency_settings.
Example c77_case :
  let conc ws := op_conc (snd (build_prime env0 mt0 (FacUsing (using_ SubUniversal None)) (options_of env0 ws))) in
  conc [] = mkConc 8 8 0 false /\ conc [WithNoW 3; WithOutput 0 true] = mkConc 3 3 3 true /\
  conc [WithOutput 5 true; WithCPU] = mkConc 8 8 5 true /\ conc [WithOutput 5 true; WithOutput 0 false] = mkConc 8 8 0 false.
Proof. repeat split. Qed.

(** *** C41 in a session: each event of the session is told, one after the other, to the handlers
    registered for its kind, in the order registered. *)
Theorem c41_session_handlers : forall env mt u ws t, us_options u = None ->
  let o := snd (build_prime env mt (FacUsing u) (options_of env ws)) in
  let tr := rp_trace (walk_prime env mt (FacUsing u) (options_of env ws) t) in
  heard (fun k => handlers_for k ws) tr (notified (op_events o) tr).
Proof. intros env mt u ws t N. apply notified_heard. apply (built_conc env mt u ws N). Qed.
Print Assumptions c41_session_handlers.
Example c41_session_case :
  let ws := [WithOn NtWake 1; WithOn NtSleep 2; WithOn NtBegin 3; WithOn NtWake 4; WithOn NtEnd 5;
             WithHibernationOptions (mkHibOptions (Some (def_of FtGlob "B" 0)) (Some (def_of FtGlob "c" 0)) true true)] in
  let o := snd (build_prime env0 mt0 (FacUsing (using_ SubUniversal None)) (options_of env0 ws)) in
  map fst (notified (op_events o) (rp_trace (walk_prime env0 mt0 (FacUsing (using_ SubUniversal None)) (options_of env0 ws) tree1))) = [3; 1; 4; 2; 5].
Proof. vm_compute. reflexivity. Qed.
