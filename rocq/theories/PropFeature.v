(** Properties C20, C21, C25-C27, C30-C32, C57: filters, children, hibernation
    and the decorator chain. Vocabulary: Spec.v. *)
From Verif Require Import Base Paths Level Lo Collections SpecCollections Kernel Defaults Session Spec SessionFacts WalkProps
  Simulate Feature HibFacts ChildFacts Cases CasesFacts FeatureCor.
Local Open Scope string_scope.

(** *** C20, C21 *)
(** Files, Directories and Universal subscriptions, a callback which returns
    nil: the filtered session makes exactly the callbacks of the unfiltered one
    whose node matches, in the same order, and returns the same. Every file
    (directory) visited without the filter is counted once as invoked or as
    filtered out. *)
Theorem c20_c21_filter_selects : forall c f sampling t o1 s1 o2 s2, c_sub c <> SubDirectoriesWithFiles ->
  session (with_features (node_filter f) None cnil c) sampling t = (o1, s1) ->
  session (with_features None None cnil c) sampling t = (o2, s2) ->
  o1 = o2 /\ visited s1 = filter f (visited s2) /\
  m_files (s_metrics s1) + m_files_out (s_metrics s1) = m_files (s_metrics s2) /\
  m_dirs (s_metrics s1) + m_dirs_out (s_metrics s1) = m_dirs (s_metrics s2).
Proof. exact filtered_nil. Qed.
Print Assumptions c20_c21_filter_selects.

(** The same for every subscription; with DirectoriesWithFiles the filtered
    session does not assign Children, so nodes are compared without them. *)
Theorem c20_c21_filter_selects_children : forall c f sampling t o1 s1 o2 s2, hook_blind c -> default_skip c ->
  session (with_features (node_filter f) None cnil c) sampling t = (o1, s1) ->
  session (with_features None None cnil c) sampling t = (o2, s2) ->
  o1 = o2 /\ visited s1 = filter f (map strip (visited s2)) /\
  m_files (s_metrics s1) + m_files_out (s_metrics s1) = m_files (s_metrics s2) /\
  m_dirs (s_metrics s1) + m_dirs_out (s_metrics s1) = m_dirs (s_metrics s2).
Proof. exact filtered_nil_children. Qed.
Print Assumptions c20_c21_filter_selects_children.

(** Any callback [g] (nil, skips, errors, panics; it may look at the calls made
    before): the filtered session behaves as the unfiltered session whose
    callback ignores the nodes which do not match. *)
Theorem c20_c21_filter_ignores : forall c f g cl2 sampling t o1 s1 o2 s2,
  c_sub c <> SubDirectoriesWithFiles -> (forall tr n, cl2 tr n = ignoring f g tr n) ->
  session (with_features (node_filter f) None (on_calls g) c) sampling t = (o1, s1) ->
  session (with_features None None cl2 c) sampling t = (o2, s2) ->
  alike o1 o2 /\ calls (s_trace s1) = filter (fun x => f (fst x)) (calls (s_trace s2)) /\
  m_files (s_metrics s1) + m_files_out (s_metrics s1) = m_files (s_metrics s2) /\
  m_dirs (s_metrics s1) + m_dirs_out (s_metrics s1) = m_dirs (s_metrics s2).
Proof.
  intros c f g cl2 sampling t o1 s1 o2 s2 A0 B0 H1 H2.
  destruct (filtered_calls c f g cl2 sampling t o1 s1 o2 s2 A0 B0 H1 H2) as [A B]. split; [exact (agree_alike _ _ _ A)|exact B].
Qed.
Print Assumptions c20_c21_filter_ignores.

Theorem c20_c21_filter_ignores_children : forall c f g cl2 sampling t o1 s1 o2 s2,
  hook_blind c -> (forall tr n, cl2 tr n = ignoring_stripped f g tr n) -> default_skip c ->
  session (with_features (node_filter f) None (on_calls g) c) sampling t = (o1, s1) ->
  session (with_features None None cl2 c) sampling t = (o2, s2) ->
  alike o1 o2 /\ calls (s_trace s1) = filter (fun x => f (fst x)) (map stripped (calls (s_trace s2))) /\
  m_files (s_metrics s1) + m_files_out (s_metrics s1) = m_files (s_metrics s2) /\
  m_dirs (s_metrics s1) + m_dirs_out (s_metrics s1) = m_dirs (s_metrics s2).
Proof.
  intros c f g cl2 sampling t o1 s1 o2 s2 A0 B0 C0 H1 H2.
  destruct (filtered_calls_children c f g cl2 sampling t o1 s1 o2 s2 A0 B0 C0 H1 H2) as [A B]. split; [exact (agree_alike _ _ _ A)|exact B].
Qed.
Print Assumptions c20_c21_filter_ignores_children.

(** the hypotheses hold of the default hooks *)
Example c20_hypotheses : forall sub, hook_blind (base_cfg sub) /\ default_skip (base_cfg sub).
Proof. intros sub. split; [apply default_subpath_blind|]. intros ? ? ?; reflexivity. Qed.
(** the descendants of the rejected directory A are visited *)
Example c20_case :
  let f n := negb (String.eqb (n_name n) "A") && negb (String.eqb (n_name n) "x") in
  let x := session (with_features (node_filter f) None cnil (base_cfg SubUniversal)) false tree1 in
  paths x = ["/r"; "/r/A/B"; "/r/A/B/y"; "/r/b"; "/r/c"; "/r/Z"] /\
  s_metrics (snd x) = mkMetrics 3 1 3 1 0 0.
Proof. split; vm_compute; reflexivity. Qed.

(** *** C25 *)
Theorem c25_children_are_the_files : forall c sampling t o s, hooks_ok c -> root_ok c t -> filter_ok c ->
  c_sub c = SubDirectoriesWithFiles -> c_scheme c = None ->
  session c sampling t = (o, s) -> Forall (fun n => n_children n = c_sort c (files_listed c n)) (visited s).
Proof. exact plain_children. Qed.
Print Assumptions c25_children_are_the_files.

Theorem c25_child_metric : forall c sampling t o s, hooks_ok c -> root_ok c t -> filter_ok c ->
  c_sub c = SubDirectoriesWithFiles -> c_scheme c = None ->
  session c sampling t = (o, s) ->
  m_child (s_metrics s) = total (fun n => length (files_listed c n)) (visited s) /\ m_child_out (s_metrics s) = 0.
Proof. exact plain_child_metric. Qed.
Print Assumptions c25_child_metric.

(** exactly the directories are visited *)
Theorem c25_visits_the_directories : forall c sampling t o1 s1 o2 s2, hooks_ok c -> root_ok c t -> default_skip c ->
  plain c -> nil_callback c ->
  session (with_sub SubDirectoriesWithFiles c) sampling t = (o1, s1) ->
  session (with_sub SubDirectories c) sampling t = (o2, s2) ->
  o1 = o2 /\ map place_of (visited s1) = map place_of (visited s2).
Proof. exact dwf_visits. Qed.
Print Assumptions c25_visits_the_directories.

Example c25_case : let x := session (base_cfg SubDirectoriesWithFiles) false tree1 in
  map (fun n => (n_path n, map fname (n_children n))) (visited (snd x)) =
    [("/r", ["c"; "Z"]); ("/r/A", ["x"]); ("/r/A/B", ["y"]); ("/r/b", [])] /\
  m_child (s_metrics (snd x)) = 4.
Proof. split; vm_compute; reflexivity. Qed.

(** *** C26: the child filter [m] maps the sorted files of a directory to those
    which match. *)
Theorem c26_children_are_the_matching_files : forall c m p sampling t o s, hooks_ok c -> root_ok c t -> filter_ok c ->
  c_scheme c = Some (mkScheme p (Some (fun l => inl (m l)))) ->
  session c sampling t = (o, s) -> Forall (fun n => n_children n = m (c_sort c (files_listed c n))) (visited s).
Proof. exact filter_children. Qed.
Print Assumptions c26_children_are_the_matching_files.

Theorem c26_child_metrics : forall c m p sampling t o s, hooks_ok c -> root_ok c t -> filter_ok c ->
  c_scheme c = Some (mkScheme p (Some (fun l => inl (m l)))) -> (forall f, p <> Some (PrimarySampler f)) ->
  (forall l, length (m l) <= length l) ->
  session c sampling t = (o, s) ->
  m_child (s_metrics s) = total (fun n => length (n_children n)) (visited s) /\
  m_child (s_metrics s) + m_child_out (s_metrics s) = total (fun n => length (files_listed c n)) (visited s).
Proof. exact child_filter_metric. Qed.
Print Assumptions c26_child_metrics.

Example c26_case :
  let m := filter (fun e => negb (String.eqb (fname e) "c")) in
  let x := session (with_scheme (Some (mkScheme None (Some (fun l => inl (m l))))) (base_cfg SubDirectories)) false tree1 in
  map (fun n => (n_path n, map fname (n_children n))) (visited (snd x)) =
    [("/r", ["Z"]); ("/r/A", ["x"]); ("/r/A/B", ["y"]); ("/r/b", [])] /\
  s_metrics (snd x) = mkMetrics 0 0 4 0 3 1.
Proof. split; vm_compute; reflexivity. Qed.

(** *** C27: refuted. With a child filter and a subscription which visits files,
    a file node makes the traversal panic; the panic is rescued and reported. *)
Theorem c27_child_filter_panics_refuted : forall sub, sub = SubUniversal \/ sub = SubFiles ->
  exists c t s, c_sub c = sub /\ hooks_ok c /\ root_ok c t /\ default_skip c /\ nil_callback c /\
    c_scheme c = Some (mkScheme None (Some (fun l => inl l))) /\ c_hib c = None /\
    session c false t = (Ret (Some (TraversalSaved "saved")), s) /\ rescues (s_trace s) <> [].
Proof. exact child_filter_panics. Qed.
Print Assumptions c27_child_filter_panics_refuted.

(** Every other combination is safe: a child filter goes with a directories
    subscription ([filter_ok]). Missing: the child filter with the other two. *)
Theorem c27_no_panic_partial : forall c sampling t o s,
  hooks_ok c -> root_ok c t -> filter_ok c -> nil_callback c -> session c sampling t = (o, s) ->
  rescues (s_trace s) = [] /\ exists e, o = Ret e.
Proof. exact nil_no_rescue. Qed.
Print Assumptions c27_no_panic_partial.
Example c27_case : filter_ok (with_scheme (Some (mkScheme None (Some (fun l => inl l)))) (base_cfg SubDirectories)).
Proof.
  split; [|discriminate]. intros sc E. inversion E; subst. split; [left; reflexivity|].
  split; [discriminate|]. split; [discriminate|]. intros m M l. inversion M; subst. exists l. reflexivity.
Qed.

(** *** C30 *)
Theorem c30_hibernation_segment : forall c hb sampling t o1 s1 o2 s2, conditions_answer hb ->
  c_sub c <> SubDirectoriesWithFiles ->
  session (with_features None (Some hb) cnil c) sampling t = (o1, s1) ->
  session (with_features None None cnil c) sampling t = (o2, s2) ->
  visited s1 = segment hb (visited s2).
Proof. exact hib_segment. Qed.
Print Assumptions c30_hibernation_segment.

(** for DirectoriesWithFiles nodes are compared without their children, which
    the conditions must not look at *)
Theorem c30_hibernation_segment_children : forall c hb sampling t o1 s1 o2 s2, conditions_answer hb ->
  hook_blind c -> default_skip c ->
  (forall n, hb_wake hb (strip n) = hb_wake hb n) -> (forall n, hb_sleep hb (strip n) = hb_sleep hb n) ->
  session (with_features None (Some hb) cnil c) sampling t = (o1, s1) ->
  session (with_features None None cnil c) sampling t = (o2, s2) ->
  map strip (visited s1) = segment hb (map strip (visited s2)).
Proof. exact hib_segment_children. Qed.
Print Assumptions c30_hibernation_segment_children.

(** What [segment] means: contiguous; from the first node matching the wake
    condition; up to the first later node matching the sleep condition. *)
Theorem c30_segment_is_contiguous : forall hb l, exists pre post, l = (pre ++ segment hb l ++ post)%list.
Proof. exact segment_infix. Qed.
Print Assumptions c30_segment_is_contiguous.
Theorem c30_segment_start : forall hb l,
  match hb_wake_at hb with
  | None => segment hb l = until_sleep hb l
  | Some w =>
      (Forall (fun n => yes (w n) = false) l /\ segment hb l = []) \/
      exists pre n post, l = (pre ++ n :: post)%list /\ Forall (fun m => yes (w m) = false) pre /\ yes (w n) = true /\
        segment hb l = ((if hb_incl_wake hb then [n] else []) ++ until_sleep hb post)%list
  end.
Proof. exact segment_meaning. Qed.
Print Assumptions c30_segment_start.
Theorem c30_segment_end : forall hb l,
  let sl n := match hb_sleep_at hb with Some f => yes (f n) | None => false end in
  (Forall (fun n => sl n = false) l /\ until_sleep hb l = l) \/
  exists pre n post, l = (pre ++ n :: post)%list /\ Forall (fun m => sl m = false) pre /\ sl n = true /\
    until_sleep hb l = (pre ++ (if hb_incl_sleep hb then [n] else []))%list.
Proof. exact until_sleep_meaning. Qed.
Print Assumptions c30_segment_end.

Example c30_case :
  let c := with_hib (Some (hib_at (Some "/r/A/B") (Some "/r/c"))) (base_cfg SubUniversal) in
  paths (session c false tree1) = ["/r/A/B"; "/r/A/B/y"; "/r/A/x"; "/r/b"] /\
  fst (session c false tree1) = Ret None.
Proof. split; vm_compute; reflexivity. Qed.

(** *** C57: going to sleep is not an error. Refuted: with the Files
    subscription Navigate returns fs.SkipAll. *)
Theorem c57_sleep_returns_skip_all_refuted : exists c t s hb,
  c_sub c = SubFiles /\ hooks_ok c /\ root_ok c t /\ default_skip c /\ c_scheme c = None /\ c_hib c = Some hb /\
  nil_callback c /\ session c false t = (Ret (Some (Err SkipAll)), s).
Proof. exact sleep_returns_skip_all. Qed.
Print Assumptions c57_sleep_returns_skip_all_refuted.
(** With the other subscriptions it returns nil (whatever hibernation and
    filters are configured). Missing: Files, for which it is false. *)
Theorem c57_sleep_returns_nil_partial : forall c sampling t o s,
  hooks_ok c -> root_ok c t -> default_skip c -> filter_ok c -> c_sub c <> SubFiles -> nil_callback c ->
  session c sampling t = (o, s) -> o = Ret None.
Proof. exact sleep_nil. Qed.
Print Assumptions c57_sleep_returns_nil_partial.
(* non-vacuity: c30_case, c20_hypotheses *)

(** *** C31 *)
Theorem c31_wake_and_sleep : forall c hb sampling t o s, hooks_ok c -> root_ok c t -> filter_ok c -> c_hib c = Some hb ->
  session c sampling t = (o, s) ->
  (exists post, (match hb_wake_at hb with Some _ => [EvWake; EvSleep] | None => [EvSleep] end) =
    (filter (fun e => is_wake e || is_sleep e) (s_trace s) ++ post)%list) /\
  announced (Some hb) (s_trace s).
Proof. exact wake_sleep. Qed.
Print Assumptions c31_wake_and_sleep.

Example c31_case :
  let c := with_hib (Some (hib_at (Some "/r/A/B") (Some "/r/c"))) (base_cfg SubUniversal) in
  filter (fun e => is_wake e || is_sleep e) (s_trace (snd (session c false tree1))) = [EvWake; EvSleep].
Proof. vm_compute. reflexivity. Qed.

(** *** C32 *)
(** Without fastward resume the links are in declared order, the client last. *)
Theorem c32_declared_order : forall c sampling rp, rp <> FastwardPlugin ->
  session_items c sampling rp = declared_links c sampling false.
Proof. exact chain_declared. Qed.
Print Assumptions c32_declared_order.

(** With fastward resume they are not: the fastward link, declared first, comes
    last but the client. *)
Theorem c32_fastward_out_of_order_refuted :
  exists c sampling, session_items c sampling FastwardPlugin <> declared_links c sampling true.
Proof. exact fast_misplaced. Qed.
Print Assumptions c32_fastward_out_of_order_refuted.
Theorem c32_fastward_is_last_partial : forall c sampling,
  exists pre, session_items c sampling FastwardPlugin = (pre ++ [RoleFastward; RoleAnchor])%list /\
    session_items c sampling NoResume = (pre ++ [RoleAnchor])%list.
Proof. exact chain_fast_last. Qed.
Print Assumptions c32_fastward_is_last_partial.

(** Every invocation asks a prefix of the links, stopping at the first which
    does not agree ([consult]); the client is called (once) iff it is asked. *)
Theorem c32_invocation : forall c sampling rp n k s o n1 s1, s_items s = session_items c sampling rp ->
  invoke c n k s = (o, n1, s1) -> o <> Stuck ->
  exists pre post s', session_items c sampling rp = (pre ++ post)%list /\
    consult c k (session_items c sampling rp) n s pre o n1 s' /\ s1 = emit (EvOffer n1 (res_of o)) s' /\
    (In RoleAnchor pre <-> exists x, calls (s_trace s1) = (calls (s_trace s) ++ [x])%list) /\
    (~ In RoleAnchor pre <-> calls (s_trace s1) = calls (s_trace s)).
Proof. exact invocation. Qed.
Print Assumptions c32_invocation.

(** Unwinding a link other than the client: whatever was decorated and unwound
    before, the remaining links are those before without this one. *)
Theorem c32_unwind_removes_one : forall (A : Type) (eqb : A -> A -> bool), (forall x y, reflect (x = y) (eqb x y)) ->
  forall order anchor ops x, x <> anchor ->
  let ps := snd (ps_run eqb ops (ps_new eqb order anchor)) in
  fst (ps_list eqb (ps_delete eqb x ps)) = filter (fun y => negb (eqb x y)) (fst (ps_list eqb ps)).
Proof. exact unwind_exact. Qed.
Print Assumptions c32_unwind_removes_one.

Example c32_case :
  session_items (with_hib (Some (hib_at None None)) (with_scheme (node_filter (fun _ => true)) (base_cfg SubUniversal))) true NoResume =
    [RoleHibernate; RoleClientFilter; RoleSampler; RoleAnchor] /\
  (exists o n1 s1, invoke (base_cfg SubUniversal) (new_node "/r" tree1 None None []) None (start_st (base_cfg SubUniversal) false) = (o, n1, s1)
     /\ o <> Stuck).
Proof. split; [reflexivity|]. do 3 eexists. split; [reflexivity|discriminate]. Qed.
