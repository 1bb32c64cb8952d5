(** Resuming an interrupted session. Properties C33-C37, C50 (resume), C69-C74. *)
From Verif Require Import Base WalkCor Paths PathFacts Level Kernel Defaults Session Spec WalkProps Cases CasesFacts Filters Hooks Life Options Build SpecBuild BuildFacts BuildCases
  Persist SpecPersist PersistFacts Resume SpecResume SpawnFacts ResumeMetrics ShiftFacts FastFacts WakeFacts FastProps RecoverFacts SpawnOrder MuteFacts ResumeBuild ResumeWalk
  ResumeCases ResumeRefuted ResumeProps.
From Coq Require Import Permutation.
Local Open Scope string_scope.
Local Open Scope list_scope.

(** ** C33: spawn visits what had not been visited *)

(** In a tree whose directories are all visited in the byte order of the names: a
    session whose callback panicked on [n], an entry of the directory [dn] below
    the tree, had visited [old], [dn], and [again] below [dn]; [new] were still to
    come. The spawn resume from what was saved visits [dn], [again] and [new].
    Missing for the full claim: other orders, and entries of the tree itself (both
    refuted below); filters and hibernation (C124-C126). *)
Theorem c33_spawn_visits_the_rest_partial : forall c sampling pc dk o s pre n dn g p P,
  let t := dk (c_tree c) in
  hooks_ok c -> root_ok c t -> default_skip c -> plain c -> c_sub c = SubUniversal -> c_depth c = 0%N ->
  stable_sort c -> clean (c_tree c) = c_tree c -> proper_names t ->
  preorder (entries_all c) [] (c_tree c) t P -> tidy c pc dk P ->
  session c sampling t = (o, s) -> calls (s_trace s) = pre ++ [(n, CPanic p)] ->
  Forall (fun x => snd x = CNil) pre ->
  n_parent n = Some dn -> n_parent dn = Some g ->
  exists sv old m again new,
    rescues (s_trace s) = [sv] /\ sv_tree sv = c_tree c /\ sv_path sv = n_path dn /\
    P = map place_of (visited s) ++ new /\
    visited s = old ++ m :: again /\ place_of m = place_of dn /\
    Forall (fun x => above (n_pos dn) (n_pos x) = true) again /\
    forall sv', sv_tree sv' = sv_tree sv -> sv_path sv' = sv_path sv ->
    exists s2, spawn_session (with_client client_nil c) sampling pc dk sv' = (Ret None, true, s2) /\
      map thing (map place_of (visited s2)) = map thing (map place_of (m :: again) ++ new).
Proof. exact spawn_recovers. Qed.
Print Assumptions c33_spawn_visits_the_rest_partial.

(** The hypotheses hold of [cfg4]: the callback panics on /r/A/c/y. *)
Definition trio (x : node * cbres) : string * option string * option string * cbres :=
  (n_path (fst x), option_map n_path (n_parent (fst x)),
   match n_parent (fst x) with Some d => option_map n_path (n_parent d) | None => None end, snd x).
Example c33_case :
  hooks_ok cfg4 /\ root_ok cfg4 (disk4 "/r") /\ default_skip cfg4 /\ plain cfg4 /\ c_sub cfg4 = SubUniversal /\ c_depth cfg4 = 0%N /\
  stable_sort cfg4 /\ clean (c_tree cfg4) = c_tree cfg4 /\ proper_names (disk4 (c_tree cfg4)) /\
  preorder (entries_all cfg4) [] (c_tree cfg4) (disk4 (c_tree cfg4)) places4 /\ tidy cfg4 unix_calc disk4 places4 /\
  map trio (calls (s_trace (snd (session cfg4 false (disk4 "/r"))))) =
    [("/r", None, None, CNil); ("/r/A", Some "/r", None, CNil); ("/r/A/c", Some "/r/A", Some "/r", CNil);
     ("/r/A/c/y", Some "/r/A/c", Some "/r/A", CPanic (PVal 1))] /\
  map n_path (visited (snd (spawn_session (with_client client_nil cfg4) false unix_calc disk4 saved4))) =
    ["/r/A/c"; "/r/A/c/y"; "/r/A/c/z"; "/r/A/x"; "/r/D"; "/r/D/w"; "/r/e"].
Proof.
  split; [exact (base_hooks _)|]. split; [reflexivity|]. split; [intros ? ? ?; reflexivity|]. split; [split; reflexivity|].
  split; [reflexivity|]. split; [reflexivity|]. split; [exact (base_stable _)|]. split; [vm_compute; reflexivity|].
  split; [exact proper4|]. split; [exact listed4|]. split; [exact tidy4|]. vm_compute. split; reflexivity.
Qed.

(** The same through the facade: Walk().Configure().Extent(Prime(...)).Navigate,
    the panic handler's file, and Walk().Configure().Extent(Resume(...)).Navigate
    with the same settings; with sampling or without ([reads]: c119_what_is_read). *)
Theorem c33_from_facade_to_facade_partial : forall env mt u ws sub cl,
  us_options u = None -> complete_facade u -> us_sub u = Some sub -> us_handler u = Some cl -> unfiltered ws ->
  let c := session_cfg env ws (us_tree u) sub cl (reads ws) None None in
  forall rs rl pc dk P r pre n dn g p a b,
  sub = SubUniversal -> hooks_sound ws -> undisturbed env ws (dk (us_tree u)) -> depth_asked ws = 0%N ->
  stable_sort c -> clean (us_tree u) = us_tree u -> proper_names (dk (us_tree u)) ->
  preorder (entries_all c) [] (us_tree u) (dk (us_tree u)) P -> tidy c pc dk P ->
  walk_prime env mt (FacUsing u) (options_of env ws) (dk (us_tree u)) = r ->
  calls (rp_trace r) = pre ++ [(n, CPanic p)] -> Forall (fun x => snd x = CNil) pre ->
  n_parent n = Some dn -> n_parent dn = Some g -> utf8 (us_tree u) -> utf8 (n_path dn) ->
  exists sv old m again new,
    rescues (rp_trace r) = [sv] /\
    P = map place_of (nodes_of r) ++ new /\ nodes_of r = old ++ m :: again /\ place_of m = place_of dn /\
    Forall (fun x => above (n_pos dn) (n_pos x) = true) again /\
    forall v, marshal (snd (build_prime env mt (FacUsing u) (options_of env ws))) (mkActive sv a b) None = (Some v, None) ->
    rs_file rs (re_from rl) = inl v -> forest_error rs (mkActive sv a b) = None ->
    re_strategy rl = StrategySpawn -> re_handler rl = Some client_nil ->
    let r2 := walk_resume env mt rs (FacRelic rl) (options_of env ws) pc dk in
    rr_outcome r2 = Ret None /\ rr_complete r2 = true /\
    map thing (map place_of (map fst (calls (rr_trace r2)))) = map thing (map place_of (m :: again) ++ new).
Proof. exact walk_spawn_recovers. Qed.
Print Assumptions c33_from_facade_to_facade_partial.
(** The document written for the session stopped at /r/A/c/y, read again. *)
Definition crash_facade : prime_facade := mkUsing "/r" (Some SubUniversal) (Some (answer "/r/A/c/y" (CPanic (PVal 1)))) None.
Definition saved_doc : option jv :=
  match rescues (rp_trace (walk_prime env0 mt0 (FacUsing crash_facade) (options_of env0 []) (disk4 "/r"))) with
  | sv :: _ => fst (marshal (snd (build_prime env0 mt0 (FacUsing crash_facade) (options_of env0 []))) (mkActive sv false false) None)
  | [] => None
  end.
Definition again_report (st : resume_strategy) : resume_report :=
  walk_resume env0 mt0 (mkRestore (fun _ => match saved_doc with Some v => inl v | None => inr err_json end) None)
    (FacRelic (mkRelic "saved.json" st (Some client_nil))) (options_of env0 []) unix_calc disk4.
Example c33_facade_case : complete_facade crash_facade /\ unfiltered [] /\ saved_doc <> None /\
  map n_path (map fst (calls (rr_trace (again_report StrategySpawn)))) =
    ["/r/A/c"; "/r/A/c/y"; "/r/A/c/z"; "/r/A/x"; "/r/D"; "/r/D/w"; "/r/e"] /\
  rr_complete (again_report StrategySpawn) = true.
Proof.
  split; [repeat split; discriminate|]. split; [repeat split|]. split; [vm_compute; discriminate|]. vm_compute. split; reflexivity.
Qed.

(** The claim as it stands is false. In any other tree nodes not yet visited are
    missed, with a result that says complete and no error... *)
Theorem c33_misses_refuted : exists c pc dk s sv s2 q,
  interrupted c pc dk s sv /\
  spawn_session (with_client client_nil c) false pc dk sv = (Ret None, true, s2) /\
  In q (map n_path (visited (snd (session (with_client client_nil c) false (dk (c_tree c)))))) /\
  ~ In q (map n_path (visited s)) /\ ~ In q (map n_path (visited s2)).
Proof. exact spawn_misses. Qed.
Print Assumptions c33_misses_refuted.
(** ... and nodes visited before are visited again, outside the directory of the
    panic. *)
Theorem c33_repeats_refuted : exists c pc dk s sv s2 q,
  interrupted c pc dk s sv /\
  spawn_session (with_client client_nil c) false pc dk sv = (Ret None, true, s2) /\
  In q (map n_path (visited s)) /\ In q (map n_path (visited s2)) /\ String.prefix (sv_path sv) q = false.
Proof. exact spawn_repeats. Qed.
Print Assumptions c33_repeats_refuted.
(** When the callback panicked on an entry of the tree's own directory, in any
    tree: a spawn resume visits nothing at all and says it is complete, a fastward
    resume panics. *)
Theorem c33_child_of_the_tree_refuted : forall c sampling pc dk o s pre n p P,
  let t := dk (c_tree c) in
  hooks_ok c -> root_ok c t -> default_skip c -> plain c -> c_sub c = SubUniversal -> c_depth c = 0%N ->
  clean (c_tree c) = c_tree c -> pc_base pc (c_tree c) = snd (split_path (c_tree c)) ->
  preorder (entries_all c) [] (c_tree c) t P ->
  session c sampling t = (o, s) -> calls (s_trace s) = pre ++ [(n, CPanic p)] ->
  Forall (fun x => snd x = CNil) pre -> length (n_pos n) = 1 ->
  exists sv missed, rescues (s_trace s) = [sv] /\ P = map place_of (visited s) ++ missed /\
    forall sv', sv_tree sv' = sv_tree sv -> sv_path sv' = sv_path sv ->
    (exists s2, spawn_session (with_client client_nil c) sampling pc dk sv' = (Ret None, true, s2) /\ visited s2 = []) /\
    (exists s2, fastward_session true (with_client client_nil c) sampling pc dk sv' = (Pan nil_deref, s2) /\ visited s2 = []).
Proof. exact root_child_crash. Qed.
Print Assumptions c33_child_of_the_tree_refuted.
Example c33_child_case :
  pc_base unix_calc "/r" = snd (split_path "/r") /\
  map (fun x => (n_path (fst x), n_pos (fst x), snd x)) (calls (s_trace (snd (session (crash "/r/A") false (disk4 "/r"))))) =
    [("/r", [], CNil); ("/r/A", [0], CPanic (PVal 1))].
Proof. vm_compute. split; reflexivity. Qed.

(** ** C34: what a spawn resume visits *)

(** [l] is the way up from the saved path to the tree; at every step the entries
    which follow in byte order ([followers]; at the first step the entry itself,
    too) with all below them. *)
Theorem c34_spawn_listing : forall c sampling pc dk, hooks_ok c -> default_skip c -> plain c -> nil_callback c ->
  forall sv l P,
  climb (sv_tree sv) (sv_path sv) l ->
  way_readable c dk l -> statable c dk l -> way_sound c pc dk l ->
  spawn_listing c (travelled c) dk true l P ->
  exists s, spawn_session c sampling pc dk sv = (Ret None, true, s) /\
    map place_of (visited s) = called_at c (sv_depth sv) P /\
    Forall (spawned_node c dk (sv_depth sv)) (visited s).
Proof. exact spawn_nil. Qed.
Print Assumptions c34_spawn_listing.
Theorem c34_such_a_listing_exists : forall c, hooks_ok c -> forall dk l own, exists P, spawn_listing c (travelled c) dk own l P.
Proof. exact (fun c HK => spawn_listing_exists c (travelled c) (travelled_kids c HK)). Qed.
Print Assumptions c34_such_a_listing_exists.
Example c34_case :
  climb "/r" "/r/A/c" [("/r/A", "c"); ("/r", "A")] /\
  way_readable cfg4 disk4 [("/r/A", "c"); ("/r", "A")] /\ statable cfg4 disk4 [("/r/A", "c"); ("/r", "A")] /\
  way_sound cfg4 unix_calc disk4 [("/r/A", "c"); ("/r", "A")] /\
  map fname (followers cfg4 disk4 true "/r/A" "c") = ["c"; "x"] /\ map fname (followers cfg4 disk4 false "/r" "A") = ["D"; "e"].
Proof.
  assert (PA : forall b, (if string_dec b "" then false else if string_dec b "." then false else if string_dec b ".." then false else negb (has_sep b)) = true -> proper b)
    by (intros b; apply default_proper).
  split.
  { change "/r/A/c" with (join "/r/A" "c"). constructor; [apply PA; reflexivity|vm_compute; discriminate|].
    change "/r/A" with (join "/r" "A"). constructor; [apply PA; reflexivity|vm_compute; discriminate|]. constructor. }
  split; [repeat constructor|]. split.
  { repeat constructor. }
  split; [|vm_compute; split; reflexivity].
  constructor; [|constructor; [|constructor]]; (split; [apply unix_sound; vm_compute; reflexivity|]);
    intros e H; vm_compute in H; repeat destruct H as [<-|H]; try contradiction; apply PA; reflexivity.
Qed.

(** ** C35: the metrics of a spawn resume *)

(** Compared with the same resume from a state whose metrics are all zero: the
    same happens, and every metric is the saved one more. (A metric of the filter
    which was saved as not zero is only added if there is a filter; a session
    never saves these as not zero.) *)
Theorem c35_saved_metrics_are_added : forall c sampling pc dk sv o ok s o0 ok0 s0,
  blind_to_metrics c ->
  spawn_session c sampling pc dk sv = (o, ok, s) ->
  spawn_session c sampling pc dk (with_metrics metrics0 sv) = (o0, ok0, s0) ->
  alike o o0 /\ ok = ok0 /\ calls (s_trace s) = calls (s_trace s0) /\
  forall k, count k (s_metrics s) =
    (if registered c k then count k (sv_metrics sv) else 0) + count k (s_metrics s0).
Proof. exact spawn_adds. Qed.
Print Assumptions c35_saved_metrics_are_added.
(** What is added to the invocations are the callbacks made, whatever the callback
    does; and the result is complete exactly if the tree was reached without an
    error. *)
Theorem c35_callbacks_are_counted : forall c sampling pc dk sv o ok s,
  spawn_session c sampling pc dk sv = (o, ok, s) ->
  m_files (s_metrics s) = m_files (sv_metrics sv) + file_calls (s_trace s) /\
  m_dirs (s_metrics s) = m_dirs (sv_metrics sv) + dir_calls (s_trace s) /\
  (ok = true <-> o = Ret None).
Proof. exact spawn_counts. Qed.
Print Assumptions c35_callbacks_are_counted.
Example c35_case : blind_to_metrics calm_cfg /\
  (let '(o, ok, s) := spawn_session calm_cfg false unix_calc disk4 (with_metrics (mkMetrics 7 0 5 0 3 0) saved4) in
   o = Ret None /\ ok = true /\ s_metrics s = mkMetrics 12 0 7 0 3 0) /\
  (let '(o, ok, s) := spawn_session calm_cfg false unix_calc disk4 (with_metrics metrics0 saved4) in s_metrics s = mkMetrics 5 0 2 0 0 0).
Proof. split; [intros tr tr' n _; reflexivity|]. vm_compute. auto. Qed.

(** ** C36: fastward *)

(** Any callback (a function [g] of the calls so far), any features: the calls of
    a fastward resume are those, from the saved node on, of an ordinary session
    whose callback does nothing before this node is met. Missing for the full
    claim: a saved path in a directory with the path "."; a node named as the tree
    (both refuted below). *)
Theorem c36_fastward_is_the_rest_partial : forall c sampling pc dk sv g o1 s1 o2 s2,
  filter_ok c -> c_tree c = sv_tree sv ->
  let d := pc_dir pc (sv_path sv) in
  let b := pc_base pc (sv_path sv) in
  d <> "." -> b <> "" -> b <> snd (split_path (sv_tree sv)) ->
  (forall tr n, c_client c tr n = g (calls tr) n) ->
  fastward_session true c sampling pc dk sv = (o1, s1) ->
  session (with_client (waking (node_is d b) g) c) sampling (dk (sv_tree sv)) = (o2, s2) ->
  let met := from_first (calls_node (node_is d b)) (s_trace s2) in
  alike o1 o2 /\
  calls (s_trace s1) = from_first (fun x => node_is d b (fst x)) (calls (s_trace s2)) /\
  without is_end_notice (seen (s_trace s1)) = without is_end_notice (without is_wake (seen met)) /\
  filter is_end_notice (s_trace s1) =
    (if (match met with [] => false | _ => true end) && returned o1 then [EvEnd (s_metrics s1)] else []) /\
  m_files_out (s_metrics s1) = m_files_out (s_metrics s2) /\ m_dirs_out (s_metrics s1) = m_dirs_out (s_metrics s2) /\
  m_child (s_metrics s1) = m_child (s_metrics s2) /\ m_child_out (s_metrics s1) = m_child_out (s_metrics s2).
Proof. exact fastward_locked. Qed.
Print Assumptions c36_fastward_is_the_rest_partial.
(** With a callback which returns nil: the listing of the tree from the saved path on. *)
Theorem c36_fastward_listing_partial : forall c sampling pc dk sv d b P,
  let t := dk (sv_tree sv) in
  hooks_ok c -> root_ok c t -> default_skip c -> plain c -> nil_callback c ->
  c_tree c = sv_tree sv -> clean (sv_tree sv) = sv_tree sv -> proper_names t ->
  sv_path sv = join d b -> sound_at pc d -> proper b -> d <> "." -> b <> snd (split_path (sv_tree sv)) ->
  preorder (travelled c) [] (sv_tree sv) t P ->
  exists s, fastward_session true c sampling pc dk sv = (Ret None, s) /\
    map place_of (visited s) = from_first (fun p => String.eqb (pl_path p) (sv_path sv)) (called_at c 0 P).
Proof. exact fastward_nil. Qed.
Print Assumptions c36_fastward_listing_partial.
(** After a panic: the directory of the panic, what had been visited below it, and
    everything not yet visited; in any order of the entries. *)
Theorem c36_fastward_visits_the_rest_partial : forall c sampling pc dk o s pre n dn g p P,
  let t := dk (c_tree c) in
  hooks_ok c -> root_ok c t -> default_skip c -> plain c -> c_sub c <> SubFiles ->
  clean (c_tree c) = c_tree c -> proper_names t ->
  preorder (entries c) [] (c_tree c) t P ->
  session c sampling t = (o, s) -> calls (s_trace s) = pre ++ [(n, CPanic p)] ->
  Forall (fun x => snd x = CNil) pre ->
  n_parent n = Some dn -> n_parent dn = Some g ->
  n_name dn <> snd (split_path (c_tree c)) -> n_path g <> "." -> sound_at pc (n_path g) ->
  distinct_names c (c_tree c) t ->
  exists sv old m again new,
    rescues (s_trace s) = [sv] /\ sv_tree sv = c_tree c /\ sv_path sv = n_path dn /\
    filter (within (c_depth c) 0) P = map place_of (visited s) ++ new /\
    visited s = old ++ m :: again /\ place_of m = place_of dn /\
    Forall (fun x => above (n_pos dn) (n_pos x) = true) again /\
    forall sv', sv_tree sv' = sv_tree sv -> sv_path sv' = sv_path sv ->
    exists s2, fastward_session true (with_client client_nil c) sampling pc dk sv' = (Ret None, s2) /\
      map place_of (visited s2) = map place_of (m :: again) ++ new.
Proof. exact fastward_recovers. Qed.
Print Assumptions c36_fastward_visits_the_rest_partial.
Theorem c36_from_facade_to_facade_partial : forall env mt u ws sub cl,
  us_options u = None -> complete_facade u -> us_sub u = Some sub -> us_handler u = Some cl -> unfiltered ws ->
  let c := session_cfg env ws (us_tree u) sub cl (reads ws) None None in
  forall rs rl pc dk P r pre n dn g p a b,
  sub <> SubFiles -> hooks_sound ws -> undisturbed env ws (dk (us_tree u)) ->
  clean (us_tree u) = us_tree u -> proper_names (dk (us_tree u)) ->
  preorder (entries c) [] (us_tree u) (dk (us_tree u)) P ->
  distinct_names c (us_tree u) (dk (us_tree u)) ->
  walk_prime env mt (FacUsing u) (options_of env ws) (dk (us_tree u)) = r ->
  calls (rp_trace r) = pre ++ [(n, CPanic p)] -> Forall (fun x => snd x = CNil) pre ->
  n_parent n = Some dn -> n_parent dn = Some g ->
  n_name dn <> snd (split_path (us_tree u)) -> n_path g <> "." -> sound_at pc (n_path g) ->
  utf8 (us_tree u) -> utf8 (n_path dn) ->
  exists sv old m again new,
    rescues (rp_trace r) = [sv] /\
    filter (within (depth_asked ws) 0) P = map place_of (nodes_of r) ++ new /\
    nodes_of r = old ++ m :: again /\ place_of m = place_of dn /\
    Forall (fun x => above (n_pos dn) (n_pos x) = true) again /\
    forall v, marshal (snd (build_prime env mt (FacUsing u) (options_of env ws))) (mkActive sv a b) None = (Some v, None) ->
    rs_file rs (re_from rl) = inl v -> forest_error rs (mkActive sv a b) = None ->
    re_strategy rl = StrategyFastward -> re_handler rl = Some client_nil ->
    let r2 := walk_resume env mt rs (FacRelic rl) (options_of env ws) pc dk in
    rr_outcome r2 = Ret None /\ rr_complete r2 = true /\
    map place_of (map fst (calls (rr_trace r2))) = map place_of (m :: again) ++ new.
Proof. exact walk_fastward_recovers. Qed.
Print Assumptions c36_from_facade_to_facade_partial.
(** [distinct_names] of the tree of c33_case. *)
Lemma listed_distinct : forall c root t P, preorder (entries c) [] root t P ->
  Forall (fun q => NoDup (map fname (entries c (pl_path q) (pl_obj q)))) P -> distinct_names c root t.
Proof.
  intros c root t P HP F q R. rewrite Forall_forall in F. apply F.
  destruct (preorder_characterised _ _ _ _ HP) as [RP _]. apply RP. exact R.
Qed.
Example c36_distinct_case : distinct_names cfg4 "/r" tree4.
Proof.
  apply (listed_distinct cfg4 "/r" tree4 places4); [exact listed4|].
  apply Forall_forall. intros q Hq. repeat (destruct Hq as [<-|Hq]; [vm_compute; repeat constructor; cbn; intuition discriminate|]).
  destruct Hq.
Qed.
Example c36_case :
  pc_dir unix_calc "/r/A/c" = "/r/A" /\ pc_base unix_calc "/r/A/c" = "c" /\ snd (split_path "/r") = "r" /\
  sound_at unix_calc "/r/A" /\ filter_ok calm_cfg /\
  map n_path (visited (snd (fastward_session true calm_cfg false unix_calc disk4 saved4))) =
    ["/r/A/c"; "/r/A/c/y"; "/r/A/c/z"; "/r/A/x"; "/r/D"; "/r/D/w"; "/r/e"] /\
  map n_path (map fst (calls (rr_trace (again_report StrategyFastward)))) =
    ["/r/A/c"; "/r/A/c/y"; "/r/A/c/z"; "/r/A/x"; "/r/D"; "/r/D/w"; "/r/e"].
Proof.
  split; [vm_compute; reflexivity|]. split; [vm_compute; reflexivity|]. split; [vm_compute; reflexivity|].
  split; [apply unix_sound; vm_compute; reflexivity|]. split; [split; discriminate|].
  vm_compute. split; reflexivity.
Qed.
(** A relative tree ".": a node with the name of the saved one, in any other
    directory, starts the callbacks too early. *)
Theorem c36_relative_tree_refuted : exists c pc dk s sv s2 q,
  interrupted c pc dk s sv /\ c_tree c = "." /\
  fastward_session true (with_client client_nil c) false pc dk sv = (Ret None, s2) /\
  In q (map n_path (visited s)) /\ In q (map n_path (visited s2)) /\ q <> sv_path sv /\ String.prefix (sv_path sv ++ "/") q = false.
Proof. exact dot_repeats. Qed.
Print Assumptions c36_relative_tree_refuted.
(** A saved path whose last element is that of the tree: a nil dereference. *)
Theorem c36_name_of_the_tree_refuted : forall c sampling pc dk sv,
  plain c -> c_sub c = SubUniversal \/ c_sub c = SubDirectories -> c_depth c = 0%N -> root_ok c (dk (sv_tree sv)) ->
  pc_base pc (sv_path sv) = snd (split_path (sv_tree sv)) ->
  exists s, fastward_session true c sampling pc dk sv = (Pan nil_deref, s) /\ calls (s_trace s) = [] /\ notices (s_trace s) = [].
Proof. exact fastward_root. Qed.
Print Assumptions c36_name_of_the_tree_refuted.
Example c36_name_case : plain calm_cfg /\ c_sub calm_cfg = SubUniversal /\ root_ok calm_cfg (disk4 "/r") /\
  pc_base unix_calc "/r/x/r" = snd (split_path "/r").
Proof. repeat split. Qed.

(** ** C37: notifications of a fastward resume *)

(** None before the saved node is met; from then on (the first callback on)
    exactly those of the ordinary session, in the same order between the same
    callbacks, with the one End. *)
Theorem c37_notifications_from_the_resume_point : forall c sampling pc dk sv g o1 s1 o2 s2,
  filter_ok c -> c_tree c = sv_tree sv ->
  let d := pc_dir pc (sv_path sv) in
  let b := pc_base pc (sv_path sv) in
  d <> "." -> b <> "" -> b <> snd (split_path (sv_tree sv)) ->
  (forall tr n, c_client c tr n = g (calls tr) n) ->
  fastward_session true c sampling pc dk sv = (o1, s1) ->
  session (with_client (waking (node_is d b) g) c) sampling (dk (sv_tree sv)) = (o2, s2) ->
  let met := from_first (calls_node (node_is d b)) (s_trace s2) in
  alike o1 o2 /\
  without is_end_notice (seen (s_trace s1)) = without is_end_notice (seen met) /\
  length (filter is_end_notice (s_trace s1)) = length (filter is_end_notice met).
Proof. exact fastward_notices. Qed.
Print Assumptions c37_notifications_from_the_resume_point.
(** An ordinary session, hibernating until A is met, and the fastward resume from A. *)
Example c37_case :
  kinds (s_trace (snd (session (wake_cfg client_nil) false tree8))) =
    [("begin", "/r"); ("descend", "/r"); ("descend", "/r/A"); ("wake", ""); ("call", "/r/A"); ("descend", "/r/A/c");
     ("call", "/r/A/c"); ("descend", "/r/A/c/y"); ("call", "/r/A/c/y"); ("ascend", "/r/A/c/y"); ("ascend", "/r/A/c");
     ("ascend", "/r/A"); ("ascend", "/r"); ("end", "")] /\
  kinds (s_trace (snd (fastward_session true (wake_cfg client_nil) false unix_calc (disk_of "/r" tree8) (saved8 "/r/A")))) =
    [("call", "/r/A"); ("descend", "/r/A/c");
     ("call", "/r/A/c"); ("descend", "/r/A/c/y"); ("call", "/r/A/c/y"); ("ascend", "/r/A/c/y"); ("ascend", "/r/A/c");
     ("ascend", "/r/A"); ("ascend", "/r"); ("end", "")].
Proof. exact wake_lost. Qed.

(** ** C50: the resume facade *)

(** A facade of the wrong kind, a file which cannot be read, a file system of the
    wrong kind, a failing setting: Navigate returns the error and nothing happens. *)
Theorem c50_resume_refusals : forall env mt rs ss pc dk,
  (forall u, walk_resume env mt rs (FacUsing u) ss pc dk = mkResumeReport (Ret (Some err_wrong_resume)) [] None false) /\
  (forall r e, rs_file rs (re_from r) = inr e ->
     walk_resume env mt rs (FacRelic r) ss pc dk = mkResumeReport (Ret (Some e)) [] None false) /\
  (forall r o a v e, Forall utf8 (option_texts o) -> utf8 (sv_tree (ac_saved a)) -> utf8 (sv_path (ac_saved a)) ->
     marshal o a None = (Some v, None) -> rs_file rs (re_from r) = inl v -> snd (apply ss (carried env o)) = None ->
     forest_error rs a = Some e ->
     walk_resume env mt rs (FacRelic r) ss pc dk = mkResumeReport (Ret (Some e)) [] None false) /\
  (forall r o a v e, Forall utf8 (option_texts o) -> utf8 (sv_tree (ac_saved a)) -> utf8 (sv_path (ac_saved a)) ->
     marshal o a None = (Some v, None) -> rs_file rs (re_from r) = inl v -> snd (apply ss (carried env o)) = Some e ->
     walk_resume env mt rs (FacRelic r) ss pc dk = mkResumeReport (Ret (Some e)) [] None false).
Proof. exact resume_refusals. Qed.
Print Assumptions c50_resume_refusals.
(** A resume facade is not validated at all. *)
Theorem c50_incomplete_relic_refuted : exists env mt rs r ss c sampling sv,
  re_from r = "" /\ re_strategy r = StrategyUndefined /\ re_handler r = None /\
  build_resume env mt rs (FacRelic r) ss = ResumeReady c sampling sv.
Proof. exact incomplete_relic. Qed.
Print Assumptions c50_incomplete_relic_refuted.

(** ** C69: skip requests in a resumed session *)

(** Refuted for spawn: SkipDir on a spawned entry ends the session with this
    error, and what comes after is not visited. (For fastward: c36, whose callback
    is any function.) *)
Theorem c69_skip_ends_a_spawn_resume_refuted : exists c c0 pc dk sv s0 s1 s2 q,
  interrupted c0 pc dk s0 sv /\ (forall tr n, In (c_client c tr n) [CNil; CErr (Err SkipDir)]) /\
  session c false (dk (c_tree c)) = (Ret None, s1) /\ In q (map n_path (visited s1)) /\ ~ In q (map n_path (visited s0)) /\
  spawn_session c false pc dk sv = (Ret (Some (Err SkipDir)), false, s2) /\ ~ In q (map n_path (visited s2)).
Proof. exact spawn_skip_aborts. Qed.
Print Assumptions c69_skip_ends_a_spawn_resume_refuted.

(** ** C70: a resume with no strategy *)
Theorem c70_undefined_strategy : forall c sampling pc dk sv g o1 s1 o2 s2,
  filter_ok c -> c_tree c = sv_tree sv ->
  (forall tr n, c_client c tr n = g (calls tr) n) ->
  fastward_session false c sampling pc dk sv = (o1, s1) ->
  session c sampling (dk (sv_tree sv)) = (o2, s2) ->
  alike o1 o2 /\ calls (s_trace s1) = calls (s_trace s2) /\ s_metrics s1 = s_metrics s2 /\ notices (s_trace s1) = [].
Proof. exact undefined_locked. Qed.
Print Assumptions c70_undefined_strategy.
Example c70_case :
  map n_path (map fst (calls (rr_trace (again_report StrategyUndefined)))) =
    ["/r"; "/r/A"; "/r/A/c"; "/r/A/c/y"; "/r/A/c/z"; "/r/A/x"; "/r/D"; "/r/D/w"; "/r/e"] /\
  rr_complete (again_report StrategyUndefined) = true.
Proof. vm_compute. split; reflexivity. Qed.

(** ** C71: fastward resume of a files subscription *)
Theorem c71_files_fastward_is_silent : forall c sampling pc dk sv dn gn g o s,
  let t := dk (sv_tree sv) in
  hooks_ok c -> root_ok c t -> default_skip c -> plain c -> c_sub c = SubFiles ->
  c_tree c = sv_tree sv -> clean (sv_tree sv) = sv_tree sv -> proper_names t ->
  distinct_names c (sv_tree sv) t ->
  (forall tr n, c_client c tr n = g (calls tr) n) ->
  stands c (entries c) (sv_tree sv) (sv_tree sv) t 0 dn -> n_parent dn = Some gn -> fisdir (n_src dn) = true ->
  sv_path sv = n_path dn -> sound_at pc (n_path gn) -> n_path gn <> "." -> n_name dn <> snd (split_path (sv_tree sv)) ->
  fastward_session true c sampling pc dk sv = (o, s) ->
  visited s = [] /\ notices (s_trace s) = [].
Proof. exact files_fastward_silent. Qed.
Print Assumptions c71_files_fastward_is_silent.
Example c71_distinct_case : distinct_names (base_cfg SubFiles) "/r" tree4.
Proof.
  apply (listed_distinct (base_cfg SubFiles) "/r" tree4 places4); [exact listed4|].
  apply Forall_forall. intros q Hq. repeat (destruct Hq as [<-|Hq]; [vm_compute; repeat constructor; cbn; intuition discriminate|]).
  destruct Hq.
Qed.
Example c71_case :
  map n_path (visited (snd (session (base_cfg SubFiles) false tree4))) = ["/r/A/c/y"; "/r/A/c/z"; "/r/A/x"; "/r/D/w"; "/r/e"] /\
  map n_path (visited (snd (fastward_session true (base_cfg SubFiles) false unix_calc disk4
    (mkSaved "/r" "/r/A/c" true 2 SubFiles metrics0)))) = [].
Proof. vm_compute. split; reflexivity. Qed.

(** ** C72: depth and parent of the nodes of a spawn resume *)
(** As [c34_spawn_listing] says, the spawned entries know no parent and have the
    saved depth, on whatever level they are. *)
Theorem c72_nodes_differ_refuted : exists c pc dk s0 sv s1 s2 n1 n2,
  interrupted c pc dk s0 sv /\
  session (with_client client_nil c) false (dk (c_tree c)) = (Ret None, s1) /\
  spawn_session (with_client client_nil c) false pc dk sv = (Ret None, true, s2) /\
  In n1 (visited s1) /\ In n2 (visited s2) /\ n_path n1 = n_path n2 /\
  n_depth n1 <> n_depth n2 /\ n_parent n1 <> None /\ n_parent n2 = None.
Proof. exact spawned_stand_differently. Qed.
Print Assumptions c72_nodes_differ_refuted.

(** ** C73: the metrics of a fastward resume *)
Theorem c73_fastward_counts_its_own : forall linked c sampling pc dk sv o s,
  fastward_session linked c sampling pc dk sv = (o, s) ->
  m_files (s_metrics s) = file_calls (s_trace s) /\ m_dirs (s_metrics s) = dir_calls (s_trace s).
Proof. exact fastward_counts. Qed.
Print Assumptions c73_fastward_counts_its_own.
Example c73_case :
  s_metrics (snd (fastward_session true calm_cfg false unix_calc disk4 (with_metrics (mkMetrics 7 0 5 0 3 0) saved4))) = mkMetrics 5 0 2 0 0 0.
Proof. vm_compute. reflexivity. Qed.

(** ** C74: how a resumed session is configured *)
Theorem c74_resumed_as_prime : forall env mt rs r o a v ws,
  Forall utf8 (option_texts o) -> utf8 (sv_tree (ac_saved a)) -> utf8 (sv_path (ac_saved a)) ->
  sv_tree (ac_saved a) <> "" ->
  marshal o a None = (Some v, None) -> rs_file rs (re_from r) = inl v -> forest_error rs a = None ->
  build_resume env mt rs (FacRelic r) (options_of env ws) =
  resumed (ac_saved (kept_state a))
    (fst (build_prime env mt
            (FacUsing (mkUsing (sv_tree (ac_saved a)) (Some (sv_sub (ac_saved a))) (Some (client_of (re_handler r))) None))
            (options_of env (restored o ++ ws)))).
Proof. exact resumed_as_prime. Qed.
Print Assumptions c74_resumed_as_prime.
Example c74_case : forest_error (mkRestore (fun _ => inl rel_doc) None) rel_state = None /\
  marshal (default_options env0) rel_state None = (Some rel_doc, None) /\
  Forall utf8 (option_texts (default_options env0)).
Proof. split; [reflexivity|]. split; [vm_compute; reflexivity|]. constructor. Qed.

(** ** C84: directories a spawn resume cannot read *)

(** On the way from the saved path up to the tree ([climb]) one directory, [d],
    cannot be read: the session ends with the error, after what was to be visited
    below it. *)
Theorem c84_unreadable_on_the_way : forall c sampling pc dk, hooks_ok c -> default_skip c -> plain c -> nil_callback c ->
  forall sv l1 d b l2 e P,
  climb (sv_tree sv) (sv_path sv) (l1 ++ (d, b) :: l2) ->
  way_readable c dk l1 -> statable c dk l1 -> way_sound c pc dk (l1 ++ (d, b) :: l2) ->
  snd (c_read c d (dk d)) = Some e ->
  spawn_listing c (travelled c) dk true l1 P ->
  exists s, spawn_session c sampling pc dk sv = (Ret (Some e), false, s) /\
    map place_of (visited s) = called_at c (sv_depth sv) P.
Proof. exact spawn_stops. Qed.
Print Assumptions c84_unreadable_on_the_way.
(** Whatever the options and the callback: if the resume ends without an error all
    of them could be read. *)
Theorem c84_no_error_means_all_read : forall c sampling pc dk sv l ok s,
  climb (sv_tree sv) (sv_path sv) l -> Forall (fun x => sound_at pc (fst x)) l ->
  spawn_session c sampling pc dk sv = (Ret None, ok, s) ->
  Forall (fun x => snd (c_read c (fst x) (dk (fst x))) = None) l.
Proof. exact spawn_read. Qed.
Print Assumptions c84_no_error_means_all_read.
(** /r cannot be read. *)
Definition barred : cfg :=
  with_read (fun p t => if String.eqb p "/r" then ([], Some err_nil_forest) else default_read p t) (with_client client_nil cfg4).
Example c84_case :
  hooks_ok barred /\ default_skip barred /\ plain barred /\ nil_callback barred /\
  climb "/r" "/r/A/c" ([("/r/A", "c")] ++ ("/r", "A") :: []) /\
  way_readable barred disk4 [("/r/A", "c")] /\ statable barred disk4 [("/r/A", "c")] /\
  way_sound barred unix_calc disk4 ([("/r/A", "c")] ++ ("/r", "A") :: []) /\
  snd (c_read barred "/r" (disk4 "/r")) = Some err_nil_forest /\
  (let '(o, ok, s) := spawn_session barred false unix_calc disk4 (mkSaved "/r" "/r/A/c" true 1 SubUniversal metrics0) in
   o = Ret (Some err_nil_forest) /\ map n_path (visited s) = ["/r/A/c"; "/r/A/c/y"; "/r/A/c/z"; "/r/A/x"]).
Proof.
  assert (PA : forall b, (if string_dec b "" then false else if string_dec b "." then false else if string_dec b ".." then false else negb (has_sep b)) = true -> proper b)
    by (intros b; apply default_proper).
  split.
  { split; [|apply (proj2 (base_hooks SubUniversal))]. intros p t e H.
    assert (X : c_read barred p t = if String.eqb p "/r" then ([], Some err_nil_forest) else default_read p t) by reflexivity.
    rewrite X in H. destruct (String.eqb p "/r"); [contradiction|]. exact (proj1 (base_hooks SubUniversal) p t e H). }
  split; [intros ? ? ?; reflexivity|]. split; [split; reflexivity|]. split; [intros ? ?; reflexivity|]. split.
  { cbn [app]. change "/r/A/c" with (join "/r/A" "c"). constructor; [apply PA; reflexivity|vm_compute; discriminate|].
    change "/r/A" with (join "/r" "A"). constructor; [apply PA; reflexivity|vm_compute; discriminate|]. constructor. }
  split; [repeat constructor|]. split; [repeat constructor|]. split.
  { constructor; [|constructor; [|constructor]]; (split; [apply unix_sound; vm_compute; reflexivity|]);
    intros e H; vm_compute in H; repeat destruct H as [<-|H]; try contradiction; apply PA; reflexivity. }
  split; [reflexivity|]. vm_compute. auto.
Qed.
