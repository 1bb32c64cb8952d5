(** Properties C01-C16, C18, C19, C54-C56: traversals. Vocabulary: Spec.v. *)
From Verif Require Import Base Paths Level Kernel Defaults Session Spec JournalFacts RescueFacts FilesFacts
  WalkCor PathFacts WalkProps ParentFacts ReadFacts Cases CasesFacts WalkRefuted.
From Coq Require Import Permutation Sorted.
Local Open Scope string_scope.

(** The hypotheses used below, on a concrete configuration (default hooks). *)
Example ordinary_configuration : forall sub,
  hooks_ok (base_cfg sub) /\ root_ok (base_cfg sub) tree1 /\ default_skip (base_cfg sub) /\
  plain (base_cfg sub) /\ nil_callback (base_cfg sub) /\ filter_ok (base_cfg sub).
Proof.
  intro sub. repeat split; try reflexivity; try apply base_hooks; try discriminate.
  all: intros; discriminate.
Qed.

(** *** C01 *)
(** The universal walk with a nil callback visits exactly the listing [P] of the
    tree, once each, in this order, and Navigate returns nil. *)
Theorem c01_universal_walk_is_preorder : forall c sampling t P,
  hooks_ok c -> root_ok c t -> default_skip c -> plain c -> nil_callback c ->
  c_sub c = SubUniversal -> c_depth c = 0%N ->
  preorder (entries_all c) [] (c_tree c) t P ->
  exists s, session c sampling t = (Ret None, s) /\ map place_of (visited s) = P.
Proof. exact universal_all. Qed.
Print Assumptions c01_universal_walk_is_preorder.

(** That listing exists; it holds exactly the objects reachable from the root,
    each position once, parents before children, earlier entries before later
    ones. *)
Theorem c01_listing_is_exact : forall c, hooks_ok c -> forall t,
  exists P, preorder (entries_all c) [] (c_tree c) t P /\
    (forall p, In p P <-> reachable (entries_all c) (c_tree c) t p) /\
    StronglySorted before (map pl_pos P) /\ NoDup (map pl_pos P).
Proof. exact listing_exact. Qed.
Print Assumptions c01_listing_is_exact.

(** The entries travelled are exactly the entries read. *)
Theorem c01_entries_are_those_read : forall c, hooks_ok c -> forall p t, fisdir t = true ->
  Permutation (entries_all c p t) (fst (c_read c p t)).
Proof. exact entries_perm. Qed.
Print Assumptions c01_entries_are_those_read.

Example c01_case : paths (session (base_cfg SubUniversal) false tree1) =
  ["/r"; "/r/A"; "/r/A/B"; "/r/A/B/y"; "/r/A/x"; "/r/b"; "/r/c"; "/r/Z"].
Proof. vm_compute. reflexivity. Qed.

(** *** C02 *)
Theorem c02_subscriptions_are_projections : forall c sampling t,
  hooks_ok c -> root_ok c t -> default_skip c -> plain c -> nil_callback c ->
  fisdir t = true -> readable_all c ->
  exists sU sF sD,
    session (with_sub SubUniversal c) sampling t = (Ret None, sU) /\
    session (with_sub SubFiles c) sampling t = (Ret None, sF) /\
    session (with_sub SubDirectories c) sampling t = (Ret None, sD) /\
    map (fun n => spot (place_of n)) (visited sF) =
      map (fun n => spot (place_of n)) (filter (fun n => negb (fisdir (n_src n))) (visited sU)) /\
    map (fun n => spot (place_of n)) (visited sD) =
      map (fun n => spot (place_of n)) (filter (fun n => fisdir (n_src n)) (visited sU)).
Proof. exact projections. Qed.
Print Assumptions c02_subscriptions_are_projections.

(** readable_all holds of a read hook that never fails *)
Example c02_case : readable_all (with_read (fun _ t => (fkids t, None)) (base_cfg SubFiles)) /\
  paths (session (with_read (fun _ t => (fkids t, None)) (base_cfg SubFiles)) false tree1) =
    ["/r/A/B/y"; "/r/A/x"; "/r/c"; "/r/Z"] /\
  paths (session (with_read (fun _ t => (fkids t, None)) (base_cfg SubDirectories)) false tree1) =
    ["/r"; "/r/A"; "/r/A/B"; "/r/b"].
Proof. repeat split; vm_compute; reflexivity. Qed.

(** *** C03 *)
(** Every node passed to the callback, whatever the callback and the features
    do, stands rightly for its file system object (see [stands]): path, parent,
    depth, leaf, scope, name and sub path. *)
Theorem c03_node_metadata : forall c sampling t o s,
  hooks_ok c -> root_ok c t -> session c sampling t = (o, s) ->
  Forall (stands c (entries c) (c_tree c) (c_tree c) t 0) (visited s).
Proof. exact visited_stands. Qed.
Print Assumptions c03_node_metadata.

(** For a clean tree path and ordinary names the path of a node is its parent's
    path, a separator and the entry's name; Extension.Name is that name. *)
Theorem c03_paths : forall c sampling t o s, hooks_ok c -> root_ok c t ->
  clean (c_tree c) = c_tree c -> proper_names t -> session c sampling t = (o, s) ->
  Forall (fun n => forall p, n_parent n = Some p ->
     n_path n = below_path (n_path p) (fname (n_src n)) /\ n_name n = fname (n_src n)) (visited s).
Proof. exact visited_paths. Qed.
Print Assumptions c03_paths.

(** The depth of a node is the number of edges from the root. *)
Theorem c03_depth : forall c es tree root t base n, stands c es tree root t base n ->
  n_depth n = (base + Z.of_nat (length (n_pos n)))%Z.
Proof. exact stands_depth. Qed.
Print Assumptions c03_depth.

Example c03_case :
  map (fun n => (n_path n, n_depth n, n_leaf n, n_scope n, n_name n, n_subpath n))
    (visited (snd (session (base_cfg SubUniversal) false tree1))) =
  [("/r", 0%Z, false, (ScopeTree + ScopeDirectory)%N, "r", "");
   ("/r/A", 1%Z, false, (ScopeTop + ScopeDirectory)%N, "A", "/");
   ("/r/A/B", 2%Z, true, (ScopeLeaf + ScopeDirectory)%N, "B", "/A/");
   ("/r/A/B/y", 3%Z, false, (ScopeLeaf + ScopeFile)%N, "y", "/A/B/");
   ("/r/A/x", 2%Z, false, (ScopeLeaf + ScopeFile)%N, "x", "/A/");
   ("/r/b", 1%Z, true, (ScopeTop + ScopeLeaf + ScopeDirectory)%N, "b", "/");
   ("/r/c", 1%Z, false, (ScopeLeaf + ScopeFile)%N, "c", "/");
   ("/r/Z", 1%Z, false, (ScopeLeaf + ScopeFile)%N, "Z", "/")].
Proof. vm_compute. reflexivity. Qed.
Example c03_paths_case : clean "/r" = "/r" /\ proper_names tree1.
Proof.
  split; [reflexivity|].
  repeat (constructor; cbn; intros e H; repeat (destruct H as [H|H]; [subst e; split; [repeat split; discriminate|]|]); try contradiction).
Qed.

(** *** C04 *)
(** Universal and Directories subscriptions, a callback which may look at the
    whole history and answers nil or a skip: visited is exactly the listing
    without what lies below a node for which a skip was answered. *)
Theorem c04_skip_prunes_exactly_the_subtree : forall c sampling t P,
  hooks_ok c -> root_ok c t -> default_skip c -> plain c -> c_sub c <> SubFiles ->
  (forall tr n, is_end (c_client c tr n) = false) ->
  preorder (entries c) [] (c_tree c) t P ->
  exists o s, session c sampling t = (o, s) /\
    map place_of (visited s) =
      filter (fun p => negb (below_skip (calls (s_trace s)) p)) (filter (within (c_depth c) 0) P) /\
    (o = Ret None \/
     exists n e, calls (s_trace s) = [(n, CErr e)] /\ n_pos n = [] /\ is_skip_error e = true /\ o = Ret (Some e)).
Proof. exact skips_prune. Qed.
Print Assumptions c04_skip_prunes_exactly_the_subtree.

Example c04_case :
  let c := with_client (answer "/r/A" (CErr (Wrap 3 [Err SkipDir]))) (base_cfg SubUniversal) in
  (forall tr n, is_end (c_client c tr n) = false) /\
  fst (session c false tree1) = Ret None /\ paths (session c false tree1) = ["/r"; "/r/A"; "/r/b"; "/r/c"; "/r/Z"].
Proof.
  split; [|split; vm_compute; reflexivity]. intros tr n. cbn. unfold answer.
  destruct (String.eqb (n_path n) "/r/A"); reflexivity.
Qed.

(** *** C05: refuted, for every subscription. The callback answers fs.SkipAll,
    yet another callback follows. *)
Theorem c05_skip_all_does_not_stop_refuted : forall sub, exists c t o s n1 n2 i j,
  c_sub c = sub /\ hooks_ok c /\ root_ok c t /\ default_skip c /\ plain c /\
  session c false t = (o, s) /\ i < j /\
  nth_error (calls (s_trace s)) i = Some (n1, CErr (Err SkipAll)) /\
  nth_error (calls (s_trace s)) j = Some (n2, CNil).
Proof. exact skip_all_goes_on. Qed.
Print Assumptions c05_skip_all_does_not_stop_refuted.

(** *** C54: what SkipAll does. Universal and Directories: exactly what SkipDir
    does, [c04_skip_prunes_exactly_the_subtree] covers both. Files: the rest of
    the directory of the file is cut off, including its sub directories when
    these come later; everything else is visited. *)
Theorem c54_skip_all_from_a_file_cuts_its_directory : forall c sampling t P,
  hooks_ok c -> root_ok c t -> default_skip c -> plain c -> c_sub c = SubFiles ->
  (forall tr n, is_end_files (c_client c tr n) = false) ->
  preorder (entries_files c) [] (c_tree c) t P ->
  exists o s, session c sampling t = (o, s) /\
    map place_of (visited s) =
      filter (fun p => negb (cut_off (calls (s_trace s)) p)) (filter is_file_place (filter (within (c_depth c) 0) P)) /\
    (o = Ret None \/ exists n e, o = Ret (Some e) /\ last (calls (s_trace s)) (n, CNil) = (n, CErr e)).
Proof. exact files_cut. Qed.
Print Assumptions c54_skip_all_from_a_file_cuts_its_directory.

Example c54_case :
  let c := with_client (answer "/r/A/B/y" (CErr (Err SkipAll))) (base_cfg SubFiles) in
  (forall tr n, is_end_files (c_client c tr n) = false) /\
  paths (session c false tree3) = ["/r/A/B/y"; "/r/A/x"; "/r/c"; "/r/Z"].
Proof.
  split; [|vm_compute; reflexivity]. intros tr n. cbn. unfold answer.
  destruct (String.eqb (n_path n) "/r/A/B/y"); reflexivity.
Qed.

(** *** C06: refuted for both subscriptions. Universal: the very next entry of
    the same directory is still visited. Files: SkipDir from a file ends the
    whole traversal although other directories follow, and is returned. *)
Theorem c06_skip_dir_from_a_file_universal_refuted : exists c t o s n1 n2 i,
  c_sub c = SubUniversal /\ hooks_ok c /\ root_ok c t /\ default_skip c /\ plain c /\
  session c false t = (o, s) /\
  nth_error (calls (s_trace s)) i = Some (n1, CErr (Err SkipDir)) /\ n_isdir n1 = false /\
  nth_error (calls (s_trace s)) (S i) = Some (n2, CNil) /\ siblings n1 n2.
Proof. exact skip_dir_file_universal. Qed.
Print Assumptions c06_skip_dir_from_a_file_universal_refuted.

Theorem c06_skip_dir_from_a_file_files_refuted : exists c t s n P p,
  c_sub c = SubFiles /\ hooks_ok c /\ root_ok c t /\ default_skip c /\ plain c /\
  session c false t = (Ret (Some (Err SkipDir)), s) /\
  calls (s_trace s) = [(n, CErr (Err SkipDir))] /\
  preorder (entries_files c) [] (c_tree c) t P /\ In p P /\
  fisdir (pl_obj p) = false /\ (forall d, n_parent n = Some d -> above (n_pos d) (pl_pos p) = false).
Proof. exact skip_dir_file_files. Qed.
Print Assumptions c06_skip_dir_from_a_file_files_refuted.

(** *** C55: what SkipDir from a file does. Universal: nothing (only what lies
    below directories for which a skip was answered is missing). *)
Theorem c55_universal_skip_from_a_file_has_no_effect : forall c sampling t P,
  hooks_ok c -> root_ok c t -> default_skip c -> plain c -> c_sub c = SubUniversal ->
  (forall tr n, is_end (c_client c tr n) = false) ->
  preorder (entries_all c) [] (c_tree c) t P ->
  exists o s, session c sampling t = (o, s) /\
    map place_of (visited s) =
      filter (fun p => negb (below_skip (filter (fun x => fisdir (n_src (fst x))) (calls (s_trace s))) p))
        (filter (within (c_depth c) 0) P).
Proof. exact file_skip_no_effect. Qed.
Print Assumptions c55_universal_skip_from_a_file_has_no_effect.

(** Files: it is the last callback and Navigate returns it. *)
Theorem c55_files_skip_dir_ends_the_traversal : forall c sampling t o s n e,
  hooks_ok c -> root_ok c t -> default_skip c -> filter_ok c -> c_sub c = SubFiles ->
  session c sampling t = (o, s) ->
  In (n, CErr e) (calls (s_trace s)) -> errors_is SkipDir e = true ->
  (exists pre, calls (s_trace s) = (pre ++ [(n, CErr e)])%list) /\ o = Ret (Some e).
Proof. exact files_skip_dir_ends. Qed.
Print Assumptions c55_files_skip_dir_ends_the_traversal.

Example c55_case :
  let c := with_client (answer "/r/A/B/y" (CErr (Err SkipDir))) (base_cfg SubFiles) in
  paths (session c false tree1) = ["/r/A/B/y"] /\ fst (session c false tree1) = Ret (Some (Err SkipDir)).
Proof. split; vm_compute; reflexivity. Qed.

(** *** C07 *)
Theorem c07_error_aborts_and_is_returned : forall c sampling t o s n e,
  hooks_ok c -> root_ok c t -> default_skip c -> filter_ok c -> session c sampling t = (o, s) ->
  In (n, CErr e) (calls (s_trace s)) -> is_skip_error e = false ->
  (exists pre, calls (s_trace s) = (pre ++ [(n, CErr e)])%list) /\ o = Ret (Some e).
Proof. exact error_aborts. Qed.
Print Assumptions c07_error_aborts_and_is_returned.

Theorem c07_returned_error_came_from_last_callback : forall c sampling t o s e,
  hooks_ok c -> root_ok c t -> default_skip c -> filter_ok c -> session c sampling t = (o, s) ->
  o = Ret (Some e) -> is_skip_error e = false -> rescues (s_trace s) = [] ->
  exists pre n, calls (s_trace s) = (pre ++ [(n, CErr e)])%list.
Proof. exact error_origin. Qed.
Print Assumptions c07_returned_error_came_from_last_callback.

Example c07_case : forall sub, sub = SubUniversal \/ sub = SubFiles ->
  let c := with_client (answer "/r/A/B/y" (CErr (Wrap 5 [Err (Plain 9)]))) (base_cfg sub) in
  fst (session c false tree1) = Ret (Some (Wrap 5 [Err (Plain 9)])) /\
  last (paths (session c false tree1)) "" = "/r/A/B/y".
Proof. intros sub [-> | ->]; split; vm_compute; reflexivity. Qed.

(** *** C08 *)
Theorem c08_panic_below_the_root_is_rescued_once : forall c sampling t o s n p,
  hooks_ok c -> root_ok c t -> filter_ok c -> session c sampling t = (o, s) ->
  In (n, CPanic p) (calls (s_trace s)) -> n_pos n <> [] ->
  exists pre sv er, calls (s_trace s) = (pre ++ [(n, CPanic p)])%list /\ calm pre /\
    rescues (s_trace s) = [sv] /\ o = Ret (Some er) /\ errors_is CorePanic er = true /\
    saved_right c n s sv.
Proof. exact panic_rescued. Qed.
Print Assumptions c08_panic_below_the_root_is_rescued_once.

Theorem c08_no_panic_no_rescue : forall c sampling t o s,
  hooks_ok c -> root_ok c t -> filter_ok c -> session c sampling t = (o, s) ->
  calm (calls (s_trace s)) -> rescues (s_trace s) = [] /\ exists e, o = Ret e.
Proof. exact no_panic_no_rescue. Qed.
Print Assumptions c08_no_panic_no_rescue.

Example c08_case :
  let c := with_client (answer "/r/A/B/y" (CPanic (PVal 4))) (base_cfg SubUniversal) in
  paths (session c false tree1) = ["/r"; "/r/A"; "/r/A/B"; "/r/A/B/y"] /\
  fst (session c false tree1) = Ret (Some (TraversalSaved "saved")) /\
  rescues (s_trace (snd (session c false tree1))) =
    [mkSaved "/r" "/r/A/B" true 2 SubUniversal (mkMetrics 1 0 3 0 0 0)].
Proof. repeat split; vm_compute; reflexivity. Qed.

(** *** C09: refuted for the root; a panic escapes exactly in that case. *)
Theorem c09_root_panic_escapes_refuted : exists c t p s,
  hooks_ok c /\ root_ok c t /\ default_skip c /\ plain c /\ session c false t = (Pan p, s).
Proof. exact root_panic_escapes. Qed.
Print Assumptions c09_root_panic_escapes_refuted.

Theorem c09_only_a_root_panic_escapes_partial : forall c sampling t o s p,
  hooks_ok c -> root_ok c t -> filter_ok c -> session c sampling t = (o, s) ->
  (o = Pan p <-> exists n, calls (s_trace s) = [(n, CPanic p)] /\ n_pos n = []).
Proof. exact escape_only_root. Qed.
Print Assumptions c09_only_a_root_panic_escapes_partial.

(** *** C10 *)
Theorem c10_saved_state : forall c sampling t o s sv,
  hooks_ok c -> root_ok c t -> filter_ok c -> session c sampling t = (o, s) -> In sv (rescues (s_trace s)) ->
  exists n p d, last (calls (s_trace s)) (n, CNil) = (n, CPanic p) /\ n_parent n = Some d /\
    sv_tree sv = c_tree c /\ sv_sub sv = c_sub c /\
    sv_path sv = n_path d /\ sv_isdir sv = n_isdir d /\ sv_depth sv = n_depth d /\
    m_files (sv_metrics sv) = files_in (calls (s_trace s)) /\
    m_dirs (sv_metrics sv) = dirs_in (calls (s_trace s)) /\
    m_child (sv_metrics sv) = m_child (s_metrics s) /\
    m_files_out (sv_metrics sv) = 0 /\ m_dirs_out (sv_metrics sv) = 0 /\ m_child_out (sv_metrics sv) = 0.
Proof. exact saved_counted. Qed.
Print Assumptions c10_saved_state.
(* non-vacuity: c08_case *)

(** *** C11 *)
Theorem c11_notifications_are_bracketed : forall c sampling t o s,
  hooks_ok c -> root_ok c t -> session c sampling t = (o, s) ->
  s_depth s = 0%Z /\
  exists visit, s_trace s = EvBegin (c_tree c) :: (visit ++ match o with Ret _ => [EvEnd (s_metrics s)] | _ => [] end)%list /\
    (visit = [] \/ exists n, place_of n = mkPlace [] (c_tree c) t /\ n_parent n = None /\ bracketed n visit).
Proof. exact BracketFacts.session_bracketed. Qed.
Print Assumptions c11_notifications_are_bracketed.

Example c11_case :
  let c := with_client (answer "/r/A/B" (CPanic (PVal 4))) (base_cfg SubDirectories) in
  map (fun e => match e with EvDescend n => "+" ++ n_path n | EvAscend n => "-" ++ n_path n
                | EvCall n _ => n_path n | EvRescue _ => "rescue" | EvBegin _ => "begin" | EvEnd _ => "end" | _ => "" end)
    (filter (fun e => match e with EvOffer _ _ => false | _ => true end) (s_trace (snd (session c false tree1)))) =
  ["begin"; "+/r"; "/r"; "+/r/A"; "/r/A"; "+/r/A/B"; "/r/A/B"; "-/r/A/B"; "rescue"; "-/r/A"; "-/r"; "end"].
Proof. vm_compute. reflexivity. Qed.

(** *** C103 *)
(** Any two nodes handed out for the same place are the same in all respects: the callback, the
    ascend notification and so on see one node. *)
Theorem c103_one_node_per_place : forall c sampling t o s,
  hooks_ok c -> root_ok c t -> session c sampling t = (o, s) ->
  forall x y, handed_out (s_trace s) x -> handed_out (s_trace s) y -> n_pos x = n_pos y -> x = y.
Proof. intros c sampling t o s HK RO H. exact (proj1 (session_parents c sampling t o s HK RO H)). Qed.
Print Assumptions c103_one_node_per_place.

(** The parent of a node, in the callback and in both notifications, is the node with which the
    ascend notification is sent for the parent's place - thus also the very one with which
    the callback was called there, children included. *)
Theorem c103_parent_is_the_node_handed_out : forall c sampling t o s,
  hooks_ok c -> root_ok c t -> session c sampling t = (o, s) ->
  forall x p, handed_out (s_trace s) x \/ In (EvDescend x) (s_trace s) -> n_parent x = Some p ->
    In (EvAscend p) (s_trace s) /\
    forall q r, In (EvCall q r) (s_trace s) -> n_pos q = n_pos p -> q = p.
Proof.
  intros c sampling t o s HK RO H x p X E. destruct (session_parents c sampling t o s HK RO H) as (ONE & PAR & _).
  pose proof (PAR x p X E) as A. split; [exact A|]. intros q r I EP.
  apply ONE; [exists (EvCall q r); auto|exists (EvAscend p); auto|exact EP].
Qed.
Print Assumptions c103_parent_is_the_node_handed_out.

(** The node of a descend notification is not extended yet; the same place has an ascend
    notification, whose node differs from it in nothing else. *)
Theorem c103_descend_before_extension : forall c sampling t o s,
  hooks_ok c -> root_ok c t -> session c sampling t = (o, s) ->
  forall n, In (EvDescend n) (s_trace s) ->
    unextended n /\ exists m, In (EvAscend m) (s_trace s) /\ completed n m.
Proof. intros c sampling t o s HK RO H. exact (proj2 (proj2 (session_parents c sampling t o s HK RO H))). Qed.
Print Assumptions c103_descend_before_extension.

(** The nodes of the ascend notifications stand rightly for their objects, as those of the
    callback do (C03). *)
Theorem c103_ascend_metadata : forall c sampling t o s,
  hooks_ok c -> root_ok c t -> session c sampling t = (o, s) ->
  forall n, In (EvAscend n) (s_trace s) -> stands c (entries c) (c_tree c) (c_tree c) t 0 n.
Proof.
  intros c sampling t o s HK RO H n I. pose proof (session_stands _ _ _ _ _ HK RO H) as F.
  rewrite Forall_forall in F. exact (F _ I).
Qed.
Print Assumptions c103_ascend_metadata.

Example c103_case :
  let tr := s_trace (snd (session (base_cfg SubDirectoriesWithFiles) false tree1)) in
  let kids n := map fname (n_children n) in
  flat_map (fun e => match e with
     | EvDescend n => [("+" ++ n_path n, (kids n, option_map kids (n_parent n)))]
     | EvCall n _ => [(n_path n, (kids n, option_map kids (n_parent n)))]
     | EvAscend n => [("-" ++ n_path n, (kids n, option_map kids (n_parent n)))]
     | _ => [] end) tr =
  [("+/r", ([], None)); ("/r", (["c"; "Z"], None));
   ("+/r/A", ([], Some ["c"; "Z"])); ("/r/A", (["x"], Some ["c"; "Z"]));
   ("+/r/A/B", ([], Some ["x"])); ("/r/A/B", (["y"], Some ["x"])); ("-/r/A/B", (["y"], Some ["x"]));
   ("-/r/A", (["x"], Some ["c"; "Z"]));
   ("+/r/b", ([], Some ["c"; "Z"])); ("/r/b", ([], Some ["c"; "Z"])); ("-/r/b", ([], Some ["c"; "Z"]));
   ("-/r", (["c"; "Z"], None))]%list.
Proof. vm_compute. reflexivity. Qed.

(** *** C12 *)
Theorem c12_depth_limit : forall c sampling t N,
  hooks_ok c -> root_ok c t -> default_skip c -> plain c -> nil_callback c -> (0 < N < 2 ^ 63)%N ->
  exists s0 sN,
    session (with_depth 0 c) sampling t = (Ret None, s0) /\
    session (with_depth N c) sampling t = (Ret None, sN) /\
    map place_of (visited sN) = map place_of (filter (fun n => (n_depth n <=? Z.of_N N)%Z) (visited s0)).
Proof. exact depth_limit. Qed.
Print Assumptions c12_depth_limit.

Example c12_case : paths (session (with_depth 2 (base_cfg SubUniversal)) false tree1) =
  ["/r"; "/r/A"; "/r/A/B"; "/r/A/x"; "/r/b"; "/r/c"; "/r/Z"].
Proof. vm_compute. reflexivity. Qed.

(** *** C14: refuted; every value below 2^63 (as a signed integer: non
    negative) visits the root first, every other value visits nothing. *)
Theorem c14_huge_depth_visits_nothing_refuted : exists c t s,
  hooks_ok c /\ root_ok c t /\ default_skip c /\ plain c /\ c_sub c = SubUniversal /\
  session c false t = (Ret None, s) /\ visited s = [].
Proof. exact huge_depth_visits_nothing. Qed.
Print Assumptions c14_huge_depth_visits_nothing_refuted.

Theorem c14_root_visited_iff_depth_not_negative_partial : forall c sampling t o s,
  hooks_ok c -> root_ok c t -> default_skip c -> plain c -> c_sub c <> SubFiles ->
  session c sampling t = (o, s) ->
  if (c_depth c =? 0)%N || (0 <=? int_of_uint (c_depth c))%Z
  then exists n rest, visited s = n :: rest /\ place_of n = mkPlace [] (c_tree c) t
  else visited s = [] /\ o = Ret None.
Proof. exact root_first. Qed.
Print Assumptions c14_root_visited_iff_depth_not_negative_partial.

(** *** C15 *)
Theorem c15_invocation_metrics : forall c sampling t o s,
  session c sampling t = (o, s) -> hooks_ok c -> root_ok c t ->
  m_files (s_metrics s) = files_in (calls (s_trace s)) /\ m_dirs (s_metrics s) = dirs_in (calls (s_trace s)).
Proof. exact session_counted. Qed.
Print Assumptions c15_invocation_metrics.

Example c15_case : s_metrics (snd (session (base_cfg SubUniversal) false tree1)) = mkMetrics 4 0 4 0 0 0.
Proof. vm_compute. reflexivity. Qed.

(** *** C16 *)
Theorem c16_begin_first_end_last : forall c sampling t o s, hooks_ok c -> root_ok c t -> session c sampling t = (o, s) ->
  exists visit, filter edge_event visit = [] /\
    s_trace s = EvBegin (c_tree c) :: (visit ++ (match o with Ret _ => [EvEnd (s_metrics s)] | _ => [] end))%list.
Proof. exact begin_end. Qed.
Print Assumptions c16_begin_first_end_last.
(* non-vacuity: c11_case *)

(** *** C18 *)
(** A session in which some directories cannot be read is the session in which
    they are empty, in every observable respect; so no read error is returned. *)
Theorem c18_unreadable_is_empty : forall c, default_skip c -> empty_on_error c -> hooks_ok c ->
  forall sampling t,
    session (with_read (fun p u => (fst (c_read c p u), None)) c) sampling t = session c sampling t.
Proof. exact session_read. Qed.
Print Assumptions c18_unreadable_is_empty.

Example c18_case : empty_on_error (base_cfg SubUniversal) /\
  snd (c_read (base_cfg SubUniversal) "/r/b" (BadDir "b" (Err (Plain 7)) [])) <> None /\
  fst (session (base_cfg SubUniversal) false tree2) = Ret None /\
  paths (session (base_cfg SubUniversal) false tree2) = paths (session (base_cfg SubUniversal) false tree1).
Proof. split; [apply default_read_empty|]. split; [discriminate|]. split; vm_compute; reflexivity. Qed.

(** *** C19 *)
Theorem c19_directories_and_files_in_groups : forall c sampling t o s n m,
  hooks_ok c -> root_ok c t -> default_skip c -> filter_ok c ->
  session c sampling t = (o, s) -> earlier s n m -> siblings n m ->
  if c_files_first c then ~ (fisdir (n_src n) = true /\ fisdir (n_src m) = false)
  else ~ (fisdir (n_src n) = false /\ fisdir (n_src m) = true).
Proof. exact groups_in_order. Qed.
Print Assumptions c19_directories_and_files_in_groups.

Theorem c19_groups_in_hook_order : forall c sampling t o s n m (le : fsnode -> fsnode -> Prop),
  hooks_ok c -> root_ok c t -> default_skip c -> filter_ok c ->
  (forall l, StronglySorted le (c_sort c l)) ->
  session c sampling t = (o, s) -> earlier s n m -> siblings n m ->
  fisdir (n_src n) = fisdir (n_src m) -> le (n_src n) (n_src m).
Proof. exact group_sorted. Qed.
Print Assumptions c19_groups_in_hook_order.

Theorem c19_listing_order_does_not_matter : forall c key rd t,
  hooks_ok c -> sorts_by_key c key -> distinct_keys c key t -> relisted c rd ->
  forall sampling, root_ok c t -> default_skip c -> plain c -> nil_callback c ->
  exists s s', session c sampling t = (Ret None, s) /\ session (with_read rd c) sampling t = (Ret None, s') /\
    map place_of (visited s') = map place_of (visited s).
Proof. intros c key rd t HK SK DK RL. exact (relisted_same c key rd HK SK t DK RL). Qed.
Print Assumptions c19_listing_order_does_not_matter.

(** the default sort hook sorts by the lower case name *)
Example c19_default_sort : forall sub, sorts_by_key (base_cfg sub) to_lower.
Proof. exact base_sorts. Qed.
(** [distinct_keys] of a tree, by looking at each of its places *)
Lemma preorder_distinct_keys : forall c key t P, preorder (fun p u => fst (c_read c p u)) [] (c_tree c) t P ->
  Forall (fun q => NoDup (map key (map fname (fst (c_read c (pl_path q) (pl_obj q)))))) P -> distinct_keys c key t.
Proof.
  intros c key t P HP F q R a b Ia Ib E. rewrite Forall_forall in F.
  destruct (preorder_characterised _ _ _ _ HP) as [RP _]. specialize (F q (proj2 (RP q) R)).
  revert F Ia Ib E. generalize (fst (c_read c (pl_path q) (pl_obj q))). intro l. rewrite map_map.
  induction l as [|x l IH]; [intros _ []|]. cbn [map]. intros N Ia Ib E. inversion N as [|? ? NI N']; subst.
  destruct Ia as [->|Ia], Ib as [->|Ib]; auto.
  - exfalso. apply NI. rewrite E. apply (in_map (fun e => key (fname e))). exact Ib.
  - exfalso. apply NI. rewrite <- E. apply (in_map (fun e => key (fname e))). exact Ia.
Qed.
Definition places1 : list place := Eval vm_compute in
  match lister 9 (fun p u => fst (default_read p u)) [] "/r" tree1 with Some l => l | None => [] end.
Lemma listed1 : preorder (fun p u => fst (default_read p u)) [] "/r" tree1 places1.
Proof. apply (lister_sound 9). vm_compute. reflexivity. Qed.
Example c19_distinct_case : forall sub, distinct_keys (base_cfg sub) to_lower tree1 /\ List.length places1 >= 6.
Proof.
  intro sub. split; [|vm_compute; lia].
  apply (preorder_distinct_keys (base_cfg sub) to_lower tree1 places1); [exact listed1|].
  apply Forall_forall. intros q Hq. repeat (destruct Hq as [<-|Hq]; [vm_compute; repeat constructor; cbn; intuition discriminate|]).
  destruct Hq.
Qed.
Example c19_case :
  let c := with_read (fun p t => (rev (fst (default_read p t)), snd (default_read p t))) (base_cfg SubUniversal) in
  relisted (base_cfg SubUniversal) (c_read c) /\
  paths (session c false tree1) = paths (session (base_cfg SubUniversal) false tree1).
Proof.
  split; [|vm_compute; reflexivity]. intros p t. cbn. split; [apply Permutation_rev|reflexivity].
Qed.
