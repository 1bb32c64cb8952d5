(** Properties C100-C101: the complete course of a session, for every callback
    and skip handler; order of the visits. Vocabulary: Spec.v, SpecBuild.v,
    SpecSkip.v, SpecCourse.v. *)
From Verif Require Import Base Paths Level Kernel Defaults Session Spec KernelFacts WalkFacts SessionFacts FilesFacts WalkCor
  Filters Hooks Options Build SpecBuild ReuseFacts Settle Cases CasesFacts BuildCases FilterCases FeatureCor
  SpecSkip SkipFacts PropSkip SpecCourse CourseFacts.
From Coq Require Import Sorted Permutation.
Local Open Scope string_scope.

(** *** C100 *)

(** A session without filter and hibernation, any callback, any skip handler
    answering by path, object and read error: going through the listing of the
    tree once, with the verdict which the callback's answer or the handler's
    answer amounts to at each place, gives exactly the nodes visited, in order,
    and what Navigate returns. [ans] are the answers which the callback gave,
    place by place. *)
Theorem c100_course : forall c h ans sampling t P o s,
  hooks_ok c -> root_ok c t -> plain c -> handled_by c h ->
  preorder (entries c) [] (c_tree c) t P ->
  session c sampling t = (o, s) -> answered (calls (s_trace s)) ans ->
  let '(seen, e) := course (verdict_at c h ans) (fun _ => false) (filter (within (c_depth c) 0) P) in
  map place_of (visited s) =
    match c_sub c with SubFiles => filter (fun p => negb (fisdir (pl_obj p))) seen | _ => seen end /\
  gives o e.
Proof. exact course_session. Qed.
Print Assumptions c100_course.

(** There is such a function of the place, also when the callback remembers what
    it was called with before; and the listing exists. *)
Theorem c100_answers_and_listing : forall c sampling t o s, hooks_ok c -> root_ok c t -> plain c ->
  session c sampling t = (o, s) ->
  (exists ans, answered (calls (s_trace s)) ans) /\ exists P, preorder (entries c) [] (c_tree c) t P.
Proof.
  intros c sampling t o s HK RO PL H. split; [exact (answers_exist _ _ _ _ _ HK RO PL H)|].
  apply preorder_exists. exact HK.
Qed.
Print Assumptions c100_answers_and_listing.

(** For a callback which answers by place the answers are its own, so that the
    course can be told before the session. *)
Theorem c100_predictable : forall c h f sampling t P,
  hooks_ok c -> root_ok c t -> plain c -> handled_by c h ->
  (forall tr n, c_client c tr n = f (place_of n)) ->
  preorder (entries c) [] (c_tree c) t P ->
  exists o s, session c sampling t = (o, s) /\
  let '(seen, e) := course (verdict_at c h f) (fun _ => false) (filter (within (c_depth c) 0) P) in
  map place_of (visited s) =
    match c_sub c with SubFiles => filter (fun p => negb (fisdir (pl_obj p))) seen | _ => seen end /\
  gives o e.
Proof.
  intros c h f sampling t P HK RO PL HB FC HP. destruct (session_total c sampling t) as (o & s & H).
  exists o, s. split; [exact H|]. apply (course_session c h f sampling t P o s HK RO PL HB HP H).
  exact (by_place c f sampling t o s HK RO FC H).
Qed.
Print Assumptions c100_predictable.

(** The same for a session built from With functions (WithSkipHandler among
    them). *)
Theorem c100_walk : forall env mt u ws sub cl h ans t P,
  us_options u = None -> us_tree u <> EmptyString -> us_sub u = Some sub -> us_handler u = Some cl ->
  latest sets_filter ws no_filter = no_filter -> latest sets_sampling ws no_sampling = no_sampling ->
  no_hibernation ws -> hooks_sound ws -> latest sets_stat ws (en_stat env) t = None ->
  (forall n k e, latest sets_skip ws default_ask n k e = h (n_path n) (n_src n) e) ->
  let c := session_cfg env ws (us_tree u) sub cl (latest sets_read ws default_read) None None in
  let r := walk_prime env mt (FacUsing u) (options_of env ws) t in
  preorder (entries c) [] (us_tree u) t P -> answered (calls (rp_trace r)) ans ->
  let '(seen, e) := course (verdict_at c h ans) (fun _ => false) (filter (within (depth_asked ws) 0) P) in
  map place_of (nodes_of r) =
    match sub with SubFiles => filter (fun p => negb (fisdir (pl_obj p))) seen | _ => seen end /\
  gives (rp_outcome r) e.
Proof.
  intros env mt u ws sub cl h ans t P N TR SU HA NF NS NH HS ST SK c r HP AN.
  assert (CF : complete_facade u) by (repeat split; congruence).
  assert (PL : plan mt (latest sets_filter ws no_filter) (latest sets_sampling ws no_sampling) (hibernate_when ws) = Some (None, None, [])).
  { rewrite NF, NS. unfold plan, hibernate_when. destruct NH as [-> ->]. reflexivity. }
  destruct (walk_settled env mt u ws sub cl None None [] t N CF SU HA PL) as (o & s & E & R).
  fold r in R. change (then_all (latest sets_read ws default_read) []) with (fun p e => latest sets_read ws default_read p e) in E.
  rewrite R in AN |- *. destruct HS as (H1 & H2 & H3).
  assert (HK : hooks_ok c) by (split; [exact H1|exact H3]).
  assert (PC : plain c) by (split; reflexivity).
  apply (course_session c h ans _ t P o s HK ST PC SK HP E AN).
Qed.
Print Assumptions c100_walk.

(** Mixed answers of callback and handler on r/ {A/ {B/ {y, z}, x}, c, Z}: the
    callback answers fs.SkipDir on "/r/A/x", the handler "directory" with fs.SkipAll on
    "/r/A/B/y" (leaving out z) and the plain error 9 on "/r/Z" *)
Definition mixed_client : list event -> node -> cbres := answer "/r/A/x" (CErr (Err SkipDir)).
Definition mixed_handler : handler := fun path _ _ =>
  if String.eqb path "/r/A/B/y" then (SkipDirTraversal, Some (Err SkipAll))
  else if String.eqb path "/r/Z" then (SkipAllTraversal, Some e9) else (SkipNoneTraversal, None).
Definition mixed_cfg (sub : subscription) : cfg := with_client mixed_client (skipping sub mixed_handler).
Definition mixed_place (p : place) : cbres := if String.eqb (pl_path p) "/r/A/x" then CErr (Err SkipDir) else CNil.
Example c100_case :
  hooks_ok (mixed_cfg SubUniversal) /\ root_ok (mixed_cfg SubUniversal) tree3 /\ plain (mixed_cfg SubUniversal) /\
  handled_by (mixed_cfg SubUniversal) mixed_handler /\
  (forall tr n, c_client (mixed_cfg SubUniversal) tr n = mixed_place (place_of n)) /\
  fst (session (mixed_cfg SubUniversal) false tree3) = Ret (Some e9) /\
  paths (session (mixed_cfg SubUniversal) false tree3) = ["/r"; "/r/A"; "/r/A/B"; "/r/A/B/y"; "/r/A/x"; "/r/c"; "/r/Z"].
Proof.
  split; [split; [apply (base_hooks SubUniversal)|apply (base_hooks SubUniversal)]|]. repeat split; vm_compute; reflexivity.
Qed.
(** what the specification says of it *)
Definition mixed_listing : list place :=
  [mkPlace [] "/r" tree3; mkPlace [0] "/r/A" (Dir "A" [File "x"; Dir "B" [File "y"; File "z"]]);
   mkPlace [0; 0] "/r/A/B" (Dir "B" [File "y"; File "z"]); mkPlace [0; 0; 0] "/r/A/B/y" (File "y");
   mkPlace [0; 0; 1] "/r/A/B/z" (File "z"); mkPlace [0; 1] "/r/A/x" (File "x");
   mkPlace [1] "/r/c" (File "c"); mkPlace [2] "/r/Z" (File "Z")].
Example c100_case_course :
  let '(seen, e) := course (verdict_at (mixed_cfg SubUniversal) mixed_handler mixed_place) (fun _ => false) mixed_listing in
  (map pl_path seen, e) = (["/r"; "/r/A"; "/r/A/B"; "/r/A/B/y"; "/r/A/x"; "/r/c"; "/r/Z"], Failed e9).
Proof. vm_compute. reflexivity. Qed.
(** a panic below the root is rescued, at the root it reaches the caller *)
Example c100_case_panic :
  let c p := with_client (answer p (CPanic (PVal 3))) (base_cfg SubUniversal) in
  fst (session (c "/r/A/x") false tree1) = Ret (Some (TraversalSaved "saved")) /\ errors_is CorePanic (TraversalSaved "saved") = true /\
  fst (session (c "/r") false tree1) = Pan (PVal 3).
Proof. repeat split; vm_compute; reflexivity. Qed.
(** the Files subscription: fs.SkipAll on y leaves out z, and x is visited *)
Example c100_case_files :
  let c := with_client (answer "/r/A/B/y" (CErr (Err SkipAll))) (base_cfg SubFiles) in
  (fst (session c false tree3), paths (session c false tree3)) = (Ret None, ["/r/A/B/y"; "/r/A/x"; "/r/c"; "/r/Z"]).
Proof. vm_compute. reflexivity. Qed.
(** a session built from With functions *)
Example c100_case_walk :
  let ws := [WithDepth 5; WithSkipHandler (fun n _ e => mixed_handler (n_path n) (n_src n) e)] in
  let u := using_ SubUniversal None in
  us_options u = None /\ us_tree u <> EmptyString /\ us_sub u = Some SubUniversal /\
  latest sets_filter ws no_filter = no_filter /\ latest sets_sampling ws no_sampling = no_sampling /\ no_hibernation ws /\
  hooks_sound ws /\ latest sets_stat ws (en_stat env0) tree3 = None /\
  rp_outcome (walk_prime env0 mt0 (FacUsing u) (options_of env0 ws) tree3) = Ret (Some e9).
Proof.
  repeat (split; [first [reflexivity|discriminate|split; reflexivity|exact default_hooks_sound]|]). vm_compute. reflexivity.
Qed.

(** *** C101 *)
(** Whatever the callback answers or remembers, whatever the skip handler, the
    filter, the sampling and the hibernation: the nodes are visited in the order
    of the listing (a directory before what is below it, an entry and all below
    it before the next entry), none twice. *)
Theorem c101_visits_rise : forall c sampling t o s, hooks_ok c -> root_ok c t -> session c sampling t = (o, s) ->
  StronglySorted before (map n_pos (visited s)) /\ NoDup (map n_pos (visited s)).
Proof. exact visits_rise. Qed.
Print Assumptions c101_visits_rise.

Example c101_case : hooks_ok (mixed_cfg SubUniversal) /\ root_ok (mixed_cfg SubUniversal) tree3 /\
  map n_pos (visited (snd (session (mixed_cfg SubUniversal) false tree3))) =
    [[]; [0]; [0; 0]; [0; 0; 0]; [0; 1]; [1]; [2]].
Proof.
  split; [split; [apply (base_hooks SubUniversal)|apply (base_hooks SubUniversal)]|]. split; vm_compute; reflexivity.
Qed.

(** *** C102 *)
(** With hibernation, a filter, sampling, any callback and any skip handler at
    once: there are nodes [D], standing for the places of the tree and with one
    answer each, such that the pass over the listing with these answers meets
    exactly the nodes of [D], in order, and gives what Navigate returns; and the
    callback is called for exactly those of them which hibernation and filter let
    through, giving the answer noted, while the answer of the others is the one
    which [reception] says. *)
Theorem c102_course_with_features : forall c h sampling t P o s,
  hooks_ok c -> root_ok c t -> handled_by c h ->
  preorder (entries c) [] (c_tree c) t P ->
  session c sampling t = (o, s) ->
  exists D ans, answered D ans /\
  (let '(seen, e) := course (verdict_at c h ans) (fun _ => false) (filter (within (c_depth c) 0) P) in
   map place_of (map fst D) =
     match c_sub c with SubFiles => filter (fun p => negb (fisdir (pl_obj p))) seen | _ => seen end /\
   gives o e) /\
  Forall (stands c (entries c) (c_tree c) (c_tree c) t 0) (map fst D) /\
  (let W := reception c (at_the_start (c_hib c)) (map fst D) in
   Forall2 (fun x w => w = None \/ w = Some (snd x)) D W /\ calls (s_trace s) = received D W).
Proof. exact full_course. Qed.
Print Assumptions c102_course_with_features.

(** The same for every session which can be built. *)
Theorem c102_walk : forall env mt fac settings c smp h t P,
  fst (build_prime env mt fac settings) = BuildReady c smp ->
  hooks_ok c -> root_ok c t -> handled_by c h ->
  preorder (entries c) [] (c_tree c) t P ->
  let r := walk_prime env mt fac settings t in
  exists D ans, answered D ans /\
  (let '(seen, e) := course (verdict_at c h ans) (fun _ => false) (filter (within (c_depth c) 0) P) in
   map place_of (map fst D) =
     match c_sub c with SubFiles => filter (fun p => negb (fisdir (pl_obj p))) seen | _ => seen end /\
   gives (rp_outcome r) e) /\
  Forall (stands c (entries c) (c_tree c) (c_tree c) t 0) (map fst D) /\
  (let W := reception c (at_the_start (c_hib c)) (map fst D) in
   Forall2 (fun x w => w = None \/ w = Some (snd x)) D W /\ calls (rp_trace r) = received D W).
Proof.
  intros env mt fac settings c smp h t P B HK RO HB HP r. unfold r, walk_prime. rewrite B. cbn [run_built].
  destruct (session c smp t) as [o s] eqn:S. exact (full_course c h smp t P o s HK RO HB HP S).
Qed.
Print Assumptions c102_walk.

(** A session with a wake condition at "/r/A", a sleep condition at "/r/c", a
    filter which refuses "/r/A/B", and a callback which answers fs.SkipDir on
    "/r/A/B/y", the skip handler answering "all" on "/r/A/x": B is not called but entered; y
    is called, its answer changes nothing; z and x are called; the session falls asleep
    at c, and fs.SkipAll counts for Z. *)
Definition busy_cfg : cfg :=
  with_hib (Some (hib_at (Some "/r/A") (Some "/r/c")))
    (with_scheme (node_filter (fun n => negb (String.eqb (n_path n) "/r/A/B")))
      (with_client (answer "/r/A/B/y" (CErr (Err SkipDir))) (skipping SubUniversal (at_path "/r/A/x" (SkipAllTraversal, None))))).
Example c102_case : hooks_ok busy_cfg /\ root_ok busy_cfg tree3 /\
  handled_by busy_cfg (at_path "/r/A/x" (SkipAllTraversal, None)) /\
  fst (session busy_cfg false tree3) = Ret None /\
  paths (session busy_cfg false tree3) = ["/r/A"; "/r/A/B/y"; "/r/A/B/z"; "/r/A/x"].
Proof.
  split; [split; [apply (base_hooks SubUniversal)|apply (base_hooks SubUniversal)]|]. split; [reflexivity|].
  repeat split; vm_compute; reflexivity.
Qed.
(** what [reception] makes of the nodes of this session, in the order of the
    listing: the callback is called for A, y, z and x *)
Example c102_case_reception :
  map (fun w => match w with None => true | Some _ => false end)
    (reception busy_cfg (at_the_start (c_hib busy_cfg))
      (map fst (offers (s_trace (snd (session busy_cfg false tree3)))))) =
  [false; true; false; true; true; true; false; false].
Proof. vm_compute. reflexivity. Qed.

(** A filter which panics on "/r/A/B": the node counts as if the callback had
    panicked on it, the session ends there with an error, x is not reached. *)
Definition faulty_cfg : cfg :=
  with_scheme (Some (mkScheme (Some (PrimaryNode (fun n => if String.eqb (n_path n) "/r/A/B" then inr (PVal 4) else inl true))) None))
    (skipping SubUniversal (at_path "/r/A/x" (SkipAllTraversal, None))).
Example c102_case_panicking_filter :
  paths (session faulty_cfg false tree3) = ["/r"; "/r/A"] /\
  match fst (session faulty_cfg false tree3) with Ret (Some e) => errors_is CorePanic e = true | _ => False end /\
  reception faulty_cfg (at_the_start (c_hib faulty_cfg))
    (map fst (offers (s_trace (snd (session faulty_cfg false tree3))))) = [None; None; Some (CPanic (PVal 4))].
Proof. repeat split; vm_compute; reflexivity. Qed.
