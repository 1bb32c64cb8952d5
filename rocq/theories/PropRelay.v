(** Property C119: a traversal finished by several sessions. *)
From Verif Require Import Base Paths Level Kernel Session Spec KernelRel KernelFacts JournalFacts SessionFacts RescueFacts PathFacts WalkProps
  Cases CasesFacts Resume SpecResume ResumeCases SpecInterrupt SpecRelay RelayFacts FastRelayFacts PropResume PropInterrupt.
Local Open Scope string_scope.
Local Open Scope list_scope.

(** *** C119 *)

(** Interrupted and resumed any number of times, then finished: the sessions
    together called for every entry of the tree, and for nothing else; the last
    one for the end of the listing. Missing for the full claim: other orders than
    byte order, and first panics at entries of the tree itself (both refuted by
    C33); filters and hibernation. *)
Theorem c119_nothing_lost_partial : forall c pc dk P,
  hooks_ok c -> root_ok c (dk (c_tree c)) -> default_skip c -> plain c -> c_sub c = SubUniversal -> c_depth c = 0%N ->
  stable_sort c -> clean (c_tree c) = c_tree c -> proper_names (dk (c_tree c)) ->
  preorder (entries_all c) [] (c_tree c) (dk (c_tree c)) P -> tidy c pc dk P ->
  forall V sv sampling, relay c pc dk V sv ->
  exists s bef, spawn_session (with_client client_nil c) sampling pc dk sv = (Ret None, true, s) /\
    map thing P = bef ++ things s /\ (forall q, In q (V ++ things s) <-> In q (map thing P)).
Proof. exact relay_finished. Qed.
Print Assumptions c119_nothing_lost_partial.

(** Every session of the relay calls for a stretch of the listing which starts at
    the directory saved before. *)
Theorem c119_each_goes_on_where_saved_partial : forall c pc dk P,
  hooks_ok c -> root_ok c (dk (c_tree c)) -> default_skip c -> plain c -> c_sub c = SubUniversal -> c_depth c = 0%N ->
  stable_sort c -> clean (c_tree c) = c_tree c -> proper_names (dk (c_tree c)) ->
  preorder (entries_all c) [] (c_tree c) (dk (c_tree c)) P -> tidy c pc dk P ->
  forall V sv cl sampling o ok s n p pre, relay c pc dk V sv ->
  spawn_session (with_client cl c) sampling pc dk sv = (o, ok, s) ->
  calls (s_trace s) = pre ++ [(n, CPanic p)] -> Forall (fun x => snd x = CNil) pre ->
  exists bef x rest, map thing P = bef ++ things s ++ rest /\ hd_error (things s) = Some x /\ fst x = sv_path sv.
Proof. exact relay_stretch. Qed.
Print Assumptions c119_each_goes_on_where_saved_partial.

(** [cfg4] stopped at /r/A/c/y, resumed and stopped at /r/D/w, resumed and stopped
    at /r/D (nothing saved), and resumed once more. The other hypotheses: c33_case. *)
Lemma panicked_by : forall s n p pre, calls (s_trace s) = pre ++ [(n, CPanic p)] ->
  forallb (fun x => match snd x with CNil => true | _ => false end) pre = true -> panicked_at s n.
Proof.
  intros s n p pre E F. exists pre, p. split; [exact E|]. apply Forall_forall. intros x Hx.
  rewrite forallb_forall in F. specialize (F x Hx). destruct (snd x); congruence.
Qed.
Example c119_case : exists V, relay cfg4 unix_calc disk4 V saved_second /\
  map fst V = ["/r"; "/r/A"; "/r/A/c"; "/r/A/c/y";
               "/r/A/c"; "/r/A/c/y"; "/r/A/c/z"; "/r/A/x"; "/r/D"; "/r/D/w"; "/r/D"].
Proof.
  destruct (session cfg4 false tree4) as [o1 s1] eqn:E1.
  destruct (again "/r/D/w" saved_first) as [[o2 ok2] s2] eqn:E2.
  destruct (again "/r/D" saved_second) as [[o3 ok3] s3] eqn:E3.
  assert (R1 : rescues (s_trace s1) = [saved_first] /\ map fst (things s1) = ["/r"; "/r/A"; "/r/A/c"; "/r/A/c/y"] /\
    (exists n d g, calls (s_trace s1) = removelast (calls (s_trace s1)) ++ [(n, CPanic (PVal 1))] /\ n_parent n = Some d /\ n_parent d = Some g) /\
    forallb (fun x => match snd x with CNil => true | _ => false end) (removelast (calls (s_trace s1))) = true).
  { replace s1 with (snd (session cfg4 false tree4)) by (rewrite E1; reflexivity).
    split; [vm_compute; reflexivity|]. split; [vm_compute; reflexivity|]. split; [|vm_compute; reflexivity].
    eexists _, _, _. split; [vm_compute; reflexivity|]. split; vm_compute; reflexivity. }
  assert (R2 : rescues (s_trace s2) = [saved_second] /\ map fst (things s2) = ["/r/A/c"; "/r/A/c/y"; "/r/A/c/z"; "/r/A/x"; "/r/D"; "/r/D/w"] /\
    (exists n, calls (s_trace s2) = removelast (calls (s_trace s2)) ++ [(n, CPanic (PVal 7))]) /\
    forallb (fun x => match snd x with CNil => true | _ => false end) (removelast (calls (s_trace s2))) = true).
  { replace s2 with (snd (again "/r/D/w" saved_first)) by (rewrite E2; reflexivity).
    split; [vm_compute; reflexivity|]. split; [vm_compute; reflexivity|]. split; [|vm_compute; reflexivity].
    eexists. vm_compute; reflexivity. }
  assert (R3 : map fst (things s3) = ["/r/D"] /\
    (exists n, calls (s_trace s3) = removelast (calls (s_trace s3)) ++ [(n, CPanic (PVal 7))]) /\
    forallb (fun x => match snd x with CNil => true | _ => false end) (removelast (calls (s_trace s3))) = true).
  { replace s3 with (snd (again "/r/D" saved_second)) by (rewrite E3; reflexivity).
    split; [vm_compute; reflexivity|]. split; [|vm_compute; reflexivity].
    eexists. vm_compute; reflexivity. }
  rewrite again_is in E2, E3.
  destruct R1 as (R1 & T1 & (n1 & d1 & g1 & C1 & EN & ED) & F1), R2 as (R2 & T2 & (n2 & C2) & F2), R3 as (T3 & (n3 & C3) & F3).
  exists ((things s1 ++ things s2) ++ things s3). split; [|rewrite !map_app, T1, T2, T3; reflexivity].
  refine (relay_retry cfg4 unix_calc disk4 _ saved_second (answer "/r/D" (CPanic (PVal 7))) false o3 ok3 s3 n3 _ E3 (panicked_by _ _ _ _ C3 F3)).
  refine (relay_again cfg4 unix_calc disk4 _ saved_first (answer "/r/D/w" (CPanic (PVal 7))) false o2 ok2 s2 n2 saved_second _ E2 (panicked_by _ _ _ _ C2 F2) R2).
  refine (relay_prime cfg4 unix_calc disk4 (c_client cfg4) false o1 s1 n1 d1 g1 saved_first _ (panicked_by _ _ _ _ C1 F1) EN ED R1).
  exact E1.
Qed.

(** By fastward resumes: in any order, with any depth limit. *)
Theorem c119_fastward_nothing_lost_partial : forall c pc dk P,
  hooks_ok c -> root_ok c (dk (c_tree c)) -> default_skip c -> plain c -> c_sub c <> SubFiles ->
  clean (c_tree c) = c_tree c -> proper_names (dk (c_tree c)) -> distinct_names c (c_tree c) (dk (c_tree c)) ->
  preorder (entries c) [] (c_tree c) (dk (c_tree c)) P -> passable c pc P ->
  forall V sv sampling, fast_relay c pc dk V sv ->
  exists s bef, fastward_session true (with_client client_nil c) sampling pc dk sv = (Ret None, s) /\
    filter (within (c_depth c) 0) P = bef ++ map place_of (visited s) /\
    (forall q, In q (V ++ map place_of (visited s)) <-> In q (filter (within (c_depth c) 0) P)).
Proof. exact fast_relay_finished. Qed.
Print Assumptions c119_fastward_nothing_lost_partial.

Theorem c119_fastward_goes_on_where_saved_partial : forall c pc dk P,
  hooks_ok c -> root_ok c (dk (c_tree c)) -> default_skip c -> plain c -> c_sub c <> SubFiles ->
  clean (c_tree c) = c_tree c -> proper_names (dk (c_tree c)) -> distinct_names c (c_tree c) (dk (c_tree c)) ->
  preorder (entries c) [] (c_tree c) (dk (c_tree c)) P -> passable c pc P ->
  forall V sv f sampling o s n p pre, fast_relay c pc dk V sv ->
  fastward_session true (with_client (fun tr => f (calls tr)) c) sampling pc dk sv = (o, s) ->
  calls (s_trace s) = pre ++ [(n, CPanic p)] -> Forall (fun x => snd x = CNil) pre ->
  exists bef x rest, filter (within (c_depth c) 0) P = bef ++ map place_of (visited s) ++ rest /\
    hd_error (visited s) = Some x /\ n_path x = sv_path sv.
Proof. exact fast_relay_stretch. Qed.
Print Assumptions c119_fastward_goes_on_where_saved_partial.

(** The same two interruptions with fastward resumes: first at /r/A/c/y, then at
    /r/D/w, then at /r/e (an entry of the tree: started once more from /r/D). *)
Definition stop_at (q : string) (cs : list (node * cbres)) (n : node) : cbres :=
  if String.eqb (n_path n) q then CPanic (PVal 7) else CNil.
Definition fast (q : string) (sv : saved) :=
  fastward_session true (with_client (fun tr => stop_at q (calls tr)) cfg4) false unix_calc disk4 sv.
Definition saved_fast : saved := mkSaved "/r" "/r/D" true 1 SubUniversal (mkMetrics 4 0 2 0 0 0).
Lemma fast_is : forall q sv, fast q sv =
  fastward_session true (with_client (fun tr => stop_at q (calls tr)) cfg4) false unix_calc disk4 sv.
Proof. reflexivity. Qed.
Example c119_fast_case : exists V, fast_relay cfg4 unix_calc disk4 V saved_fast /\
  map pl_path V = ["/r"; "/r/A"; "/r/A/c"; "/r/A/c/y";
                   "/r/A/c"; "/r/A/c/y"; "/r/A/c/z"; "/r/A/x"; "/r/D"; "/r/D/w"; "/r/D"; "/r/D/w"; "/r/e"].
Proof.
  destruct (session cfg4 false tree4) as [o1 s1] eqn:E1.
  destruct (fast "/r/D/w" saved_first) as [o2 s2] eqn:E2.
  destruct (fast "/r/e" saved_fast) as [o3 s3] eqn:E3.
  assert (R1 : rescues (s_trace s1) = [saved_first] /\ map n_path (visited s1) = ["/r"; "/r/A"; "/r/A/c"; "/r/A/c/y"] /\
    (exists n d g, calls (s_trace s1) = removelast (calls (s_trace s1)) ++ [(n, CPanic (PVal 1))] /\ n_parent n = Some d /\ n_parent d = Some g) /\
    forallb (fun x => match snd x with CNil => true | _ => false end) (removelast (calls (s_trace s1))) = true).
  { replace s1 with (snd (session cfg4 false tree4)) by (rewrite E1; reflexivity).
    split; [vm_compute; reflexivity|]. split; [vm_compute; reflexivity|]. split; [|vm_compute; reflexivity].
    eexists _, _, _. split; [vm_compute; reflexivity|]. split; vm_compute; reflexivity. }
  assert (R2 : rescues (s_trace s2) = [saved_fast] /\
    map n_path (visited s2) = ["/r/A/c"; "/r/A/c/y"; "/r/A/c/z"; "/r/A/x"; "/r/D"; "/r/D/w"] /\
    (exists n d g, calls (s_trace s2) = removelast (calls (s_trace s2)) ++ [(n, CPanic (PVal 7))] /\ n_parent n = Some d /\ n_parent d = Some g) /\
    forallb (fun x => match snd x with CNil => true | _ => false end) (removelast (calls (s_trace s2))) = true).
  { replace s2 with (snd (fast "/r/D/w" saved_first)) by (rewrite E2; reflexivity).
    split; [vm_compute; reflexivity|]. split; [vm_compute; reflexivity|]. split; [|vm_compute; reflexivity].
    eexists _, _, _. split; [vm_compute; reflexivity|]. split; vm_compute; reflexivity. }
  assert (R3 : map n_path (visited s3) = ["/r/D"; "/r/D/w"; "/r/e"] /\
    (exists n, calls (s_trace s3) = removelast (calls (s_trace s3)) ++ [(n, CPanic (PVal 7))]) /\
    forallb (fun x => match snd x with CNil => true | _ => false end) (removelast (calls (s_trace s3))) = true).
  { replace s3 with (snd (fast "/r/e" saved_fast)) by (rewrite E3; reflexivity).
    split; [vm_compute; reflexivity|]. split; [|vm_compute; reflexivity].
    eexists. vm_compute; reflexivity. }
  rewrite fast_is in E2, E3.
  destruct R1 as (R1 & T1 & (n1 & d1 & g1 & C1 & EN & ED) & F1), R2 as (R2 & T2 & (n2 & d2 & g2 & C2 & EN2 & ED2) & F2), R3 as (T3 & (n3 & C3) & F3).
  exists ((map place_of (visited s1) ++ map place_of (visited s2)) ++ map place_of (visited s3)).
  split; [|rewrite !map_app, !map_map; change (fun x => pl_path (place_of x)) with n_path; rewrite T1, T2, T3; reflexivity].
  refine (fast_relay_retry cfg4 unix_calc disk4 _ saved_fast (stop_at "/r/e") false o3 s3 n3 _ E3 (panicked_by _ _ _ _ C3 F3)).
  refine (fast_relay_again cfg4 unix_calc disk4 _ saved_first (stop_at "/r/D/w") false o2 s2 n2 d2 g2 saved_fast _ E2 (panicked_by _ _ _ _ C2 F2) EN2 ED2 R2).
  refine (fast_relay_prime cfg4 unix_calc disk4 (c_client cfg4) false o1 s1 n1 d1 g1 saved_first _ (panicked_by _ _ _ _ C1 F1) EN ED R1).
  exact E1.
Qed.
Example c119_passable_case : passable cfg4 unix_calc places4.
Proof.
  split; [discriminate|]. apply Forall_forall. intros q Hq.
  repeat (destruct Hq as [<-|Hq]; [split; [intros _; apply unix_sound; vm_compute; reflexivity|(intros _; vm_compute; discriminate) || (intro NP; exfalso; apply NP; reflexivity)]|]).
  destruct Hq.
Qed.
