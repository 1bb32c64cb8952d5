(** Properties C117, C118: a resumed session which is interrupted again. *)
From Verif Require Import Base Paths Level Kernel Session Spec KernelRel KernelFacts JournalFacts SessionFacts RescueFacts
  Cases CasesFacts Resume SpecResume ResumeCases SpecInterrupt InterruptFacts.
Local Open Scope string_scope.
Local Open Scope list_scope.

Theorem c117_spawn_saves_again : forall c sampling pc dk sv o ok s n p d, hooks_ok c ->
  spawn_session c sampling pc dk sv = (o, ok, s) ->
  In (n, CPanic p) (calls (s_trace s)) -> n_parent n = Some d ->
  exists pre sv' before after, calls (s_trace s) = pre ++ [(n, CPanic p)] /\ calm pre /\
    s_trace s = before ++ EvRescue sv' :: after /\ rescues (s_trace s) = [sv'] /\
    o = Ret (Some (rescue_error (c_rescue c before p sv'))) /\ ok = false /\
    records c (sv_metrics sv) (calls (s_trace s)) d sv'.
Proof. exact spawn_interrupted. Qed.
Print Assumptions c117_spawn_saves_again.

Theorem c117_fastward_saves_again : forall linked c sampling pc dk sv o s n p d, hooks_ok c ->
  fastward_session linked c sampling pc dk sv = (o, s) ->
  In (n, CPanic p) (calls (s_trace s)) -> n_parent n = Some d ->
  exists pre sv' before after, calls (s_trace s) = pre ++ [(n, CPanic p)] /\ calm pre /\
    s_trace s = before ++ EvRescue sv' :: after /\ rescues (s_trace s) = [sv'] /\
    o = Ret (Some (rescue_error (c_rescue c before p sv'))) /\
    records c metrics0 (calls (s_trace s)) d sv'.
Proof. exact fastward_interrupted. Qed.
Print Assumptions c117_fastward_saves_again.

Theorem c117_no_panic_nothing_saved : forall c sampling pc dk sv o ok s, hooks_ok c -> filter_ok c ->
  spawn_session c sampling pc dk sv = (o, ok, s) -> calm (calls (s_trace s)) ->
  rescues (s_trace s) = [] /\ forall p, o <> Pan p.
Proof. intros c sampling pc dk sv o ok s HK FO H. exact (spawn_peace c sampling HK FO pc dk sv o ok s H). Qed.
Print Assumptions c117_no_panic_nothing_saved.

(** Not when the callback panics on an entry the resume starts from: the panic
    escapes from Navigate, nothing is saved. *)
Theorem c117_spawned_entry_escapes : forall c sampling pc dk sv o ok s n p, hooks_ok c ->
  spawn_session c sampling pc dk sv = (o, ok, s) ->
  In (n, CPanic p) (calls (s_trace s)) -> n_parent n = None ->
  o = Pan p /\ ok = false /\ rescues (s_trace s) = [] /\
  exists pre, calls (s_trace s) = pre ++ [(n, CPanic p)] /\ calm pre.
Proof. exact spawned_entry_escapes. Qed.
Print Assumptions c117_spawned_entry_escapes.

(** The state saved by the session of c33_case, and resumed sessions over the same disk. *)
Definition saved_first : saved := mkSaved "/r" "/r/A/c" true 2 SubUniversal (mkMetrics 1 0 3 0 0 0).
Definition stopping (q : string) : cfg := with_client (answer q (CPanic (PVal 7))) (base_cfg SubUniversal).
Definition again (q : string) (sv : saved) := spawn_session (stopping q) false unix_calc disk4 sv.
Lemma again_is : forall q sv, again q sv = spawn_session (stopping q) false unix_calc disk4 sv.
Proof. reflexivity. Qed.
Definition seen_by (x : outcome (option error) * bool * st) : list string :=
  map (fun y => n_path (fst y)) (calls (s_trace (snd x))).

Theorem c117_lost_refuted : exists c pc dk s0 sv s ok p,
  hooks_ok c /\ session c false (dk (c_tree c)) = (Ret (Some (TraversalSaved "saved")), s0) /\
  rescues (s_trace s0) = [sv] /\
  spawn_session (stopping "/r/D") false pc dk sv = (Pan p, ok, s) /\ rescues (s_trace s) = [] /\
  n_path (fst (last (calls (s_trace s)) (new_node "" (File "") None None [], CNil))) = "/r/D".
Proof.
  exists cfg4, unix_calc, disk4, (snd (session cfg4 false tree4)), saved_first,
    (snd (again "/r/D" saved_first)), false, (PVal 7).
  split; [apply base_hooks|]. split; [vm_compute; reflexivity|]. split; [vm_compute; reflexivity|].
  split; [vm_compute; reflexivity|]. split; vm_compute; reflexivity.
Qed.
Print Assumptions c117_lost_refuted.

Example c117_case :
  rescues (s_trace (snd (session cfg4 false tree4))) = [saved_first] /\
  seen_by (again "/r/A/c/z" saved_first) = ["/r/A/c"; "/r/A/c/y"; "/r/A/c/z"] /\
  rescues (s_trace (snd (again "/r/A/c/z" saved_first))) =
    [mkSaved "/r" "/r/A/c" true 2 SubUniversal (mkMetrics 3 0 4 0 0 0)] /\
  seen_by (again "/r/D/w" saved_first) = ["/r/A/c"; "/r/A/c/y"; "/r/A/c/z"; "/r/A/x"; "/r/D"; "/r/D/w"] /\
  rescues (s_trace (snd (again "/r/D/w" saved_first))) =
    [mkSaved "/r" "/r/D" true 2 SubUniversal (mkMetrics 5 0 5 0 0 0)].
Proof. repeat split; vm_compute; reflexivity. Qed.
Example c117_fast_case :
  let x := fastward_session true (stopping "/r/D/w") false unix_calc disk4 saved_first in
  map (fun y => n_path (fst y)) (calls (s_trace (snd x))) = ["/r/A/c"; "/r/A/c/y"; "/r/A/c/z"; "/r/A/x"; "/r/D"; "/r/D/w"] /\
  rescues (s_trace (snd x)) = [mkSaved "/r" "/r/D" true 1 SubUniversal (mkMetrics 4 0 2 0 0 0)].
Proof. split; vm_compute; reflexivity. Qed.

(** The depth saved is that of the first resume point, not of the directory
    where the resumed session stopped: an ordinary session which stops there
    saves another one. *)
Theorem c117_saved_depth_refuted : exists q pc dk s0 s1 s2 sv sv1 sv2 e1 e2,
  hooks_ok cfg4 /\ session cfg4 false (dk "/r") = (Ret (Some (TraversalSaved "saved")), s0) /\
  rescues (s_trace s0) = [sv] /\
  spawn_session (stopping q) false pc dk sv = (Ret (Some e1), false, s1) /\ rescues (s_trace s1) = [sv1] /\
  session (stopping q) false (dk "/r") = (Ret (Some e2), s2) /\ rescues (s_trace s2) = [sv2] /\
  sv_path sv1 = sv_path sv2 /\ sv_depth sv1 = 2%Z /\ sv_depth sv2 = 1%Z.
Proof.
  exists "/r/D/w", unix_calc, disk4, (snd (session cfg4 false tree4)), (snd (again "/r/D/w" saved_first)),
    (snd (session (stopping "/r/D/w") false tree4)), saved_first,
    (mkSaved "/r" "/r/D" true 2 SubUniversal (mkMetrics 5 0 5 0 0 0)),
    (mkSaved "/r" "/r/D" true 1 SubUniversal (mkMetrics 4 0 4 0 0 0)),
    (TraversalSaved "saved"), (TraversalSaved "saved").
  split; [apply base_hooks|]. split; [vm_compute; reflexivity|]. split; [vm_compute; reflexivity|].
  split; [vm_compute; reflexivity|]. split; [vm_compute; reflexivity|]. split; [vm_compute; reflexivity|].
  split; [vm_compute; reflexivity|]. split; [reflexivity|]. split; reflexivity.
Qed.
Print Assumptions c117_saved_depth_refuted.

(** *** C118 *)
Theorem c118_saved_counts_accumulate : forall tree cs sv, interrupted tree cs sv ->
  sv_tree sv = tree /\ m_files (sv_metrics sv) = files_in cs /\ m_dirs (sv_metrics sv) = dirs_in cs.
Proof. exact interrupted_counts. Qed.
Print Assumptions c118_saved_counts_accumulate.

Theorem c118_final_counts : forall tree cs sv c sampling pc dk o ok s, interrupted tree cs sv ->
  spawn_session c sampling pc dk sv = (o, ok, s) ->
  m_files (s_metrics s) = files_in (cs ++ calls (s_trace s)) /\
  m_dirs (s_metrics s) = dirs_in (cs ++ calls (s_trace s)).
Proof. exact interrupted_finished. Qed.
Print Assumptions c118_final_counts.

(** Interrupted twice, then finished: 4 + 6 + 4 callbacks. *)
Definition saved_second : saved := mkSaved "/r" "/r/D" true 2 SubUniversal (mkMetrics 5 0 5 0 0 0).
Example c118_case_interrupted : exists cs, interrupted "/r" cs saved_second /\ length cs = 10.
Proof.
  destruct (session cfg4 false tree4) as [o1 s1] eqn:E1.
  destruct (again "/r/D/w" saved_first) as [[o2 ok2] s2] eqn:E2.
  assert (R1 : rescues (s_trace s1) = [saved_first] /\ length (calls (s_trace s1)) = 4).
  { replace s1 with (snd (session cfg4 false tree4)) by (rewrite E1; reflexivity). split; vm_compute; reflexivity. }
  assert (R2 : rescues (s_trace s2) = [saved_second] /\ length (calls (s_trace s2)) = 6).
  { replace s2 with (snd (again "/r/D/w" saved_first)) by (rewrite E2; reflexivity). split; vm_compute; reflexivity. }
  rewrite again_is in E2. destruct R1 as [R1 L1], R2 as [R2 L2]. exists (calls (s_trace s1) ++ calls (s_trace s2)).
  split; [|rewrite app_length, L1, L2; reflexivity].
  refine (interrupted_again "/r" _ saved_first (stopping "/r/D/w") false unix_calc disk4 o2 ok2 s2 saved_second _ _ _ E2 _);
    [|apply base_hooks|reflexivity|rewrite R2; left; reflexivity].
  refine (interrupted_prime "/r" cfg4 false tree4 o1 s1 saved_first _ _ E1 _); [apply base_hooks|reflexivity|rewrite R1; left; reflexivity].
Qed.
Example c118_case_finished :
  let x := again "nowhere" saved_second in
  seen_by x = ["/r/D"; "/r/D/w"; "/r/e"] /\ fst x = (Ret None, true) /\
  m_files (s_metrics (snd x)) = 7 /\ m_dirs (s_metrics (snd x)) = 6.
Proof. split; [|split; [|split]]; vm_compute; reflexivity. Qed.
