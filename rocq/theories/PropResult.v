(** What Navigate returns, as the client may query it. Properties C86 to C89. *)
From Verif Require Import Base Paths Level Kernel Session Spec Filters Hooks Life Options Build SpecBuild BuildFacts BuildProps
  Cases CasesFacts WalkProps BuildCases FilterCases Persist Resume ResumeMetrics Result.
Local Open Scope list_scope.

(** ** C86: the error returned after a panic *)

(** For a panic below the root the error tells whether and where the session was stored: it is the saved
    error with destination d exactly if the panic handler succeeded with d, and the other one,
    with the reason, exactly if it failed for that reason. *)
Theorem c86_saved_or_not_partial : forall c sampling t o s n p,
  hooks_ok c -> root_ok c t -> filter_ok c -> session c sampling t = (o, s) ->
  In (n, CPanic p) (calls (s_trace s)) -> n_pos n <> [] ->
  exists before sv after, s_trace s = before ++ EvRescue sv :: after /\
    (forall destination, o = Ret (Some (TraversalSaved destination)) <-> c_rescue c before p sv = inl destination) /\
    (forall reason, o = Ret (Some (TraversalNotSaved reason)) <-> c_rescue c before p sv = inr reason).
Proof.
  intros c sampling t o s n p HK RO FO H I NP.
  destruct (panic_answered _ _ _ _ _ _ _ HK RO FO H I NP) as (b & sv & a & T & E). exists b, sv, a. split; [exact T|].
  rewrite E. destruct (c_rescue c b p sv) as [d|r]; split; intro x; split; intros X; cbn [rescue_error] in *;
    inversion X; reflexivity.
Qed.
Print Assumptions c86_saved_or_not_partial.

(** But what the callback panicked with is lost: whatever the error, the error
    returned is (errors.Is) the panic error of the library and nothing else. *)
Theorem c86_cause_lost_refuted : forall c sampling t o s n e,
  hooks_ok c -> root_ok c t -> filter_ok c -> session c sampling t = (o, s) ->
  In (n, CPanic (PErr e)) (calls (s_trace s)) -> n_pos n <> [] ->
  exists er, o = Ret (Some er) /\ forall x, errors_is x er = true <-> x = CorePanic.
Proof.
  intros c sampling t o s n e HK RO FO H I NP.
  destruct (panic_answered _ _ _ _ _ _ _ HK RO FO H I NP) as (b & sv & a & T & E).
  eexists. split; [exact E|]. intros x.
  destruct (c_rescue c b (PErr e) sv); cbn; destruct x; cbn; split; intros X; congruence.
Qed.
Print Assumptions c86_cause_lost_refuted.
Definition boom : cfg := with_client (answer "/r/A" (CPanic (PErr (Err (Plain 5))))) (base_cfg SubUniversal).
Example c86_case : hooks_ok boom /\ root_ok boom tree1 /\ filter_ok boom /\
  (exists n, In (n, CPanic (PErr (Err (Plain 5)))) (calls (s_trace (snd (session boom false tree1)))) /\ n_pos n <> []) /\
  fst (session boom false tree1) = Ret (Some (TraversalSaved "saved")).
Proof.
  split; [exact (base_hooks SubUniversal)|]. split; [reflexivity|]. split; [split; intros ? X; discriminate X|]. split; [|vm_compute; reflexivity].
  eexists. split; [vm_compute; right; left; reflexivity|]. cbn. discriminate.
Qed.

(** ** C87: querying the result *)

(** When the session could be built, the result may be queried, whatever Navigate
    returned; its counts are those of the session. *)
Theorem c87_queries_partial : forall env mt fac settings t t0 t1 now, 
  (forall p, rp_outcome (walk_prime env mt fac settings t) <> Pan p) ->
  (forall e, fst (build_prime env mt fac settings) <> BuildRefused e) ->
  let r := prime_result (walk_prime env mt fac settings t) (timed t0 t1) in
  (exists m, rp_metrics (walk_prime env mt fac settings t) = Some m /\ forall k, result_count r k = Ret (count k m)) /\
  result_started_at r = Ret t0 /\ (exists b, result_complete r = Ret b) /\ (exists d, result_elapsed now r = Ret d).
Proof.
  intros env mt fac settings t t0 t1 now NP NR. cbv zeta. unfold walk_prime in *. set (tree := facade_tree fac) in *. clearbody tree.
  destruct (fst (build_prime env mt fac settings)) as [q|e|e|c smp] eqn:B; cbn [run_built] in *.
  - exfalso. exact (NP q eq_refl).
  - exfalso. exact (NR e eq_refl).
  - cbn. split; [eexists; split; reflexivity|]. repeat split; eexists; reflexivity.
  - destruct (session c smp t) as [o s]. cbn. split; [eexists; split; reflexivity|]. repeat split; eexists; reflexivity.
Qed.
Print Assumptions c87_queries_partial.

(** The result of a session which could not be built is not nil, but every query
    of it panics. *)
Theorem c87_refused_refuted : forall env mt fac settings t e t0 t1 now,
  fst (build_prime env mt fac settings) = BuildRefused e ->
  rp_outcome (walk_prime env mt fac settings t) = Ret (Some e) /\
  let r := prime_result (walk_prime env mt fac settings t) (timed t0 t1) in
  (forall k, exists p, result_count r k = Pan p) /\ (exists p, result_complete r = Pan p) /\
  (exists p, result_started_at r = Pan p) /\ (exists p, result_elapsed now r = Pan p).
Proof.
  intros env mt fac settings t e t0 t1 now B. unfold walk_prime. rewrite B. cbn. repeat split; intros; eexists; reflexivity.
Qed.
Print Assumptions c87_refused_refuted.
Example c87_case :
  (exists e, fst (build_prime env0 mt0 (FacUsing (mkUsing "" (Some SubFiles) (Some client_nil) None)) []) = BuildRefused e) /\
  (let r := walk_prime env0 mt0 (FacUsing (mkUsing "/r" (Some SubFiles) (Some client_nil) None)) [] tree1 in
   result_count (prime_result r (timed 5 9)) FilesInvoked = Ret 4).
Proof. split; [eexists; vm_compute; reflexivity|vm_compute; reflexivity]. Qed.

(** ** C88: the time a session took *)

(** While the session runs (or at the moment it ends) Elapsed is the time since it started. *)
Theorem c88_elapsed_partial : forall t0 t1, 
  (forall now, tm_elapsed now (tm_start t0) = now - t0)%Z /\ tm_elapsed t1 (timed t0 t1) = (t1 - t0)%Z.
Proof. intros t0 t1. split; reflexivity. Qed.
Print Assumptions c88_elapsed_partial.
(** Afterwards it is not the time the session took, but goes on growing. *)
Theorem c88_elapsed_grows_refuted : forall t0 t1 now later, (t1 < now)%Z -> (now < later)%Z ->
  (tm_elapsed now (timed t0 t1) > t1 - t0)%Z /\
  (tm_elapsed later (timed t0 t1) > tm_elapsed now (timed t0 t1))%Z.
Proof. intros t0 t1 now later H1 H2. unfold tm_elapsed, timed, tm_finish, tm_start. cbn. split; lia. Qed.
Print Assumptions c88_elapsed_grows_refuted.
Example c88_case : result_elapsed 100 (prime_result (walk_prime env0 mt0 (FacUsing (mkUsing "/r" (Some SubFiles) (Some client_nil) None)) [] tree1) (timed 5 9)) = Ret 95%Z.
Proof. vm_compute. reflexivity. Qed.

(** ** C89: completeness *)

(** A spawn resume is complete exactly if Navigate returned no error. *)
Theorem c89_spawn_partial : forall env mt rs fac settings pc dk t0 t1,
  (exists r, fac = FacRelic r /\ re_strategy r = StrategySpawn) ->
  forall b, result_complete (resume_result (walk_resume env mt rs fac settings pc dk) (timed t0 t1)) = Ret b ->
  (b = true <-> rr_outcome (walk_resume env mt rs fac settings pc dk) = Ret None).
Proof.
  intros env mt rs fac settings pc dk t0 t1 (r & -> & S) b. unfold walk_resume. rewrite S.
  destruct (build_resume env mt rs (FacRelic r) settings) as [p|e|e sv|c smp sv]; cbn; try discriminate.
  - intros H. inversion H. split; discriminate.
  - destruct (spawn_session c smp pc dk sv) as [[o ok] s] eqn:E. cbn. intros H. inversion H. subst b.
    apply spawn_counts in E. apply E.
Qed.
Print Assumptions c89_spawn_partial.
(** A prime session is always complete, whatever it returned; so is a fastward
    resume. *)
Theorem c89_always_complete_refuted :
  (forall env mt fac settings t t0 t1 b,
    result_complete (prime_result (walk_prime env mt fac settings t) (timed t0 t1)) = Ret b -> b = true) /\
  (forall env mt rs fac settings pc dk t0 t1 b, (forall r, fac = FacRelic r -> re_strategy r <> StrategySpawn) ->
    result_complete (resume_result (walk_resume env mt rs fac settings pc dk) (timed t0 t1)) = Ret b -> b = true).
Proof.
  split.
  - intros env mt fac settings t t0 t1 b. unfold prime_result. destruct (rp_metrics _); cbn; [|discriminate]. congruence.
  - intros env mt rs fac settings pc dk t0 t1 b NS. unfold walk_resume. destruct fac as [u|r]; [cbn; discriminate|].
    specialize (NS r eq_refl). destruct (build_resume env mt rs (FacRelic r) settings) as [p|e|e sv|c smp sv]; cbn; try discriminate.
    + destruct (re_strategy r); cbn; congruence.
    + destruct (re_strategy r); try congruence;
        [destruct (fastward_session false c smp pc dk sv)|destruct (fastward_session true c smp pc dk sv)]; cbn; congruence.
Qed.
Print Assumptions c89_always_complete_refuted.
Example c89_case :
  let r := walk_prime env0 mt0 (FacUsing (mkUsing "/r" (Some SubUniversal) (Some (answer "/r/A" (CErr (Err (Plain 5))))) None)) [] tree1 in
  rp_outcome r = Ret (Some (Err (Plain 5))) /\ result_complete (prime_result r (timed 5 9)) = Ret true.
Proof. vm_compute. split; reflexivity. Qed.
