(** Property C113: nodes are not shared with a navigator which still writes to
    them. Vocabulary: SpecShare.v: [has n q]: who has the node [n] can reach the node [q] through
    Parent; [writing None a]: the node the navigator may be writing to after the events [a]. *)
From Verif Require Import Base Paths Level Kernel Defaults Session Spec Filters Hooks Life Options Build SpecBuild Pool PoolFacts PropPool
  SpecShare ShareFacts Cases CasesFacts BuildFacts BuildCases KernelFacts.
From Coq Require Import Permutation Lia.
Local Open Scope string_scope.

Lemma calls_in : forall tr n r, In (n, r) (calls tr) -> In (EvCall n r) tr.
Proof.
  induction tr as [|e tr IH]; intros n r H; [destruct H|]. destruct e; cbn in H; try (right; apply IH; exact H).
  destruct H as [H|H]; [left; congruence|right; apply IH; exact H].
Qed.

(** *** C113 *)
(** Sequentially: once the callback has been called with a node, the library never again writes
    to it or to a node above it, so a callback may keep nodes and pass them on to other
    goroutines. *)
Theorem c113_given_away : forall c sampling t o s, hooks_ok c -> root_ok c t -> session c sampling t = (o, s) ->
  forall a b m n r q, s_trace s = (a ++ b)%list -> In (EvCall n r) a -> has n q ->
  writing None a = Some m -> ~ same_object q m.
Proof. intros c sampling t o s HK RO H a b m n r q TR I HQ W. exact (session_shared c sampling t o s HK RO H a b m n r q TR W I HQ). Qed.
Print Assumptions c113_given_away.

(** In a concurrent run, at any moment of any schedule (the navigator has done
    [a] of its events and [b] is left, having sent all inputs but those it has still to send): no
    callback which has begun, running or returned, has a node the navigator may be writing to. *)
Theorem c113_no_race : forall draining env mt u settings c smp t s a b m,
  us_handler u <> None -> fst (build_prime env mt (FacUsing u) settings) = BuildReady c smp -> hooks_ok c -> root_ok c t ->
  run_state draining env mt u settings t s ->
  rp_trace (run_prime env mt (FacUsing u) settings t) = (a ++ b)%list -> map fst (calls b) = pl_todo s ->
  writing None a = Some m ->
  forall n q, In n (pl_started s) -> has n q -> ~ same_object q m.
Proof.
  intros draining env mt u settings c smp t s a b m UH BR HK RO RS TR TD W n q IN HQ.
  destruct RS as [k R]. apply inv_reach in R. destruct R as [_ _ _ _ (dr & E & _)].
  unfold nodes_of in E. rewrite TR in E. rewrite calls_app, map_app, TD in E.
  rewrite !app_assoc in E. apply app_inv_tail in E. rewrite <- !app_assoc in E.
  assert (IC : In n (map fst (calls a))) by (rewrite E; apply in_app_iff; left; exact IN).
  assert (EC : exists r, In (EvCall n r) a).
  { apply in_map_iff in IC. destruct IC as ([n' r] & X & I). cbn in X. subst n'. exists r. apply calls_in. exact I. }
  destruct EC as [r I]. unfold run_prime in TR. rewrite BR in TR. cbn [swap_built run_built] in TR.
  destruct (session (swap_client sending c) smp t) as [o s1] eqn:S. cbn [rp_trace] in TR.
  exact (c113_given_away (swap_client sending c) smp t o s1 HK RO S a b m n r q TR I HQ W).
Qed.
Print Assumptions c113_no_race.

Lemma two_running : forall (job : Type) draining now size (j1 j2 : job) rest, 2 <= now ->
  exists n, steps draining now size n (pool_start (j1 :: j2 :: rest)) (mkPool rest Navigating [] None [j1; j2] [j1; j2] []).
Proof.
  intros job draining now size j1 j2 rest NW. exists 4.
  econstructor; [econstructor; [econstructor; [econstructor; [constructor|]|]|]|].
  - apply st_rendezvous.
  - apply st_begin; [cbn; lia|discriminate].
  - apply st_rendezvous.
  - apply (st_begin draining now size rest Navigating [] j2 [j1] [j1] []); [cbn; lia|discriminate].
Qed.
(** A run with two workers, in the middle of its work: the navigator has just descended to
    /r/A/B and may be writing to it, the callbacks for /r and /r/A have begun. *)
Example c113_case :
  let u := using_ SubUniversal None in
  let ws := options_of env0 [WithNoW 2] in
  let tr := rp_trace (run_prime env0 mt0 (FacUsing u) ws tree1) in
  (exists c smp, fst (build_prime env0 mt0 (FacUsing u) ws) = BuildReady c smp /\ hooks_ok c /\ root_ok c tree1) /\
  let a := firstn 8 tr in
  option_map n_path (writing None a) = Some "/r/A/B" /\ map (fun x => n_path (fst x)) (calls a) = ["/r"; "/r/A"] /\
  exists s, run_state true env0 mt0 u ws tree1 s /\ pl_todo s = map fst (calls (skipn 8 tr)) /\
    map n_path (pl_started s) = ["/r"; "/r/A"] /\ pl_running s = pl_started s.
Proof.
  cbv zeta. split.
  { eexists _, _. split; [reflexivity|]. split; [exact (base_hooks SubUniversal)|reflexivity]. }
  split; [vm_compute; reflexivity|]. split; [vm_compute; reflexivity|].
  assert (E : exists j1 j2, nodes_of (run_prime env0 mt0 (FacUsing (using_ SubUniversal None)) (options_of env0 [WithNoW 2]) tree1) =
    j1 :: j2 :: map fst (calls (skipn 8 (rp_trace (run_prime env0 mt0 (FacUsing (using_ SubUniversal None)) (options_of env0 [WithNoW 2]) tree1)))) /\
    n_path j1 = "/r" /\ n_path j2 = "/r/A").
  { eexists _, _. split; [vm_compute; reflexivity|]. split; reflexivity. }
  destruct E as (j1 & j2 & E & P1 & P2). eexists. split; [|split; [|split]].
  - unfold run_state, reachable_pool. rewrite E. apply two_running. vm_compute. lia.
  - reflexivity.
  - cbn. rewrite P1, P2. reflexivity.
  - reflexivity.
Qed.
