(** Properties C45, C46, C79: concurrent runs. The system is that of Pool.v;
    [walk_prime]: what Walk().Configure().Extent(Prime(facade, settings...)).Navigate(ctx)
    does; [with_handler f u]: the facade [u] with the callback [f]. *)
From Verif Require Import Base Paths Level Kernel Defaults Session Spec Filters Hooks Life Options Build SpecBuild Pool PoolFacts
  Cases CasesFacts BuildFacts BuildCases FilterCases.
From Coq Require Import Permutation Lia.
Local Open Scope string_scope.

(** The sequential walk of the same session with a callback which returns nil. *)
Definition nil_walk (env : environment) (mt : matchers) (u : prime_facade) (settings : list (option setting)) (t : fsnode) : report :=
  walk_prime env mt (FacUsing (with_handler (fun _ _ => CNil) u)) settings t.
(** A state of a run: the number of workers and the size of the input channel are
    those of the options; the inputs are what the navigator sends. *)
Definition run_state (draining : bool) (env : environment) (mt : matchers) (u : prime_facade)
    (settings : list (option setting)) (t : fsnode) (s : pool node) : Prop :=
  let o := snd (build_prime env mt (FacUsing u) settings) in
  reachable_pool draining (N.to_nat (co_now (op_conc o))) (N.to_nat (co_input (op_conc o)))
    (nodes_of (run_prime env mt (FacUsing u) settings t)) s.
Definition run_step (draining : bool) (env : environment) (mt : matchers) (u : prime_facade)
    (settings : list (option setting)) (s s' : pool node) : Prop :=
  let o := snd (build_prime env mt (FacUsing u) settings) in
  step draining (N.to_nat (co_now (op_conc o))) (N.to_nat (co_input (op_conc o))) s s'.
Definition workers (env : environment) (mt : matchers) (u : prime_facade) (settings : list (option setting)) : nat :=
  N.to_nat (co_now (op_conc (snd (build_prime env mt (FacUsing u) settings)))).
Definition inputs (env : environment) (mt : matchers) (u : prime_facade) (settings : list (option setting)) : nat :=
  N.to_nat (co_input (op_conc (snd (build_prime env mt (FacUsing u) settings)))).

(** *** C45 *)
(** Under every schedule, once nothing more can happen: Navigate has returned and
    the callback has been executed exactly once for each node the sequential
    walk visits; the executions began in the order of that walk. Assumes of the pool
    that Release lets inputs it has accepted be worked on; see below. *)
Theorem c45_exactly_once_partial : forall env mt u settings t s, us_handler u <> None ->
  1 <= workers env mt u settings -> run_state true env mt u settings t s ->
  (forall s', ~ run_step true env mt u settings s s') ->
  pl_phase s = Returned /\ pl_started s = nodes_of (nil_walk env mt u settings t) /\
  Permutation (pl_done s) (nodes_of (nil_walk env mt u settings t)).
Proof.
  intros env mt u settings t s H NW [n R] Q. rewrite run_is_walk in R by exact H. apply inv_reach in R.
  pose proof (quiet_finished _ _ _ _ NW s R Q) as F. split; [apply F|].
  apply (finished_all _ _ _ _ eq_refl s R F).
Qed.
Print Assumptions c45_exactly_once_partial.

(** At every moment, whatever Release does: the callbacks begun are those of a
    first part of the walk, in its order; no more of them run than there are
    workers; no more inputs wait in the channel than its size. *)
Theorem c45_at_all_times : forall draining env mt u settings t s, us_handler u <> None ->
  run_state draining env mt u settings t s ->
  (exists rest, nodes_of (nil_walk env mt u settings t) = (pl_started s ++ rest)%list) /\
  Permutation (pl_done s ++ pl_running s) (pl_started s) /\
  length (pl_running s) <= workers env mt u settings /\ length (pl_chan s) <= inputs env mt u settings.
Proof.
  intros draining env mt u settings t s H [n R]. rewrite run_is_walk in R by exact H. apply inv_reach in R.
  destruct R as [A B C D (dr & E & F)]. split; [eexists; exact E|]. auto.
Qed.
Print Assumptions c45_at_all_times.

(** "And only then returns" is refuted: whatever Release does, every run with at
    least one node has a schedule in which Navigate has returned before the last
    callback has begun. *)
Theorem c45_returns_before_callbacks_refuted : forall draining env mt u settings t pre j, us_handler u <> None ->
  1 <= workers env mt u settings -> nodes_of (nil_walk env mt u settings t) = (pre ++ [j])%list ->
  exists s, run_state draining env mt u settings t s /\ pl_phase s = Returned /\ pl_started s = pre.
Proof.
  intros draining env mt u settings t pre j H NW E.
  destruct (returned_early draining _ (inputs env mt u settings) _ NW pre j E) as [n R].
  eexists. split; [exists n; rewrite run_is_walk by exact H; exact R|]. split; reflexivity.
Qed.
Print Assumptions c45_returns_before_callbacks_refuted.

(** Release is called while inputs may be waiting (nothing before it waits for
    them): if it refused those, the last callback might never be executed. *)
Theorem c45_depends_on_release : forall env mt u settings t pre j, us_handler u <> None ->
  1 <= workers env mt u settings -> nodes_of (nil_walk env mt u settings t) = (pre ++ [j])%list ->
  exists s, run_state false env mt u settings t s /\ (forall s', ~ run_step false env mt u settings s s') /\ pl_done s = pre.
Proof.
  intros env mt u settings t pre j H NW E.
  destruct (returned_early false _ (inputs env mt u settings) _ NW pre j E) as [n R].
  exists (mkPool [] Returned [] None [] pre pre). split.
  - exists (S n). econstructor; [rewrite run_is_walk by exact H; exact R|]. apply st_discard. reflexivity.
  - split; [|reflexivity]. intros s' ST. inversion ST. destruct ru1; discriminate.
Qed.
Print Assumptions c45_depends_on_release.

(** *** C46 *)
(** Under every schedule something can happen until Navigate has returned and
    all callbacks have been executed, *)
Theorem c46_no_deadlock : forall env mt u settings t s, us_handler u <> None ->
  1 <= workers env mt u settings -> run_state true env mt u settings t s ->
  (exists s', run_step true env mt u settings s s') \/
  (pl_phase s = Returned /\ Permutation (pl_done s) (nodes_of (nil_walk env mt u settings t))).
Proof.
  intros env mt u settings t s H NW [n R]. rewrite run_is_walk in R by exact H. apply inv_reach in R.
  assert (D : finished s \/ ~ finished s).
  { unfold finished. destruct s as [todo ph ch h ru st dn]. cbn. destruct ph, ch, h, ru;
      try (right; intros (A & B & C & D); discriminate); left; auto. }
  destruct D as [D|D].
  - right. split; [apply D|]. apply (finished_all _ _ _ _ eq_refl s R D).
  - left. apply (progress _ _ _ _ NW s R D).
Qed.
Print Assumptions c46_no_deadlock.
(** and no schedule goes on for ever: at most four moves for each node, and two. *)
Theorem c46_terminates : forall draining now size (jobs : list node) n s,
  steps draining now size n (pool_start jobs) s -> n <= 4 * length jobs + 2.
Proof. intros draining now size jobs n s R. apply bounded in R. unfold weight, held in R. cbn in R. lia. Qed.
Print Assumptions c46_terminates.

(** *** C79: what the navigator does in a concurrent run (visits, notifications,
    result, metrics) does not depend on what the callback answers: it is the
    sequential walk with a callback returning nil. *)
Theorem c79_answers_do_not_matter : forall env mt u settings t cl,
  run_prime env mt (FacUsing (with_handler cl u)) settings t = nil_walk env mt u settings t.
Proof. intros. rewrite run_is_walk by discriminate. reflexivity. Qed.
Print Assumptions c79_answers_do_not_matter.
(** When the pool cannot be made its error is returned and no callback made. *)
Theorem c79_pool_error : forall env mt u settings t e, 
  let r := run_prime_pool (Some e) env mt (FacUsing u) settings t in
  (nodes_of r = [] /\ rp_outcome r = Ret (Some e)) \/ r = walk_prime env mt (FacUsing u) settings t /\ nodes_of r = [] /\ rp_outcome r <> Ret None.
Proof.
  intros env mt u settings t e. cbv zeta. unfold run_prime_pool, run_prime, walk_prime.
  destruct (fst (build_prime env mt (FacUsing u) settings)) as [q|x|x|c smp]; cbn [swap_built run_built].
  - right. repeat split; discriminate.
  - right. repeat split; discriminate.
  - right. repeat split; discriminate.
  - left. split; reflexivity.
Qed.
Print Assumptions c79_pool_error.

Example c45_case :
  let u := using_ SubUniversal None in
  let ws := options_of env0 [WithNoW 2] in
  us_handler u <> None /\ workers env0 mt0 u ws = 2 /\ inputs env0 mt0 u ws = 2 /\
  map n_path (nodes_of (nil_walk env0 mt0 u ws tree1)) = ["/r"; "/r/A"; "/r/A/B"; "/r/A/B/y"; "/r/A/x"; "/r/b"; "/r/c"; "/r/Z"].
Proof. repeat split; try discriminate; vm_compute; reflexivity. Qed.
Example c45_reached :
  let u := using_ SubUniversal None in
  let ws := options_of env0 [WithNoW 2] in
  exists s, run_state true env0 mt0 u ws tree1 s /\ (forall s', ~ run_step true env0 mt0 u ws s s').
Proof.
  cbv zeta. unfold run_state, run_step, reachable_pool.
  assert (E : exists pre j, nodes_of (run_prime env0 mt0 (FacUsing (using_ SubUniversal None)) (options_of env0 [WithNoW 2]) tree1) = (pre ++ [j])%list).
  { match goal with |- exists pre j, ?l = _ => assert (NE : l <> []) by (vm_compute; discriminate); generalize dependent l end.
    intros l NE. destruct (exists_last NE) as (pre & j & E). eauto. }
  destruct E as (pre & j & E).
  assert (NW : 1 <= N.to_nat (co_now (op_conc (snd (build_prime env0 mt0 (FacUsing (using_ SubUniversal None)) (options_of env0 [WithNoW 2])))))) by (vm_compute; lia).
  destruct (quiet_reached true _ (N.to_nat (co_input (op_conc (snd (build_prime env0 mt0 (FacUsing (using_ SubUniversal None)) (options_of env0 [WithNoW 2])))))) _ NW pre j E eq_refl) as (n & R & Q).
  eexists. split; [exists n; exact R|exact Q].
Qed.
(** A later callback may return before an earlier one. *)
Example c45_schedule : exists n, steps true 2 1 n (pool_start [1; 2; 3]) (mkPool [] Returned [] None [] [1; 2; 3] [2; 1; 3]).
Proof.
  eexists.
  eapply ss_cons. eapply ss_cons. eapply ss_cons. eapply ss_cons. eapply ss_cons. eapply ss_cons.
  eapply ss_cons. eapply ss_cons. eapply ss_cons. eapply ss_cons. eapply ss_cons. eapply ss_cons. eapply ss_cons. apply ss_nil.
  - apply st_rendezvous.
  - apply st_begin; [cbn; lia|discriminate].
  - apply st_send; cbn; lia.
  - apply st_take.
  - apply st_send; cbn; lia.
  - apply st_begin; [cbn; lia|discriminate].
  - apply st_close.
  - apply (st_end true 2 1 [] ChannelClosed [3] None [1] 2 []).
  - apply st_take.
  - apply st_release.
  - apply (st_end true 2 1 [] Returned [] (Some 3) [] 1 []).
  - apply st_begin; [cbn; lia|reflexivity].
  - apply (st_end true 2 1 [] Returned [] None [] 3 []).
Qed.
(** A skip has no effect in a run. *)
Example c79_case :
  let u := with_handler (fun _ _ => CErr (Err SkipDir)) (using_ SubUniversal None) in
  map n_path (nodes_of (walk_prime env0 mt0 (FacUsing u) [] tree1)) = ["/r"] /\
  map n_path (nodes_of (run_prime env0 mt0 (FacUsing u) [] tree1)) = ["/r"; "/r/A"; "/r/A/B"; "/r/A/B/y"; "/r/A/x"; "/r/b"; "/r/c"; "/r/Z"].
Proof. split; vm_compute; reflexivity. Qed.
