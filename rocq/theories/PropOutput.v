(** Properties C98 and C99: the outputs of a concurrent run. The system is that
    of Output.v; the number of workers and the sizes of the channels are those
    of the options. *)
From Verif Require Import Base Paths Level Kernel Defaults Session Spec Filters Hooks Life Options Build SpecBuild Pool PoolFacts
  Cases CasesFacts BuildFacts BuildCases FilterCases OwnProps Output OutputFacts PropPool.
From Coq Require Import Permutation Lia.
Local Open Scope string_scope.
Local Open Scope list_scope.

(** A client of a run with outputs: what its callback returns, what its On
    function waits for before returning, and whether it then goes on receiving. *)
Record consumer := mkConsumer { cs_answer : node -> option error; cs_on : on_wait; cs_reading : bool }.
(** On starts a goroutine which receives everything, and returns. *)
Definition proper_consumer (k : consumer) : Prop := cs_on k = Awaits 0 /\ cs_reading k = true.

(** The size of the output channel with the With functions [ws]. *)
Definition output_size (env : environment) (ws : list with_option) : nat :=
  let workers := latest (sets_workers (en_cpus env)) ws (en_cpus env) in
  let '(n, on) := latest sets_output ws (0%N, false) in
  N.to_nat (if on && (n =? 0)%N then workers else n).
(** States and moves of such a run. *)
Definition outputs_step (draining timeouts : bool) (k : consumer) env mt u ws : run node -> run node -> Prop :=
  let c := op_conc (snd (build_prime env mt (FacUsing u) (options_of env ws))) in
  ostep (cs_answer k) draining timeouts (cs_reading k) (N.to_nat (co_now c)) (N.to_nat (co_input c)) (N.to_nat (co_output c)).
Definition outputs_state (draining timeouts : bool) (k : consumer) env mt u ws t (s : run node) : Prop :=
  let c := op_conc (snd (build_prime env mt (FacUsing u) (options_of env ws))) in
  exists n, osteps (cs_answer k) draining timeouts (cs_reading k) (N.to_nat (co_now c)) (N.to_nat (co_input c)) (N.to_nat (co_output c)) n
    (run_start (cs_on k) (nodes_of (run_prime env mt (FacUsing u) (options_of env ws) t))) s.
(** A session run with outputs: the callback is given, outputs are asked for. *)
Definition with_outputs (env : environment) (u : prime_facade) (ws : list with_option) : Prop :=
  us_handler u <> None /\ us_options u = None /\ snd (latest sets_output ws (0%N, false)) = true.

Lemma sizes : forall env mt u ws, with_outputs env u ws ->
  N.to_nat (co_output (op_conc (snd (build_prime env mt (FacUsing u) (options_of env ws))))) = output_size env ws /\
  workers env mt u (options_of env ws) = N.to_nat (latest (sets_workers (en_cpus env)) ws (en_cpus env)).
Proof.
  intros env mt u ws (_ & NO & _). destruct (built_conc env mt u ws NO) as (A & B & C & D & _). cbv zeta in *.
  unfold workers, output_size. rewrite A, D. destruct (latest sets_output ws (0%N, false)) as [n on]. cbn [fst snd]. split; reflexivity.
Qed.
Lemma sizes_positive : forall env mt u ws, with_outputs env u ws -> 1 <= workers env mt u (options_of env ws) ->
  1 <= N.to_nat (co_output (op_conc (snd (build_prime env mt (FacUsing u) (options_of env ws))))).
Proof.
  intros env mt u ws W NW. destruct (sizes env mt u ws W) as [A B]. rewrite A. rewrite B in NW. unfold output_size.
  destruct W as (_ & _ & O). destruct (latest sets_output ws (0%N, false)) as [n on]. cbn in O. subst on. cbn [andb].
  destruct (n =? 0)%N eqn:E; [exact NW|]. apply N.eqb_neq in E. lia.
Qed.

(** *** C98 *)
(** At every moment, whatever the client does, whether sends time out or not: an
    output which the client has received holds a node whose callback has been
    executed, with the error that callback returned; there is at most one for each
    execution; as in C45 the executions are those of a first part of the walk. *)
Theorem c98_at_all_times : forall draining timeouts k env mt u ws t s, with_outputs env u ws ->
  outputs_state draining timeouts k env mt u ws t s ->
  (forall n e, In (n, e) (ru_got s) -> e = cs_answer k n) /\
  (exists others, Permutation (map fst (ru_got s) ++ others) (pl_started (ru_pool s))) /\
  (exists rest, nodes_of (nil_walk env mt u (options_of env ws) t) = (pl_started (ru_pool s) ++ rest)%list).
Proof.
  intros draining timeouts k env mt u ws t s (H & _) [n R]. rewrite run_is_walk in R by exact H. apply oinv_reach in R.
  destruct R as [[_ _ _ D (dr & E & _)] _ _ SE AN _ _]. repeat split.
  - intros j a HI. apply AN. apply in_or_app. left. exact HI.
  - exists (map fst (ru_out s) ++ ru_lost s ++ pl_running (ru_pool s)). rewrite <- D. rewrite SE. rewrite map_app. rewrite !app_assoc. reflexivity.
  - eexists. exact E.
Qed.
Print Assumptions c98_at_all_times.

(** With a client which receives the outputs in a goroutine of its own, no send
    timing out, under every schedule, once nothing more can happen: Navigate has returned
    and exactly one output has been received for each node of the walk, with the
    error its callback returned (given, as in C45, that Release lets accepted inputs be
    worked on). *)
Theorem c98_all_outputs : forall k env mt u ws t s, with_outputs env u ws -> proper_consumer k ->
  1 <= workers env mt u (options_of env ws) ->
  outputs_state true false k env mt u ws t s -> (forall s', ~ outputs_step true false k env mt u ws s s') ->
  pl_phase (ru_pool s) = Returned /\
  Permutation (ru_got s) (map (fun n => (n, cs_answer k n)) (nodes_of (nil_walk env mt u (options_of env ws) t))).
Proof.
  intros k env mt u ws t s W [PO PR] NW [n R] Q. destruct W as (H & W'). rewrite run_is_walk in R by exact H. rewrite PO in R.
  pose proof (on_none _ _ _ _ _ _ _ _ _ _ R) as ON. apply oinv_reach in R.
  apply all_received with (draining := true) (timeouts := false) (now := workers env mt u (options_of env ws))
    (size := inputs env mt u (options_of env ws)) (outsize := N.to_nat (co_output (op_conc (snd (build_prime env mt (FacUsing u) (options_of env ws)))))); try reflexivity; try exact R.
  assert (D : received_all s \/ ~ received_all s).
  { unfold received_all, finished. destruct s as [w [todo ph ch h ru st dn] sg out got lost]. cbn.
    destruct ph, ch, h, ru, out, sg, w; try (right; intros ((A & B & C & D) & E & F & G); discriminate); left; auto 10. }
  destruct D as [D|D]; [exact D|exfalso].
  destruct (oprogress_reading _ _ _ _ _ _ _ _ NW (sizes_positive env mt u ws (conj H W') NW) PR s R ON D) as [s' ST].
  exact (Q s' ST).
Qed.
Print Assumptions c98_all_outputs.

(** *** C99: Navigate returns, whatever the client does with the outputs *)
(** Proved when the client receives them in a goroutine of its own: something can
    happen until Navigate has returned and everything has been received, and no
    schedule goes on for ever. *)
Theorem c99_no_deadlock_partial : forall k env mt u ws t s, with_outputs env u ws -> proper_consumer k ->
  1 <= workers env mt u (options_of env ws) -> outputs_state true false k env mt u ws t s ->
  (exists s', outputs_step true false k env mt u ws s s') \/
  (pl_phase (ru_pool s) = Returned /\ length (ru_got s) = length (nodes_of (nil_walk env mt u (options_of env ws) t))).
Proof.
  intros k env mt u ws t s W [PO PR] NW [n R]. destruct W as (H & W'). rewrite run_is_walk in R by exact H. rewrite PO in R.
  pose proof (on_none _ _ _ _ _ _ _ _ _ _ R) as ON. apply oinv_reach in R.
  assert (D : received_all s \/ ~ received_all s).
  { unfold received_all, finished. destruct s as [w [todo ph ch h ru st dn] sg out got lost]. cbn.
    destruct ph, ch, h, ru, out, sg, w; try (right; intros ((A & B & C & D) & E & F & G); discriminate); left; auto 10. }
  destruct D as [D|D].
  - right. destruct (all_received _ _ _ _ _ _ _ eq_refl eq_refl s R D) as [A B]. split; [exact A|].
    apply Permutation_length in B. rewrite map_length in B. exact B.
  - left. exact (oprogress_reading _ _ _ _ _ _ _ _ NW (sizes_positive env mt u ws (conj H W') NW) PR s R ON D).
Qed.
Print Assumptions c99_no_deadlock_partial.
Theorem c99_terminates : forall draining timeouts k now size outsize (jobs : list node) n s,
  osteps (cs_answer k) draining timeouts (cs_reading k) now size outsize n (run_start (cs_on k) jobs) s ->
  n <= 12 * length jobs + 7.
Proof. intros draining timeouts k now size outsize jobs n s R. eapply obounded. exact R. Qed.
Print Assumptions c99_terminates.

(** REFUTED when On receives outputs itself, even one: On is called before the
    navigation by the same goroutine, so nothing ever happens: no callback is
    executed and Navigate does not return, for every session. *)
Theorem c99_on_receiving_refuted : forall draining timeouts k env mt u ws t s, with_outputs env u ws -> cs_on k <> Awaits 0 ->
  outputs_state draining timeouts k env mt u ws t s ->
  pl_started (ru_pool s) = [] /\ pl_phase (ru_pool s) = Navigating /\ (forall s', ~ outputs_step draining timeouts k env mt u ws s s').
Proof.
  intros draining timeouts k env mt u ws t s _ NE [n R]. pose proof (on_blocks _ _ _ _ _ _ _ _ _ _ _ NE R) as ->.
  repeat split. intros s' ST.
  assert (R' := oss_cons _ _ _ _ _ _ _ _ _ _ _ R ST). apply on_blocks in R'; [|exact NE]. subst s'.
  pose proof (oweight_step _ _ _ _ _ _ _ _ _ _ (oinv_start _ _ _ _ _ _ _ _) ST). lia.
Qed.
Print Assumptions c99_on_receiving_refuted.

(** REFUTED when nobody receives, no send times out and there are more nodes than
    fit into the two channels, the workers and the reader of the input: Navigate returns under no
    schedule. *)
Theorem c99_nobody_receiving_refuted : forall draining k env mt u ws t s, with_outputs env u ws ->
  cs_on k = Awaits 0 -> cs_reading k = false ->
  output_size env ws + 2 * workers env mt u (options_of env ws) + 1 < length (nodes_of (nil_walk env mt u (options_of env ws) t)) ->
  outputs_state draining false k env mt u ws t s -> pl_phase (ru_pool s) = Navigating.
Proof.
  intros draining k env mt u ws t s W PO PR LT [n R]. destruct (sizes env mt u ws W) as [SZ WK]. destruct W as (H & NO & W').
  rewrite run_is_walk in R by exact H. rewrite PO, PR in R.
  refine (proj1 (never_closed _ _ false _ _ _ _ _ eq_refl eq_refl _ n s R)).
  destruct (built_conc env mt u ws NO) as (A & B & _). cbv zeta in *.
  rewrite SZ. unfold workers in LT. rewrite B. rewrite A in *. unfold nil_walk in LT. unfold sending. lia.
Qed.
Print Assumptions c99_nobody_receiving_refuted.
(** When they all fit into the output channel nobody needs to receive them. *)
Theorem c99_fitting : forall k env mt u ws t s, with_outputs env u ws -> cs_on k = Awaits 0 ->
  1 <= workers env mt u (options_of env ws) ->
  length (nodes_of (nil_walk env mt u (options_of env ws) t)) <= output_size env ws ->
  outputs_state true false k env mt u ws t s -> (forall s', ~ outputs_step true false k env mt u ws s s') ->
  pl_phase (ru_pool s) = Returned /\ Permutation (pl_done (ru_pool s)) (nodes_of (nil_walk env mt u (options_of env ws) t)).
Proof.
  intros k env mt u ws t s W PO NW LE [n R] Q. destruct (sizes env mt u ws W) as [SZ WK]. destruct W as (H & NO & W').
  rewrite run_is_walk in R by exact H. rewrite PO in R.
  pose proof (on_none _ _ _ _ _ _ _ _ _ _ R) as ON. apply oinv_reach in R.
  assert (D : (finished (ru_pool s) /\ ru_on s = None) \/ (~ finished (ru_pool s) \/ ru_on s <> None)).
  { unfold finished. destruct s as [w [todo ph ch h ru st dn] sg out got lost]. cbn.
    destruct w; [right; right; discriminate|].
    destruct ph, ch, h, ru; try (right; left; intros (A & B & C & D); discriminate); left; auto 10. }
  destruct D as [[D _]|D].
  - split; [apply D|]. destruct R as [IP _ _ _ _ _ _]. apply (finished_all _ _ _ _ eq_refl _ IP D).
  - exfalso. rewrite <- SZ in LE.
    destruct (oprogress_small _ _ _ (cs_reading k) _ _ _ _ NW eq_refl LE s R ON D) as [s' ST]. exact (Q s' ST).
Qed.
Print Assumptions c99_fitting.

(** A session with two workers; the callback fails on one node. *)
Definition answers : node -> option error := fun n => if String.eqb (n_path n) "/r/A" then Some (Err (Plain 4)) else None.
Definition two_outputs (size : N) : list with_option := [WithNoW 2; WithOutput size true].
Example c98_case : let u := using_ SubUniversal None in
  with_outputs env0 u (two_outputs 0) /\ workers env0 mt0 u (options_of env0 (two_outputs 0)) = 2 /\
  output_size env0 (two_outputs 0) = 2 /\ output_size env0 (two_outputs 5) = 5 /\
  length (nodes_of (nil_walk env0 mt0 u (options_of env0 (two_outputs 0)) tree1)) = 8 /\
  output_size env0 (two_outputs 0) + 2 * 2 + 1 < 8.
Proof. repeat split; try discriminate; vm_compute; try reflexivity; lia. Qed.
(** Outputs may come in another order than the executions began. *)
Example c98_schedule : exists n, osteps (fun j => if Nat.eqb j 1 then Some (Err (Plain 4)) else None) true false true 2 2 1 n
  (run_start (Awaits 0) [1; 2]) (mkRun None (mkPool [] Returned [] None [] [1; 2] [2; 1]) [] [] [(2, None); (1, Some (Err (Plain 4)))] []).
Proof.
  eexists.
  eapply oss_cons. eapply oss_cons. eapply oss_cons. eapply oss_cons. eapply oss_cons. eapply oss_cons. eapply oss_cons.
  eapply oss_cons. eapply oss_cons. eapply oss_cons. eapply oss_cons. eapply oss_cons. eapply oss_cons. apply oss_nil.
  - apply os_return.
  - eapply os_move; [apply st_rendezvous|reflexivity|auto].
  - eapply os_move; [apply st_begin; [cbn; lia|discriminate]|reflexivity|auto].
  - eapply os_move; [apply st_rendezvous|reflexivity|auto].
  - eapply os_move; [apply st_begin; [cbn; lia|discriminate]|reflexivity|auto].
  - eapply (os_answer _ _ _ _ _ _ _ None _ [] 2). exists [1]. cbn. apply perm_swap.
  - eapply (os_send _ _ _ _ _ _ _ None _ _ [] 2 []); [cbn; lia|apply (st_end true 2 2 [] Navigating [] None [1] 2 [])|reflexivity].
  - eapply (os_answer _ _ _ _ _ _ _ None _ [] 1). exists []. reflexivity.
  - eapply os_move; [apply st_close|reflexivity|auto].
  - eapply os_move; [apply st_release|reflexivity|auto].
  - apply os_receive. reflexivity.
  - eapply (os_send _ _ _ _ _ _ _ None _ _ [] 1 []); [cbn; lia|apply (st_end true 2 2 [] Returned [] None [] 1 [])|reflexivity].
  - apply (os_receive _ true false true 2 2 1 (mkPool [] Returned [] None [] [1; 2] [2; 1]) [] (1, Some (Err (Plain 4))) [] [(2, None)] []).
    reflexivity.
Qed.
