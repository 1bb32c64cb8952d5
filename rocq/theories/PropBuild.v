(** Properties C13, C17, C49, C50, C53, C56, C59-C61: options, building a session,
    composites. Vocabulary: SpecBuild.v; [walk_prime]: what
    Walk().Configure().Extent(Prime(facade, settings...)).Navigate(ctx) does. *)
From Verif Require Import Base Paths Level Kernel Defaults Session Spec Filters Hooks Life Options Build Composites SpecBuild
  ReadFacts Cases CasesFacts BuildFacts BuildProps ReuseFacts BuildCases.
Local Open Scope string_scope.

(** *** C49 *)
(** Any settings, the client's own included: they run left to right, nil ones
    being skipped; the first error stops and is reported. *)
Theorem c49_applied_in_order : forall settings o o2 e, apply settings o = (o2, e) ->
  match e with
  | None => runs settings o o2
  | Some err => exists pre f post o1,
      settings = (pre ++ Some f :: post)%list /\ runs pre o o1 /\ f o1 = (o2, Some err)
  end.
Proof. exact apply_meaning. Qed.
Print Assumptions c49_applied_in_order.

(** For every setting the last With function given decides; the life cycle
    handlers are called in the order given. *)
Theorem c49_last_one_decides : forall env ws o e, get_options env (options_of env ws) = (o, e) ->
  e = None /\
  bh_keep_sep (op_behaviours o) = latest sets_keep_sep ws true /\
  bh_files_first (op_behaviours o) = latest sets_files_first ws false /\
  bh_depth (op_behaviours o) = latest sets_depth ws 0%N /\
  bh_no_recurse (op_behaviours o) = latest sets_no_recurse ws false /\
  op_filter o = latest sets_filter ws (mkFilterOptions None None None None) /\
  op_sampling o = latest sets_sampling ws (mkSampling StUndefined false 0 0) /\
  ho_wake (op_hib o) = latest sets_wake ws None /\
  ho_sleep (op_hib o) = latest sets_sleep ws None /\
  ho_incl_wake (op_hib o) = latest sets_incl_wake ws true /\
  ho_incl_sleep (op_hib o) = latest sets_incl_sleep ws false /\
  co_now (op_conc o) = latest (sets_workers (en_cpus env)) ws (en_cpus env) /\
  (co_output (op_conc o), co_output_on (op_conc o)) = latest sets_output ws (0%N, false) /\
  df_fault (op_defects o) = latest sets_fault ws default_fault /\
  df_panic (op_defects o) = latest sets_panic ws (en_save env) /\
  df_skip (op_defects o) = latest sets_skip ws default_ask /\
  hook_invoke broadcast_subpath (hk_file_sub (op_hooks o)) = latest sets_file_sub ws default_subpath /\
  hook_invoke broadcast_subpath (hk_dir_sub (op_hooks o)) = latest sets_dir_sub ws default_subpath /\
  hook_invoke broadcast_read (hk_read (op_hooks o)) = latest sets_read ws default_read /\
  hook_invoke broadcast_stat (hk_stat (op_hooks o)) = latest sets_stat ws (en_stat env) /\
  hook_invoke broadcast_sort (hk_sort (op_hooks o)) = latest sets_sort ws default_sort /\
  (forall k, run_dispatcher (ctrl_dispatch (op_events o k)) = handlers_for k ws).
Proof. exact with_effective. Qed.
Print Assumptions c49_last_one_decides.

Example c49_case :
  let ss := [Some (with_setting env0 (WithDepth 3)); None; Some (failing (Err (Plain 7))); Some (with_setting env0 (WithDepth 5))] in
  snd (get_options env0 ss) = Some (Err (Plain 7)) /\ bh_depth (op_behaviours (fst (get_options env0 ss))) = 3%N /\
  latest sets_depth [WithDepth 3; WithNoRecurse; WithDepth 5; WithCPU] 0%N = 5%N /\
  handlers_for NtWake [WithOn NtWake 1; WithOn NtSleep 2; WithOn NtWake 3] = [1; 3].
Proof. repeat split. Qed.

(** *** C50: the prime facade. *)
Theorem c50_complete_iff_accepted : forall u, using_validate u = None <-> complete_facade u.
Proof. exact using_valid. Qed.
Print Assumptions c50_complete_iff_accepted.
(** The first requirement violated decides what Navigate returns, and nothing
    else happens: see [unbuildable]. *)
Theorem c50_first_violation_decides : forall env mt u ss t,
  (us_tree u = "" -> walk_prime env mt (FacUsing u) ss t = mkReport (Ret (Some err_missing_tree)) [] None) /\
  (us_tree u <> "" -> us_sub u = None ->
     walk_prime env mt (FacUsing u) ss t = mkReport (Ret (Some err_missing_sub)) [] None) /\
  (us_tree u <> "" -> us_sub u <> None -> us_handler u = None ->
     walk_prime env mt (FacUsing u) ss t = mkReport (Ret (Some err_missing_handler)) [] None).
Proof.
  intros env mt u ss t. split; [|split]; intros; apply unbuildable_quiet.
  - apply ub_tree; assumption.
  - apply ub_subscription; assumption.
  - apply ub_handler; assumption.
Qed.
Print Assumptions c50_first_violation_decides.
Example c50_case : complete_facade (using_ SubFiles None) /\ ~ complete_facade (mkUsing "/r" None None None).
Proof. split; [repeat split; discriminate|]. intros (_ & H & _). apply H. reflexivity. Qed.

(** *** C17 *)
(** A facade of the wrong kind or incomplete, a failing option, a filter which
    cannot be made: Navigate returns the error and nothing else happens.
    Missing: a hibernation condition which cannot be made. *)
Theorem c17_failed_build_is_quiet_partial : forall env mt fac ss t e, unbuildable env mt fac ss e ->
  walk_prime env mt fac ss t = mkReport (Ret (Some e)) [] None.
Proof. exact unbuildable_quiet. Qed.
Print Assumptions c17_failed_build_is_quiet_partial.

(** Refuted: with a hibernation condition which cannot be made, Begin and End are
    notified; the error is returned and the callback is not called. *)
Theorem c17_begin_and_end_notified_refuted : exists env mt u ws t e m,
  complete_facade u /\ walk_prime env mt (FacUsing u) (options_of env ws) t =
    mkReport (Ret (Some e)) [EvBegin (us_tree u); EvEnd m] (Some m).
Proof. exact begin_end_on_failure. Qed.
Print Assumptions c17_begin_and_end_notified_refuted.
Theorem c17_hibernation_no_callback_partial : forall env mt u ss o e t, complete_facade u -> settled env u ss o ->
  filtering_active (op_filter o) = false -> hib_active (op_hib o) = true ->
  hib_of mt (op_hib o) (op_filter o) = HcError e ->
  exists tr m, walk_prime env mt (FacUsing u) ss t = mkReport (Ret (Some e)) tr m /\ calls tr = [] /\
    exists m0, tr = [EvBegin (us_tree u); EvEnd m0].
Proof. exact hib_fails. Qed.
Print Assumptions c17_hibernation_no_callback_partial.
Example c17_case : unbuildable env0 mt0 (FacUsing (using_ SubFiles None)) (options_of env0 [WithDepth 3; WithFilter bad_filter])
  (Err (Plain 99)).
Proof.
  eapply ub_filter with (o := fold_with env0 [WithDepth 3; WithFilter bad_filter] (default_options env0)).
  - repeat split; discriminate.
  - cbn. repeat (eapply runs_one; [reflexivity|]). constructor.
  - reflexivity.
  - reflexivity.
Qed.

(** *** C13 *)
(** Whatever depth, filters, hooks etc. are configured, the depth limit is 1. *)
Theorem c13_no_recurse_is_depth_one : forall env mt u ws c smp, us_options u = None ->
  latest sets_no_recurse ws false = true ->
  fst (build_prime env mt (FacUsing u) (options_of env ws)) = BuildReady c smp -> c_depth c = 1%N.
Proof. exact no_recurse_depth. Qed.
Print Assumptions c13_no_recurse_is_depth_one.
(** So the root and its immediate entries are visited, in order. *)
Theorem c13_no_recurse_visits_immediate_entries : forall env mt u ws c smp t, us_options u = None ->
  latest sets_no_recurse ws false = true ->
  fst (build_prime env mt (FacUsing u) (options_of env ws)) = BuildReady c smp ->
  hooks_ok c -> root_ok c t -> default_skip c -> plain c -> nil_callback c -> c_sub c = SubUniversal ->
  exists tr m, walk_prime env mt (FacUsing u) (options_of env ws) t = mkReport (Ret None) tr m /\
    map place_of (map fst (calls tr)) =
      mkPlace [] (us_tree u) t :: map (entry_place (us_tree u)) (number_from 0 (entries_all c (us_tree u) t)).
Proof. exact no_recurse_visits. Qed.
Print Assumptions c13_no_recurse_visits_immediate_entries.
Example c13_case : prime_paths SubUniversal [WithNoRecurse; WithDepth 4] tree1 =
    ["/r"; "/r/A"; "/r/b"; "/r/c"; "/r/Z"] /\
  exists c smp, fst (build_prime env0 mt0 (FacUsing (using_ SubUniversal None)) (options_of env0 [WithNoRecurse; WithDepth 4])) = BuildReady c smp /\
    hooks_ok c /\ root_ok c tree1 /\ default_skip c /\ plain c /\ nil_callback c.
Proof.
  split; [vm_compute; reflexivity|]. eexists _, _. split; [reflexivity|].
  split; [exact (base_hooks SubUniversal)|]. repeat split.
Qed.

(** *** C56: refuted. The setting makes no difference whatever. *)
Theorem c56_case_setting_not_honoured_refuted : exists env mt u ws t r root n m,
  us_options u = None /\ ws = [WithSortBehaviour true false] /\
  walk_prime env mt (FacUsing u) (options_of env ws) t = r /\
  map fst (calls (rp_trace r)) = [root; n; m] /\
  n_parent n = n_parent m /\ n_parent n <> None /\ fisdir (n_src n) = false /\ fisdir (n_src m) = false /\
  (fname (n_src m) <? fname (n_src n))%string = true.
Proof. exact case_setting_wrong. Qed.
Print Assumptions c56_case_setting_not_honoured_refuted.
Theorem c56_case_setting_is_ignored : forall env mt u settings x y z t, us_options u = None ->
  walk_prime env mt (FacUsing u) (settings ++ [Some (with_setting env (WithSortBehaviour x z))]) t =
  walk_prime env mt (FacUsing u) (settings ++ [Some (with_setting env (WithSortBehaviour y z))]) t.
Proof. exact case_ignored. Qed.
Print Assumptions c56_case_setting_is_ignored.

(** *** C59: what does work is the sort hook. *)
Theorem c59_case_sensitive_hook : forall env mt u ws c smp t r n m, us_options u = None ->
  latest sets_sort ws default_sort = case_sensitive_sort ->
  fst (build_prime env mt (FacUsing u) (options_of env ws)) = BuildReady c smp ->
  hooks_ok c -> root_ok c t -> default_skip c -> filter_ok c ->
  walk_prime env mt (FacUsing u) (options_of env ws) t = r ->
  (exists a b d, map fst (calls (rp_trace r)) = (a ++ n :: b ++ m :: d)%list) -> siblings n m ->
  fisdir (n_src n) = fisdir (n_src m) -> (fname (n_src n) <=? fname (n_src m))%string = true.
Proof. exact case_hook_order. Qed.
Print Assumptions c59_case_sensitive_hook.
Example c59_case : prime_paths SubUniversal [WithHookCaseSensitiveSort] tree1 =
    ["/r"; "/r/A"; "/r/A/B"; "/r/A/B/y"; "/r/A/x"; "/r/b"; "/r/Z"; "/r/c"].
Proof. vm_compute. reflexivity. Qed.

(** *** C60: the options of a session may be used for another one (Using.O). It
    makes the same callbacks, returns the same and has the same metrics. Refuted for a client's own
    sample filter, which is then applied twice to every directory. *)
Theorem c60_options_can_be_reused_partial : forall env mt u settings settings2 c1 smp1 o1 t,
  build_prime env mt (FacUsing u) settings = (BuildReady c1 smp1, o1) ->
  ~ own_sample_filter (op_filter o1) ->
  walk_prime env mt (FacUsing (mkUsing (us_tree u) (us_sub u) (us_handler u) (Some o1))) settings2 t =
  walk_prime env mt (FacUsing u) settings t.
Proof. exact reuse_same. Qed.
Print Assumptions c60_options_can_be_reused_partial.
Example c60_case :
  let ws := [WithSamplingOptions (mkSampling StSlice true 1 1); WithOn NtBegin 3] in
  exists c smp o1, build_prime env0 mt0 (FacUsing (using_ SubUniversal None)) (options_of env0 ws) = (BuildReady c smp, o1) /\
    ~ own_sample_filter (op_filter o1) /\
    prime_paths SubUniversal ws tree1 = ["/r"; "/r/A"; "/r/A/B"; "/r/A/B/y"; "/r/A/x"; "/r/Z"].
Proof. eexists _, _, _. split; [reflexivity|]. split; [intros (d & E & _); discriminate|vm_compute; reflexivity]. Qed.
Theorem c60_own_sample_filter_twice_refuted : exists env mt u ws c smp o1 t r r2,
  build_prime env mt (FacUsing u) (options_of env ws) = (BuildReady c smp, o1) /\
  walk_prime env mt (FacUsing u) (options_of env ws) t = r /\
  walk_prime env mt (FacUsing (mkUsing (us_tree u) (us_sub u) (us_handler u) (Some o1))) [] t = r2 /\
  rp_outcome r = Ret None /\ rp_outcome r2 = Ret None /\
  map (fun x => n_path (fst x)) (calls (rp_trace r)) = ["/r/b"; "/r/c"] /\
  map (fun x => n_path (fst x)) (calls (rp_trace r2)) = ["/r/c"].
Proof. exact drop_twice. Qed.
Print Assumptions c60_own_sample_filter_twice_refuted.

(** *** C61: refuted. The life cycle handlers in these options are never called:
    whatever is set and whatever happens. *)
Theorem c61_handlers_lost_refuted : forall env mt u settings o tr,
  notified (op_events (snd (build_prime env mt
    (FacUsing (mkUsing (us_tree u) (us_sub u) (us_handler u) (Some o))) settings))) tr = [].
Proof. exact reuse_silent. Qed.
Print Assumptions c61_handlers_lost_refuted.
(** in the first session they are *)
Example c61_case :
  let '(b, o) := build_prime env0 mt0 (FacUsing (using_ SubUniversal None)) (options_of env0 [WithOn NtBegin 3]) in
  notified (op_events o) [EvBegin "/r"] = [(3, EvBegin "/r")].
Proof. reflexivity. Qed.

(** *** C53 *)
Theorem c53_hydra : forall is_walk is_prime fac ss,
  hydra is_walk is_prime fac ss =
    mkNavigator (if is_walk then Sequential else Concurrent) (if is_prime then PrimeExtent else ResumeExtent) fac ss.
Proof. intros [] []; reflexivity. Qed.
Print Assumptions c53_hydra.
Theorem c53_others : forall flag fac ss,
  hare flag fac ss = mkNavigator Concurrent (if flag then PrimeExtent else ResumeExtent) fac ss /\
  tortoise flag fac ss = mkNavigator Sequential (if flag then PrimeExtent else ResumeExtent) fac ss /\
  goldfish flag fac ss = mkNavigator (if flag then Sequential else Concurrent) PrimeExtent fac ss.
Proof. intros []; repeat split. Qed.
Print Assumptions c53_others.
