(** One navigator navigated several times. Property C85. *)
From Verif Require Import Base Paths Level Kernel Session Spec SpecResume Filters Hooks Life Options Build BuildFacts BuildProps Cases FeatureCor Feature
  Again SpecAgain AgainFacts.
Local Open Scope list_scope.

(** ** C85: navigating again with the same navigator *)

(** Without hibernation: whatever was navigated before (any number of times, any
    trees, errors and panics included), Navigate returns what the first Navigate
    of a new navigator would return, and makes the same callbacks and
    notifications, for a client which knows the history; but the counters go on
    from where they were. *)
Theorem c85_again_partial : forall c sampling ts t os s, c_hib c = None -> c_fast c = None ->
  navigations c ts (start_st c sampling) = (os, s) ->
  forall o s1 o1 s2, drive c t s = (o, s1) ->
  session (later (s_trace s) (s_metrics s) c) sampling t = (o1, s2) ->
  o = o1 /\ s_trace s1 = s_trace s ++ map (raised (s_metrics s)) (s_trace s2) /\
  s_metrics s1 = plus_metrics (s_metrics s2) (s_metrics s).
Proof. exact navigated_again. Qed.
Print Assumptions c85_again_partial.

(** Sessions built by Prime have no fastward link, and no hibernation without
    hibernation options. *)
Theorem c85_prime_sessions : forall mt o sub tree cl c sampling,
  fst (build_plugins mt o sub tree cl) = BuildReady c sampling ->
  c_fast c = None /\ (ho_wake (op_hib o) = None -> ho_sleep (op_hib o) = None -> c_hib c = None).
Proof.
  intros mt o sub tree cl c sampling E. unfold build_plugins in E.
  destruct (if filtering_active (op_filter o) then _ else _) as [[made err]|q|] in E; try discriminate.
  set (o1 := match made with Some (Some (CrSampler m), _) => chain_read (filter_listener m) o | _ => o end) in *.
  assert (O1 : op_hib o1 = op_hib o) by (subst o1; destruct made as [[[[f|m|m]|] ch]|]; reflexivity).
  destruct err; [discriminate|]. rewrite O1 in E.
  destruct (hib_active (op_hib o)) eqn:HA.
  - destruct (hib_of mt (op_hib o) (op_filter o)) as [hh|e|q] in E; try discriminate.
    split; [inversion E; reflexivity|]. intros W S. unfold hib_active in HA. rewrite W, S in HA. discriminate.
  - split; inversion E; reflexivity.
Qed.
Print Assumptions c85_prime_sessions.

(** The same tree [k] times, by a client which does not mind the history: the
    same result and callbacks every time, but the counters of the [k]-th result
    are [k] times those of the first. *)
Theorem c85_counters_accumulate : forall c sampling t o1 s1, c_hib c = None -> c_fast c = None -> forgetful c ->
  session c sampling t = (o1, s1) ->
  forall k os s, navigations c (copies k t) (start_st c sampling) = (os, s) ->
  os = copies k o1 /\ (forall m, count m (s_metrics s) = k * count m (s_metrics s1)) /\
  calls (s_trace s) = concat (copies k (calls (s_trace s1))).
Proof. exact counters_accumulate. Qed.
Print Assumptions c85_counters_accumulate.
Example c85_case : let c := base_cfg SubUniversal in
  c_hib c = None /\ c_fast c = None /\ forgetful c /\
  m_files (s_metrics (snd (session c false tree1))) = 4 /\
  m_files (s_metrics (snd (navigations c (copies 3 tree1) (start_st c false)))) = 12.
Proof. cbn zeta. split; [reflexivity|]. split; [reflexivity|]. split; [split; reflexivity|]. vm_compute. split; reflexivity. Qed.

(** So the result of a later Navigate does not count its callbacks. *)
Definition plain_cfg : cfg := base_cfg SubUniversal.
Definition once : outcome (option error) * st := Eval vm_compute in drive plain_cfg tree1 (start_st plain_cfg false).
Definition twice : outcome (option error) * st := Eval vm_compute in drive plain_cfg tree1 (snd once).
Definition second_part : list event := Eval vm_compute in skipn (length (s_trace (snd once))) (s_trace (snd twice)).
Theorem c85_result_counts_refuted : exists c sampling t1 t2 o1 s1 o2 s2 new,
  drive c t1 (start_st c sampling) = (o1, s1) /\ drive c t2 s1 = (o2, s2) /\ s_trace s2 = s_trace s1 ++ new /\
  count FilesInvoked (s_metrics s2) <> length (filter (fun x => negb (n_isdir (fst x))) (calls new)).
Proof.
  exists plain_cfg, false, tree1, tree1, (fst once), (snd once), (fst twice), (snd twice), second_part.
  split; [vm_compute; reflexivity|]. split; [vm_compute; reflexivity|]. split; [vm_compute; reflexivity|].
  vm_compute. discriminate.
Qed.
Print Assumptions c85_result_counts_refuted.

(** With hibernation: once Sleep was notified, no navigation ever makes a
    callback again. *)
Theorem c85_asleep_for_good : forall c sampling h ts os s, c_hib c = Some h -> c_fast c = None ->
  navigations c ts (start_st c sampling) = (os, s) -> In EvSleep (s_trace s) ->
  forall us ps s1, navigations c us s = (ps, s1) ->
  calls (s_trace s1) = calls (s_trace s) /\ s_metrics s1 = s_metrics s.
Proof. exact asleep_for_good. Qed.
Print Assumptions c85_asleep_for_good.
Definition naps : cfg := with_hib (Some (hib_at None (Some "/r/c"%string))) (base_cfg SubUniversal).
Example c85_asleep_case :
  let s := snd (navigations naps [tree1] (start_st naps false)) in
  In EvSleep (s_trace s) /\ length (calls (s_trace s)) = 6 /\
  length (calls (s_trace (snd (navigations naps [tree1; tree1] (start_st naps false))))) = 6.
Proof. vm_compute. split; [|split; reflexivity]. tauto. Qed.
(** And a navigator which has woken does not wait for its wake condition again. *)
Definition dawn : cfg := with_hib (Some (hib_at (Some "/r/c"%string) None)) (base_cfg SubUniversal).
Example c85_awake_case :
  map n_path (map fst (calls (s_trace (snd (drive dawn tree1 (start_st dawn false)))))) = ["/r/c"; "/r/Z"]%string /\
  length (calls (s_trace (snd (navigations dawn [tree1; tree1] (start_st dawn false))))) = 10.
Proof. vm_compute. split; reflexivity. Qed.
