(** Properties C125 and C126. Vocabulary: Spec.v, SpecResume.v, SpecJourney.v. *)
From Verif Require Import Base Paths Level Kernel Session Defaults Spec Simulate Feature HibFacts Cases CasesFacts Filters SpecFilter Hooks Life Options Build SpecBuild
  BuildCases FilterCases FeatureCor WalkProps FastFacts Persist SpecPersist Resume SpecResume ResumeCases ResumeRefuted SpecRelay SpecJourney ResumeHib PropJourney.
Local Open Scope string_scope.
Local Open Scope list_scope.

(** *** C125 *)

(** Spawn: what the resume visits is the segment (C30) of what a resume without
    hibernation visits: the wake condition is waited for again. *)
Theorem c125_spawn_waits_again : forall c hb sampling pc dk sv o1 ok1 s1 o2 ok2 s2,
  c_sub c <> SubDirectoriesWithFiles -> conditions_answer hb ->
  spawn_session (with_features None (Some hb) cnil c) sampling pc dk sv = (o1, ok1, s1) ->
  spawn_session (with_features None None cnil c) sampling pc dk sv = (o2, ok2, s2) ->
  visited s1 = segment hb (visited s2).
Proof.
  intros c hb sampling pc dk sv o1 ok1 s1 o2 ok2 s2 ND CA H1 H2.
  exact (proj1 (hib_spawn c hb sampling ND CA pc dk sv o1 ok1 s1 o2 ok2 s2 H1 H2)).
Qed.
Print Assumptions c125_spawn_waits_again.
(** So if there is no wake condition, and nothing of what was visited before
    ([front]) matched the sleep condition, nothing which was due is lost and
    nothing else is visited. *)
Theorem c125_spawn_partial : forall c hb sampling pc dk sv o1 ok1 s1 o2 ok2 s2 front,
  c_sub c <> SubDirectoriesWithFiles -> conditions_answer hb ->
  spawn_session (with_features None (Some hb) cnil c) sampling pc dk sv = (o1, ok1, s1) ->
  spawn_session (with_features None None cnil c) sampling pc dk sv = (o2, ok2, s2) ->
  hb_wake_at hb = None -> Forall (fun n => yes (hb_sleep hb n) = false) front ->
  segment hb (front ++ visited s2) = front ++ visited s1.
Proof.
  intros c hb sampling pc dk sv o1 ok1 s1 o2 ok2 s2 front ND CA H1 H2 W F.
  rewrite (proj1 (hib_spawn c hb sampling ND CA pc dk sv o1 ok1 s1 o2 ok2 s2 H1 H2)).
  unfold segment. rewrite W. induction F as [|n l N F IH]; [reflexivity|]. cbn [app until_sleep].
  assert (E : match hb_sleep_at hb with Some f => yes (f n) | None => false end = false)
    by (unfold hb_sleep in N; destruct (hb_sleep_at hb); [exact N|reflexivity]).
  rewrite E, IH. reflexivity.
Qed.
Print Assumptions c125_spawn_partial.

(** Fastward: the segment of the whole walk, from the saved node [b] of the
    directory [d] on. *)
Theorem c125_fastward_is_the_rest : forall c hb sampling pc dk sv o1 s1 o2 s2,
  c_sub c <> SubDirectoriesWithFiles -> conditions_answer hb -> c_tree c = sv_tree sv ->
  let d := pc_dir pc (sv_path sv) in
  let b := pc_base pc (sv_path sv) in
  d <> "." -> b <> "" -> b <> snd (split_path (sv_tree sv)) ->
  fastward_session true (with_features None (Some hb) cnil c) sampling pc dk sv = (o1, s1) ->
  session (with_features None None cnil c) sampling (dk (sv_tree sv)) = (o2, s2) ->
  visited s1 = from_first (node_is d b) (segment hb (visited s2)).
Proof.
  intros c hb sampling pc dk sv o1 s1 o2 s2 ND CA CT d b NE NB NT H1 H2.
  exact (proj1 (hib_fastward c hb sampling pc dk sv o1 s1 o2 s2 ND CA CT NE NB NT H1 H2)).
Qed.
Print Assumptions c125_fastward_is_the_rest.
(** So nothing is lost if the saved node is in the segment, and everything if it
    is not. *)
Theorem c125_fastward_partial : forall c hb sampling pc dk sv o1 s1 o2 s2,
  c_sub c <> SubDirectoriesWithFiles -> conditions_answer hb -> c_tree c = sv_tree sv ->
  let d := pc_dir pc (sv_path sv) in
  let b := pc_base pc (sv_path sv) in
  d <> "." -> b <> "" -> b <> snd (split_path (sv_tree sv)) ->
  fastward_session true (with_features None (Some hb) cnil c) sampling pc dk sv = (o1, s1) ->
  session (with_features None None cnil c) sampling (dk (sv_tree sv)) = (o2, s2) ->
  (forall front n rest, segment hb (visited s2) = front ++ n :: rest ->
     Forall (fun m => node_is d b m = false) front -> node_is d b n = true -> visited s1 = n :: rest) /\
  (Forall (fun m => node_is d b m = false) (segment hb (visited s2)) -> visited s1 = []).
Proof.
  intros c hb sampling pc dk sv o1 s1 o2 s2 ND CA CT d b NE NB NT H1 H2.
  rewrite (proj1 (hib_fastward c hb sampling pc dk sv o1 s1 o2 s2 ND CA CT NE NB NT H1 H2)). fold d. fold b.
  split.
  - intros front n rest -> F N. induction F as [|m l M F IH]; cbn; [rewrite N; reflexivity|]. rewrite M. exact IH.
  - intro F. induction F as [|m l M F IH]; cbn; [reflexivity|]. rewrite M. exact IH.
Qed.
Print Assumptions c125_fastward_partial.

Definition at_name (p : string) : option filter_def := Some (mkFilterDef FtRegex "" p ScopeUndefined false TriFalse None).
Definition from_to (w s : string) : list with_option := [WithHibernationFilterWake (at_name w); WithHibernationFilterSleep (at_name s)].
Definition until (s : string) : list with_option := [WithHibernationFilterSleep (at_name s)].
Local Notation begun ws q := (started env0 mt0 ws "/r" SubUniversal disk4 (stopping_at q)).
Local Notation whole ws := (started env0 mt0 ws "/r" SubUniversal disk4 client_nil).
Definition doc_of (ws : list with_option) (q : string) : jv :=
  written (snd (build_prime env0 mt0 (FacUsing (mkUsing "/r" (Some SubUniversal) (Some (stopping_at q)) None)) (options_of env0 ws)))
    (rp_trace (begun ws q)).
Local Notation resumed st ws q := (resumed_from env0 mt0 ws st unix_calc disk4 (doc_of ws q) client_nil).

(** From facade to facade. The session woke at A (at y) and was stopped at z; x was
    still due. Resumed by spawn (fastward) the callback is never called, no error is
    returned and the result is complete. *)
Definition never_again (st : resume_strategy) : Prop := exists env mt ws tree cl n sv dk pc doc q,
  stopped_at (rp_trace (started env mt ws tree SubUniversal dk cl)) n /\
  rescues (rp_trace (started env mt ws tree SubUniversal dk cl)) = [sv] /\
  marshal (snd (build_prime env mt (FacUsing (mkUsing tree (Some SubUniversal) (Some cl) None)) (options_of env ws)))
    (mkActive sv false false) None = (Some doc, None) /\
  In q (map pl_path (places_called (rp_trace (started env mt ws tree SubUniversal dk client_nil)))) /\
  ~ In q (map pl_path (places_called (rp_trace (started env mt ws tree SubUniversal dk cl)))) /\
  let r := resumed_from env mt ws st pc dk doc client_nil in
  rr_outcome r = Ret None /\ rr_complete r = true /\ calls (rr_trace r) = [].

Lemma never_case : forall st w,
  (exists n sv, stopped_at (rp_trace (begun (from_to w "D") "/r/A/c/z")) n /\ rescues (rp_trace (begun (from_to w "D") "/r/A/c/z")) = [sv] /\
    marshal (snd (build_prime env0 mt0 (FacUsing (mkUsing "/r" (Some SubUniversal) (Some (stopping_at "/r/A/c/z")) None)) (options_of env0 (from_to w "D"))))
      (mkActive sv false false) None = (Some (doc_of (from_to w "D") "/r/A/c/z"), None)) ->
  In "/r/A/x" (map n_path (map fst (calls (rp_trace (whole (from_to w "D")))))) ->
  ~ In "/r/A/x" (map n_path (map fst (calls (rp_trace (begun (from_to w "D") "/r/A/c/z"))))) ->
  rr_outcome (resumed st (from_to w "D") "/r/A/c/z") = Ret None ->
  rr_complete (resumed st (from_to w "D") "/r/A/c/z") = true ->
  calls (rr_trace (resumed st (from_to w "D") "/r/A/c/z")) = [] -> never_again st.
Proof.
  intros st w (n & sv & A & B & C) T0 T1 T2 T3 T4.
  exists env0, mt0, (from_to w "D"), "/r", (stopping_at "/r/A/c/z"), n, sv, disk4, unix_calc, (doc_of (from_to w "D") "/r/A/c/z"), "/r/A/x".
  split; [exact A|]. split; [exact B|]. split; [exact C|]. rewrite !paths_called.
  split; [exact T0|]. split; [exact T1|]. split; [exact T2|]. split; [exact T3|exact T4].
Qed.
Theorem c125_spawn_loses_refuted : never_again StrategySpawn.
Proof.
  apply (never_case StrategySpawn "A").
  - eexists _, _. split; [eapply stopped_by; vm_compute; reflexivity|]. split; vm_compute; reflexivity.
  - assert (T : map n_path (map fst (calls (rp_trace (whole (from_to "A" "D"))))) = ["/r/A"; "/r/A/c"; "/r/A/c/y"; "/r/A/c/z"; "/r/A/x"]) by (vm_compute; reflexivity).
    rewrite T. cbn; tauto.
  - assert (T : map n_path (map fst (calls (rp_trace (begun (from_to "A" "D") "/r/A/c/z")))) = ["/r/A"; "/r/A/c"; "/r/A/c/y"; "/r/A/c/z"]) by (vm_compute; reflexivity).
    rewrite T. cbn; intuition discriminate.
  - vm_compute; reflexivity.
  - vm_compute; reflexivity.
  - vm_compute; reflexivity.
Qed.
Print Assumptions c125_spawn_loses_refuted.
Theorem c125_fastward_loses_refuted : never_again StrategyFastward.
Proof.
  apply (never_case StrategyFastward "y").
  - eexists _, _. split; [eapply stopped_by; vm_compute; reflexivity|]. split; vm_compute; reflexivity.
  - assert (T : map n_path (map fst (calls (rp_trace (whole (from_to "y" "D"))))) = ["/r/A/c/y"; "/r/A/c/z"; "/r/A/x"]) by (vm_compute; reflexivity).
    rewrite T. cbn; tauto.
  - assert (T : map n_path (map fst (calls (rp_trace (begun (from_to "y" "D") "/r/A/c/z")))) = ["/r/A/c/y"; "/r/A/c/z"]) by (vm_compute; reflexivity).
    rewrite T. cbn; intuition discriminate.
  - vm_compute; reflexivity.
  - vm_compute; reflexivity.
  - vm_compute; reflexivity.
Qed.
Print Assumptions c125_fastward_loses_refuted.

Local Notation napping w s := (with_features None (Some (hib_at w s)) cnil cfg4).
Example c125_case :
  c_sub cfg4 = SubUniversal /\ conditions_answer (hib_at (Some "/r/A") (Some "/r/D/w")) /\ c_tree cfg4 = sv_tree saved4 /\
  pc_dir unix_calc (sv_path saved4) = "/r/A" /\ pc_base unix_calc (sv_path saved4) = "c" /\ snd (split_path (sv_tree saved4)) = "r" /\
  map n_path (visited (snd (fastward_session true (napping (Some "/r/A") (Some "/r/D/w")) false unix_calc disk4 saved4))) =
    ["/r/A/c"; "/r/A/c/y"; "/r/A/c/z"; "/r/A/x"; "/r/D"] /\
  map n_path (visited (snd (spawn_session (napping (Some "/r/A/c/z") (Some "/r/D/w")) false unix_calc disk4 saved4))) =
    ["/r/A/c/z"; "/r/A/x"; "/r/D"] /\
  map n_path (visited (snd (spawn_session (napping None (Some "/r/A/x")) false unix_calc disk4 saved4))) =
    ["/r/A/c"; "/r/A/c/y"; "/r/A/c/z"].
Proof.
  split; [reflexivity|]. split; [intro n; split; eexists; reflexivity|]. split; [reflexivity|].
  split; [vm_compute; reflexivity|]. split; [vm_compute; reflexivity|]. split; [vm_compute; reflexivity|].
  split; [vm_compute; reflexivity|]. split; vm_compute; reflexivity.
Qed.

(** *** C126 *)

(** Spawn. Refuted: the session with a sleep condition returns nil, also when it
    is walked as a whole; resumed by spawn it returns fs.SkipAll, and an incomplete result. *)
Theorem c126_spawn_returns_skip_all_refuted : exists env mt ws tree cl n sv dk pc doc,
  rp_outcome (started env mt ws tree SubUniversal dk client_nil) = Ret None /\
  stopped_at (rp_trace (started env mt ws tree SubUniversal dk cl)) n /\
  rescues (rp_trace (started env mt ws tree SubUniversal dk cl)) = [sv] /\
  marshal (snd (build_prime env mt (FacUsing (mkUsing tree (Some SubUniversal) (Some cl) None)) (options_of env ws)))
    (mkActive sv false false) None = (Some doc, None) /\
  let r := resumed_from env mt ws StrategySpawn pc dk doc client_nil in
  rr_outcome r = Ret (Some (Err SkipAll)) /\ rr_complete r = false.
Proof.
  assert (S : exists n sv, stopped_at (rp_trace (begun (until "x") "/r/A/c/z")) n /\ rescues (rp_trace (begun (until "x") "/r/A/c/z")) = [sv] /\
    marshal (snd (build_prime env0 mt0 (FacUsing (mkUsing "/r" (Some SubUniversal) (Some (stopping_at "/r/A/c/z")) None)) (options_of env0 (until "x"))))
      (mkActive sv false false) None = (Some (doc_of (until "x") "/r/A/c/z"), None)).
  { eexists _, _. split; [eapply stopped_by; vm_compute; reflexivity|]. split; vm_compute; reflexivity. }
  assert (T1 : rp_outcome (whole (until "x")) = Ret None) by (vm_compute; reflexivity).
  assert (T2 : rr_outcome (resumed StrategySpawn (until "x") "/r/A/c/z") = Ret (Some (Err SkipAll))) by (vm_compute; reflexivity).
  assert (T3 : rr_complete (resumed StrategySpawn (until "x") "/r/A/c/z") = false) by (vm_compute; reflexivity).
  destruct S as (n & sv & A & B & C).
  exists env0, mt0, (until "x"), "/r", (stopping_at "/r/A/c/z"), n, sv, disk4, unix_calc, (doc_of (until "x") "/r/A/c/z").
  split; [exact T1|]. split; [exact A|]. split; [exact B|]. split; [exact C|]. split; [exact T2|exact T3].
Qed.
Print Assumptions c126_spawn_returns_skip_all_refuted.
(** Until it goes to sleep hibernation makes no difference to what a spawn resume returns. *)
Theorem c126_spawn_awake_partial : forall c hb sampling pc dk sv o1 ok1 s1 o2 ok2 s2,
  c_sub c <> SubDirectoriesWithFiles -> conditions_answer hb ->
  spawn_session (with_features None (Some hb) cnil c) sampling pc dk sv = (o1, ok1, s1) ->
  spawn_session (with_features None None cnil c) sampling pc dk sv = (o2, ok2, s2) ->
  ~ In EvSleep (s_trace s1) -> o1 = o2 /\ ok1 = ok2.
Proof.
  intros c hb sampling pc dk sv o1 ok1 s1 o2 ok2 s2 ND CA H1 H2.
  exact (proj2 (hib_spawn c hb sampling ND CA pc dk sv o1 ok1 s1 o2 ok2 s2 H1 H2)).
Qed.
Print Assumptions c126_spawn_awake_partial.
(** Fastward returns nil (Files excepted, as without a resume: C57). *)
Theorem c126_fastward_partial : forall c hb sampling pc dk sv o1 s1,
  c_sub c <> SubDirectoriesWithFiles -> c_sub c <> SubFiles -> conditions_answer hb -> c_tree c = sv_tree sv ->
  hooks_ok c -> root_ok c (dk (sv_tree sv)) -> default_skip c ->
  let d := pc_dir pc (sv_path sv) in
  let b := pc_base pc (sv_path sv) in
  d <> "." -> b <> "" -> b <> snd (split_path (sv_tree sv)) ->
  fastward_session true (with_features None (Some hb) cnil c) sampling pc dk sv = (o1, s1) -> o1 = Ret None.
Proof.
  intros c hb sampling pc dk sv o1 s1 ND NF CA CT HK RO DS d b NE NB NT H1.
  destruct (session (with_features None None cnil c) sampling (dk (sv_tree sv))) as [o2 s2] eqn:H2.
  pose proof (proj2 (hib_fastward c hb sampling pc dk sv o1 s1 o2 s2 ND CA CT NE NB NT H1 H2)) as AL.
  destruct (session (with_features None (Some hb) cnil c) sampling (dk (sv_tree sv))) as [o3 s3] eqn:H3. cbn [fst] in AL.
  assert (E : o3 = Ret None).
  { eapply (sleep_nil (with_features None (Some hb) cnil c)); try eassumption.
    - split; [discriminate|]. intros h X. inversion X; subst h. exact CA.
    - intros tr n. reflexivity. }
  subst o3. exact (alike_none _ AL).
Qed.
Print Assumptions c126_fastward_partial.
Example c126_case :
  let c := napping None (Some "/r/A/x") in
  hooks_ok cfg4 /\ root_ok cfg4 (disk4 (sv_tree saved4)) /\ default_skip cfg4 /\
  fst (fastward_session true c false unix_calc disk4 saved4) = Ret None /\
  fst (fst (spawn_session c false unix_calc disk4 saved4)) = Ret (Some (Err SkipAll)) /\
  fst (spawn_session (napping None (Some "/r/none")) false unix_calc disk4 saved4) = (Ret None, true) /\
  filter (fun e => match e with EvSleep => true | _ => false end) (s_trace (snd (spawn_session (napping None (Some "/r/none")) false unix_calc disk4 saved4))) = [].
Proof.
  split; [exact (base_hooks _)|]. split; [reflexivity|]. split; [intros ? ? ?; reflexivity|]. split; [vm_compute; reflexivity|]. split; [vm_compute; reflexivity|].
  split; vm_compute; reflexivity.
Qed.

(** *** C50, once more *)
(** The resume facade without a handler is accepted (c50_incomplete_relic_refuted):
    the first entry which is to be visited panics. *)
Local Notation unhandled st := (walk_resume env0 mt0 (mkRestore (fun _ => inl doc1) None) (FacRelic (mkRelic "resume.json" st None)) (options_of env0 []) unix_calc disk4).
Theorem c50_missing_handler_panics_refuted : exists env mt rs r ss pc dk x,
  re_handler r = None /\ rr_outcome (walk_resume env mt rs (FacRelic r) ss pc dk) = Pan nil_deref /\
  calls (rr_trace (walk_resume env mt rs (FacRelic r) ss pc dk)) = [(x, CPanic nil_deref)].
Proof.
  assert (O : rr_outcome (unhandled StrategySpawn) = Pan nil_deref) by (vm_compute; reflexivity).
  assert (C : exists x, calls (rr_trace (unhandled StrategySpawn)) = [(x, CPanic nil_deref)]) by (eexists; vm_compute; reflexivity).
  destruct C as [x C].
  exists env0, mt0, (mkRestore (fun _ => inl doc1) None), (mkRelic "resume.json" StrategySpawn None), (options_of env0 []), unix_calc, disk4, x.
  split; [reflexivity|]. split; [exact O|exact C].
Qed.
Print Assumptions c50_missing_handler_panics_refuted.
