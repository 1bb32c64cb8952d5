(** Resumes which are refused. Properties C90 and C91. *)
From Verif Require Import Base Paths Level Kernel Defaults Session Spec Filters Hooks Life Options Build SpecBuild BuildFacts BuildCases FilterCases
  Cases CasesFacts WalkProps ResumeMetrics ShiftFacts ResumeCases Persist SpecPersist PersistFacts Resume SpecResume ResumeBuild ResumeProps.
Local Open Scope list_scope.

(** ** C90: the file systems of a resumed session *)

(** The file systems given to a resume of the tree [tree], as whether they are
    relative (for the traversal, for the resume state): those of the client's
    function or the native ones; [None]: the function returned nil. *)
Definition file_systems (rs : restore) (tree : string) : option (bool * bool) :=
  match rs_forest rs with Some fn => fn tree | None => Some (false, false) end.
(** Navigate returns [e] and nothing happens: no callback, no notification, no result. *)
Definition nothing_but (e : error) (r : resume_report) : Prop :=
  rr_outcome r = Ret (Some e) /\ rr_trace r = [] /\ rr_metrics r = None /\ rr_complete r = false.

Lemma refused_fs : forall env mt rs r o a v ss pc dk,
  Forall utf8 (option_texts o) -> utf8 (sv_tree (ac_saved a)) -> utf8 (sv_path (ac_saved a)) ->
  marshal o a None = (Some v, None) -> rs_file rs (re_from r) = inl v -> snd (apply ss (carried env o)) = None ->
  forall e, forest_error rs a = Some e -> nothing_but e (walk_resume env mt rs (FacRelic r) ss pc dk).
Proof.
  intros env mt rs r o a v ss pc dk U1 U2 U3 M F AP e E.
  destruct (resume_refusals env mt rs ss pc dk) as (_ & _ & R & _).
  rewrite (R r o a v e U1 U2 U3 M F AP E). repeat split.
Qed.

(** A stored session (texts in UTF-8; the settings of the resume are accepted) is
    resumed only with file systems of the same kinds as it was stored with.
    Otherwise the error says which one is wrong (the traversal's first). *)
Theorem c90_kinds_must_agree : forall env mt rs r o a v ss pc dk,
  Forall utf8 (option_texts o) -> utf8 (sv_tree (ac_saved a)) -> utf8 (sv_path (ac_saved a)) ->
  marshal o a None = (Some v, None) -> rs_file rs (re_from r) = inl v -> snd (apply ss (carried env o)) = None ->
  let report := walk_resume env mt rs (FacRelic r) ss pc dk in
  match file_systems rs (sv_tree (ac_saved a)) with
  | None => nothing_but err_nil_forest report
  | Some (traversal, state) =>
      (traversal <> ac_traverse_relative a -> nothing_but err_traverse_fs report) /\
      (traversal = ac_traverse_relative a -> state <> ac_resume_relative a -> nothing_but err_resume_fs report)
  end.
Proof.
  intros env mt rs r o a v ss pc dk U1 U2 U3 M F AP. cbv zeta.
  pose proof (refused_fs env mt rs r o a v ss pc dk U1 U2 U3 M F AP) as R.
  unfold forest_error in R. unfold file_systems.
  destruct (match rs_forest rs with Some fn => fn (sv_tree (ac_saved a)) | None => Some (false, false) end) as [[t st]|].
  - split.
    + intros N. apply R. destruct t, (ac_traverse_relative a); cbn; congruence.
    + intros -> N. apply R. destruct (ac_traverse_relative a), st, (ac_resume_relative a); cbn; congruence.
  - apply R. reflexivity.
Qed.
Print Assumptions c90_kinds_must_agree.
(** With file systems of the same kinds it is built like the prime session with
    the same tree, subscription, handler and options. *)
Theorem c90_agreeing_kinds : forall env mt rs r o a v ws,
  Forall utf8 (option_texts o) -> utf8 (sv_tree (ac_saved a)) -> utf8 (sv_path (ac_saved a)) ->
  sv_tree (ac_saved a) <> EmptyString ->
  marshal o a None = (Some v, None) -> rs_file rs (re_from r) = inl v ->
  file_systems rs (sv_tree (ac_saved a)) = Some (ac_traverse_relative a, ac_resume_relative a) ->
  build_resume env mt rs (FacRelic r) (options_of env ws) =
  resumed (ac_saved (kept_state a))
    (fst (build_prime env mt
            (FacUsing (mkUsing (sv_tree (ac_saved a)) (Some (sv_sub (ac_saved a))) (Some (client_of (re_handler r))) None))
            (options_of env (restored o ++ ws)))).
Proof.
  intros env mt rs r o a v ws U1 U2 U3 NE M F K. apply (resumed_as_prime env mt rs r o a v ws U1 U2 U3 NE M F).
  unfold forest_error. unfold file_systems in K. rewrite K. rewrite !Bool.eqb_reflx. reflexivity.
Qed.
Print Assumptions c90_agreeing_kinds.
Definition rel_restore (t s : bool) : restore := mkRestore (fun _ => inl rel_doc) (Some (fun _ => Some (t, s))).
Definition rel_walk (rs : restore) : resume_report :=
  walk_resume env0 mt0 rs (FacRelic (mkRelic "f" StrategySpawn (Some client_nil))) [] unix_calc (fun _ => tree1).
Example c90_case :
  file_systems (mkRestore (fun _ => inl rel_doc) None) "/r" = Some (false, false) /\
  rr_outcome (rel_walk (mkRestore (fun _ => inl rel_doc) None)) = Ret None /\
  nothing_but err_traverse_fs (rel_walk (rel_restore true true)) /\
  nothing_but err_resume_fs (rel_walk (rel_restore false true)) /\
  nothing_but err_nil_forest (rel_walk (mkRestore (fun _ => inl rel_doc) (Some (fun _ => None)))).
Proof. split; [reflexivity|]. split; [vm_compute; reflexivity|]. repeat split; vm_compute; reflexivity. Qed.

(** ** C91: a resume which cannot be built *)

(** Whatever the reason: an error is returned (or building panics), no callback
    is made and no directory entered; the client is notified of nothing, unless
    it is a plugin which cannot be initialised in a spawn resume: then Begin and
    End, and nothing counted. *)
Theorem c91_failed_resume : forall env mt rs fac ss pc dk,
  (forall c sampling sv, build_resume env mt rs fac ss <> ResumeReady c sampling sv) ->
  let r := walk_resume env mt rs fac ss pc dk in
  rr_outcome r <> Ret None /\
  (rr_trace r = [] \/
   exists e sv, build_resume env mt rs fac ss = ResumeInitFailed e sv /\
     (exists rl, fac = FacRelic rl /\ re_strategy rl = StrategySpawn) /\
     rr_outcome r = Ret (Some e) /\ rr_trace r = [EvBegin (sv_tree sv); EvEnd metrics0]) /\
  (forall e sv rl, build_resume env mt rs fac ss = ResumeInitFailed e sv -> fac = FacRelic rl -> re_strategy rl = StrategySpawn ->
     rr_trace r = [EvBegin (sv_tree sv); EvEnd metrics0] /\ rr_complete r = false).
Proof.
  intros env mt rs fac ss pc dk N. cbv zeta. unfold walk_resume.
  destruct fac as [u|rl].
  - cbn. split; [discriminate|]. split; [left; reflexivity|]. discriminate.
  - destruct (build_resume env mt rs (FacRelic rl) ss) as [p|e|e sv|c smp sv] eqn:B; cbn [run_resume].
    + cbn. split; [discriminate|]. split; [left; reflexivity|]. discriminate.
    + cbn. split; [discriminate|]. split; [left; reflexivity|]. discriminate.
    + destruct (re_strategy rl) eqn:S; cbn; (split; [discriminate|]).
      * split; [left; reflexivity|]. intros e' sv' rl' E1 E2. inversion E2; subst. congruence.
      * split.
        -- right. exists e, sv. split; [reflexivity|]. split; [exists rl; split; [reflexivity|exact S]|]. split; reflexivity.
        -- intros e' sv' rl' E1 E2. inversion E1; subst. intros _. split; reflexivity.
      * split; [left; reflexivity|]. intros e' sv' rl' E1 E2. inversion E2; subst. congruence.
    + exfalso. exact (N c smp sv eq_refl).
Qed.
Print Assumptions c91_failed_resume.
(** A wake condition which cannot be made. *)
Definition bad_resume (st : resume_strategy) : resume_report :=
  walk_resume env0 mt0 (mkRestore (fun _ => inl rel_doc) None) (FacRelic (mkRelic "f" st (Some client_nil)))
    (options_of env0 [WithHibernationFilterWake (Some (mkFilterDef FtUndefined "" "x" 0 false TriUndefined None))])
    unix_calc (fun _ => tree1).
Example c91_case :
  rr_trace (bad_resume StrategySpawn) = [EvBegin "/r"; EvEnd metrics0] /\ rr_trace (bad_resume StrategyFastward) = [] /\
  (exists e, rr_outcome (bad_resume StrategySpawn) = Ret (Some e)) /\
  rr_complete (bad_resume StrategySpawn) = false /\ rr_complete (bad_resume StrategyFastward) = true.
Proof. split; [vm_compute; reflexivity|]. split; [vm_compute; reflexivity|]. split; [eexists; vm_compute; reflexivity|]. split; vm_compute; reflexivity. Qed.

Local Open Scope string_scope.
Local Open Scope list_scope.
(** ** C67, at the facade: resuming from a damaged state file *)
Local Notation restart env mt rs r ss pc dk := (walk_resume env mt rs (FacRelic r) ss pc dk) (only parsing).

(** The error with which the file cannot be read, or its content not decoded, is
    returned; nothing else happens. *)
Theorem c67_resume_refused_partial : forall env mt rs r ss pc dk e,
  rs_file rs (re_from r) = inr e \/ (exists doc, rs_file rs (re_from r) = inl doc /\ dec_result doc = inr e) ->
  nothing_but e (restart env mt rs r ss pc dk).
Proof.
  intros env mt rs r ss pc dk e H. unfold walk_resume, build_resume. destruct H as [->|(doc & -> & D)].
  - repeat split.
  - unfold resume_load, unmarshal. rewrite D. repeat split.
Qed.
Print Assumptions c67_resume_refused_partial.
(** Without options, or without state although the settings are accepted, the
    process panics: Navigate is not reached. *)
Theorem c67_resume_panics_refuted : forall env mt rs r ss pc dk doc,
  rs_file rs (re_from r) = inl doc ->
  (exists a, dec_result doc = inl (a, None)) \/
  (exists jo, dec_result doc = inl (None, Some jo) /\ snd (bind_options (from_json env jo) ss) = None) ->
  rr_outcome (restart env mt rs r ss pc dk) = Pan nil_deref /\ rr_trace (restart env mt rs r ss pc dk) = [].
Proof.
  intros env mt rs r ss pc dk doc F H. unfold walk_resume, build_resume. rewrite F. unfold resume_load, unmarshal.
  destruct H as [(a & ->)|(jo & -> & B)].
  - split; reflexivity.
  - rewrite equal_from_json. destruct (bind_options (from_json env jo) ss) as [o1 e] eqn:O. cbn in B. subst e. split; reflexivity.
Qed.
Print Assumptions c67_resume_panics_refuted.
Definition damaged (doc : jv) : resume_report :=
  walk_resume env0 mt0 (mkRestore (fun _ => inl doc) None) (FacRelic (mkRelic "f" StrategySpawn (Some client_nil))) [] unix_calc (fun _ => tree1).
Example c67_resume_case :
  (exists e, nothing_but e (damaged (JObj [("JO", JStr "x")]))) /\
  rr_outcome (damaged (JObj [])) = Pan nil_deref /\
  rr_outcome (damaged (JObj [("JO", JObj [])])) = Pan nil_deref.
Proof.
  split; [|split; vm_compute; reflexivity].
  eexists. apply (c67_resume_refused_partial env0 mt0 (mkRestore (fun _ => inl (JObj [("JO", JStr "x")])) None)
    (mkRelic "f" StrategySpawn (Some client_nil)) [] unix_calc (fun _ => tree1)).
  right. eexists. split; reflexivity.
Qed.

(** ** C94: the filter counts of the interrupted session *)
Local Open Scope string_scope.
Local Open Scope list_scope.

(** What a session saves when it is interrupted does not contain the counts of
    filtered out nodes: in every spawn resume from it these are what the resumed
    session itself filters out. *)
Theorem c94_filtered_counts_lost_refuted : forall c sampling t o s sv,
  hooks_ok c -> root_ok c t -> filter_ok c -> session c sampling t = (o, s) -> In sv (rescues (s_trace s)) ->
  forall c2 smp2 pc dk o2 ok2 s2 o0 ok0 s0, blind_to_metrics c2 ->
  spawn_session c2 smp2 pc dk sv = (o2, ok2, s2) ->
  spawn_session c2 smp2 pc dk (with_metrics metrics0 sv) = (o0, ok0, s0) ->
  forall k, In k [FilesFilteredOut; DirectoriesFilteredOut; ChildFilesFilteredOut] ->
  count k (s_metrics s2) = count k (s_metrics s0).
Proof.
  intros c sampling t o s sv HK RO FO H I c2 smp2 pc dk o2 ok2 s2 o0 ok0 s0 BM R2 R0 k K.
  destruct (saved_counted _ _ _ _ _ _ HK RO FO H I) as (n & p & d & _ & _ & _ & _ & _ & _ & _ & _ & _ & _ & Z1 & Z2 & Z3).
  destruct (spawn_adds _ _ _ _ _ _ _ _ _ _ _ BM R2 R0) as (_ & _ & _ & C). rewrite C.
  repeat destruct K as [<-|K]; try contradiction; cbn [count]; rewrite ?Z1, ?Z2, ?Z3;
    match goal with |- context [registered ?x ?y] => destruct (registered x y) end; reflexivity.
Qed.
Print Assumptions c94_filtered_counts_lost_refuted.
(** The files but y are filtered out; the session panics at y, in /r/A/c. *)
Definition picky (cl : client) : cfg :=
  with_client cl (with_scheme (Some (mkScheme (Some (PrimaryNode (fun n => inl (n_isdir n || String.eqb (n_name n) "y")))) None)) (base_cfg SubUniversal)).
Definition picky_stop : st := Eval vm_compute in snd (session (picky (answer "/r/D" (CPanic (PVal 1)))) false (disk4 "/r")).
Example c94_case : filter_ok (picky client_nil) /\ blind_to_metrics (picky client_nil) /\
  m_files_out (s_metrics picky_stop) = 2 /\ map (fun sv => m_files_out (sv_metrics sv)) (rescues (s_trace picky_stop)) = [0] /\
  m_files_out (s_metrics (snd (session (picky client_nil) false (disk4 "/r")))) = 4.
Proof.
  split.
  - split; [|intros ? X; discriminate X]. intros sc E. inversion E; subst. cbn. split; [congruence|]. split; [discriminate|].
    split; [|discriminate]. intros f F n. inversion F. subst. eexists. reflexivity.
  - split; [intros tr tr' n _; reflexivity|]. vm_compute. auto.
Qed.
