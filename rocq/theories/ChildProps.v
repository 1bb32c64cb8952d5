(** Child filters and a client's own filter, from the options to the callbacks. *)
From Verif Require Import Base Paths Level Lo Kernel Session Defaults Spec Filters SpecFilter FiltersFacts AskFacts Hooks Life SpecHooks HooksFacts
  Options Build SpecBuild ReadFacts Feature Hybrid HibFacts ChildFacts WalkCor WalkProps BuildFacts BuildProps ReuseFacts Settle FilterProps SampleProps HiberProps SpecChild.
From Coq Require Import Permutation.

Lemma child_active_pattern : forall od cd, cd_pattern cd <> EmptyString -> child_active (with_child od cd) = true.
Proof. intros od cd P. unfold child_active, with_child. cbn. destruct (String.eqb_spec (cd_pattern cd) ""); [contradiction|reflexivity]. Qed.
Lemma child_builds : forall mt cd, child_compiles mt cd ->
  exists m, new_child mt cd = (Some m, None) /\ forall l, m l = filter (fun e => child_keeps mt cd (fname e)) l.
Proof.
  intros mt cd C. unfold new_child, child_keeps.
  destruct C as [T|[T [rex R]]]; rewrite T; [|rewrite R]; eexists; (split; [reflexivity|]); intro l.
  - exact (lo_filter_filter (fun e => invert (cd_negate cd) (mt_glob mt (cd_pattern cd) (fname e))) l).
  - exact (lo_filter_filter (fun e => invert (cd_negate cd) (rex (fname e))) l).
Qed.
Lemma union_kids : forall so (l : list fsnode) x, In x (union so (files_of l) (dirs_of l)) -> In x l.
Proof. intros so l x J. apply union_in in J. destruct J as [J|J]; apply filter_In in J; apply J. Qed.
Lemma accepts_blind : forall mt d n, accepts mt d (strip n) = accepts mt d n.
Proof. intros mt d [a b c' d' e p f g h i j k l]. reflexivity. Qed.
Lemma taken_count : forall (so : sampling_options) (l r : list fsnode), sampled_part so (so_files so) l r -> length r = sampled_count so (length l).
Proof. intros so l r. unfold sampled_part, sampled_count, taken. destruct (so_type so); [intros ->; reflexivity|intros [E _]; exact E..]. Qed.

Lemma filter_length_le' : forall A (p : A -> bool) l, length (filter p l) <= length l.
Proof. intros A p l. induction l as [|x l IH]; cbn; [lia|]. destruct (p x); cbn; lia. Qed.

Section Children.
Variable env : environment.
Variable mt : matchers.
Variable u : prime_facade.
Variable ws : list with_option.
Variable t : fsnode.
Variable sub : subscription.
Hypothesis OR : ordinary u ws sub.
Hypothesis UD : undisturbed env ws t.
Hypothesis SB : sub = SubDirectories \/ sub = SubDirectoriesWithFiles.
Let so := latest sets_sampling ws no_sampling.
Let ls := if sampling_active so then [sample_listener so] else [].
Let c := session_cfg env ws (us_tree u) sub cnil (then_all (latest sets_read ws default_read) ls) None None.
Let run (fo : filter_options) := walk_prime env mt (FacUsing u) (options_of env (ws ++ [WithFilter fo])) t.

Section Filter.
Variable od : option filter_def.
Variable cd : child_def.
Hypothesis NP : node_part_ok mt od.
Hypothesis CC : child_compiles mt cd.
Hypothesis PA : cd_pattern cd <> EmptyString.

Let fp : option (node -> bool) := option_map (fun d n => accepts mt d n) od.

Lemma passes_part : forall n, passes fp n = node_part mt od n.
Proof. intro n. unfold passes, fp, node_part. destruct od; reflexivity. Qed.

Lemma child_run : forall m, new_child mt cd = (Some m, None) ->
  run_report (with_features (Some (hybrid_scheme fp m)) None cnil c) (sampling_active so) t (run (with_child od cd)).
Proof.
  intros m NC. pose proof (ordinary_facade _ _ _ OR) as CF. destruct OR as (NO & _ & SU & HA & NH & HS).
  assert (P : exists sc, plan mt (with_child od cd) so (hibernate_when ws) = Some (Some sc, None, ls) /\
    agree_scheme t (Some sc) (Some (hybrid_scheme fp m))).
  { unfold plan, filtering_active. rewrite (child_active_pattern od cd PA), orb_true_r. cbn [orb].
    unfold create_scheme, create_primary. cbn [fo_custom with_child fo_node fo_sample].
    unfold create_child. fold (with_child od cd). rewrite (child_active_pattern od cd PA). cbn [fo_child with_child].
    rewrite NC, (no_hib_inactive _ NH). unfold fp, hybrid_scheme.
    destruct od as [d|]; cbn [option_map].
    - destruct NP as [C P]. assert (NA : node_active (with_child (Some d) cd) = true).
      { unfold node_active. cbn. destruct (String.eqb_spec (fd_pattern d) ""); [contradiction|reflexivity]. }
      rewrite NA. destruct (compiled_filter mt d (with_child (Some d) cd) C eq_refl) as (f & F1 & F2). fold (with_child (Some d) cd). rewrite F1.
      eexists. split; [reflexivity|]. apply ags_node. intros n PR. unfold answer_of. rewrite (F2 n (proj1 (proj1 PR))). reflexivity.
    - eexists. split; [reflexivity|]. apply ags_same. }
  destruct P as (sc & PL & AG).
  unfold run. pose proof (walk_settled env mt u (ws ++ [WithFilter (with_child od cd)]) sub cnil (Some sc) None ls t NO CF SU HA) as W.
  rewrite hib_snoc_filter in W. rewrite cfg_snoc_filter in W. rewrite !latest_snoc in W. cbn [sets_filter sets_sampling sets_read] in W.
  fold so in W. destruct (W PL) as (o & s & S & E). exists o, s. split; [|exact E]. rewrite <- S.
  change (session_cfg env ws (us_tree u) sub cnil (then_all (latest sets_read ws default_read) ls) (Some sc) None) with
    (with_features (Some sc) None cnil c). symmetry. apply (session_ask t).
  - exact AG.
  - apply agh_none.
  - apply (then_empty ws so HS).
  - apply (sort_empty ws HS).
Qed.
Lemma bare_run : run_report (with_features None None cnil c) (sampling_active so) t (run no_filter).
Proof.
  pose proof (ordinary_facade _ _ _ OR) as CF. destruct OR as (NO & _ & SU & HA & NH & HS).
  unfold run. pose proof (walk_settled env mt u (ws ++ [WithFilter no_filter]) sub cnil None None ls t NO CF SU HA) as W.
  rewrite hib_snoc_filter in W. rewrite cfg_snoc_filter in W. rewrite !latest_snoc in W. cbn [sets_filter sets_sampling sets_read] in W.
  fold so in W. exact (W (plan_off _ _ _ (no_hib_inactive _ NH))).
Qed.

Lemma cfg_hooks : forall sc, hooks_ok (with_features sc None cnil c).
Proof.
  intro sc. destruct OR as (_ & _ & _ & _ & _ & HS). split; [|exact (proj2 (proj2 HS))].
  intros p e x I. change (In x (fst (then_all (latest sets_read ws default_read) ls p e))) in I.
  apply (proj1 HS p). unfold then_all, ls in I. destruct (sampling_active so); cbn [fold_left] in I; [|exact I].
  unfold sample_listener in I. cbn [fst] in I. exact (union_kids _ _ _ I).
Qed.
Lemma cfg_files : forall sc n, sampled_part so (so_files so) (files_read ws (n_path n) (n_src n))
  (files_listed (with_features sc None cnil c) n).
Proof.
  intros sc n. unfold files_listed. change (c_read (with_features sc None cnil c)) with (then_all (latest sets_read ws default_read) ls).
  unfold then_all, ls, sampled_part, files_read, sampling_active. destruct (so_type so); cbn [fold_left]; [reflexivity|..];
    unfold sample_listener; cbn [fst]; apply union_parts; try apply files_are; apply dirs_are.
Qed.

Lemma child_session : subpath_blind ws ->
  let r1 := run (with_child od cd) in let r2 := run no_filter in
  rp_outcome r1 = rp_outcome r2 /\
  map strip (nodes_of r1) = filter (node_part mt od) (map strip (nodes_of r2)) /\
  Forall (fun n => exists fs, sampled_part so (so_files so) (files_read ws (n_path n) (n_src n)) fs /\
     n_children n = filter (fun e => child_keeps mt cd (fname e)) (latest sets_sort ws default_sort fs)) (nodes_of r1) /\
  exists m1 m2, rp_metrics r1 = Some m1 /\ rp_metrics r2 = Some m2 /\
    m_dirs m1 + m_dirs_out m1 = m_dirs m2 /\
    m_child m1 = total (fun n => length (n_children n)) (nodes_of r1) /\
    m_child m1 + m_child_out m1 = total (fun n => sampled_count so (length (files_read ws (n_path n) (n_src n)))) (nodes_of r1).
Proof.
  intros HB r1 r2. destruct (child_builds mt cd CC) as (m & NC & ME).
  destruct (child_run m NC) as (o1 & s1 & S1 & E1). destruct bare_run as (o2 & s2 & S2 & E2).
  fold r1 in E1. fold r2 in E2. unfold nodes_of. rewrite E1, E2. cbn [rp_outcome rp_trace rp_metrics].
  destruct UD as [U1 U2].
  assert (BL : hook_blind c).
  { intros tr keep n. cbn [c_subpath c session_cfg]. destruct (strip_fields n) as (_ & _ & -> & _).
    destruct (HB tr keep n) as [-> ->]. reflexivity. }
  assert (DS : default_skip c) by (intros n k e; change (c_ask c) with (latest sets_skip ws default_ask); rewrite U1; reflexivity).
  assert (PB : forall n, passes fp (strip n) = passes fp n) by (intro n; rewrite !passes_part; unfold node_part; destruct od; [apply accepts_blind|reflexivity]).
  destruct (hybrid_session c fp m (sampling_active so) SB BL DS PB t o1 s1 o2 s2 S1 S2) as (A & B & _ & D).
  split; [exact A|]. fold (visited s1). fold (visited s2).
  split. { rewrite B. apply filter_ext. exact passes_part. }
  set (c1 := with_features (Some (hybrid_scheme fp m)) None cnil c) in *.
  assert (HK : hooks_ok c1) by apply cfg_hooks.
  assert (RO : root_ok c1 t) by exact U2.
  assert (FO : filter_ok c1).
  { split; [|intros h X; discriminate]. intros sc X. inversion X; subst sc. cbn [hybrid_scheme sc_child sc_primary].
    split; [intros _; exact SB|]. split; [discriminate|]. split.
    - intros f F n. unfold fp in F. destruct od; inversion F. eexists; reflexivity.
    - intros mm M l. inversion M. eexists; reflexivity. }
  assert (LS : forall n, exists fs, sampled_part so (so_files so) (files_read ws (n_path n) (n_src n)) fs /\ files_listed c1 n = fs)
    by (intro n; eexists; split; [apply cfg_files|reflexivity]).
  pose proof (filter_children c1 m _ (sampling_active so) t o1 s1 HK RO FO eq_refl S1) as FC.
  split.
  { eapply Forall_impl; [|exact FC]. intros n E. cbv beta in E. destruct (LS n) as (fs & F1 & F2). exists fs. split; [exact F1|].
    rewrite E, F2, ME. reflexivity. }
  eexists _, _. split; [reflexivity|]. split; [reflexivity|]. split; [exact D|].
  destruct (child_filter_metric c1 m _ (sampling_active so) t o1 s1 HK RO FO eq_refl) as [M1 M2]; [|..|exact S1|].
  - intros f X. unfold fp in X. destruct od; discriminate.
  - intro l. rewrite ME. apply filter_length_le'.
  - split; [exact M1|]. rewrite M2. apply total_ext. intros n _. destruct (LS n) as (fs & F1 & <-). apply taken_count. exact F1.
Qed.
End Filter.

(** A node filter alone takes the children away. *)
Lemma node_filter_children : forall d, sub = SubDirectoriesWithFiles -> subpath_blind ws -> compiles mt d -> fd_pattern d <> EmptyString ->
  rp_outcome (run (only_node d)) = rp_outcome (run no_filter) /\
  nodes_of (run (only_node d)) = filter (accepts mt d) (map strip (nodes_of (run no_filter))).
Proof.
  intros d _ HB C P. pose proof (ordinary_facade _ _ _ OR) as CF. pose proof OR as (NO & _ & SU & HA & NH & HS).
  destruct (compiled_filter mt d (only_node d) C eq_refl) as (f & F1 & F2).
  destruct (walk_filtered_children env mt u ws d f (accepts mt d) t sub NO CF SU HA NH HS (active_pattern d P) F1) as (A & B & _).
  - intros n PR. exact (F2 n (proj1 (proj1 PR))).
  - intros tr keep n. cbn [c_subpath session_cfg]. destruct (strip_fields n) as (_ & _ & -> & _).
    destruct (HB tr keep n) as [-> ->]. reflexivity.
  - destruct UD as [U1 _]. intros n k e. change (latest sets_skip ws default_ask n k e = (SkipNoneTraversal, None)). rewrite U1. reflexivity.
  - split; [exact A|exact B].
Qed.
End Children.
