(** A client's own filter, refused definitions, concurrency settings, handlers. *)
From Verif Require Import Base Paths Level Lo Kernel Session Defaults Spec Filters SpecFilter FiltersFacts AskFacts Hooks Life SpecHooks HooksFacts
  Options Build SpecBuild ReadFacts Feature HibFacts WalkCor WalkProps BuildFacts BuildProps ReuseFacts Settle FilterProps HiberProps SpecChild ChildProps.

(** ** A client's own filter *)
Section Own.
Variable env : environment.
Variable mt : matchers.
Variable u : prime_facade.
Variable ws : list with_option.
Variable t : fsnode.
Variable sub : subscription.
Hypothesis OR : ordinary u ws sub.
Let run (fo : filter_options) := walk_prime env mt (FacUsing u) (options_of env (ws ++ [WithFilter fo])) t.
Let so := latest sets_sampling ws no_sampling.
Let ls := if sampling_active so then [sample_listener so] else [].
Let c := session_cfg env ws (us_tree u) sub cnil (then_all (latest sets_read ws default_read) ls) None None.

Lemma own_session : forall validate ans, sub <> SubDirectoriesWithFiles -> validate = None ->
  selected ans (fun n => n)
    (run (own_filter (mkCustom validate (fun on => match on with Some n => inl (ans n) | None => inr nil_deref end))))
    (run no_filter).
Proof.
  intros validate ans ND V. subst validate. set (cu := mkCustom None _).
  pose proof (ordinary_facade _ _ _ OR) as CF. destruct OR as (NO & _ & SU & HA & NH & HS).
  assert (W1 : run_report (with_features (node_filter ans) None cnil c) (sampling_active so) t (run (own_filter cu))).
  { unfold run. pose proof (walk_settled env mt u (ws ++ [WithFilter (own_filter cu)]) sub cnil
      (Some (mkScheme (Some (PrimaryNode (answer_of mt (Some (NfCustom cu))))) None)) None ls t NO CF SU HA) as W.
    rewrite hib_snoc_filter in W. rewrite cfg_snoc_filter in W. rewrite !latest_snoc in W. cbn [sets_filter sets_sampling sets_read] in W.
    fold so in W.
    assert (PL : plan mt (own_filter cu) so (hibernate_when ws) =
      Some (Some (mkScheme (Some (PrimaryNode (answer_of mt (Some (NfCustom cu))))) None), None, ls)).
    { unfold plan. rewrite (no_hib_inactive _ NH). reflexivity. }
    destruct (W PL) as (o & s & S & E). exists o, s. split; [|exact E]. rewrite <- S.
    change (session_cfg env ws (us_tree u) sub cnil (then_all (latest sets_read ws default_read) ls)
      (Some (mkScheme (Some (PrimaryNode (answer_of mt (Some (NfCustom cu))))) None)) None) with
      (with_features (Some (mkScheme (Some (PrimaryNode (answer_of mt (Some (NfCustom cu))))) None)) None cnil c).
    unfold node_filter. symmetry. apply (session_ask t).
    - apply ags_node. intros n _. reflexivity.
    - apply agh_none.
    - apply (then_empty ws so HS).
    - apply (sort_empty ws HS). }
  destruct W1 as (o1 & s1 & S1 & E1).
  destruct (bare_run env mt u ws t sub OR) as (o2 & s2 & S2 & E2). change (run no_filter = mkReport o2 (s_trace s2) (Some (s_metrics s2))) in E2.
  destruct (filtered_nil c ans (sampling_active so) t o1 s1 o2 s2 ND S1 S2) as (A & B & C & D).
  rewrite E1, E2. unfold selected, nodes_of. cbn [rp_outcome rp_trace rp_metrics]. rewrite map_id_eq.
  split; [exact A|]. split; [exact B|]. eauto 8.
Qed.

(** ** Refused *)
Lemma refused_filter : forall fo o e p ch, get_options env (options_of env (ws ++ [WithFilter fo])) = (o, None) ->
  filtering_active fo = true -> create_scheme mt fo (op_sampling o) = Ret (p, ch, Some e) ->
  run fo = mkReport (Ret (Some e)) [] None.
Proof.
  intros fo o e p ch G FA CS. pose proof (ordinary_facade _ _ _ OR) as CF. destruct OR as (NO & _ & SU & HA & NH & HS).
  destruct (with_effective _ _ _ _ G) as [_ EF].
  assert (FO : op_filter o = fo). { destruct EF as (_ & _ & _ & _ & F & _). rewrite F, latest_snoc. reflexivity. }
  apply unbuildable_quiet. eapply ub_filter with (o := o).
  - exact CF.
  - unfold settled. rewrite NO. apply (apply_meaning _ _ _ _ G).
  - rewrite FO. exact FA.
  - rewrite FO. exact CS.
Qed.
Lemma got : forall fo, exists o, get_options env (options_of env (ws ++ [WithFilter fo])) = (o, None).
Proof.
  intro fo. destruct (get_options env (options_of env (ws ++ [WithFilter fo]))) as [o e] eqn:G.
  destruct (with_effective _ _ _ _ G) as [-> _]. eauto.
Qed.
Lemma own_refused : forall cu e, cu_validate cu = Some e -> run (own_filter cu) = mkReport (Ret (Some e)) [] None.
Proof.
  intros cu e V. destruct (got (own_filter cu)) as [o G].
  eapply refused_filter; [exact G|reflexivity|]. unfold create_scheme, create_primary. cbn [fo_custom own_filter]. rewrite V. reflexivity.
Qed.
Lemma child_refused : forall cd e, cd_pattern cd <> EmptyString ->
  (cd_type cd = FtUndefined /\ e = err_undefined) \/ (cd_type cd = FtGlobEx /\ e = err_child_globex) \/
  (cd_type cd = FtCustom /\ e = err_child_custom) \/ (cd_type cd = FtRegex /\ mt_regex mt (cd_pattern cd) = inr e) ->
  run (with_child None cd) = mkReport (Ret (Some e)) [] None.
Proof.
  intros cd e P K. destruct (got (with_child None cd)) as [o G]. pose proof (child_active_pattern None cd P) as CA.
  eapply refused_filter; [exact G| |].
  - unfold filtering_active. rewrite CA. cbn. reflexivity.
  - unfold create_scheme, create_primary. cbn [fo_custom fo_node fo_sample with_child].
    unfold create_child. fold (with_child None cd). rewrite CA. cbn [fo_child with_child].
    unfold new_child. destruct K as [[T ->]|[[T ->]|[[T ->]|[T R]]]]; rewrite T; [..|rewrite R]; reflexivity.
Qed.
Lemma scrub_file : forall f, scope_is_file (scope_scrub f) = scope_is_file f.
Proof.
  intro f. unfold scope_scrub. destruct (scope_is_file f), (scope_is_directory f); reflexivity.
Qed.
Lemma scrub_dir : forall f, scope_is_directory (scope_scrub f) = scope_is_directory f.
Proof.
  intro f. unfold scope_scrub. destruct (scope_is_file f), (scope_is_directory f); reflexivity.
Qed.
Lemma sample_refused : forall sd e, sample_unusable mt sd so e -> run (only_sample sd) = mkReport (Ret (Some e)) [] None.
Proof.
  intros sd e K. destruct (got (only_sample sd)) as [o G].
  assert (SO : op_sampling o = so).
  { destruct (with_effective _ _ _ _ G) as [_ (_ & _ & _ & _ & _ & F & _)]. unfold so. rewrite F, latest_snoc. reflexivity. }
  eapply refused_filter; [exact G|reflexivity|]. rewrite SO.
  assert (NS : new_sample mt sd so = (None, Some e)).
  { unfold new_sample. rewrite scrub_file, scrub_dir.
    assert (FI : forall k, (0 <? N.land (sd_scope sd) k)%N = true <-> asks_for sd k).
    { intro k. unfold asks_for. rewrite N.ltb_lt. lia. }
    assert (OK : forall k n, (asks_for sd k -> n <> 0) -> (0 <? N.land (sd_scope sd) k)%N && Nat.eqb n 0 = false).
    { intros k n H. destruct (0 <? N.land (sd_scope sd) k)%N eqn:E; [|reflexivity]. apply FI in E. apply Nat.eqb_neq. auto. }
    unfold scope_is_file, scope_is_directory.
    destruct K as [A Z|F A Z|e F D K].
    - apply FI in A. rewrite A, Z. reflexivity.
    - rewrite (OK _ _ F). apply FI in A. rewrite A, Z. reflexivity.
    - rewrite (OK _ _ F), (OK _ _ D).
      destruct K as [[T ->]|[[T R]|[(T & C & ->)|(T & m & C)]]]; rewrite T; [reflexivity|rewrite R; reflexivity|rewrite C; reflexivity|rewrite C; reflexivity]. }
  unfold create_scheme, create_primary. cbn [fo_custom fo_node fo_sample only_sample]. rewrite NS. reflexivity.
Qed.
(** A child definition without a pattern is ignored. *)
Lemma child_blank : forall cd, cd_pattern cd = EmptyString -> run (with_child None cd) = run no_filter.
Proof.
  intros cd P. pose proof (ordinary_facade _ _ _ OR) as CF. destruct OR as (NO & _ & SU & HA & NH & HS).
  pose proof (walk_settled env mt u (ws ++ [WithFilter (with_child None cd)]) sub cnil None None ls t NO CF SU HA) as W.
  rewrite hib_snoc_filter in W. rewrite cfg_snoc_filter in W. rewrite !latest_snoc in W. cbn [sets_filter sets_sampling sets_read] in W.
  fold so in W.
  assert (PL : plan mt (with_child None cd) so (hibernate_when ws) = Some (None, None, ls)).
  { unfold plan, filtering_active, node_active, child_active, sample_active, custom_active. cbn [fo_node fo_child fo_sample fo_custom with_child].
    rewrite P. cbn. rewrite (no_hib_inactive _ NH). reflexivity. }
  destruct (W PL) as (o1 & s1 & S1 & E1). destruct (bare_run env mt u ws t sub OR) as (o2 & s2 & S2 & E2). change (run no_filter = mkReport o2 (s_trace s2) (Some (s_metrics s2))) in E2.
  unfold run at 1. rewrite E1, E2. assert (EQ : (o1, s1) = (o2, s2)) by (etransitivity; [symmetry; exact S1|exact S2]). inversion EQ. reflexivity.
Qed.
End Own.

(** ** A wake condition of type custom, without a custom filter *)
Lemma nil_wake : forall mt dw ds fo t iw is, fo_custom fo = None -> fd_type dw = FtCustom -> compiles mt ds ->
  exists h, hib_of mt (mkHibOptions (Some dw) (Some ds) iw is) fo = HcOk h /\
    agree_hib t (Some h) (Some (mkHib (Some (fun _ => inl true)) (Some (fun n => inl (accepts mt ds n))) iw is)).
Proof.
  intros mt dw ds fo t iw is N T C. unfold hib_of. cbn [ho_wake ho_sleep ho_incl_wake ho_incl_sleep].
  assert (W : new_filter mt dw fo = Ret (None, None)).
  { unfold new_filter, or_func, build_poly, get_custom, build_native. rewrite T, N. reflexivity. }
  rewrite W. destruct (compiled_filter mt ds fo C N) as (f & F1 & F2). rewrite F1.
  eexists. split; [reflexivity|]. constructor; constructor; [reflexivity|].
  intros n [[S _] _]. unfold answer_of. rewrite (F2 n S). reflexivity.
Qed.

(** ** Concurrency settings *)
Lemma plugins_conc : forall mt o sub tree cl, op_conc (snd (build_plugins mt o sub tree cl)) = op_conc o /\
  op_events (snd (build_plugins mt o sub tree cl)) = op_events o.
Proof.
  intros mt o sub tree cl. unfold build_plugins.
  destruct (if filtering_active (op_filter o) then _ else _) as [[made err]|q|]; [|auto|auto].
  destruct made as [[[[f|m|m]|] ch]|]; (destruct err; [auto|]); cbn [op_hib chain_read set_hooks];
    (destruct (if hib_active (op_hib o) then _ else _) as [hb|y]; [|destruct y; auto]);
    destruct (sampling_active (op_sampling o)); auto.
Qed.
Lemma built_conc : forall env mt u ws, us_options u = None ->
  let o := snd (build_prime env mt (FacUsing u) (options_of env ws)) in
  let workers := latest (sets_workers (en_cpus env)) ws (en_cpus env) in
  let asked := latest sets_output ws (0%N, false) in
  co_now (op_conc o) = workers /\
  co_input (op_conc o) = workers /\
  (co_output_on (op_conc o) = snd asked) /\
  co_output (op_conc o) = (if snd asked && (fst asked =? 0)%N then workers else fst asked) /\
  (forall k, run_dispatcher (ctrl_dispatch (op_events o k)) = handlers_for k ws).
Proof.
  intros env mt u ws NO. cbv zeta.
  destruct (get_options env (options_of env ws)) as [o e] eqn:G. destruct (with_effective _ _ _ _ G) as [-> EF].
  assert (IN : co_input (op_conc o) = 0%N).
  { unfold get_options in G. rewrite apply_with in G. inversion G; subst o. clear.
    assert (X : forall ws o, co_input (op_conc o) = 0%N -> co_input (op_conc (fold_with env ws o)) = 0%N).
    { intro w. induction w as [|w l IH]; intros o H; [exact H|]. cbn. apply IH. destruct w; exact H. }
    apply X. reflexivity. }
  unfold effective in EF. destruct EF as (_ & _ & _ & _ & _ & _ & _ & _ & _ & _ & E11 & E12 & _ & _ & _ & _ & _ & _ & _ & _ & E21).
  assert (AF : op_conc (snd (build_prime env mt (FacUsing u) (options_of env ws))) = op_conc (afterwards o) /\
    op_events (snd (build_prime env mt (FacUsing u) (options_of env ws))) = op_events (afterwards o)).
  { unfold build_prime, prime_options. rewrite NO, G. destruct (using_validate u); [auto|].
    destruct (us_sub u); [|auto]. destruct (us_handler u); [|auto]. apply plugins_conc. }
  destruct AF as [-> ->].
  assert (EV : op_events (afterwards o) = op_events o) by apply afterwards_fields. rewrite EV.
  unfold afterwards. cbn [op_conc set_conc co_now co_input co_output co_output_on].
  rewrite IN. cbn [N.eqb]. rewrite <- E11, <- E12. cbn [fst snd]. repeat split. exact E21.
Qed.

(** ** Who is told *)
Lemma notified_heard : forall (cs : controls nat) hs tr, (forall k, run_dispatcher (ctrl_dispatch (cs k)) = hs k) ->
  heard hs tr (notified cs tr).
Proof.
  intros cs hs tr H. induction tr as [|e tr IH]; [constructor|]. unfold notified. cbn [flat_map]. fold (notified cs tr).
  destruct e; cbn [notice_of]; try (rewrite H; apply heard_one; [constructor|exact IH]);
    try (apply heard_other; [intros k X; inversion X|exact IH]).
Qed.

Lemma nil_wake_session : forall env mt u ws t sub dw ds iw is, ordinary u ws sub -> sub <> SubDirectoriesWithFiles ->
  latest sets_filter ws no_filter = no_filter -> fd_type dw = FtCustom -> compiles mt ds ->
  nodes_of (walk_prime env mt (FacUsing u) (options_of env (ws ++ [WithHibernationOptions (mkHibOptions (Some dw) (Some ds) iw is)])) t) =
  segment (mkHib (Some (fun _ => inl true)) (Some (fun n => inl (accepts mt ds n))) iw is)
    (nodes_of (walk_prime env mt (FacUsing u) (options_of env ws) t)).
Proof.
  intros env mt u ws t sub dw ds iw is OR ND NF T C. pose proof (ordinary_facade _ _ _ OR) as CF. destruct OR as (NO & _ & SU & HA & NH & HS).
  set (so := latest sets_sampling ws no_sampling). set (l2 := if sampling_active so then [sample_listener so] else []).
  pose proof (walk_settled env mt u ws sub cnil None None l2 t NO CF SU HA) as W2. rewrite NF in W2. fold so in W2.
  specialize (W2 (plan_off _ _ _ (no_hib_inactive _ NH))). destruct W2 as (o2 & s2 & S2 & E2).
  destruct (nil_wake mt dw ds no_filter t iw is eq_refl T C) as (h & HO & AG).
  set (ho := mkHibOptions (Some dw) (Some ds) iw is) in *.
  pose proof (walk_settled env mt u (ws ++ [WithHibernationOptions ho]) sub cnil None (Some h) l2 t NO CF SU HA) as W1.
  rewrite hib_snoc, cfg_snoc_hib in W1. rewrite !latest_snoc in W1. cbn [sets_filter sets_sampling sets_read] in W1.
  rewrite NF in W1. fold so in W1.
  assert (PL : plan mt no_filter so ho = Some (None, Some h, l2)).
  { unfold plan, no_filter in *. cbn [filtering_active node_active child_active sample_active custom_active fo_node fo_child fo_sample fo_custom orb].
    cbn [hib_active ho_wake ho_sleep ho]. rewrite HO. reflexivity. }
  destruct (W1 PL) as (o1 & s1 & S1 & E1). rewrite E1, E2. unfold nodes_of. cbn [rp_trace].
  set (c := session_cfg env ws (us_tree u) sub cnil (then_all (latest sets_read ws default_read) l2) None None) in *.
  change (session_cfg env ws (us_tree u) sub cnil (then_all (latest sets_read ws default_read) l2) None (Some h)) with
    (with_features None (Some h) cnil c) in S1.
  set (h2 := mkHib (Some (fun _ => inl true)) (Some (fun n => inl (accepts mt ds n))) iw is) in *.
  rewrite (session_ask t c None None (Some h) (Some h2) cnil (ags_same _ _) AG (then_empty ws so HS) (sort_empty ws HS)) in S1.
  apply (hib_segment c h2 (sampling_active so) t o1 s1 o2 s2); [|exact ND|exact S1|exact S2].
  unfold conditions_answer, h2. cbn. repeat split; intros; eexists; reflexivity.
Qed.
