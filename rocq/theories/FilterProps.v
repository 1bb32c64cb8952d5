(** Filtered sessions, from the options to the callbacks. *)
From Verif Require Import Base Paths Level Lo Kernel Session Defaults Spec Filters SpecFilter FiltersFacts AskFacts Hooks Life SpecHooks HooksFacts
  Options Build SpecBuild ReadFacts Feature HibFacts WalkCor WalkProps BuildFacts BuildProps ReuseFacts Settle.
From Coq Require Import Permutation.

Lemma latest_snoc : forall A (sets : with_option -> option A) ws w d,
  latest sets (ws ++ [w]) d = match sets w with Some x => x | None => latest sets ws d end.
Proof. intros. unfold latest. rewrite fold_left_app. reflexivity. Qed.
Lemma cfg_snoc_filter : forall env ws fo tree sub cl rd sc hb,
  session_cfg env (ws ++ [WithFilter fo]) tree sub cl rd sc hb = session_cfg env ws tree sub cl rd sc hb.
Proof. intros. unfold session_cfg. rewrite !latest_snoc. reflexivity. Qed.
Lemma hib_snoc_filter : forall ws fo, hibernate_when (ws ++ [WithFilter fo]) = hibernate_when ws.
Proof. intros. unfold hibernate_when. rewrite !latest_snoc. reflexivity. Qed.
Lemma plan_off : forall mt so ho, hib_active ho = false ->
  plan mt no_filter so ho = Some (None, None, if sampling_active so then [sample_listener so] else []).
Proof. intros mt so ho H. unfold plan, no_filter. cbn. rewrite H. reflexivity. Qed.
Lemma plan_node : forall mt d so ho f, hib_active ho = false -> node_active (only_node d) = true ->
  new_filter mt d (only_node d) = Ret (Some f, None) ->
  plan mt (only_node d) so ho = Some (Some (mkScheme (Some (PrimaryNode (answer_of mt (Some f)))) None), None,
    if sampling_active so then [sample_listener so] else []).
Proof.
  intros mt d so ho f H A F. unfold plan, filtering_active. rewrite A. cbn [orb]. unfold create_scheme, create_primary.
  cbn [fo_custom fo_node only_node]. fold (only_node d). rewrite A, F. unfold create_child. cbn [fo_child only_node].
  rewrite H. reflexivity.
Qed.
Lemma no_hib_inactive : forall ws, no_hibernation ws -> hib_active (hibernate_when ws) = false.
Proof. intros ws [W S]. unfold hib_active, hibernate_when. cbn. rewrite W, S. reflexivity. Qed.

Lemma then_empty : forall ws so, hooks_sound ws -> forall p e, fisdir e = false ->
  fst (then_all (latest sets_read ws default_read) (if sampling_active so then [sample_listener so] else []) p e) = [].
Proof.
  intros ws so (_ & R & _) p e F. unfold then_all. destruct (sampling_active so); cbn [fold_left]; [|apply R, F].
  unfold sample_listener. rewrite (R _ _ F). cbn. unfold union, last_n, first_n.
  destruct (so_reverse so); cbn; rewrite ?Nat.min_0_r; cbn; rewrite ?firstn_nil, ?skipn_nil; reflexivity.
Qed.
Lemma sort_empty : forall ws, hooks_sound ws -> forall l, l = [] -> latest sets_sort ws default_sort l = [].
Proof. intros ws (_ & _ & P) l ->. apply Permutation_nil. symmetry. apply P. Qed.

Section Filtered.
Variable env : environment.
Variable mt : matchers.
Variable u : prime_facade.
Variable ws : list with_option.
Variable d : filter_def.
Variable f : nfilter.
Variable ans : node -> bool.
Variable t : fsnode.
Variable sub : subscription.
Hypothesis NO : us_options u = None.
Hypothesis CF : complete_facade u.
Hypothesis SU : us_sub u = Some sub.
Hypothesis HA : us_handler u = Some cnil.
Hypothesis NH : no_hibernation ws.
Hypothesis HS : hooks_sound ws.
Hypothesis AC : node_active (only_node d) = true.
Hypothesis NF : new_filter mt d (only_node d) = Ret (Some f, None).
Hypothesis AN : forall n, proper t n -> is_match mt f (Some n) = Ret (ans n).

Let so := latest sets_sampling ws no_sampling.
Let ls := if sampling_active so then [sample_listener so] else [].
Let c := session_cfg env ws (us_tree u) sub cnil (then_all (latest sets_read ws default_read) ls) None None.
Let r1 := walk_prime env mt (FacUsing u) (options_of env (ws ++ [WithFilter (only_node d)])) t.
Let r2 := walk_prime env mt (FacUsing u) (options_of env (ws ++ [WithFilter no_filter])) t.

Lemma filtered_sides :
  run_report (with_features (node_filter ans) None cnil c) (sampling_active so) t r1 /\
  run_report (with_features None None cnil c) (sampling_active so) t r2.
Proof.
  split.
  - unfold r1. pose proof (walk_settled env mt u (ws ++ [WithFilter (only_node d)]) sub cnil
      (Some (mkScheme (Some (PrimaryNode (answer_of mt (Some f)))) None)) None ls t NO CF SU HA) as W.
    rewrite hib_snoc_filter in W. rewrite cfg_snoc_filter in W. rewrite !latest_snoc in W. cbn [sets_filter sets_sampling sets_read] in W.
    fold so in W. specialize (W (plan_node _ _ _ _ _ (no_hib_inactive _ NH) AC NF)).
    destruct W as (o & s & S & E). exists o, s. split; [|exact E]. rewrite <- S.
    change (session_cfg env ws (us_tree u) sub cnil (then_all (latest sets_read ws default_read) ls)
      (Some (mkScheme (Some (PrimaryNode (answer_of mt (Some f)))) None)) None) with
      (with_features (Some (mkScheme (Some (PrimaryNode (answer_of mt (Some f)))) None)) None cnil c).
    unfold node_filter. apply (session_ask t).
    + apply ags_node. intros n P. unfold answer_of. rewrite (AN n P). reflexivity.
    + apply agh_none.
    + apply (then_empty ws so HS).
    + apply (sort_empty ws HS).
  - unfold r2. pose proof (walk_settled env mt u (ws ++ [WithFilter no_filter]) sub cnil None None ls t NO CF SU HA) as W.
    rewrite hib_snoc_filter in W. rewrite cfg_snoc_filter in W. rewrite !latest_snoc in W. cbn [sets_filter sets_sampling sets_read] in W.
    fold so in W. exact (W (plan_off _ _ _ (no_hib_inactive _ NH))).
Qed.

Lemma walk_filtered : sub <> SubDirectoriesWithFiles -> selected ans (fun n => n) r1 r2.
Proof.
  intro ND. destruct filtered_sides as [(o1 & s1 & S1 & E1) (o2 & s2 & S2 & E2)].
  destruct (filtered_nil c ans (sampling_active so) t o1 s1 o2 s2 ND S1 S2) as (A & B & C & D).
  rewrite E1, E2. unfold selected, nodes_of. cbn [rp_outcome rp_trace rp_metrics]. rewrite map_id_eq.
  split; [exact A|]. split; [exact B|]. eauto 8.
Qed.
Lemma walk_filtered_children : hook_blind c -> default_skip c -> selected ans strip r1 r2.
Proof.
  intros HB DS. destruct filtered_sides as [(o1 & s1 & S1 & E1) (o2 & s2 & S2 & E2)].
  destruct (filtered_nil_children c ans (sampling_active so) t o1 s1 o2 s2 HB DS S1 S2) as (A & B & C & D).
  rewrite E1, E2. unfold selected, nodes_of. cbn [rp_outcome rp_trace rp_metrics].
  split; [exact A|]. split; [exact B|]. eauto 8.
Qed.
End Filtered.

(** ** The kinds of filter *)
Lemma ordinary_facade : forall u ws sub, ordinary u ws sub -> complete_facade u.
Proof. intros u ws sub (_ & T & S & H & _). repeat split; [exact T|rewrite S; discriminate|rewrite H; discriminate]. Qed.
Lemma compiles_builds : forall mt d, compiles mt d -> exists f, build_native mt d = (Some f, None).
Proof. intros mt d [T|[T [rex R]]]; unfold build_native; rewrite T; [eauto|rewrite R; eauto]. Qed.
Lemma compiles_type : forall mt d, compiles mt d -> fd_type d = FtGlob \/ fd_type d = FtRegex.
Proof. intros mt d [T|[T _]]; auto. Qed.

Section Kinds.
Variable env : environment.
Variable mt : matchers.
Variable u : prime_facade.
Variable ws : list with_option.
Variable t : fsnode.
Variable sub : subscription.
Hypothesis OR : ordinary u ws sub.
Hypothesis ND : sub <> SubDirectoriesWithFiles.
Let run (fo : filter_options) := walk_prime env mt (FacUsing u) (options_of env (ws ++ [WithFilter fo])) t.

Lemma run_selected : forall d f ans, node_active (only_node d) = true ->
  new_filter mt d (only_node d) = Ret (Some f, None) ->
  (forall n, proper t n -> is_match mt f (Some n) = Ret (ans n)) ->
  selected ans (fun n => n) (run (only_node d)) (run no_filter).
Proof.
  intros d f ans AC NF AN. pose proof (ordinary_facade _ _ _ OR) as CF. destruct OR as (NO & _ & SU & HA & NH & HS).
  exact (walk_filtered env mt u ws d f ans t sub NO CF SU HA NH HS AC NF AN ND).
Qed.
Lemma active_pattern : forall d, fd_pattern d <> EmptyString -> node_active (only_node d) = true.
Proof.
  intros d P. unfold node_active, only_node. cbn. destruct (String.eqb_spec (fd_pattern d) ""); [contradiction|reflexivity].
Qed.
Lemma glob_regex_session : forall d, compiles mt d -> fd_pattern d <> EmptyString ->
  selected (accepts mt d) (fun n => n) (run (only_node d)) (run no_filter).
Proof.
  intros d C P. destruct (compiles_builds _ _ C) as [f B].
  assert (NF : new_filter mt d (only_node d) = Ret (Some f, None)).
  { rewrite new_filter_native; [rewrite B; reflexivity|reflexivity|]. destruct (compiles_type _ _ C) as [E|E]; rewrite E; discriminate. }
  apply (run_selected d f (accepts mt d) (active_pattern d P) NF).
  intros n PR. exact (new_filter_accepts mt d (only_node d) f n eq_refl (compiles_type mt d C) (proj1 (proj1 PR)) NF).
Qed.
Lemma globex_session : forall dir excl items sc neg na ans, dir_part_ok dir -> dir_part_ok excl -> Forall item_ok items ->
  (forall name, listed (fun p x => mt_glob mt (to_lower p) x) name items (ans name)) ->
  selected (fun n => if negb (n_isdir n) && directory_accepted (mt_glob mt) dir excl n then xorb neg (ans (n_name n))
                     else if_not_applicable (globex_def dir excl items sc neg na))
    (fun n => n) (run (only_node (globex_def dir excl items sc neg na))) (run no_filter).
Proof.
  intros dir excl items sc neg na ans D E F L.
  set (d := globex_def dir excl items sc neg na).
  assert (NF := build_globex mt dir excl items sc neg na D E F). fold d in NF.
  assert (N2 : forall f, build_native mt d = (Some f, None) -> new_filter mt d (only_node d) = Ret (Some f, None)).
  { intros f B. rewrite new_filter_native; [rewrite B; reflexivity|reflexivity|discriminate]. }
  eapply run_selected; [|apply N2; exact NF|].
  - apply active_pattern. unfold d, globex_def, globex_text. cbn [fd_pattern].
    destruct (if String.eqb excl "" then dir else (dir ++ "/" ++ excl)%string); discriminate.
  - intros n PR. destruct (globex_answer mt dir excl items sc neg na (only_node d) n (ans (n_name n)) D E F eq_refl (proj1 (proj2 (proj1 PR))) (L _)) as (f & F1 & F2).
    fold d in F1. rewrite (N2 _ NF) in F1. inversion F1; subst f. exact F2.
Qed.

Lemma constituent_builds : forall d fo sc, compiles mt d -> fo_custom fo = None ->
  exists f, build_constituent mt (with_scope sc d) fo = Ret (Some f, None).
Proof.
  intros d fo sc C N. unfold build_constituent, or_func, get_custom. rewrite N. cbn [option_map].
  destruct C as [T|[T [rex R]]]; unfold build_native; cbn [fd_type fd_pattern with_scope]; rewrite T; [eexists; reflexivity|].
  rewrite R. eexists; reflexivity.
Qed.
Lemma poly_builds : forall file directory, compiles mt file -> compiles mt directory ->
  exists f, new_filter mt (poly_def file directory) (only_node (poly_def file directory)) = Ret (Some f, None).
Proof.
  intros file directory CF CD. set (fo := only_node (poly_def file directory)).
  destruct (constituent_builds file fo (scope_clear (scope_set (fd_scope file) ScopeFile) ScopeDirectory) CF eq_refl) as [ff F].
  destruct (constituent_builds directory fo (scope_clear (scope_set (fd_scope directory) ScopeDirectory) ScopeFile) CD eq_refl) as [df D].
  exists (NfPoly ff df). unfold new_filter, or_func, build_poly. cbn [fd_type poly_def is_poly_type fo_node fo only_node fd_poly].
  assert (PF : is_poly_type (fd_type file) = false) by (destruct (compiles_type _ _ CF) as [E|E]; rewrite E; reflexivity).
  assert (PD : is_poly_type (fd_type directory) = false) by (destruct (compiles_type _ _ CD) as [E|E]; rewrite E; reflexivity).
  cbn [fd_type with_scope]. rewrite PF. fold (poly_def file directory). fold (only_node (poly_def file directory)). fold fo.
  rewrite F, PD, D. reflexivity.
Qed.
Lemma poly_session : forall file directory, compiles mt file -> compiles mt directory -> fisdir t = true ->
  selected (poly_accepts mt file directory) (fun n => n) (run (only_node (poly_def file directory))) (run no_filter).
Proof.
  intros file directory CF CD DT. destruct (poly_builds _ _ CF CD) as [f NF].
  destruct (poly_answer mt file directory (only_node (poly_def file directory)) f eq_refl eq_refl
    (compiles_type _ _ CF) (compiles_type _ _ CD) NF) as [A B].
  eapply run_selected; [reflexivity|exact NF|].
  intros n [(O1 & O2 & O3) [BD BP]]. unfold poly_accepts. destruct (n_isdir n) eqn:I; cbn [orb].
  - apply A, I.
  - destruct (n_parent n) as [p|] eqn:P.
    + destruct BP as [(Q1 & Q2 & Q3) QD]. apply B; assumption.
    + rewrite BP, DT in BD. discriminate.
Qed.

(** A definition without a pattern and without Poly is ignored. *)
Lemma blank_session : forall d, fd_pattern d = EmptyString -> fd_poly d = None -> run (only_node d) = run no_filter.
Proof.
  intros d E P. pose proof (ordinary_facade _ _ _ OR) as CF. destruct OR as (NO & _ & SU & HA & NH & HS).
  assert (W : forall fo, (fo = only_node d \/ fo = no_filter) ->
    run_report (session_cfg env ws (us_tree u) sub cnil (then_all (latest sets_read ws default_read)
        (if sampling_active (latest sets_sampling ws no_sampling) then [sample_listener (latest sets_sampling ws no_sampling)] else [])) None None)
      (sampling_active (latest sets_sampling ws no_sampling)) t (run fo)).
  { intros fo F. pose proof (walk_settled env mt u (ws ++ [WithFilter fo]) sub cnil None None
      (if sampling_active (latest sets_sampling ws no_sampling) then [sample_listener (latest sets_sampling ws no_sampling)] else []) t NO CF SU HA) as W.
    rewrite hib_snoc_filter in W. rewrite cfg_snoc_filter in W. rewrite !latest_snoc in W. cbn [sets_filter sets_sampling sets_read] in W.
    apply W. unfold plan. rewrite (no_hib_inactive _ NH).
    assert (FA : filtering_active fo = false).
    { destruct F as [-> | ->]; [|reflexivity]. unfold filtering_active, node_active, only_node. cbn. rewrite E, P. reflexivity. }
    rewrite FA. reflexivity. }
  destruct (W _ (or_introl eq_refl)) as (o1 & s1 & S1 & E1). destruct (W _ (or_intror eq_refl)) as (o2 & s2 & S2 & E2).
  rewrite E1, E2. rewrite S1 in S2. inversion S2; subst. reflexivity.
Qed.
End Kinds.

Lemma refused_definitions : forall env mt u ws t sub d e, ordinary u ws sub ->
  fd_pattern d <> EmptyString -> fd_poly d = None ->
  (fd_type d = FtUndefined /\ e = err_missing_type) \/
  (fd_type d = FtRegex /\ mt_regex mt (fd_pattern d) = inr e) \/
  (fd_type d = FtGlobEx /\ free_of "|"%char (fd_pattern d) /\ e = err_missing_separator) ->
  walk_prime env mt (FacUsing u) (options_of env (ws ++ [WithFilter (only_node d)])) t = mkReport (Ret (Some e)) [] None.
Proof.
  intros env mt u ws t sub d e OR P NP K. pose proof (ordinary_facade _ _ _ OR) as CF. destruct OR as (NO & _ & SU & HA & NH & HS).
  destruct (get_options env (options_of env (ws ++ [WithFilter (only_node d)]))) as [o er] eqn:G.
  destruct (with_effective _ _ _ _ G) as [-> EF].
  assert (FO : op_filter o = only_node d). { destruct EF as (_ & _ & _ & _ & F & _). rewrite F, latest_snoc. reflexivity. }
  apply unbuildable_quiet. eapply ub_filter with (o := o).
  - exact CF.
  - unfold settled. rewrite NO. apply (apply_meaning _ _ _ _ G).
  - rewrite FO. unfold filtering_active. rewrite (active_pattern d P). reflexivity.
  - rewrite FO. unfold create_scheme, create_primary. cbn [fo_custom only_node fo_node].
    fold (only_node d). rewrite (active_pattern d P). rewrite new_filter_native; [|reflexivity|destruct K as [[T _]|[[T _]|[T _]]]; rewrite T; discriminate].
    unfold build_native. destruct K as [[T ->]|[[T R]|(T & F & ->)]]; rewrite T; [reflexivity|rewrite R; reflexivity|].
    unfold split_globex. apply contains_char_free in F. rewrite F. reflexivity.
Qed.
