(** A walk with the client's own filter, stopped by a panic and resumed, from the
    facade to the report: proofs. *)
From Verif Require Import Base Paths Level Kernel Session Defaults Spec PathFacts WalkProps Feature Cases Filters SpecFilter FiltersFacts Hooks Life Options Build SpecBuild
  BuildFacts BuildProps ReuseFacts Settle Persist SpecPersist PersistFacts Resume SpecResume SpawnOrder RecoverFacts FastRelayFacts ResumeBuild ResumeWalk FilterProps OwnFilter AskFacts NamedAsk ResumeFilter SiftFacts PropSame.
Local Open Scope list_scope.

(** What a glob or regex filter with this scope says about an object at a path. *)
Definition within_scope (sc : N) (x : string * fsnode) : bool :=
  (sc =? ScopeUndefined)%N || (sc =? ScopeFile)%N && negb (fisdir (snd x)) || (sc =? ScopeDirectory)%N && fisdir (snd x).
Definition pattern_accepts (mt : matchers) (d : filter_def) (x : string * fsnode) : bool :=
  if within_scope (fd_scope d) x then xorb (fd_negate d) (pattern_says mt d (snd (split_path (fst x)))) else if_not_applicable d.
Lemma pattern_of_thing : forall mt d m, named m -> In (fd_scope d) [ScopeUndefined; ScopeFile; ScopeDirectory] ->
  accepts mt d m = pattern_accepts mt d (thing (place_of m)).
Proof.
  intros mt d m ((_ & FB & DB) & NM & DI) SC. unfold accepts, pattern_accepts. cbn [thing place_of fst snd pl_path pl_obj].
  rewrite <- NM. replace (in_scope_b (fd_scope d) m) with (within_scope (fd_scope d) (n_path m, n_src m)); [reflexivity|].
  unfold within_scope, in_scope_b. cbn [snd]. rewrite <- DI. unfold file_bit, dir_bit in *.
  destruct SC as [<-|[<-|[<-|[]]]].
  - reflexivity.
  - change (ScopeFile =? ScopeUndefined)%N with false. change (ScopeFile =? 0)%N with false. change (ScopeFile =? ScopeFile)%N with true.
    change (ScopeFile =? ScopeDirectory)%N with false. rewrite orb_false_r. cbn [orb andb].
    destruct (N.eqb_spec (N.land ScopeFile (n_scope m)) 0); destruct (n_isdir m); cbn; tauto || (exfalso; intuition congruence) || reflexivity.
  - change (ScopeDirectory =? ScopeUndefined)%N with false. change (ScopeDirectory =? 0)%N with false.
    change (ScopeDirectory =? ScopeFile)%N with false. change (ScopeDirectory =? ScopeDirectory)%N with true. cbn [orb andb].
    destruct (N.eqb_spec (N.land ScopeDirectory (n_scope m)) 0); destruct (n_isdir m); cbn; tauto || (exfalso; intuition congruence) || reflexivity.
Qed.

Lemma asked_recovers : forall env mt ws tree g q h pc dk P rs rl r pre n dn gd p a b,
  let u := mkUsing tree (Some SubUniversal) (Some (on_calls g)) None in
  let t := dk tree in
  let c := session_cfg env ws tree SubUniversal client_nil (reads ws) None None in
  plan mt (latest sets_filter ws no_filter) (latest sets_sampling ws no_sampling) (hibernate_when ws) =
    Some (Some (mkScheme (Some (PrimaryNode q)) None), None, sample_chain ws) ->
  (forall m, named m -> q m = inl (h (thing (place_of m)))) ->
  tree <> EmptyString -> hooks_sound ws -> undisturbed env ws t -> depth_asked ws = 0%N ->
  stable_sort c -> clean tree = tree -> proper_names t ->
  preorder (entries_all c) [] tree t P -> tidy c pc dk P ->
  walk_prime env mt (FacUsing u) (options_of env ws) t = r ->
  calls (rp_trace r) = pre ++ [(n, CPanic p)] -> Forall (fun x => snd x = CNil) pre ->
  n_parent n = Some dn -> n_parent dn = Some gd ->
  Forall utf8 (option_texts (snd (build_prime env mt (FacUsing u) (options_of env ws)))) ->
  utf8 tree -> utf8 (n_path dn) ->
  exists sv old again new,
    rescues (rp_trace r) = [sv] /\
    P = (old ++ place_of dn :: again) ++ new /\
    map place_of (nodes_of r) = filter (fun q => h (thing q)) (old ++ place_of dn :: again) /\
    Forall (fun q => above (n_pos dn) (pl_pos q) = true) again /\
    forall v, marshal (snd (build_prime env mt (FacUsing u) (options_of env ws))) (mkActive sv a b) None = (Some v, None) ->
    rs_file rs (re_from rl) = inl v -> forest_error rs (mkActive sv a b) = None ->
    re_strategy rl = StrategySpawn -> re_handler rl = Some client_nil ->
    let r2 := walk_resume env mt rs (FacRelic rl) (options_of env ws) pc dk in
    rr_outcome r2 = Ret None /\ rr_complete r2 = true /\
    map thing (map place_of (map fst (calls (rr_trace r2)))) = filter h (map thing (place_of dn :: again ++ new)).
Proof.
  intros env mt ws tree g q h pc dk P rs rl r pre n dn gd p a b u t c PL AK NE HS UD DZ SS CL PN HP TD W HC FN EN ED UO U1 U2.
  set (sc := mkScheme (Some (PrimaryNode q)) None) in *.
  set (f := fun m => h (thing (place_of m))).
  assert (CF : complete_facade u) by (repeat split; [exact NE|discriminate|discriminate]).
  destruct (prime_settled env mt u ws SubUniversal (on_calls g) (Some sc) None (sample_chain ws) eq_refl CF eq_refl eq_refl PL) as (o & G & B).
  rewrite reads_chain in B.
  change (session_cfg env ws (us_tree u) SubUniversal (on_calls g) (reads ws) (Some sc) None) with (with_features (Some sc) None (on_calls g) c) in B.
  assert (HK : hooks_ok c) by (apply sound_hooks; exact HS).
  destruct UD as [UA UB].
  assert (RO : root_ok c t) by exact UB.
  assert (DS : default_skip c) by (intros x y z; unfold c, session_cfg; cbn [c_ask]; rewrite UA; reflexivity).
  unfold walk_prime in W. rewrite B in W. cbn [fst run_built] in W.
  destruct (session (with_features (Some sc) None (on_calls g) c) (sampling_active (latest sets_sampling ws no_sampling)) t) as [oo s] eqn:RUN.
  subst r. cbn [rp_trace] in HC.
  assert (RUN' : session (with_features (Some (mkScheme (Some (PrimaryNode (fun m => inl (f m)))) None)) None (on_calls g) c)
    (sampling_active (latest sets_sampling ws no_sampling)) t = (oo, s)).
  { rewrite <- RUN. symmetry. unfold sc. apply named_session. exact AK. }
  destruct (asked_spawn_recovers c f h g (fun m => inl (f m)) (sampling_active (latest sets_sampling ws no_sampling)) pc dk oo s pre n dn gd p P HK RO DS eq_refl DZ SS CL PN HP TD
    (fun _ => eq_refl) (fun _ => eq_refl) RUN' HC FN EN ED) as (sv & old & again & new & RS & ST & SSV & SP & EP & EV & FA & REST).
  change (c_tree c) with tree in ST. change (c_sub c) with SubUniversal in SSV.
  exists sv, old, again, new. cbn [rp_trace]. split; [exact RS|]. split; [exact EP|]. split; [exact EV|]. split; [exact FA|].
  intros v M F FE SG HD. unfold walk_resume.
  rewrite (c127_set_up_as_before env mt rs rl u ws (with_features (Some sc) None (on_calls g) c) (sampling_active (latest sets_sampling ws no_sampling))
    (snd (build_prime env mt (FacUsing u) (options_of env ws))) (mkActive sv a b) v); try assumption; try reflexivity.
  2: rewrite B; reflexivity.
  2: cbn [ac_saved]; rewrite SSV; reflexivity.
  2: cbn [ac_saved]; rewrite SP; exact U2.
  rewrite SG, HD. cbn [run_resume client_of].
  change (with_client client_nil (with_features (Some sc) None (on_calls g) c)) with (with_features (Some sc) None client_nil c).
  destruct (REST (ac_saved (kept_state (mkActive sv a b))) eq_refl eq_refl) as (s2 & R2 & V2).
  unfold sc. rewrite (named_spawn c q (fun m => inl (f m)) None client_nil AK), R2. cbn [rr_outcome rr_complete rr_trace]. split; [reflexivity|]. split; [reflexivity|exact V2].
Qed.

Theorem own_filter_recovers : forall env mt ws tree g cu node sample h pc dk P rs rl r pre n dn gd p a b,
  let u := mkUsing tree (Some SubUniversal) (Some (on_calls g)) None in
  let t := dk tree in
  let c := session_cfg env ws tree SubUniversal client_nil (reads ws) None None in
  latest sets_filter ws no_filter = own_filter cu node sample -> no_hibernation ws ->
  cu_validate cu = None -> (forall m, cu_match cu (Some m) = inl (h (thing (place_of m)))) ->
  tree <> EmptyString -> hooks_sound ws -> undisturbed env ws t -> depth_asked ws = 0%N ->
  stable_sort c -> clean tree = tree -> proper_names t ->
  preorder (entries_all c) [] tree t P -> tidy c pc dk P ->
  walk_prime env mt (FacUsing u) (options_of env ws) t = r ->
  calls (rp_trace r) = pre ++ [(n, CPanic p)] -> Forall (fun x => snd x = CNil) pre ->
  n_parent n = Some dn -> n_parent dn = Some gd ->
  Forall utf8 (option_texts (snd (build_prime env mt (FacUsing u) (options_of env ws)))) ->
  utf8 tree -> utf8 (n_path dn) ->
  exists sv old again new,
    rescues (rp_trace r) = [sv] /\
    P = (old ++ place_of dn :: again) ++ new /\
    map place_of (nodes_of r) = filter (fun q => h (thing q)) (old ++ place_of dn :: again) /\
    Forall (fun q => above (n_pos dn) (pl_pos q) = true) again /\
    forall v, marshal (snd (build_prime env mt (FacUsing u) (options_of env ws))) (mkActive sv a b) None = (Some v, None) ->
    rs_file rs (re_from rl) = inl v -> forest_error rs (mkActive sv a b) = None ->
    re_strategy rl = StrategySpawn -> re_handler rl = Some client_nil ->
    let r2 := walk_resume env mt rs (FacRelic rl) (options_of env ws) pc dk in
    rr_outcome r2 = Ret None /\ rr_complete r2 = true /\
    map thing (map place_of (map fst (calls (rr_trace r2)))) = filter h (map thing (place_of dn :: again ++ new)).
Proof.
  intros env mt ws tree g cu node sample h pc dk P rs rl r pre n dn gd p a b u t c LF NH CV CM.
  apply (asked_recovers env mt ws tree g (answer_of mt (Some (NfCustom cu))) h).
  - assert (HB : hib_active (hibernate_when ws) = false) by (destruct NH as [X Y]; unfold hib_active, hibernate_when; cbn; rewrite X, Y; reflexivity).
    rewrite LF. exact (plan_own mt cu node sample _ (hibernate_when ws) HB CV).
  - intros m _. unfold answer_of, is_match. rewrite CM. reflexivity.
Qed.

Theorem pattern_recovers : forall env mt ws tree g d pc dk P rs rl r pre n dn gd p a b,
  let u := mkUsing tree (Some SubUniversal) (Some (on_calls g)) None in
  let t := dk tree in
  let c := session_cfg env ws tree SubUniversal client_nil (reads ws) None None in
  let h := pattern_accepts mt d in
  latest sets_filter ws no_filter = only_node d -> no_hibernation ws ->
  compiles mt d -> fd_pattern d <> EmptyString -> In (fd_scope d) [ScopeUndefined; ScopeFile; ScopeDirectory] ->
  tree <> EmptyString -> hooks_sound ws -> undisturbed env ws t -> depth_asked ws = 0%N ->
  stable_sort c -> clean tree = tree -> proper_names t ->
  preorder (entries_all c) [] tree t P -> tidy c pc dk P ->
  walk_prime env mt (FacUsing u) (options_of env ws) t = r ->
  calls (rp_trace r) = pre ++ [(n, CPanic p)] -> Forall (fun x => snd x = CNil) pre ->
  n_parent n = Some dn -> n_parent dn = Some gd ->
  Forall utf8 (option_texts (snd (build_prime env mt (FacUsing u) (options_of env ws)))) ->
  utf8 tree -> utf8 (n_path dn) ->
  exists sv old again new,
    rescues (rp_trace r) = [sv] /\
    P = (old ++ place_of dn :: again) ++ new /\
    map place_of (nodes_of r) = filter (fun q => h (thing q)) (old ++ place_of dn :: again) /\
    Forall (fun q => above (n_pos dn) (pl_pos q) = true) again /\
    forall v, marshal (snd (build_prime env mt (FacUsing u) (options_of env ws))) (mkActive sv a b) None = (Some v, None) ->
    rs_file rs (re_from rl) = inl v -> forest_error rs (mkActive sv a b) = None ->
    re_strategy rl = StrategySpawn -> re_handler rl = Some client_nil ->
    let r2 := walk_resume env mt rs (FacRelic rl) (options_of env ws) pc dk in
    rr_outcome r2 = Ret None /\ rr_complete r2 = true /\
    map thing (map place_of (map fst (calls (rr_trace r2)))) = filter h (map thing (place_of dn :: again ++ new)).
Proof.
  intros env mt ws tree g d pc dk P rs rl r pre n dn gd p a b u t c h LF NH CO PA SC.
  destruct (compiles_builds mt d CO) as [fl BN].
  assert (TY : fd_type d = FtGlob \/ fd_type d = FtRegex) by (apply (compiles_type mt); exact CO).
  assert (NF : new_filter mt d (only_node d) = Ret (Some fl, None)).
  { rewrite new_filter_native, BN; [reflexivity|reflexivity|destruct TY as [T|T]; rewrite T; discriminate]. }
  apply (asked_recovers env mt ws tree g (answer_of mt (Some fl)) h).
  - assert (HB : hib_active (hibernate_when ws) = false) by (destruct NH as [X Y]; unfold hib_active, hibernate_when; cbn; rewrite X, Y; reflexivity).
    rewrite LF. exact (plan_node mt d _ (hibernate_when ws) fl HB (active_pattern d PA) NF).
  - intros m NM. unfold answer_of.
    rewrite (new_filter_accepts mt d (only_node d) fl m eq_refl TY (proj1 (proj1 NM)) NF). f_equal.
    exact (pattern_of_thing mt d m NM SC).
Qed.

(** ** By fastward, if the filter accepts the saved directory *)
Lemma asked_fastward_recovers : forall env mt ws tree sub g q h pc dk P rs rl r pre n dn gd p a b,
  let u := mkUsing tree (Some sub) (Some (on_calls g)) None in
  let t := dk tree in
  let c := session_cfg env ws tree sub client_nil (reads ws) None None in
  plan mt (latest sets_filter ws no_filter) (latest sets_sampling ws no_sampling) (hibernate_when ws) =
    Some (Some (mkScheme (Some (PrimaryNode q)) None), None, sample_chain ws) ->
  (forall m, named m -> q m = inl (h (place_of m))) ->
  sub = SubUniversal \/ sub = SubDirectories ->
  tree <> EmptyString -> hooks_sound ws -> undisturbed env ws t -> clean tree = tree -> proper_names t ->
  preorder (entries c) [] tree t P -> distinct_names c tree t ->
  walk_prime env mt (FacUsing u) (options_of env ws) t = r ->
  calls (rp_trace r) = pre ++ [(n, CPanic p)] -> Forall (fun x => snd x = CNil) pre ->
  n_parent n = Some dn -> n_parent dn = Some gd ->
  n_name dn <> snd (split_path tree) -> n_path gd <> "."%string -> sound_at pc (n_path gd) -> h (place_of dn) = true ->
  Forall utf8 (option_texts (snd (build_prime env mt (FacUsing u) (options_of env ws)))) ->
  utf8 tree -> utf8 (n_path dn) ->
  exists sv old again new,
    rescues (rp_trace r) = [sv] /\
    filter (within (depth_asked ws) 0) P = (old ++ place_of dn :: again) ++ new /\
    map place_of (nodes_of r) = filter h (old ++ place_of dn :: again) /\
    Forall (fun q => above (n_pos dn) (pl_pos q) = true) again /\
    forall v, marshal (snd (build_prime env mt (FacUsing u) (options_of env ws))) (mkActive sv a b) None = (Some v, None) ->
    rs_file rs (re_from rl) = inl v -> forest_error rs (mkActive sv a b) = None ->
    re_strategy rl = StrategyFastward -> re_handler rl = Some client_nil ->
    let r2 := walk_resume env mt rs (FacRelic rl) (options_of env ws) pc dk in
    rr_outcome r2 = Ret None /\ rr_complete r2 = true /\
    map place_of (map fst (calls (rr_trace r2))) = filter h (place_of dn :: again ++ new).
Proof.
  intros env mt ws tree sub g q h pc dk P rs rl r pre n dn gd p a b u t c PL AK SB NE HS UD CL PN HP DN W HC FN EN ED NB ND SA HD0 UO U1 U2.
  set (sc := mkScheme (Some (PrimaryNode q)) None) in *.
  set (f := fun m => h (place_of m)).
  assert (CF : complete_facade u) by (repeat split; [exact NE|discriminate|discriminate]).
  destruct (prime_settled env mt u ws sub (on_calls g) (Some sc) None (sample_chain ws) eq_refl CF eq_refl eq_refl PL) as (o & G & B).
  rewrite reads_chain in B.
  change (session_cfg env ws (us_tree u) sub (on_calls g) (reads ws) (Some sc) None) with (with_features (Some sc) None (on_calls g) c) in B.
  assert (HK : hooks_ok c) by (apply sound_hooks; exact HS).
  destruct UD as [UA UB].
  assert (RO : root_ok c t) by exact UB.
  assert (DS : default_skip c) by (intros x y z; unfold c, session_cfg; cbn [c_ask]; rewrite UA; reflexivity).
  unfold walk_prime in W. rewrite B in W. cbn [fst run_built] in W.
  destruct (session (with_features (Some sc) None (on_calls g) c) (sampling_active (latest sets_sampling ws no_sampling)) t) as [oo s] eqn:RUN.
  subst r. cbn [rp_trace] in HC.
  assert (RUN' : session (with_features (Some (mkScheme (Some (PrimaryNode (fun m => inl (f m)))) None)) None (on_calls g) c)
    (sampling_active (latest sets_sampling ws no_sampling)) t = (oo, s)).
  { rewrite <- RUN. symmetry. unfold sc. apply named_session. exact AK. }
  destruct (filtered_fastward_recovers_sub c f h g (sampling_active (latest sets_sampling ws no_sampling)) pc dk oo s pre n dn gd p P HK RO DS SB CL PN HP DN
    (fun _ => eq_refl) RUN' HC FN EN ED NB ND SA HD0) as (sv & old & again & new & RS & ST & SSV & SP & EP & EV & FA & REST).
  change (c_tree c) with tree in ST. change (c_sub c) with sub in SSV.
  exists sv, old, again, new. cbn [rp_trace]. split; [exact RS|]. split; [exact EP|]. split; [exact EV|]. split; [exact FA|].
  intros v M F FE SG HD. unfold walk_resume.
  rewrite (c127_set_up_as_before env mt rs rl u ws (with_features (Some sc) None (on_calls g) c) (sampling_active (latest sets_sampling ws no_sampling))
    (snd (build_prime env mt (FacUsing u) (options_of env ws))) (mkActive sv a b) v); try assumption; try reflexivity.
  2: rewrite B; reflexivity.
  2: cbn [ac_saved]; rewrite SSV; reflexivity.
  2: cbn [ac_saved]; rewrite SP; exact U2.
  rewrite SG, HD. cbn [run_resume client_of].
  change (with_client client_nil (with_features (Some sc) None (on_calls g) c)) with (with_features (Some sc) None client_nil c).
  destruct (REST (ac_saved (kept_state (mkActive sv a b))) eq_refl eq_refl) as (s2 & R2 & V2).
  unfold node_filter in R2. unfold sc. rewrite (named_fastward c q (fun m => inl (f m)) None client_nil AK), R2. cbn [rr_outcome rr_complete rr_trace]. split; [reflexivity|]. split; [reflexivity|exact V2].
Qed.

Theorem own_filter_fastward_recovers : forall env mt ws tree sub g cu node sample h pc dk P rs rl r pre n dn gd p a b,
  let u := mkUsing tree (Some sub) (Some (on_calls g)) None in
  let t := dk tree in
  let c := session_cfg env ws tree sub client_nil (reads ws) None None in
  latest sets_filter ws no_filter = own_filter cu node sample -> no_hibernation ws ->
  cu_validate cu = None -> (forall m, cu_match cu (Some m) = inl (h (place_of m))) ->
  sub = SubUniversal \/ sub = SubDirectories ->
  tree <> EmptyString -> hooks_sound ws -> undisturbed env ws t -> clean tree = tree -> proper_names t ->
  preorder (entries c) [] tree t P -> distinct_names c tree t ->
  walk_prime env mt (FacUsing u) (options_of env ws) t = r ->
  calls (rp_trace r) = pre ++ [(n, CPanic p)] -> Forall (fun x => snd x = CNil) pre ->
  n_parent n = Some dn -> n_parent dn = Some gd ->
  n_name dn <> snd (split_path tree) -> n_path gd <> "."%string -> sound_at pc (n_path gd) -> h (place_of dn) = true ->
  Forall utf8 (option_texts (snd (build_prime env mt (FacUsing u) (options_of env ws)))) ->
  utf8 tree -> utf8 (n_path dn) ->
  exists sv old again new,
    rescues (rp_trace r) = [sv] /\
    filter (within (depth_asked ws) 0) P = (old ++ place_of dn :: again) ++ new /\
    map place_of (nodes_of r) = filter h (old ++ place_of dn :: again) /\
    Forall (fun q => above (n_pos dn) (pl_pos q) = true) again /\
    forall v, marshal (snd (build_prime env mt (FacUsing u) (options_of env ws))) (mkActive sv a b) None = (Some v, None) ->
    rs_file rs (re_from rl) = inl v -> forest_error rs (mkActive sv a b) = None ->
    re_strategy rl = StrategyFastward -> re_handler rl = Some client_nil ->
    let r2 := walk_resume env mt rs (FacRelic rl) (options_of env ws) pc dk in
    rr_outcome r2 = Ret None /\ rr_complete r2 = true /\
    map place_of (map fst (calls (rr_trace r2))) = filter h (place_of dn :: again ++ new).
Proof.
  intros env mt ws tree sub g cu node sample h pc dk P rs rl r pre n dn gd p a b u t c LF NH CV CM.
  apply (asked_fastward_recovers env mt ws tree sub g (answer_of mt (Some (NfCustom cu))) h).
  - assert (HB : hib_active (hibernate_when ws) = false) by (destruct NH as [X Y]; unfold hib_active, hibernate_when; cbn; rewrite X, Y; reflexivity).
    rewrite LF. exact (plan_own mt cu node sample _ (hibernate_when ws) HB CV).
  - intros m _. unfold answer_of, is_match. rewrite CM. reflexivity.
Qed.

Theorem pattern_fastward_recovers : forall env mt ws tree sub g d pc dk P rs rl r pre n dn gd p a b,
  let u := mkUsing tree (Some sub) (Some (on_calls g)) None in
  let t := dk tree in
  let c := session_cfg env ws tree sub client_nil (reads ws) None None in
  let h := fun x => pattern_accepts mt d (thing x) in
  latest sets_filter ws no_filter = only_node d -> no_hibernation ws ->
  compiles mt d -> fd_pattern d <> EmptyString -> In (fd_scope d) [ScopeUndefined; ScopeFile; ScopeDirectory] ->
  sub = SubUniversal \/ sub = SubDirectories ->
  tree <> EmptyString -> hooks_sound ws -> undisturbed env ws t -> clean tree = tree -> proper_names t ->
  preorder (entries c) [] tree t P -> distinct_names c tree t ->
  walk_prime env mt (FacUsing u) (options_of env ws) t = r ->
  calls (rp_trace r) = pre ++ [(n, CPanic p)] -> Forall (fun x => snd x = CNil) pre ->
  n_parent n = Some dn -> n_parent dn = Some gd ->
  n_name dn <> snd (split_path tree) -> n_path gd <> "."%string -> sound_at pc (n_path gd) -> h (place_of dn) = true ->
  Forall utf8 (option_texts (snd (build_prime env mt (FacUsing u) (options_of env ws)))) ->
  utf8 tree -> utf8 (n_path dn) ->
  exists sv old again new,
    rescues (rp_trace r) = [sv] /\
    filter (within (depth_asked ws) 0) P = (old ++ place_of dn :: again) ++ new /\
    map place_of (nodes_of r) = filter h (old ++ place_of dn :: again) /\
    Forall (fun q => above (n_pos dn) (pl_pos q) = true) again /\
    forall v, marshal (snd (build_prime env mt (FacUsing u) (options_of env ws))) (mkActive sv a b) None = (Some v, None) ->
    rs_file rs (re_from rl) = inl v -> forest_error rs (mkActive sv a b) = None ->
    re_strategy rl = StrategyFastward -> re_handler rl = Some client_nil ->
    let r2 := walk_resume env mt rs (FacRelic rl) (options_of env ws) pc dk in
    rr_outcome r2 = Ret None /\ rr_complete r2 = true /\
    map place_of (map fst (calls (rr_trace r2))) = filter h (place_of dn :: again ++ new).
Proof.
  intros env mt ws tree sub g d pc dk P rs rl r pre n dn gd p a b u t c h LF NH CO PA SC.
  destruct (compiles_builds mt d CO) as [fl BN].
  assert (TY : fd_type d = FtGlob \/ fd_type d = FtRegex) by (apply (compiles_type mt); exact CO).
  assert (NF : new_filter mt d (only_node d) = Ret (Some fl, None)).
  { rewrite new_filter_native, BN; [reflexivity|reflexivity|destruct TY as [T|T]; rewrite T; discriminate]. }
  apply (asked_fastward_recovers env mt ws tree sub g (answer_of mt (Some fl)) h).
  - assert (HB : hib_active (hibernate_when ws) = false) by (destruct NH as [X Y]; unfold hib_active, hibernate_when; cbn; rewrite X, Y; reflexivity).
    rewrite LF. exact (plan_node mt d _ (hibernate_when ws) fl HB (active_pattern d PA) NF).
  - intros m NM. unfold answer_of.
    rewrite (new_filter_accepts mt d (only_node d) fl m eq_refl TY (proj1 (proj1 NM)) NF). f_equal.
    exact (pattern_of_thing mt d m NM SC).
Qed.
