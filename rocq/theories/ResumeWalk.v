(** A walk stopped by a panic, saved, and resumed: from the facade to the report. *)
From Verif Require Import Base Paths Level Kernel Session Defaults Spec PathFacts WalkProps Cases Filters SpecFilter FiltersFacts Hooks Life Options Build SpecBuild
  BuildFacts BuildProps ReuseFacts Settle Persist SpecPersist PersistFacts Resume SpecResume SpawnOrder RecoverFacts ResumeBuild.
From Coq Require Import Permutation.
Local Open Scope string_scope.
Local Open Scope list_scope.

Lemma reads_kids : forall ws, hooks_sound ws -> forall p e x, In x (fst (reads ws p e)) -> In x (fkids e).
Proof.
  intros ws (A & _) p e x. unfold reads. destruct (sampled ws); [|apply A]. cbn [fst]. intro I. apply (A p). apply union_in in I.
  destruct I as [I|I]; apply filter_In in I; apply I.
Qed.
Lemma sound_hooks : forall env ws tree sub cl, hooks_sound ws -> hooks_ok (session_cfg env ws tree sub cl (reads ws) None None).
Proof. intros env ws tree sub cl HS. split; [exact (reads_kids ws HS)|apply HS]. Qed.

Section Walk.
Variable env : environment.
Variable mt : matchers.
Variable u : prime_facade.
Variable ws : list with_option.
Variable sub : subscription.
Variable cl : client.
Hypothesis NO : us_options u = None.
Hypothesis CF : complete_facade u.
Hypothesis SU : us_sub u = Some sub.
Hypothesis HA : us_handler u = Some cl.
Hypothesis FL : unfiltered ws.
Let c := session_cfg env ws (us_tree u) sub cl (reads ws) None None.

Lemma walk_plain : forall t, exists o s, session c (sampled ws) t = (o, s) /\
  walk_prime env mt (FacUsing u) (options_of env ws) t = mkReport o (s_trace s) (Some (s_metrics s)).
Proof.
  intro t. destruct (prime_plain env mt u ws sub cl NO CF SU HA FL) as (o & _ & B).
  unfold walk_prime. rewrite B. cbn [fst run_built]. fold c. destruct (session c (sampled ws) t) as [oo s]. eauto.
Qed.

Lemma resume_again : forall rs rl sv a b v,
  marshal (snd (build_prime env mt (FacUsing u) (options_of env ws))) (mkActive sv a b) None = (Some v, None) ->
  rs_file rs (re_from rl) = inl v -> forest_error rs (mkActive sv a b) = None -> re_handler rl = Some client_nil ->
  sv_tree sv = us_tree u -> sv_sub sv = sub -> utf8 (sv_tree sv) -> utf8 (sv_path sv) ->
  build_resume env mt rs (FacRelic rl) (options_of env ws) =
  ResumeReady (with_client client_nil c) (sampled ws) (ac_saved (kept_state (mkActive sv a b))).
Proof.
  intros rs rl sv a b v M F FE H T S U1 U2. destruct (prime_plain env mt u ws sub cl NO CF SU HA FL) as (o & G & B).
  rewrite B in M. cbn [snd] in M. rewrite marshal_chain in M.
  rewrite (resume_plain env mt rs rl o (mkActive sv a b) v ws G FL U1 U2); try assumption.
  - cbn [ac_saved]. rewrite T, S, H. reflexivity.
  - cbn [ac_saved]. rewrite T. apply CF.
Qed.

Lemma hooks_plain : hooks_sound ws -> hooks_ok c.
Proof. exact (sound_hooks env ws (us_tree u) sub cl). Qed.
Lemma undisturbed_plain : forall t, undisturbed env ws t -> root_ok c t /\ default_skip c.
Proof. intros t [A B]. split; [exact B|]. intros x y z. unfold c, session_cfg. cbn [c_ask]. rewrite A. reflexivity. Qed.

Theorem walk_spawn_recovers : forall rs rl pc dk P r pre n dn g p a b,
  sub = SubUniversal -> hooks_sound ws -> undisturbed env ws (dk (us_tree u)) -> depth_asked ws = 0%N ->
  stable_sort c -> clean (us_tree u) = us_tree u -> proper_names (dk (us_tree u)) ->
  preorder (entries_all c) [] (us_tree u) (dk (us_tree u)) P -> tidy c pc dk P ->
  walk_prime env mt (FacUsing u) (options_of env ws) (dk (us_tree u)) = r ->
  calls (rp_trace r) = pre ++ [(n, CPanic p)] -> Forall (fun x => snd x = CNil) pre ->
  n_parent n = Some dn -> n_parent dn = Some g -> utf8 (us_tree u) -> utf8 (n_path dn) ->
  exists sv old m again new,
    rescues (rp_trace r) = [sv] /\
    P = map place_of (nodes_of r) ++ new /\ nodes_of r = old ++ m :: again /\ place_of m = place_of dn /\
    Forall (fun x => above (n_pos dn) (n_pos x) = true) again /\
    forall v, marshal (snd (build_prime env mt (FacUsing u) (options_of env ws))) (mkActive sv a b) None = (Some v, None) ->
    rs_file rs (re_from rl) = inl v -> forest_error rs (mkActive sv a b) = None ->
    re_strategy rl = StrategySpawn -> re_handler rl = Some client_nil ->
    let r2 := walk_resume env mt rs (FacRelic rl) (options_of env ws) pc dk in
    rr_outcome r2 = Ret None /\ rr_complete r2 = true /\
    map thing (map place_of (map fst (calls (rr_trace r2)))) = map thing (map place_of (m :: again) ++ new).
Proof.
  intros rs rl pc dk P r pre n dn g p a b ES HS UD DZ SS CL PN HP TD W HC FN EN ED U1 U2.
  destruct (walk_plain (dk (us_tree u))) as (o & s & RUN & WP). rewrite WP in W. subst r. cbn [rp_trace] in *.
  destruct (undisturbed_plain _ UD) as [RO DS].
  assert (VR : c_tree c = us_tree u) by reflexivity.
  destruct (spawn_recovers c (sampled ws) pc dk o s pre n dn g p P (hooks_plain HS) RO DS (conj eq_refl eq_refl) ES DZ SS CL PN HP TD RUN HC FN EN ED)
    as (sv & old & m & again & new & RS & ST & SP & EP & EV & EM & FA & REST).
  exists sv, old, m, again, new. do 5 (split; [assumption|]).
  intros v M F FE SG HD. unfold walk_resume.
  assert (SSV : sv_sub sv = sub).
  { destruct (crash_prefix c (sampled ws) (dk (us_tree u)) o s pre n p P (hooks_plain HS) RO DS (conj eq_refl eq_refl)) as (sv' & A & B & C & D & E & RS' & _ & _ & SS' & _).
    - change (sub <> SubFiles). rewrite ES. discriminate.
    - eapply (proj1 (SessionFacts.preorder_ext (entries_all c) (entries c) ltac:(intros; unfold entries; unfold c at 2; cbn [c_sub session_cfg]; rewrite ES; reflexivity))). exact HP.
    - exact RUN.
    - exact HC.
    - exact FN.
    - pose proof (visited_stands c (sampled ws) (dk (us_tree u)) _ _ (hooks_plain HS) RO RUN) as VS. rewrite Forall_forall in VS.
      assert (SN := VS n ltac:(unfold visited; rewrite HC, map_app; apply in_or_app; right; left; reflexivity)).
      inversion SN as [n' E1 E2 E3 E4|q i e n' HPq NT E1 E2 E3 E4]; subst n'; [congruence|].
      rewrite E4. intro X. apply app_eq_nil in X. destruct X. discriminate.
    - assert (sv' = sv) by congruence. subst sv'. exact SS'. }
  rewrite (resume_again rs rl sv a b v M F FE HD ST SSV) by (rewrite ?ST, ?SP; assumption).
  rewrite SG. cbn [run_resume].
  destruct (REST (ac_saved (kept_state (mkActive sv a b))) eq_refl eq_refl) as (s2 & R2 & V2).
  rewrite R2. cbn [rr_outcome rr_complete rr_trace]. split; [reflexivity|]. split; [reflexivity|exact V2].
Qed.

Theorem walk_fastward_recovers : forall rs rl pc dk P r pre n dn g p a b,
  sub <> SubFiles -> hooks_sound ws -> undisturbed env ws (dk (us_tree u)) ->
  clean (us_tree u) = us_tree u -> proper_names (dk (us_tree u)) ->
  preorder (entries c) [] (us_tree u) (dk (us_tree u)) P ->
  distinct_names c (us_tree u) (dk (us_tree u)) ->
  walk_prime env mt (FacUsing u) (options_of env ws) (dk (us_tree u)) = r ->
  calls (rp_trace r) = pre ++ [(n, CPanic p)] -> Forall (fun x => snd x = CNil) pre ->
  n_parent n = Some dn -> n_parent dn = Some g ->
  n_name dn <> snd (split_path (us_tree u)) -> n_path g <> "." -> sound_at pc (n_path g) ->
  utf8 (us_tree u) -> utf8 (n_path dn) ->
  exists sv old m again new,
    rescues (rp_trace r) = [sv] /\
    filter (within (depth_asked ws) 0) P = map place_of (nodes_of r) ++ new /\
    nodes_of r = old ++ m :: again /\ place_of m = place_of dn /\
    Forall (fun x => above (n_pos dn) (n_pos x) = true) again /\
    forall v, marshal (snd (build_prime env mt (FacUsing u) (options_of env ws))) (mkActive sv a b) None = (Some v, None) ->
    rs_file rs (re_from rl) = inl v -> forest_error rs (mkActive sv a b) = None ->
    re_strategy rl = StrategyFastward -> re_handler rl = Some client_nil ->
    let r2 := walk_resume env mt rs (FacRelic rl) (options_of env ws) pc dk in
    rr_outcome r2 = Ret None /\ rr_complete r2 = true /\
    map place_of (map fst (calls (rr_trace r2))) = map place_of (m :: again) ++ new.
Proof.
  intros rs rl pc dk P r pre n dn g p a b ES HS UD CL PN HP UN W HC FN EN ED NB ND SA U1 U2.
  destruct (walk_plain (dk (us_tree u))) as (o & s & RUN & WP). rewrite WP in W. subst r. cbn [rp_trace] in *.
  destruct (undisturbed_plain _ UD) as [RO DS].
  destruct (fastward_recovers c (sampled ws) pc dk o s pre n dn g p P (hooks_plain HS) RO DS (conj eq_refl eq_refl) ES CL PN HP RUN HC FN EN ED NB ND SA UN)
    as (sv & old & m & again & new & RS & ST & SP & EP & EV & EM & FA & REST).
  exists sv, old, m, again, new. do 5 (split; [assumption|]).
  intros v M F FE SG HD. unfold walk_resume.
  assert (SSV : sv_sub sv = sub).
  { destruct (crash_prefix c (sampled ws) (dk (us_tree u)) o s pre n p P (hooks_plain HS) RO DS (conj eq_refl eq_refl) ES HP RUN HC FN) as (sv' & A & B & C & D & E & RS' & _ & _ & SS' & _).
    - pose proof (visited_stands c (sampled ws) (dk (us_tree u)) _ _ (hooks_plain HS) RO RUN) as VS. rewrite Forall_forall in VS.
      assert (SN := VS n ltac:(unfold visited; rewrite HC, map_app; apply in_or_app; right; left; reflexivity)).
      inversion SN as [n' E1 E2 E3 E4|q i e n' HPq NT E1 E2 E3 E4]; subst n'; [congruence|].
      rewrite E4. intro X. apply app_eq_nil in X. destruct X. discriminate.
    - assert (sv' = sv) by congruence. subst sv'. exact SS'. }
  rewrite (resume_again rs rl sv a b v M F FE HD ST SSV) by (rewrite ?ST, ?SP; assumption).
  rewrite SG. cbn [run_resume].
  destruct (REST (ac_saved (kept_state (mkActive sv a b))) eq_refl eq_refl) as (s2 & R2 & V2).
  rewrite R2. cbn [rr_outcome rr_complete rr_trace]. split; [reflexivity|]. split; [reflexivity|exact V2].
Qed.
End Walk.
