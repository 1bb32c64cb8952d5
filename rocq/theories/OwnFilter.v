(** A client's own filter: proofs. *)
From Verif Require Import Base Paths Level Lo Kernel Session Defaults Spec Filters SpecFilter FiltersFacts AskFacts Hooks Life SpecHooks HooksFacts
  Options Build SpecBuild ReadFacts Feature HibFacts WalkCor WalkProps BuildFacts BuildProps ReuseFacts Settle FilterProps.

(** The filter settings with the client's own filter and, for the rest, any definitions. *)
Definition own_filter (cu : custom_filter) (node : option filter_def) (sample : option sample_def) : filter_options :=
  mkFilterOptions node None sample (Some cu).

Lemma own_active : forall cu node sample, filtering_active (own_filter cu node sample) = true.
Proof.
  intros. unfold filtering_active, custom_active, own_filter. cbn [fo_custom].
  destruct (node_active _), (child_active _), (sample_active _); reflexivity.
Qed.
Lemma plan_own : forall mt cu node sample so ho, hib_active ho = false -> cu_validate cu = None ->
  plan mt (own_filter cu node sample) so ho =
    Some (Some (mkScheme (Some (PrimaryNode (answer_of mt (Some (NfCustom cu))))) None), None,
      if sampling_active so then [sample_listener so] else []).
Proof.
  intros mt cu node sample so ho H V. unfold plan. rewrite own_active. unfold create_scheme, create_primary, create_child.
  cbn [fo_custom fo_child own_filter]. rewrite V, H. reflexivity.
Qed.

Lemma own_session : forall env mt u ws t sub cu node sample ans, ordinary u ws sub -> sub <> SubDirectoriesWithFiles ->
  cu_validate cu = None -> (forall n, proper t n -> cu_match cu (Some n) = inl (ans n)) ->
  selected ans (fun n => n)
    (walk_prime env mt (FacUsing u) (options_of env (ws ++ [WithFilter (own_filter cu node sample)])) t)
    (walk_prime env mt (FacUsing u) (options_of env (ws ++ [WithFilter no_filter])) t).
Proof.
  intros env mt u ws t sub cu node sample ans OR ND V AN. pose proof (ordinary_facade _ _ _ OR) as CF.
  destruct OR as (NO & _ & SU & HA & NH & HS).
  set (so := latest sets_sampling ws no_sampling).
  set (ls := if sampling_active so then [sample_listener so] else []).
  set (c := session_cfg env ws (us_tree u) sub cnil (then_all (latest sets_read ws default_read) ls) None None).
  set (asks := mkScheme (Some (PrimaryNode (answer_of mt (Some (NfCustom cu))))) None).
  pose proof (walk_settled env mt u (ws ++ [WithFilter (own_filter cu node sample)]) sub cnil (Some asks) None ls t NO CF SU HA) as W1.
  rewrite hib_snoc_filter, cfg_snoc_filter, !latest_snoc in W1. cbn [sets_filter sets_sampling sets_read] in W1.
  specialize (W1 (plan_own _ _ _ _ _ _ (no_hib_inactive _ NH) V)). fold so in W1.
  pose proof (walk_settled env mt u (ws ++ [WithFilter no_filter]) sub cnil None None ls t NO CF SU HA) as W2.
  rewrite hib_snoc_filter, cfg_snoc_filter, !latest_snoc in W2. cbn [sets_filter sets_sampling sets_read] in W2.
  specialize (W2 (plan_off _ _ _ (no_hib_inactive _ NH))). fold so in W2.
  destruct W1 as (o1 & s1 & S1 & E1), W2 as (o2 & s2 & S2 & E2).
  assert (S1' : session (with_features (node_filter ans) None cnil c) (sampling_active so) t = (o1, s1)).
  { rewrite <- S1. change (session_cfg env ws (us_tree u) sub cnil (then_all (latest sets_read ws default_read) ls) (Some asks) None)
      with (with_features (Some asks) None cnil c).
    unfold node_filter, asks. apply (session_ask t).
    - apply ags_node. intros n P. unfold answer_of, is_match. rewrite (AN n P). reflexivity.
    - apply agh_none.
    - apply (then_empty ws so HS).
    - apply (sort_empty ws HS). }
  destruct (filtered_nil c ans (sampling_active so) t o1 s1 o2 s2 ND S1' S2) as (A & B & C & D).
  rewrite E1, E2. unfold selected, nodes_of. cbn [rp_outcome rp_trace rp_metrics]. rewrite map_id_eq.
  split; [exact A|]. split; [exact B|]. eauto 8.
Qed.

Lemma own_refused : forall env mt u ws t sub cu node sample e, ordinary u ws sub -> cu_validate cu = Some e ->
  walk_prime env mt (FacUsing u) (options_of env (ws ++ [WithFilter (own_filter cu node sample)])) t = mkReport (Ret (Some e)) [] None.
Proof.
  intros env mt u ws t sub cu node sample e OR V. pose proof (ordinary_facade _ _ _ OR) as CF. destruct OR as (NO & _ & SU & HA & NH & HS).
  destruct (get_options env (options_of env (ws ++ [WithFilter (own_filter cu node sample)]))) as [o er] eqn:G.
  destruct (with_effective _ _ _ _ G) as [-> EF].
  assert (FO : op_filter o = own_filter cu node sample). { destruct EF as (_ & _ & _ & _ & F & _). rewrite F, latest_snoc. reflexivity. }
  apply unbuildable_quiet. eapply ub_filter with (o := o).
  - exact CF.
  - unfold settled. rewrite NO. apply (apply_meaning _ _ _ _ G).
  - rewrite FO. apply own_active.
  - rewrite FO. unfold create_scheme, create_primary. cbn [fo_custom own_filter]. rewrite V. reflexivity.
Qed.
