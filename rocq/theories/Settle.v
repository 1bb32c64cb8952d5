(** The session which With functions ask for is the one which is run. *)
From Verif Require Import Base Paths Level Lo Kernel Session Defaults Spec Filters SpecFilter FiltersFacts Hooks Life SpecHooks HooksFacts
  Options Build SpecBuild ReadFacts BuildFacts BuildProps ReuseFacts.

Lemma read_untouched : forall env ws o, hk_listeners (hk_read (op_hooks o)) = [] -> (exists f, hk_handler (hk_read (op_hooks o)) = Direct f) ->
  hk_listeners (hk_read (op_hooks (fold_with env ws o))) = [] /\ exists f, hk_handler (hk_read (op_hooks (fold_with env ws o))) = Direct f.
Proof.
  intros env ws. induction ws as [|w ws IH]; intros o L D; [auto|]. cbn. apply IH; destruct w; cbn; eauto.
Qed.
Lemma chains_direct : forall ls (h : hook read_fn read_listener) f, hk_listeners h = [] -> hk_handler h = Direct f -> ls <> [] ->
  hook_invoke broadcast_read (chains ls h) = broadcast_read f ls.
Proof.
  intros ls h f L D N. destruct ls as [|l ls]; [contradiction|].
  assert (G : forall ls h, hk_listeners h <> [] -> chains ls h = mkHook (hk_handler h) (hk_default h) (hk_listeners h ++ ls) :> hook read_fn read_listener).
  { induction ls0 as [|x ls0 IH]; intros h0 N0; [destruct h0; cbn; rewrite app_nil_r; reflexivity|]. cbn [chains fold_left].
    change (fold_left (fun h l => hook_chain l h) ls0 (hook_chain x h0)) with (chains ls0 (hook_chain x h0)).
    destruct h0 as [hd df [|y lst]]; [contradiction|]. rewrite IH; cbn; [rewrite <- app_assoc; reflexivity|discriminate]. }
  change (chains (l :: ls) h) with (chains ls (hook_chain l h)).
  unfold hook_chain. rewrite L, D. rewrite G by discriminate. reflexivity.
Qed.

Lemma prime_settled : forall env mt u ws sub cl sc hb ls, us_options u = None -> complete_facade u ->
  us_sub u = Some sub -> us_handler u = Some cl ->
  plan mt (latest sets_filter ws no_filter) (latest sets_sampling ws no_sampling) (hibernate_when ws) = Some (sc, hb, ls) ->
  exists o, get_options env (options_of env ws) = (o, None) /\
  build_prime env mt (FacUsing u) (options_of env ws) =
  (BuildReady (session_cfg env ws (us_tree u) sub cl (then_all (latest sets_read ws default_read) ls) sc hb)
    (sampling_active (latest sets_sampling ws no_sampling)), chain_all ls (afterwards o)).
Proof.
  intros env mt u ws sub cl sc hb ls N CF SU HA PL.
  destruct (get_options env (options_of env ws)) as [o e] eqn:G.
  destruct (with_effective _ _ _ _ G) as [-> EF].
  exists o. split; [reflexivity|]. rewrite (prime_ready _ _ _ _ _ _ _ CF N G SU HA).
  unfold effective in EF. destruct EF as (E1 & E2 & E3 & E4 & E5 & E6 & E7 & E8 & E9 & E10 & _ & _ & E13 & E14 & E15 & E16 & E17 & E18 & E19 & E20 & _).
  assert (HO : op_hib o = hibernate_when ws).
  { destruct (op_hib o) as [a b c d]. cbn in *. unfold hibernate_when. congruence. }
  destruct (afterwards_fields o) as (A1 & A2 & A3 & A4 & A5 & A6).
  pose proof (plugins_plan mt (afterwards o) sub (us_tree u) cl) as P.
  rewrite A1, A2, A3, E5, E6, HO in P. fold no_filter no_sampling in P. rewrite PL in P. rewrite P.
  destruct (chain_all_rest ls (afterwards o)) as (B1 & B2 & _ & _ & _ & B6 & _ & B8 & B9).
  assert (X : cfg_of (chain_all ls (afterwards o)) sub (us_tree u) cl sc hb =
              session_cfg env ws (us_tree u) sub cl (then_all (latest sets_read ws default_read) ls) sc hb).
  { unfold cfg_of, session_cfg. rewrite B1, B6, B8, A4, A5, E13, E14, E15. destruct B9 as (K1 & K2 & K3 & K4).
    rewrite K1, K2, K3, K4, A4, E16, E17, E19, E20.
    assert (RH : hook_invoke broadcast_read (chains ls (hk_read (op_hooks o))) = then_all (latest sets_read ws default_read) ls).
    { unfold get_options in G. rewrite apply_with in G. inversion G; subst o.
      destruct (read_untouched env ws (default_options env) eq_refl (ex_intro _ _ eq_refl)) as [L [f D]].
      destruct ls as [|l ls']; [exact E18|]. rewrite (chains_direct _ _ f L D) by discriminate.
      rewrite <- E18. unfold hook_invoke. rewrite D. reflexivity. }
    rewrite RH. unfold afterwards. cbn [op_behaviours set_conc]. rewrite E4.
    destruct (latest sets_no_recurse ws false); cbn [op_behaviours set_behaviours bh_depth bh_files_first bh_keep_sep]; rewrite ?E1, ?E2, ?E3; reflexivity. }
  rewrite X. reflexivity.
Qed.
Lemma walk_settled : forall env mt u ws sub cl sc hb ls t, us_options u = None -> complete_facade u ->
  us_sub u = Some sub -> us_handler u = Some cl ->
  plan mt (latest sets_filter ws no_filter) (latest sets_sampling ws no_sampling) (hibernate_when ws) = Some (sc, hb, ls) ->
  run_report (session_cfg env ws (us_tree u) sub cl (then_all (latest sets_read ws default_read) ls) sc hb)
    (sampling_active (latest sets_sampling ws no_sampling)) t (walk_prime env mt (FacUsing u) (options_of env ws) t).
Proof.
  intros env mt u ws sub cl sc hb ls t N CF SU HA PL.
  destruct (prime_settled env mt u ws sub cl sc hb ls N CF SU HA PL) as (o & _ & B).
  unfold walk_prime. rewrite B. cbn [fst run_built].
  unfold run_report. destruct (session _ _ t) as [oo s]. exists oo, s. split; reflexivity.
Qed.
(** What every session built from With functions is. *)
Lemma ready_settled : forall env mt u ws c smp, us_options u = None ->
  fst (build_prime env mt (FacUsing u) (options_of env ws)) = BuildReady c smp ->
  exists sub cl rd sc hb, us_sub u = Some sub /\ us_handler u = Some cl /\
    c = session_cfg env ws (us_tree u) sub cl rd sc hb.
Proof.
  intros env mt u ws c smp N B. destruct (ready_prime _ _ _ _ _ _ N B) as (o & sub & cl & CF & G & SU & HA & BP).
  pose proof (plugins_plan mt (afterwards o) sub (us_tree u) cl) as P.
  assert (EQ : plan mt (op_filter (afterwards o)) (op_sampling (afterwards o)) (op_hib (afterwards o)) =
               plan mt (latest sets_filter ws no_filter) (latest sets_sampling ws no_sampling) (hibernate_when ws)).
  { destruct (with_effective _ _ _ _ G) as [_ EF]. unfold effective in EF.
    destruct EF as (E1 & E2 & E3 & E4 & E5 & E6 & E7 & E8 & E9 & E10 & _).
    destruct (afterwards_fields o) as (A1 & A2 & A3 & _). rewrite A1, A2, A3.
    assert (HO : op_hib o = hibernate_when ws).
    { destruct (op_hib o) as [a b d e]. cbn in *. unfold hibernate_when. congruence. }
    rewrite HO, E5, E6. reflexivity. }
  rewrite EQ in P.
  destruct (plan mt (latest sets_filter ws no_filter) (latest sets_sampling ws no_sampling) (hibernate_when ws)) as [[[sc hb] ls]|] eqn:PL.
  - destruct (prime_settled env mt u ws sub cl sc hb ls N CF SU HA PL) as (o' & _ & B').
    rewrite B' in B. cbn [fst] in B. inversion B; subst. eauto 10.
  - exfalso. eapply P. exact BP.
Qed.
