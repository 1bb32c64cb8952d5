(** Facts about options and building a session. *)
From Verif Require Import Base Paths Level Lo Kernel Session Defaults Spec Filters SpecFilter FiltersFacts Hooks Life SpecHooks HooksFacts
  Options Build SpecBuild WalkProps PathFacts.

(** ** Applying settings *)
Lemma apply_meaning : forall settings o o2 e, apply settings o = (o2, e) ->
  match e with
  | None => runs settings o o2
  | Some err => exists pre f post o1,
      settings = pre ++ Some f :: post /\ runs pre o o1 /\ f o1 = (o2, Some err)
  end.
Proof.
  induction settings as [|[f|] r IH]; intros o o2 e E; cbn in E.
  - inversion E; subst. constructor.
  - destruct (f o) as [o1 [err|]] eqn:F.
    + inversion E; subst. exists [], f, r, o. split; [reflexivity|]. split; [constructor|exact F].
    + specialize (IH _ _ _ E). destruct e as [err|].
      * destruct IH as (pre & g & post & o3 & -> & R & G).
        exists (Some f :: pre), g, post, o3. split; [reflexivity|]. split; [econstructor; eauto|exact G].
      * econstructor; eauto.
  - specialize (IH _ _ _ E). destruct e as [err|].
    + destruct IH as (pre & g & post & o3 & -> & R & G).
      exists (None :: pre), g, post, o3. split; [reflexivity|]. split; [constructor; exact R|exact G].
    + constructor; exact IH.
Qed.
Lemma runs_apply : forall settings o o2, runs settings o o2 -> apply settings o = (o2, None).
Proof. induction 1; cbn; auto. rewrite H. exact IHruns. Qed.
Lemma runs_fail : forall pre f post o o1 o2 e, runs pre o o1 -> f o1 = (o2, Some e) ->
  apply (pre ++ Some f :: post) o = (o2, Some e).
Proof. induction 1; intro F; cbn; [rewrite F; reflexivity|auto|rewrite H; auto]. Qed.
Lemma apply_app : forall a b o, apply (a ++ b) o =
  match apply a o with (o1, None) => apply b o1 | x => x end.
Proof.
  induction a as [|[f|] r IH]; intros b o; cbn; [reflexivity| |apply IH].
  destruct (f o) as [o1 [e|]]; [reflexivity|apply IH].
Qed.
Lemma runs_app : forall a b o o1 o2, runs a o o1 -> runs b o1 o2 -> runs (a ++ b) o o2.
Proof. induction 1; intro R; cbn; [exact R|constructor; auto|econstructor; eauto]. Qed.

(** ** The With functions *)
Definition fold_with (env : environment) (ws : list with_option) (o : options) : options :=
  fold_left (fun o w => with_apply env w o) ws o.
Lemma apply_with : forall env ws o, apply (options_of env ws) o = (fold_with env ws o, None).
Proof. intros env ws. induction ws as [|w r IH]; intro o; cbn; [reflexivity|]. apply IH. Qed.

Lemma fold_latest : forall env A (get : options -> A) (sets : with_option -> option A),
  (forall w o, get (with_apply env w o) = match sets w with Some x => x | None => get o end) ->
  forall ws o, get (fold_with env ws o) = latest sets ws (get o).
Proof.
  intros env A get sets H ws. unfold fold_with, latest. induction ws as [|w r IH]; intro o; cbn; [reflexivity|].
  rewrite IH, H. reflexivity.
Qed.
Lemma fold_events : forall env ws o k,
  op_events (fold_with env ws o) k = ctrl_run (map OpOn (handlers_for k ws)) (op_events o k).
Proof.
  intros env ws. unfold fold_with. induction ws as [|w r IH]; intros o k; cbn; [reflexivity|].
  rewrite IH. destruct w; cbn; try reflexivity. unfold update.
  destruct k0, k; cbn; reflexivity.
Qed.
Lemma handlers_on : forall H (l : list H), handlers_of (map OpOn l) = l /\ muted_after (map OpOn l) = false.
Proof.
  intros H l. split; [induction l; cbn; [reflexivity|f_equal; exact IHl]|].
  unfold muted_after. generalize false. induction l; cbn; auto.
Qed.

Definition effective (env : environment) (ws : list with_option) (o : options) : Prop :=
  bh_keep_sep (op_behaviours o) = latest sets_keep_sep ws true /\
  bh_files_first (op_behaviours o) = latest sets_files_first ws false /\
  bh_depth (op_behaviours o) = latest sets_depth ws 0%N /\
  bh_no_recurse (op_behaviours o) = latest sets_no_recurse ws false /\
  op_filter o = latest sets_filter ws (mkFilterOptions None None None None) /\
  op_sampling o = latest sets_sampling ws (mkSampling StUndefined false 0 0) /\
  ho_wake (op_hib o) = latest sets_wake ws None /\
  ho_sleep (op_hib o) = latest sets_sleep ws None /\
  ho_incl_wake (op_hib o) = latest sets_incl_wake ws true /\
  ho_incl_sleep (op_hib o) = latest sets_incl_sleep ws false /\
  co_now (op_conc o) = latest (sets_workers (en_cpus env)) ws (en_cpus env) /\
  (co_output (op_conc o), co_output_on (op_conc o)) = latest sets_output ws (0%N, false) /\
  df_fault (op_defects o) = latest sets_fault ws default_fault /\
  df_panic (op_defects o) = latest sets_panic ws (en_save env) /\
  df_skip (op_defects o) = latest sets_skip ws default_ask /\
  hook_invoke broadcast_subpath (hk_file_sub (op_hooks o)) = latest sets_file_sub ws default_subpath /\
  hook_invoke broadcast_subpath (hk_dir_sub (op_hooks o)) = latest sets_dir_sub ws default_subpath /\
  hook_invoke broadcast_read (hk_read (op_hooks o)) = latest sets_read ws default_read /\
  hook_invoke broadcast_stat (hk_stat (op_hooks o)) = latest sets_stat ws (en_stat env) /\
  hook_invoke broadcast_sort (hk_sort (op_hooks o)) = latest sets_sort ws default_sort /\
  (forall k, run_dispatcher (ctrl_dispatch (op_events o k)) = handlers_for k ws).

Lemma with_effective : forall env ws o e, get_options env (options_of env ws) = (o, e) -> e = None /\ effective env ws o.
Proof.
  intros env ws o e E. unfold get_options in E. rewrite apply_with in E. inversion E; subst. split; [reflexivity|].
  unfold effective.
  repeat match goal with |- _ /\ _ => split end.
  - apply (fold_latest env _ (fun o => bh_keep_sep (op_behaviours o))); intros []; reflexivity.
  - apply (fold_latest env _ (fun o => bh_files_first (op_behaviours o))); intros []; reflexivity.
  - apply (fold_latest env _ (fun o => bh_depth (op_behaviours o))); intros []; reflexivity.
  - apply (fold_latest env _ (fun o => bh_no_recurse (op_behaviours o))); intros []; reflexivity.
  - apply (fold_latest env _ op_filter); intros []; reflexivity.
  - apply (fold_latest env _ op_sampling); intros []; reflexivity.
  - apply (fold_latest env _ (fun o => ho_wake (op_hib o))); intros []; reflexivity.
  - apply (fold_latest env _ (fun o => ho_sleep (op_hib o))); intros []; reflexivity.
  - apply (fold_latest env _ (fun o => ho_incl_wake (op_hib o))); intros []; reflexivity.
  - apply (fold_latest env _ (fun o => ho_incl_sleep (op_hib o))); intros []; reflexivity.
  - apply (fold_latest env _ (fun o => co_now (op_conc o))); intros []; reflexivity.
  - apply (fold_latest env _ (fun o => (co_output (op_conc o), co_output_on (op_conc o)))); intros []; reflexivity.
  - apply (fold_latest env _ (fun o => df_fault (op_defects o))); intros []; reflexivity.
  - apply (fold_latest env _ (fun o => df_panic (op_defects o))); intros []; reflexivity.
  - apply (fold_latest env _ (fun o => df_skip (op_defects o))); intros []; reflexivity.
  - apply (fold_latest env _ (fun o => hook_invoke broadcast_subpath (hk_file_sub (op_hooks o)))); intros []; reflexivity.
  - apply (fold_latest env _ (fun o => hook_invoke broadcast_subpath (hk_dir_sub (op_hooks o)))); intros []; reflexivity.
  - apply (fold_latest env _ (fun o => hook_invoke broadcast_read (hk_read (op_hooks o)))); intros []; reflexivity.
  - apply (fold_latest env _ (fun o => hook_invoke broadcast_stat (hk_stat (op_hooks o)))); intros []; reflexivity.
  - apply (fold_latest env _ (fun o => hook_invoke broadcast_sort (hk_sort (op_hooks o)))); intros []; reflexivity.
  - intro k. rewrite fold_events. change (op_events (default_options env) k) with (@new_ctrl nat).
    rewrite ctrl_calls. destruct (handlers_on _ (handlers_for k ws)) as [-> ->]. reflexivity.
Qed.

(** ** Facades *)
Lemma using_valid : forall u, using_validate u = None <-> complete_facade u.
Proof.
  intro u. unfold using_validate, complete_facade, head_validate.
  destruct (String.eqb_spec (us_tree u) EmptyString) as [E|E]; [split; [discriminate|intros (A & _); contradiction]|].
  destruct (us_sub u), (us_handler u); split; intros; try discriminate; try tauto; repeat split; congruence.
Qed.

Lemma refused_invalid : forall env mt u settings e, using_validate u = Some e ->
  fst (build_prime env mt (FacUsing u) settings) = BuildRefused e.
Proof.
  intros env mt u settings e V. cbn. unfold prime_options. rewrite V.
  destruct (us_options u); [reflexivity|]. destruct (get_options env settings) as [o err]. reflexivity.
Qed.
Lemma refused_option : forall env mt u settings o e, complete_facade u -> us_options u = None ->
  get_options env settings = (o, Some e) ->
  fst (build_prime env mt (FacUsing u) settings) = BuildRefused e.
Proof.
  intros env mt u settings o e V N G. cbn. unfold prime_options. apply using_valid in V. rewrite V, N, G. reflexivity.
Qed.
Lemma prime_ready : forall env mt u settings o sub cl, complete_facade u -> us_options u = None ->
  get_options env settings = (o, None) -> us_sub u = Some sub -> us_handler u = Some cl ->
  build_prime env mt (FacUsing u) settings = build_plugins mt (afterwards o) sub (us_tree u) cl.
Proof.
  intros env mt u settings o sub cl V N G S H. cbn. unfold prime_options. apply using_valid in V. rewrite V, N, G, S, H.
  reflexivity.
Qed.

Lemma settled_prime : forall env u ss o, complete_facade u -> settled env u ss o ->
  prime_options env u ss = (afterwards o, None).
Proof.
  intros env u ss o V S. unfold settled in S. unfold prime_options. apply using_valid in V. rewrite V.
  destruct (us_options u); [subst; reflexivity|]. unfold get_options. rewrite (runs_apply _ _ _ S). reflexivity.
Qed.
Lemma afterwards_filter : forall o, op_filter (afterwards o) = op_filter o /\ op_sampling (afterwards o) = op_sampling o.
Proof. intro o. unfold afterwards. destruct (bh_no_recurse (op_behaviours o)); cbn; tauto. Qed.
Lemma unbuildable_refused : forall env mt fac ss e, unbuildable env mt fac ss e ->
  fst (build_prime env mt fac ss) = BuildRefused e.
Proof.
  intros env mt fac ss e U. destruct U as [r ss|u ss T|u ss T S|u ss T S H|u pre f post o1 o2 e V N R F|u ss o p ch e V S A C].
  - reflexivity.
  - apply refused_invalid. unfold using_validate. rewrite T. reflexivity.
  - apply refused_invalid. unfold using_validate. destruct (String.eqb_spec (us_tree u) EmptyString); [contradiction|].
    rewrite S. reflexivity.
  - apply refused_invalid. unfold using_validate. destruct (String.eqb_spec (us_tree u) EmptyString); [contradiction|].
    destruct (us_sub u); [|contradiction]. rewrite H. reflexivity.
  - eapply refused_option; [assumption..|]. unfold get_options. eapply runs_fail; eassumption.
  - cbn. rewrite (settled_prime _ _ _ _ V S). destruct V as (_ & V1 & V2).
    destruct (us_sub u) as [sub|]; [|contradiction]. destruct (us_handler u) as [cl|]; [|contradiction].
    unfold build_plugins. destruct (afterwards_filter o) as [-> ->]. rewrite A, C. reflexivity.
Qed.
Lemma unbuildable_quiet : forall env mt fac ss t e, unbuildable env mt fac ss e ->
  walk_prime env mt fac ss t = mkReport (Ret (Some e)) [] None.
Proof. intros env mt fac ss t e U. unfold walk_prime. rewrite (unbuildable_refused _ _ _ _ _ U). reflexivity. Qed.

(** A failing hibernation condition. *)
Lemma hib_fails : forall env mt u ss o e t, complete_facade u -> settled env u ss o ->
  filtering_active (op_filter o) = false -> hib_active (op_hib o) = true -> hib_of mt (op_hib o) (op_filter o) = HcError e ->
  exists tr m, walk_prime env mt (FacUsing u) ss t = mkReport (Ret (Some e)) tr m /\ calls tr = [] /\
    exists m0, tr = [EvBegin (us_tree u); EvEnd m0].
Proof.
  intros env mt u ss o e t V S A H HO. unfold walk_prime. cbn. rewrite (settled_prime _ _ _ _ V S). destruct V as (_ & V1 & V2).
  destruct (us_sub u) as [sub|]; [|contradiction]. destruct (us_handler u) as [cl|]; [|contradiction].
  unfold build_plugins. destruct (afterwards_filter o) as [-> ->]. rewrite A.
  assert (HH : op_hib (afterwards o) = op_hib o) by (unfold afterwards; destruct (bh_no_recurse (op_behaviours o)); reflexivity).
  rewrite HH, H, HO. cbn. eexists _, _. split; [reflexivity|]. split; [reflexivity|]. eexists. reflexivity.
Qed.

(** Errors of a complete facade come from the options or the plugins. *)
Lemma accepted_facade : forall env mt u ss o, complete_facade u -> settled env u ss o ->
  exists sub cl, us_sub u = Some sub /\ us_handler u = Some cl /\
  build_prime env mt (FacUsing u) ss = build_plugins mt (afterwards o) sub (us_tree u) cl.
Proof.
  intros env mt u ss o V S. cbn. rewrite (settled_prime _ _ _ _ V S). destruct V as (_ & V1 & V2).
  destruct (us_sub u) as [sub|]; [|contradiction]. destruct (us_handler u) as [cl|]; [|contradiction]. eauto.
Qed.
