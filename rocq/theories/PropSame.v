(** Property C127. Vocabulary: Spec.v, SpecBuild.v, SpecPersist.v, SpecResume.v. *)
From Verif Require Import Base Paths Level Kernel Session Defaults Spec Filters SpecFilter Hooks Life Options Build SpecBuild
  BuildFacts BuildProps ReuseFacts Settle Persist SpecPersist PersistFacts Resume SpecResume ResumeBuild
  Cases CasesFacts BuildCases FilterCases ResumeCases ResumeRefuted SpecRelay SpecJourney PropJourney.
Local Open Scope string_scope.
Local Open Scope list_scope.

(** *** C127 *)

(** The settings which the saved document holds; the others (hooks, the handlers of
    errors and of notifications, the output channel) it does not. *)
Definition is_saved (w : with_option) : bool :=
  match w with
  | WithFilter _ | WithSamplingOptions _ | WithHibernationBehaviourExclusiveWake | WithHibernationBehaviourInclusiveSleep
  | WithHibernationFilterWake _ | WithHibernationFilterSleep _ | WithHibernationOptions _
  | WithNavigationBehaviours _ | WithSubPathBehaviour _ | WithSortBehaviour _ _ | WithDepth _ | WithNoRecurse
  | WithCPU | WithNoW _ => true
  | _ => false
  end.
Definition not_saved (ws : list with_option) : list with_option := filter (fun w => negb (is_saved w)) ws.

(** A filter of which the document holds everything: no custom filter, and no poly
    or custom filter for the sampler. *)
Definition storable (f : filter_options) : Prop :=
  fo_custom f = None /\
  match fo_sample f with None => True | Some d => sd_poly d = None /\ sd_custom d = None end.

Definition stored_filter (f : filter_options) : filter_options :=
  mkFilterOptions (fo_node f) (fo_child f)
    (option_map (fun d => mkSampleDef (sd_type d) (sd_desc d) (sd_pattern d) (sd_scope d) (sd_negate d) None None) (fo_sample f)) None.
Lemma filter_restored : forall f, storable f -> stored_filter f = f.
Proof.
  intros [n c s cu] [S1 S2]. unfold stored_filter. cbn in *. subst cu. destruct s as [[t d p sc ne po cu]|]; [|reflexivity].
  cbn in *. destruct S2 as [-> ->]. reflexivity.
Qed.

(** *** [latest] *)
Lemma latest_given_or_not : forall A (f : with_option -> option A) ws,
  (exists x, forall d, latest f ws d = x) \/ (forall d, latest f ws d = d).
Proof.
  intros A f ws. unfold latest. induction ws as [|w ws IH]; [right; reflexivity|]. cbn [fold_left].
  destruct (f w) as [x|]; [left; exists (fold_left (fun acc w => match f w with Some x => x | None => acc end) ws x); reflexivity|].
  destruct IH as [[x H]|H]; [left; exists x; exact H|right; exact H].
Qed.
Lemma latest_filtered : forall A (f : with_option -> option A), (forall w, is_saved w = true -> f w = None) ->
  forall ws d, latest f (not_saved ws) d = latest f ws d.
Proof.
  intros A f H ws. unfold latest, not_saved. induction ws as [|w ws IH]; intro d; [reflexivity|]. cbn [filter fold_left].
  destruct (is_saved w) eqn:S; cbn [negb]; [rewrite (H w S); apply IH|cbn [fold_left]; apply IH].
Qed.
Lemma latest_silent : forall A (f : with_option -> option A), (forall w, is_saved w = false -> f w = None) ->
  forall ws d, latest f (not_saved ws) d = d.
Proof.
  intros A f H ws. unfold latest, not_saved. induction ws as [|w ws IH]; intro d; [reflexivity|]. cbn [filter].
  destruct (is_saved w) eqn:S; cbn [negb]; [apply IH|]. cbn [fold_left]. rewrite (H w S). apply IH.
Qed.

(** *** The settings given again *)
Lemma restored_settings : forall env ws o, get_options env (options_of env ws) = (o, None) ->
  let ws' := restored (afterwards o) ++ ws in
  latest sets_filter ws' no_filter = latest sets_filter ws no_filter /\
  latest sets_sampling ws' no_sampling = latest sets_sampling ws no_sampling /\
  hibernate_when ws' = hibernate_when ws /\
  latest sets_read ws' default_read = latest sets_read ws default_read.
Proof.
  intros env ws o G ws'.
  destruct (with_effective _ _ _ _ G) as [_ EF]. unfold effective in EF.
  destruct EF as (E1 & E2 & E3 & E4 & E5 & E6 & E7 & E8 & E9 & E10 & _).
  fold no_filter in E5. fold no_sampling in E6.
  destruct (afterwards_fields o) as (A1 & A2 & A3 & _).
  unfold hibernate_when, ws'. rewrite !latest_app. unfold restored.
  cbn [latest fold_left sets_filter sets_wake sets_sleep sets_incl_wake sets_incl_sleep sets_sampling sets_read].
  rewrite A1, A2, A3, E6, E7, E8, E9, E10, !latest_twice. split; [|auto].
  fold (stored_filter (op_filter o)). rewrite E5.
  destruct (latest_given_or_not _ sets_filter ws) as [[x H]|H]; rewrite !H; reflexivity.
Qed.

(** *** Only what was not saved given again *)
Lemma kept_settings : forall env ws o, get_options env (options_of env ws) = (o, None) ->
  storable (latest sets_filter ws no_filter) ->
  let ws' := restored (afterwards o) ++ not_saved ws in
  latest sets_filter ws' no_filter = latest sets_filter ws no_filter /\
  latest sets_sampling ws' no_sampling = latest sets_sampling ws no_sampling /\
  hibernate_when ws' = hibernate_when ws /\
  latest sets_read ws' default_read = latest sets_read ws default_read.
Proof.
  intros env ws o G ST ws'.
  destruct (with_effective _ _ _ _ G) as [_ EF]. unfold effective in EF.
  destruct EF as (E1 & E2 & E3 & E4 & E5 & E6 & E7 & E8 & E9 & E10 & _).
  fold no_filter in E5. fold no_sampling in E6.
  destruct (afterwards_fields o) as (A1 & A2 & A3 & _).
  unfold hibernate_when, ws'. rewrite !latest_app. unfold restored.
  cbn [latest fold_left sets_filter sets_wake sets_sleep sets_incl_wake sets_incl_sleep sets_sampling sets_read].
  rewrite A1, A2, A3, E6, E7, E8, E9, E10.
  fold (stored_filter (op_filter o)). rewrite E5, (filter_restored _ ST).
  rewrite (latest_filtered _ sets_read) by (intros []; cbn; congruence).
  rewrite (latest_silent _ sets_filter) by (intros []; cbn; congruence).
  rewrite (latest_silent _ sets_sampling) by (intros []; cbn; congruence).
  rewrite (latest_silent _ sets_wake) by (intros []; cbn; congruence).
  rewrite (latest_silent _ sets_sleep) by (intros []; cbn; congruence).
  rewrite (latest_silent _ sets_incl_wake) by (intros []; cbn; congruence).
  rewrite (latest_silent _ sets_incl_sleep) by (intros []; cbn; congruence).
  auto.
Qed.
Lemma kept_cfg : forall env ws o, get_options env (options_of env ws) = (o, None) ->
  forall tree sub cl rd sc hb,
  session_cfg env (restored (afterwards o) ++ not_saved ws) tree sub cl rd sc hb = session_cfg env ws tree sub cl rd sc hb.
Proof.
  intros env ws o G tree sub cl rd sc hb. destruct (with_effective _ _ _ _ G) as [_ EF]. unfold effective in EF.
  destruct EF as (E1 & E2 & E3 & E4 & _).
  unfold session_cfg. rewrite !latest_app.
  unfold restored. cbn [latest fold_left sets_no_recurse sets_depth sets_files_first sets_keep_sep sets_sort sets_dir_sub
    sets_file_sub sets_stat sets_fault sets_skip sets_panic].
  rewrite (latest_silent _ sets_no_recurse) by (intros []; cbn; congruence).
  rewrite (latest_silent _ sets_depth) by (intros []; cbn; congruence).
  rewrite (latest_silent _ sets_files_first) by (intros []; cbn; congruence).
  rewrite (latest_silent _ sets_keep_sep) by (intros []; cbn; congruence).
  rewrite (latest_filtered _ sets_sort) by (intros []; cbn; congruence).
  rewrite (latest_filtered _ sets_dir_sub) by (intros []; cbn; congruence).
  rewrite (latest_filtered _ sets_file_sub) by (intros []; cbn; congruence).
  rewrite (latest_filtered _ sets_stat) by (intros []; cbn; congruence).
  rewrite (latest_filtered _ sets_fault) by (intros []; cbn; congruence).
  rewrite (latest_filtered _ sets_skip) by (intros []; cbn; congruence).
  rewrite (latest_filtered _ sets_panic) by (intros []; cbn; congruence).
  assert (NR : bh_no_recurse (op_behaviours (afterwards o)) = latest sets_no_recurse ws false).
  { rewrite <- E4. unfold afterwards. destruct (bh_no_recurse (op_behaviours o)) eqn:N; cbn; congruence. }
  assert (FF : bh_files_first (op_behaviours (afterwards o)) = latest sets_files_first ws false).
  { rewrite <- E2. unfold afterwards. destruct (bh_no_recurse (op_behaviours o)); reflexivity. }
  assert (KS : bh_keep_sep (op_behaviours (afterwards o)) = latest sets_keep_sep ws true).
  { rewrite <- E1. unfold afterwards. destruct (bh_no_recurse (op_behaviours o)); reflexivity. }
  rewrite NR, FF, KS.
  assert (DP : (if latest sets_no_recurse ws false then 1%N else bh_depth (op_behaviours (afterwards o))) =
               (if latest sets_no_recurse ws false then 1%N else latest sets_depth ws 0%N)).
  { destruct (latest sets_no_recurse ws false) eqn:N; [reflexivity|]. rewrite <- E3. unfold afterwards. rewrite E4. reflexivity. }
  rewrite DP.
  reflexivity.
Qed.

(** Whatever is given on resuming ([again]), if with what was saved it amounts to
    what the session was given. *)
Lemma set_up_as_before : forall env mt rs rl u ws again c smp o a v,
  (forall o, get_options env (options_of env ws) = (o, None) ->
    let ws' := restored (afterwards o) ++ again in
    (latest sets_filter ws' no_filter = latest sets_filter ws no_filter /\
     latest sets_sampling ws' no_sampling = latest sets_sampling ws no_sampling /\
     hibernate_when ws' = hibernate_when ws /\
     latest sets_read ws' default_read = latest sets_read ws default_read) /\
    forall tree sub cl rd sc hb, session_cfg env ws' tree sub cl rd sc hb = session_cfg env ws tree sub cl rd sc hb) ->
  us_options u = None ->
  build_prime env mt (FacUsing u) (options_of env ws) = (BuildReady c smp, o) ->
  sv_tree (ac_saved a) = us_tree u -> us_sub u = Some (sv_sub (ac_saved a)) ->
  Forall utf8 (option_texts o) -> utf8 (us_tree u) -> utf8 (sv_path (ac_saved a)) ->
  marshal o a None = (Some v, None) -> rs_file rs (re_from rl) = inl v -> forest_error rs a = None ->
  build_resume env mt rs (FacRelic rl) (options_of env again) =
  ResumeReady (with_client (client_of (re_handler rl)) c) smp (ac_saved (kept_state a)).
Proof.
  intros env mt rs rl u ws again c smp o a v AG N B TR SU U1 U2 U3 M F FE.
  destruct (ready_prime env mt u (options_of env ws) c smp N) as (o0 & sub & cl & CF & G & SU' & HA & BP); [rewrite B; reflexivity|].
  assert (sub = sv_sub (ac_saved a)) by congruence. subst sub.
  assert (EQ : plan mt (op_filter (afterwards o0)) (op_sampling (afterwards o0)) (op_hib (afterwards o0)) =
               plan mt (latest sets_filter ws no_filter) (latest sets_sampling ws no_sampling) (hibernate_when ws)).
  { destruct (with_effective _ _ _ _ G) as [_ EF]. unfold effective in EF.
    destruct EF as (E1 & E2 & E3 & E4 & E5 & E6 & E7 & E8 & E9 & E10 & _).
    destruct (afterwards_fields o0) as (A1 & A2 & A3 & _). rewrite A1, A2, A3.
    assert (HO : op_hib o0 = hibernate_when ws).
    { destruct (op_hib o0) as [x1 x2 x3 x4]. cbn in *. unfold hibernate_when. congruence. }
    rewrite HO, E5, E6. reflexivity. }
  pose proof (plugins_plan mt (afterwards o0) (sv_sub (ac_saved a)) (us_tree u) cl) as P. rewrite EQ in P.
  destruct (plan mt (latest sets_filter ws no_filter) (latest sets_sampling ws no_sampling) (hibernate_when ws)) as [[[sc hb] ls]|] eqn:PL;
    [|exfalso; eapply P; exact BP].
  destruct (prime_settled env mt u ws _ cl sc hb ls N CF SU' HA PL) as (o' & G' & B').
  assert (o' = o0) by congruence. subst o'.
  rewrite B' in B. inversion B; subst c smp o. clear B B' P BP.
  rewrite marshal_chain in M.
  assert (OT : option_texts (chain_all ls (afterwards o0)) = option_texts (afterwards o0)).
  { destruct (chain_all_rest ls (afterwards o0)) as (_ & _ & K1 & K2 & _). unfold option_texts. rewrite K1, K2. reflexivity. }
  rewrite OT in U1.
  assert (NE : sv_tree (ac_saved a) <> EmptyString) by (rewrite TR; destruct CF; tauto).
  rewrite <- TR in U2.
  rewrite (resumed_as_prime env mt rs rl (afterwards o0) a v again U1 U2 U3 NE M F FE).
  destruct (AG o0 G) as [(R1 & R2 & R3 & R4) R5].
  set (ws' := restored (afterwards o0) ++ again) in *.
  set (u' := mkUsing _ _ _ _).
  destruct (prime_settled env mt u' ws' (sv_sub (ac_saved a)) (client_of (re_handler rl)) sc hb ls eq_refl) as (o'' & _ & B).
  - repeat split; try discriminate. exact NE.
  - reflexivity.
  - reflexivity.
  - rewrite R1, R2, R3. exact PL.
  - rewrite B. cbn [fst resumed us_tree u']. rewrite R2, R4. rewrite R5, TR. reflexivity.
Qed.

(** Resumed with the same settings, whatever they are. *)
Theorem c127_set_up_as_before : forall env mt rs rl u ws c smp o a v,
  us_options u = None ->
  build_prime env mt (FacUsing u) (options_of env ws) = (BuildReady c smp, o) ->
  sv_tree (ac_saved a) = us_tree u -> us_sub u = Some (sv_sub (ac_saved a)) ->
  Forall utf8 (option_texts o) -> utf8 (us_tree u) -> utf8 (sv_path (ac_saved a)) ->
  marshal o a None = (Some v, None) -> rs_file rs (re_from rl) = inl v -> forest_error rs a = None ->
  build_resume env mt rs (FacRelic rl) (options_of env ws) =
  ResumeReady (with_client (client_of (re_handler rl)) c) smp (ac_saved (kept_state a)).
Proof.
  intros env mt rs rl u ws c smp o a v. apply set_up_as_before. intros o0 G. split; [exact (restored_settings env ws o0 G)|].
  intros. apply again_cfg. exact G.
Qed.
Print Assumptions c127_set_up_as_before.

(** Resumed with only those of them which are not saved. *)
Theorem c127_saved_settings_not_repeated : forall env mt rs rl u ws c smp o a v,
  us_options u = None -> storable (latest sets_filter ws no_filter) ->
  build_prime env mt (FacUsing u) (options_of env ws) = (BuildReady c smp, o) ->
  sv_tree (ac_saved a) = us_tree u -> us_sub u = Some (sv_sub (ac_saved a)) ->
  Forall utf8 (option_texts o) -> utf8 (us_tree u) -> utf8 (sv_path (ac_saved a)) ->
  marshal o a None = (Some v, None) -> rs_file rs (re_from rl) = inl v -> forest_error rs a = None ->
  build_resume env mt rs (FacRelic rl) (options_of env (not_saved ws)) =
  ResumeReady (with_client (client_of (re_handler rl)) c) smp (ac_saved (kept_state a)).
Proof.
  intros env mt rs rl u ws c smp o a v N ST. apply set_up_as_before; [|exact N]. intros o0 G. split; [exact (kept_settings env ws o0 G ST)|].
  apply kept_cfg. exact G.
Qed.
Print Assumptions c127_saved_settings_not_repeated.

(** So repeating them makes no difference to what the resume does. *)
Theorem c127_same_resume : forall env mt rs rl u ws c smp o a v pc dk,
  us_options u = None -> storable (latest sets_filter ws no_filter) ->
  build_prime env mt (FacUsing u) (options_of env ws) = (BuildReady c smp, o) ->
  sv_tree (ac_saved a) = us_tree u -> us_sub u = Some (sv_sub (ac_saved a)) ->
  Forall utf8 (option_texts o) -> utf8 (us_tree u) -> utf8 (sv_path (ac_saved a)) ->
  marshal o a None = (Some v, None) -> rs_file rs (re_from rl) = inl v -> forest_error rs a = None ->
  walk_resume env mt rs (FacRelic rl) (options_of env (not_saved ws)) pc dk =
  walk_resume env mt rs (FacRelic rl) (options_of env ws) pc dk.
Proof.
  intros env mt rs rl u ws c smp o a v pc dk N ST B TR SU U1 U2 U3 M F FE. unfold walk_resume.
  rewrite (c127_saved_settings_not_repeated env mt rs rl u ws c smp o a v N ST B TR SU U1 U2 U3 M F FE).
  rewrite (c127_set_up_as_before env mt rs rl u ws c smp o a v N B TR SU U1 U2 U3 M F FE). reflexivity.
Qed.
Print Assumptions c127_same_resume.

(** A filter, a wake condition, sampling and a sort hook; stopped at /r/A/x. *)
Definition many : list with_option :=
  [WithFilter (only_node (mkFilterDef FtRegex "" "c" ScopeUndefined true TriFalse None));
   WithHibernationFilterWake (Some (def_of FtGlob "A" 0)); WithHookCaseSensitiveSort; WithDepth 3;
   WithSamplingOptions (mkSampling StSlice true 1 4)].
Definition many_using : prime_facade := mkUsing "/r" (Some SubUniversal) (Some (stopping_at "/r/A/x")) None.
Local Notation primed := (build_prime env0 mt0 (FacUsing many_using) (options_of env0 many)).
Local Notation ran := (started env0 mt0 many "/r" SubUniversal disk4 (stopping_at "/r/A/x")).
Definition many_doc : jv := Eval vm_compute in written (snd primed) (rp_trace ran).
Definition many_saved : saved := Eval vm_compute in
  match rescues (rp_trace ran) with sv :: _ => sv | [] => mkSaved "" "" true 0 SubFiles metrics0 end.
Local Notation resumed_by ws := (resumed_from env0 mt0 ws StrategySpawn unix_calc disk4 many_doc client_nil).
Example c127_case :
  us_options many_using = None /\
  (exists c o, primed = (BuildReady c true, o) /\ Forall utf8 (option_texts o) /\
    marshal o (mkActive many_saved false false) None = (Some many_doc, None)) /\
  rescues (rp_trace ran) = [many_saved] /\ sv_tree many_saved = us_tree many_using /\ us_sub many_using = Some (sv_sub many_saved) /\
  utf8 (us_tree many_using) /\ utf8 (sv_path many_saved) /\
  storable (latest sets_filter many no_filter) /\
  not_saved many = [WithHookCaseSensitiveSort] /\
  map n_path (map fst (calls (rp_trace (started env0 mt0 many "/r" SubUniversal disk4 client_nil)))) = ["/r/A"; "/r/A/c/z"; "/r/A/x"; "/r/D"; "/r/D/w"; "/r/e"] /\
  map n_path (map fst (calls (rr_trace (resumed_by many)))) = map n_path (map fst (calls (rr_trace (resumed_by (not_saved many))))).
Proof.
  split; [reflexivity|]. split.
  { assert (E : match primed with (BuildReady _ true, _) => true | _ => false end = true) by (vm_compute; reflexivity).
    assert (T : map utf8_clean (option_texts (snd primed)) = option_texts (snd primed)) by (vm_compute; reflexivity).
    assert (M : marshal (snd primed) (mkActive many_saved false false) None = (Some many_doc, None)) by (vm_compute; reflexivity).
    destruct primed as [b o]. cbn [snd] in T, M. destruct b as [| | |c smp]; try discriminate E. destruct smp; [|discriminate E].
    exists c, o. split; [reflexivity|]. split; [|exact M].
    clear E M. induction (option_texts o) as [|x l IH]; [constructor|]. cbn [map] in T. injection T as T1 T2.
    constructor; [apply utf8_clean_iff; exact T1|apply IH; exact T2]. }
  split; [vm_compute; reflexivity|]. split; [reflexivity|]. split; [reflexivity|].
  split; [apply utf8_clean_iff; vm_compute; reflexivity|]. split; [apply utf8_clean_iff; vm_compute; reflexivity|].
  split; [split; reflexivity|]. split; [reflexivity|]. split; vm_compute; reflexivity.
Qed.

(** What the document does not hold is lost if it is not given again: a custom
    filter. *)
Definition custom_c : list with_option :=
  [WithFilter (only_custom (mkCustom None (fun n => inl (match n with Some x => negb (String.eqb (n_name x) "c") | None => false end))))].
Local Notation ran_custom := (started env0 mt0 custom_c "/r" SubUniversal disk4 (stopping_at "/r/A/x")).
Definition custom_doc : jv := Eval vm_compute in
  written (snd (build_prime env0 mt0 (FacUsing many_using) (options_of env0 custom_c))) (rp_trace ran_custom).
Local Notation resumed_custom ws := (resumed_from env0 mt0 ws StrategySpawn unix_calc disk4 custom_doc client_nil).
Example c127_custom_filter_not_saved :
  not_saved custom_c = [] /\
  map n_path (map fst (calls (rr_trace (resumed_custom custom_c)))) = ["/r/A"; "/r/A/c/y"; "/r/A/c/z"; "/r/A/x"; "/r/D"; "/r/D/w"; "/r/e"] /\
  map n_path (map fst (calls (rr_trace (resumed_custom (not_saved custom_c))))) =
    ["/r/A"; "/r/A/c"; "/r/A/c/y"; "/r/A/c/z"; "/r/A/x"; "/r/D"; "/r/D/w"; "/r/e"].
Proof. split; [reflexivity|]. split; vm_compute; reflexivity. Qed.
