(** The session built by Resume, compared with one built by Prime. *)
From Verif Require Import Base Paths Level Kernel Session Defaults Spec Filters SpecFilter Hooks Life Options Build SpecBuild
  BuildFacts BuildProps ReuseFacts Settle Persist SpecPersist PersistFacts Resume SpecResume.
Local Open Scope list_scope.

(** The loaded options are those which the With functions make of the saved ones. *)
Lemma carried_restored : forall env o, push_options (carried env o) = fold_with env (restored o) (default_options env).
Proof. intros env o. destruct o as [b so [n ch sa cu] h [w i out on] ev hk df]; destruct h; destruct sa as [[]|]; reflexivity. Qed.

Lemma fold_with_app : forall env a b o, fold_with env (a ++ b) o = fold_with env b (fold_with env a o).
Proof. intros. unfold fold_with. apply fold_left_app. Qed.

Lemma load_restored : forall env o a v ws,
  Forall utf8 (option_texts o) -> utf8 (sv_tree (ac_saved a)) -> utf8 (sv_path (ac_saved a)) ->
  marshal o a None = (Some v, None) ->
  exists o1, get_options env (options_of env (restored o ++ ws)) = (o1, None) /\
    resume_load env v (options_of env ws) = Ret (inl (Some (kept_state a), o1, None)).
Proof.
  intros env o a v ws U1 U2 U3 M. destruct (round_trip env o a U1 U2 U3) as (v' & M' & L).
  assert (v' = v) by congruence. subst v'.
  exists (fold_with env ws (fold_with env (restored o) (default_options env))). split.
  - unfold get_options. rewrite apply_with, fold_with_app. reflexivity.
  - unfold resume_load. rewrite L. unfold bind_options. rewrite carried_restored, apply_with. reflexivity.
Qed.

Theorem resumed_as_prime : forall env mt rs r o a v ws,
  Forall utf8 (option_texts o) -> utf8 (sv_tree (ac_saved a)) -> utf8 (sv_path (ac_saved a)) ->
  sv_tree (ac_saved a) <> EmptyString ->
  marshal o a None = (Some v, None) -> rs_file rs (re_from r) = inl v -> forest_error rs a = None ->
  build_resume env mt rs (FacRelic r) (options_of env ws) =
  resumed (ac_saved (kept_state a))
    (fst (build_prime env mt
            (FacUsing (mkUsing (sv_tree (ac_saved a)) (Some (sv_sub (ac_saved a))) (Some (client_of (re_handler r))) None))
            (options_of env (restored o ++ ws)))).
Proof.
  intros env mt rs r o a v ws U1 U2 U3 NE M F FE.
  destruct (load_restored env o a v ws U1 U2 U3 M) as (o1 & G & L).
  unfold build_resume. rewrite F, L.
  assert (FE' : forest_error rs (kept_state a) = None) by exact FE. rewrite FE'.
  set (u := mkUsing _ _ _ _).
  rewrite (prime_ready env mt u _ o1 (sv_sub (ac_saved a)) (client_of (re_handler r))); try reflexivity; try exact G.
  - cbn [us_tree u]. change (sv_sub (ac_saved (kept_state a))) with (sv_sub (ac_saved a)).
    change (sv_tree (ac_saved (kept_state a))) with (sv_tree (ac_saved a)).
    destruct (build_plugins mt (afterwards o1) (sv_sub (ac_saved a)) (sv_tree (ac_saved a)) (client_of (re_handler r))) as [b o2].
    destruct b; reflexivity.
  - repeat split; try discriminate. exact NE.
Qed.

(** ** The same settings again *)
Lemma latest_app : forall A (f : with_option -> option A) a b d, latest f (a ++ b) d = latest f b (latest f a d).
Proof. intros. unfold latest. apply fold_left_app. Qed.
Lemma latest_twice : forall A (f : with_option -> option A) ws d, latest f ws (latest f ws d) = latest f ws d.
Proof.
  intros A f ws. unfold latest. intro d.
  assert (G : forall a b, (exists x, forall d, fold_left (fun acc w => match f w with Some x => x | None => acc end) ws d = x) \/
     (fold_left (fun acc w => match f w with Some x => x | None => acc end) ws a = a /\
      fold_left (fun acc w => match f w with Some x => x | None => acc end) ws b = b)).
  { induction ws as [|w ws IH]; intros a b; [right; split; reflexivity|]. cbn [fold_left].
    destruct (f w) as [x|] eqn:E.
    - left. eexists. intro. reflexivity.
    - destruct (IH a b) as [[x H]|[H1 H2]]; [left; exists x; intro; apply H|right; split; assumption]. }
  destruct (G d (fold_left (fun acc w => match f w with Some x => x | None => acc end) ws d)) as [[x H]|[_ H]]; [rewrite !H; reflexivity|exact H].
Qed.

Section Again.
Variable env : environment.
Variable ws : list with_option.
Variable o : options.
Hypothesis G : get_options env (options_of env ws) = (o, None).
Let ws' := restored (afterwards o) ++ ws.

Lemma again_cfg : forall tree sub cl rd sc hb, session_cfg env ws' tree sub cl rd sc hb = session_cfg env ws tree sub cl rd sc hb.
Proof.
  intros tree sub cl rd sc hb. destruct (with_effective _ _ _ _ G) as [_ EF]. unfold effective in EF.
  destruct EF as (E1 & E2 & E3 & E4 & _).
  unfold session_cfg, ws'. rewrite !latest_app.
  unfold restored. cbn [latest fold_left sets_no_recurse sets_depth sets_files_first sets_keep_sep sets_sort sets_dir_sub
    sets_file_sub sets_stat sets_fault sets_skip sets_panic].
  assert (NR : bh_no_recurse (op_behaviours (afterwards o)) = latest sets_no_recurse ws false).
  { rewrite <- E4. unfold afterwards. destruct (bh_no_recurse (op_behaviours o)) eqn:N; cbn; congruence. }
  assert (FF : bh_files_first (op_behaviours (afterwards o)) = latest sets_files_first ws false).
  { rewrite <- E2. unfold afterwards. destruct (bh_no_recurse (op_behaviours o)); reflexivity. }
  assert (KS : bh_keep_sep (op_behaviours (afterwards o)) = latest sets_keep_sep ws true).
  { rewrite <- E1. unfold afterwards. destruct (bh_no_recurse (op_behaviours o)); reflexivity. }
  rewrite NR, FF, KS, !latest_twice.
  destruct (latest sets_no_recurse ws false) eqn:N; [reflexivity|].
  assert (D : bh_depth (op_behaviours (afterwards o)) = latest sets_depth ws 0%N).
  { rewrite <- E3. unfold afterwards. rewrite E4. reflexivity. }
  rewrite D, latest_twice. reflexivity.
Qed.
End Again.

(** ** A session without filters or hibernation *)
Definition sample_chain (ws : list with_option) : list read_listener :=
  if sampled ws then [sample_listener (latest sets_sampling ws no_sampling)] else [].
Lemma plan_none : forall mt so ho, hib_active ho = false ->
  plan mt no_filter so ho = Some (None, None, if sampling_active so then [sample_listener so] else []).
Proof. intros mt so ho H. unfold plan. rewrite H. reflexivity. Qed.
Lemma reads_chain : forall ws, then_all (latest sets_read ws default_read) (sample_chain ws) = reads ws.
Proof. intro ws. unfold sample_chain, reads. destruct (sampled ws); reflexivity. Qed.
Lemma marshal_chain : forall ls o a w, marshal (chain_all ls o) a w = marshal o a w.
Proof.
  intros ls o a w. destruct (chain_all_rest ls o) as (A & B & C & D & E & _).
  unfold marshal, equal_options, to_json. rewrite A, B, C, D, E. reflexivity.
Qed.

Lemma prime_plain : forall env mt u ws sub cl, us_options u = None -> complete_facade u ->
  us_sub u = Some sub -> us_handler u = Some cl -> unfiltered ws ->
  exists o, get_options env (options_of env ws) = (o, None) /\
    build_prime env mt (FacUsing u) (options_of env ws) =
    (BuildReady (session_cfg env ws (us_tree u) sub cl (reads ws) None None) (sampled ws), chain_all (sample_chain ws) (afterwards o)).
Proof.
  intros env mt u ws sub cl N CF SU HA (F & W & L).
  assert (HB : hib_active (hibernate_when ws) = false) by (unfold hibernate_when, hib_active; cbn; rewrite W, L; reflexivity).
  destruct (prime_settled env mt u ws sub cl None None (sample_chain ws) N CF SU HA) as (o & GO & B).
  { rewrite F. apply plan_none. exact HB. }
  exists o. split; [exact GO|]. rewrite B, reads_chain. reflexivity.
Qed.

Theorem resume_plain : forall env mt rs r o a v ws,
  get_options env (options_of env ws) = (o, None) -> unfiltered ws ->
  utf8 (sv_tree (ac_saved a)) -> utf8 (sv_path (ac_saved a)) -> sv_tree (ac_saved a) <> EmptyString ->
  marshal (afterwards o) a None = (Some v, None) -> rs_file rs (re_from r) = inl v -> forest_error rs a = None ->
  build_resume env mt rs (FacRelic r) (options_of env ws) =
  ResumeReady (session_cfg env ws (sv_tree (ac_saved a)) (sv_sub (ac_saved a)) (client_of (re_handler r))
                 (reads ws) None None) (sampled ws) (ac_saved (kept_state a)).
Proof.
  intros env mt rs r o a v ws GO FL U2 U3 NE M F FE.
  destruct (with_effective _ _ _ _ GO) as [_ EF]. unfold effective in EF.
  destruct EF as (_ & _ & _ & _ & E5 & E6 & E7 & E8 & _).
  destruct FL as (F1 & F3 & F4).
  fold no_filter in E5. fold no_sampling in E6. rewrite F1 in E5. rewrite F3 in E7. rewrite F4 in E8.
  destruct (afterwards_fields o) as (A1 & A2 & A3 & _).
  assert (U1 : Forall utf8 (option_texts (afterwards o))).
  { unfold option_texts. rewrite A1, A3, E5, E7, E8. constructor. }
  rewrite (resumed_as_prime env mt rs r (afterwards o) a v ws U1 U2 U3 NE M F FE).
  set (ws' := restored (afterwards o) ++ ws).
  assert (FL' : unfiltered ws').
  { unfold unfiltered, ws'. rewrite !latest_app. unfold restored.
    cbn [latest fold_left sets_filter sets_wake sets_sleep]. rewrite A1, A3, E5, E7, E8. cbn.
    repeat split; assumption. }
  assert (SO : latest sets_sampling ws' no_sampling = latest sets_sampling ws no_sampling).
  { unfold ws'. rewrite latest_app. unfold restored. cbn [latest fold_left sets_sampling]. rewrite A2, E6. apply latest_twice. }
  assert (RD : reads ws' = reads ws).
  { unfold reads, sampled, files_read, dirs_read. rewrite SO. unfold ws'. rewrite latest_app. reflexivity. }
  assert (SM : sampled ws' = sampled ws) by (unfold sampled; rewrite SO; reflexivity).
  set (u := mkUsing _ _ _ _).
  destruct (prime_plain env mt u ws' (sv_sub (ac_saved a)) (client_of (re_handler r)) eq_refl) as (o' & _ & B).
  - repeat split; try discriminate. exact NE.
  - reflexivity.
  - reflexivity.
  - exact FL'.
  - rewrite B. cbn [fst resumed us_tree u]. rewrite RD, SM. unfold ws'. rewrite (again_cfg env ws o GO). reflexivity.
Qed.
