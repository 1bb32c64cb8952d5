(** Traversals finished by several sessions, from facade to facade: proofs. *)
From Verif Require Import Base Paths Level Kernel Session Defaults Spec KernelRel KernelFacts JournalFacts SessionFacts RescueFacts PathFacts WalkProps
  Cases Filters SpecFilter FiltersFacts Hooks Life Options Build SpecBuild BuildFacts BuildProps ReuseFacts Settle Persist SpecPersist PersistFacts
  Resume SpecResume RecoverFacts ResumeBuild ResumeWalk SpecInterrupt InterruptFacts SpecRelay RelayFacts FastRelayFacts SpecJourney.
Local Open Scope string_scope.
Local Open Scope list_scope.

Section Keeps.
Variable env : environment.
Variable ws : list with_option.
Hypothesis FL : unfiltered ws.

(** The options say what the With functions say. *)
Definition keeps (o : options) : Prop :=
  bh_no_recurse (op_behaviours o) = latest sets_no_recurse ws false /\
  bh_files_first (op_behaviours o) = latest sets_files_first ws false /\
  bh_keep_sep (op_behaviours o) = latest sets_keep_sep ws true /\
  (latest sets_no_recurse ws false = false -> bh_depth (op_behaviours o) = latest sets_depth ws 0%N) /\
  op_filter o = no_filter /\ op_sampling o = latest sets_sampling ws no_sampling /\ ho_wake (op_hib o) = None /\ ho_sleep (op_hib o) = None.

Lemma keeps_afterwards : forall o, keeps o -> keeps (afterwards o).
Proof.
  intros o (A & B & C & D & E & F & G & H). destruct (afterwards_fields o) as (A1 & A2 & A3 & _).
  unfold keeps. rewrite A1, A2, A3. unfold afterwards.
  destruct (bh_no_recurse (op_behaviours o)) eqn:N; cbn [op_behaviours set_conc set_behaviours bh_no_recurse bh_files_first bh_keep_sep bh_depth].
  - repeat split; try assumption. intro X. congruence.
  - repeat split; try assumption. congruence.
Qed.
Lemma keeps_first : forall o, get_options env (options_of env ws) = (o, None) -> keeps o.
Proof.
  intros o G. destruct (with_effective _ _ _ _ G) as [_ (A & B & C & D & E & F & W & S & _)].
  destruct FL as (F1 & F3 & F4). fold no_filter in E. fold no_sampling in F.
  unfold keeps. rewrite A, B, C, D, E, F, W, S, F1, F3, F4. repeat split.
Qed.
Lemma keeps_unfiltered : forall o, keeps o -> unfiltered (restored o ++ ws).
Proof.
  intros o (_ & _ & _ & _ & E & _ & G & H). destruct FL as (F1 & F3 & F4).
  unfold unfiltered. rewrite !latest_app. unfold restored.
  cbn [latest fold_left sets_filter sets_wake sets_sleep]. rewrite E, G, H. cbn. repeat split; assumption.
Qed.
Lemma keeps_sampling : forall o, keeps o -> latest sets_sampling (restored o ++ ws) no_sampling = latest sets_sampling ws no_sampling.
Proof.
  intros o (_ & _ & _ & _ & _ & F & _). rewrite latest_app. unfold restored. cbn [latest fold_left sets_sampling]. rewrite F. apply latest_twice.
Qed.
Lemma keeps_reads : forall o, keeps o -> reads (restored o ++ ws) = reads ws /\ sampled (restored o ++ ws) = sampled ws.
Proof.
  intros o K. unfold reads, sampled, files_read, dirs_read. rewrite (keeps_sampling o K), latest_app. split; reflexivity.
Qed.
Lemma keeps_cfg : forall o tree sub cl rd sc hb, keeps o ->
  session_cfg env (restored o ++ ws) tree sub cl rd sc hb = session_cfg env ws tree sub cl rd sc hb.
Proof.
  intros o tree sub cl rd sc hb (NR & FF & KS & D & _). unfold session_cfg. rewrite !latest_app.
  unfold restored. cbn [latest fold_left sets_no_recurse sets_depth sets_files_first sets_keep_sep sets_sort sets_dir_sub
    sets_file_sub sets_stat sets_fault sets_skip sets_panic].
  rewrite NR, FF, KS, !latest_twice.
  destruct (latest sets_no_recurse ws false) eqn:N; [reflexivity|]. rewrite (D eq_refl), latest_twice. reflexivity.
Qed.
Lemma keeps_loaded : forall o o1, keeps o -> get_options env (options_of env (restored o ++ ws)) = (o1, None) -> keeps o1.
Proof.
  intros o o1 K G. pose proof (keeps_unfiltered o K) as (F1 & F3 & F4). pose proof (keeps_sampling o K) as F2. destruct K as (NR & FF & KS & DD & _).
  destruct (with_effective _ _ _ _ G) as [_ (A & B & C & D & E & F & W & S & _)].
  fold no_filter in E. fold no_sampling in F.
  unfold keeps. rewrite E, F, W, S, F1, F2, F3, F4. rewrite A, B, C, D. rewrite !latest_app. unfold restored.
  cbn [latest fold_left sets_no_recurse sets_depth sets_files_first sets_keep_sep].
  rewrite NR, FF, KS, !latest_twice. repeat split. intro N. rewrite (DD N), latest_twice. reflexivity.
Qed.
Lemma keeps_texts : forall o, keeps o -> Forall utf8 (option_texts o).
Proof. intros o (_ & _ & _ & _ & E & _ & G & H). unfold option_texts. rewrite E, G, H. constructor. Qed.

Lemma keeps_resume : forall mt rs r o a v, keeps o ->
  utf8 (sv_tree (ac_saved a)) -> utf8 (sv_path (ac_saved a)) -> sv_tree (ac_saved a) <> EmptyString ->
  marshal o a None = (Some v, None) -> rs_file rs (re_from r) = inl v -> forest_error rs a = None ->
  build_resume env mt rs (FacRelic r) (options_of env ws) =
  ResumeReady (session_cfg env ws (sv_tree (ac_saved a)) (sv_sub (ac_saved a)) (client_of (re_handler r))
                 (reads ws) None None) (sampled ws) (ac_saved (kept_state a)).
Proof.
  intros mt rs r o a v K U2 U3 NE M F FE.
  rewrite (resumed_as_prime env mt rs r o a v ws (keeps_texts o K) U2 U3 NE M F FE).
  destruct (prime_plain env mt (mkUsing (sv_tree (ac_saved a)) (Some (sv_sub (ac_saved a))) (Some (client_of (re_handler r))) None)
     (restored o ++ ws) (sv_sub (ac_saved a)) (client_of (re_handler r)) eq_refl) as (o' & _ & B).
  - repeat split; try discriminate. exact NE.
  - reflexivity.
  - reflexivity.
  - apply keeps_unfiltered, K.
  - rewrite B. cbn [fst resumed us_tree]. rewrite (keeps_cfg o _ _ _ _ _ _ K). destruct (keeps_reads o K) as [-> ->]. reflexivity.
Qed.
End Keeps.

Section Main.
Variable env : environment.
Variable mt : matchers.
Variable ws : list with_option.
Variable tree : string.
Variable sub : subscription.
Variable pc : pathcalc.
Variable dk : disk.
Hypothesis FL : unfiltered ws.
Hypothesis NT : tree <> "".
Hypothesis UT : utf8 tree.
Let c := session_cfg env ws tree sub client_nil (reads ws) None None.
Hypothesis HK : hooks_ok c.
Hypothesis RO : root_ok c (dk tree).
Variable P : list place.
Hypothesis HP : preorder (entries c) [] tree (dk tree) P.
Hypothesis DS : default_skip c.
Hypothesis NF : sub <> SubFiles.
Hypothesis UP : Forall (fun q => utf8 (pl_path q)) P.

(** A document which can be resumed from: what is in it. *)
Definition holds (doc : jv) (sv : saved) : Prop :=
  exists o, keeps ws o /\ marshal o (mkActive sv false false) None = (Some doc, None) /\
    sv_tree sv = tree /\ sv_sub sv = sub.

Lemma started_is : forall cl, exists o s, session (with_client cl c) (sampled ws) (dk tree) = (o, s) /\
  started env mt ws tree sub dk cl = mkReport o (s_trace s) (Some (s_metrics s)).
Proof.
  intro cl. unfold started.
  destruct (walk_plain env mt (mkUsing tree (Some sub) (Some cl) None) ws sub cl eq_refl) with (t := dk tree) as (o & s & H & W).
  - repeat split; try discriminate. exact NT.
  - reflexivity.
  - reflexivity.
  - exact FL.
  - exists o, s. split; [exact H|exact W].
Qed.
Lemma start_holds : forall cl sv doc, sv_tree sv = tree -> sv_sub sv = sub ->
  marshal (snd (build_prime env mt (FacUsing (mkUsing tree (Some sub) (Some cl) None)) (options_of env ws)))
      (mkActive sv false false) None = (Some doc, None) -> holds doc sv.
Proof.
  intros cl sv doc ST SB M.
  destruct (prime_plain env mt (mkUsing tree (Some sub) (Some cl) None) ws sub cl eq_refl) as (o & G & B).
  - repeat split; try discriminate. exact NT.
  - reflexivity.
  - reflexivity.
  - exact FL.
  - rewrite B in M. cbn [snd] in M. rewrite marshal_chain in M. exists (afterwards o). split; [|auto].
    apply keeps_afterwards. apply (keeps_first env); assumption.
Qed.
Lemma resumed_is : forall strategy doc sv cl, holds doc sv -> utf8 (sv_path sv) ->
  build_resume env mt (mkRestore (fun _ => inl doc) None) (FacRelic (mkRelic "resume.json" strategy (Some cl))) (options_of env ws) =
  ResumeReady (with_client cl c) (sampled ws) (ac_saved (kept_state (mkActive sv false false))).
Proof.
  intros strategy doc sv cl (o & K & M & ST & SB) U.
  rewrite (keeps_resume env ws FL mt (mkRestore (fun _ => inl doc) None) (mkRelic "resume.json" strategy (Some cl)) o (mkActive sv false false) doc K);
    cbn [ac_saved]; rewrite ?ST, ?SB; try assumption; reflexivity.
Qed.
Lemma next_holds : forall doc sv0 a o sv doc', holds doc sv0 -> utf8 (sv_path sv0) -> sv_tree sv = tree -> sv_sub sv = sub ->
  resume_load env doc (options_of env ws) = Ret (inl (Some a, o, None)) ->
  marshal (afterwards o) (mkActive sv false false) None = (Some doc', None) -> holds doc' sv.
Proof.
  intros doc sv0 a o sv doc' (o0 & K & M & ST0 & SB0) U ST SB L M'.
  destruct (load_restored env o0 (mkActive sv0 false false) doc ws) as (o1 & G & L'); try assumption.
  - apply (keeps_texts ws), K.
  - cbn. rewrite ST0. exact UT.
  - rewrite L in L'. inversion L'; subst. exists (afterwards o1). split; [|auto].
    apply keeps_afterwards. apply (keeps_loaded env ws FL o0); assumption.
Qed.
Lemma kept_same : forall sv, same_point sv (ac_saved (kept_state (mkActive sv false false))).
Proof. intro sv. repeat split. Qed.

Lemma called_things : forall s, map thing (places_called (s_trace s)) = things s.
Proof. reflexivity. Qed.

Lemma spawn_report_is : forall doc sv cl, holds doc sv -> utf8 (sv_path sv) ->
  exists o ok s, spawn_session (with_client cl c) (sampled ws) pc dk (ac_saved (kept_state (mkActive sv false false))) = (o, ok, s) /\
    resumed_from env mt ws StrategySpawn pc dk doc cl = mkResumeReport o (s_trace s) (Some (s_metrics s)) ok.
Proof.
  intros doc sv cl H U. unfold resumed_from, walk_resume. rewrite (resumed_is StrategySpawn doc sv cl H U). cbn [run_resume re_strategy].
  destruct (spawn_session _ _ _ _ _) as [[o ok] s]. eauto 7.
Qed.
Lemma fastward_report_is : forall doc sv cl, holds doc sv -> utf8 (sv_path sv) ->
  exists o s, fastward_session true (with_client cl c) (sampled ws) pc dk (ac_saved (kept_state (mkActive sv false false))) = (o, s) /\
    resumed_from env mt ws StrategyFastward pc dk doc cl = mkResumeReport o (s_trace s) (Some (s_metrics s)) true.
Proof.
  intros doc sv cl H U. unfold resumed_from, walk_resume. rewrite (resumed_is StrategyFastward doc sv cl H U). cbn [run_resume re_strategy].
  destruct (fastward_session _ _ _ _ _ _) as [o s]. eauto 7.
Qed.

Lemma prime_sub : forall cl s o n sv, session (with_client cl c) (sampled ws) (dk tree) = (o, s) -> stopped_at (s_trace s) n -> deep n ->
  rescues (s_trace s) = [sv] -> sv_tree sv = tree /\ sv_sub sv = sub.
Proof.
  intros cl s o n sv H (pre & p & EC & FN) (d & g & EN & ED) RS.
  assert (NP : n_pos n <> []).
  { pose proof (visited_stands (with_client cl c) (sampled ws) _ _ _ HK RO H) as VS. rewrite Forall_forall in VS.
    assert (SN := VS n ltac:(unfold visited; rewrite EC, map_app; apply in_or_app; right; left; reflexivity)).
    inversion SN as [n' E1 E2 E3 E4|q i e n' HPq NTT E1 E2 E3 E4]; subst n'; [congruence|].
    rewrite E4. intro X. apply app_eq_nil in X. destruct X. discriminate. }
  destruct (crash_prefix (with_client cl c) (sampled ws) (dk tree) o s pre n p P HK RO DS (conj eq_refl eq_refl) NF HP H EC FN NP)
    as (sv' & x1 & x2 & x3 & x4 & x5 & RS' & _ & ST & SB & _).
  assert (sv' = sv) by congruence. subst sv'. split; [exact ST|exact SB].
Qed.
End Main.

Section SpawnJourney.
Variable env : environment.
Variable mt : matchers.
Variable ws : list with_option.
Variable tree : string.
Variable pc : pathcalc.
Variable dk : disk.
Hypothesis FL : unfiltered ws.
Hypothesis NT : tree <> "".
Hypothesis UT : utf8 tree.
Let c := session_cfg env ws tree SubUniversal client_nil (reads ws) None None.
Hypothesis HK : hooks_ok c.
Hypothesis RO : root_ok c (dk tree).
Variable P : list place.
Hypothesis HP : preorder (entries_all c) [] tree (dk tree) P.
Hypothesis DS : default_skip c.
Hypothesis DZ : depth_asked ws = 0%N.
Hypothesis SS : stable_sort c.
Hypothesis CL : clean tree = tree.
Hypothesis PN : proper_names (dk tree).
Hypothesis TD : tidy c pc dk P.
Hypothesis UP : Forall (fun q => utf8 (pl_path q)) P.

Lemma relay_utf8 : forall V sv, relay c pc dk V sv -> utf8 (sv_path sv).
Proof.
  intros V sv R. destruct (relay_due c pc dk P HK RO DS (conj eq_refl eq_refl) eq_refl DZ SS CL PN HP TD V sv R)
    as (_ & bef & x & tl & EP & _ & SP & _).
  rewrite SP. rewrite Forall_forall in UP. apply UP. rewrite EP. apply in_or_app. right. left. reflexivity.
Qed.
Lemma journey_relay : forall V doc, journey env mt ws tree SubUniversal StrategySpawn pc dk V doc ->
  exists sv, holds ws tree SubUniversal doc sv /\ relay c pc dk (map thing V) sv.
Proof.
  intros V doc J. induction J as [cl n sv doc ST D RS M|V doc cl n sv a o doc' J IH BC ST D RS L M|V doc cl n J IH BC ST].
  - destruct (started_is env mt ws tree SubUniversal dk FL NT cl) as (o & s & H & E). rewrite E in *. cbn [rp_trace] in *.
    assert (HP' : preorder (entries c) [] tree (dk tree) P) by exact HP.
    destruct (prime_sub env ws tree SubUniversal dk HK RO P HP' DS ltac:(discriminate) cl s o n sv H ST D RS) as [T S].
    exists sv. split; [apply (start_holds env mt ws tree SubUniversal FL NT cl); assumption|].
    rewrite called_things. destruct D as (d & g & EN & ED). apply (relay_prime c pc dk cl (sampled ws) o s n d g sv H ST EN ED RS).
  - destruct IH as (sv0 & H0 & R0). pose proof (relay_utf8 _ _ R0) as U0.
    destruct (spawn_report_is env mt ws tree SubUniversal pc dk FL NT UT doc sv0 cl H0 U0) as (oo & ok & s & H & E).
    rewrite E in *. cbn [rr_trace] in *.
    pose proof (relay_stored c pc dk _ _ _ R0 (kept_same sv0)) as R1.
    pose proof (relay_again c pc dk _ _ cl (sampled ws) oo ok s n sv R1 H ST RS) as R2.
    assert (X : sv_tree sv = tree /\ sv_sub sv = SubUniversal).
    { destruct ST as (pre & p & EC & FN).
      destruct (n_parent n) as [d|] eqn:EN.
      - destruct (spawn_interrupted (with_client cl c) (sampled ws) pc dk _ oo ok s n p d HK H) as (pre1 & sv1 & b1 & a1 & _ & _ & _ & RS1 & _ & _ & (A & B & _));
          [rewrite EC; apply in_or_app; right; left; reflexivity|exact EN|].
        assert (sv1 = sv) by congruence. subst sv1. split; [exact A|exact B].
      - exfalso. destruct (spawned_entry_escapes (with_client cl c) (sampled ws) pc dk _ oo ok s n p HK H) as (_ & _ & Z & _);
          [rewrite EC; apply in_or_app; right; left; reflexivity|exact EN|]. congruence. }
    exists sv. split; [apply (next_holds env ws tree SubUniversal FL UT doc sv0 a o); try assumption; apply X|].
    rewrite map_app, called_things. exact R2.
  - destruct IH as (sv0 & H0 & R0). pose proof (relay_utf8 _ _ R0) as U0.
    destruct (spawn_report_is env mt ws tree SubUniversal pc dk FL NT UT doc sv0 cl H0 U0) as (oo & ok & s & H & E).
    rewrite E in *. cbn [rr_trace] in *.
    pose proof (relay_stored c pc dk _ _ _ R0 (kept_same sv0)) as R1.
    exists (ac_saved (kept_state (mkActive sv0 false false))). split.
    + destruct H0 as (o0 & K & M & A & B). exists o0. split; [exact K|]. split; [|split; [exact A|exact B]].
      rewrite <- M. unfold marshal. reflexivity.
    + rewrite map_app, called_things. exact (relay_retry c pc dk _ _ cl (sampled ws) oo ok s n R1 H ST).
Qed.
End SpawnJourney.

Section Plain.
Variable env : environment.
Variable ws : list with_option.
Variable tree : string.
Variable sub : subscription.
Let c := session_cfg env ws tree sub client_nil (reads ws) None None.
Lemma sound_hooks : hooks_sound ws -> hooks_ok c.
Proof. exact (ResumeWalk.sound_hooks env ws tree sub client_nil). Qed.
Lemma undisturbed_root : forall t, undisturbed env ws t -> root_ok c t /\ default_skip c.
Proof. intros t [A B]. split; [exact B|]. intros x y z. unfold c, session_cfg. cbn [c_ask]. rewrite A. reflexivity. Qed.
End Plain.

Theorem spawn_journey_finished : forall env mt ws tree pc dk P,
  unfiltered ws -> hooks_sound ws -> undisturbed env ws (dk tree) -> depth_asked ws = 0%N ->
  tree <> "" -> clean tree = tree -> utf8 tree -> proper_names (dk tree) ->
  let c := session_cfg env ws tree SubUniversal client_nil (reads ws) None None in
  stable_sort c -> preorder (entries_all c) [] tree (dk tree) P -> tidy c pc dk P -> Forall (fun q => utf8 (pl_path q)) P ->
  forall V doc, journey env mt ws tree SubUniversal StrategySpawn pc dk V doc ->
  let r := resumed_from env mt ws StrategySpawn pc dk doc client_nil in
  rr_outcome r = Ret None /\ rr_complete r = true /\
  (exists bef, map thing P = bef ++ map thing (places_called (rr_trace r))) /\
  (forall q, In q (map thing (V ++ places_called (rr_trace r))) <-> In q (map thing P)).
Proof.
  intros env mt ws tree pc dk P FL HS UD DZ NT CL UT PN c SS HP TD UP V doc J r.
  pose proof (sound_hooks env ws tree SubUniversal HS) as HK. destruct (undisturbed_root env ws tree SubUniversal _ UD) as [RO DS].
  fold c in HK, RO, DS.
  destruct (journey_relay env mt ws tree pc dk FL NT UT HK RO P HP DS DZ SS CL PN TD UP V doc J) as (sv & H & R).
  fold c in R.
  pose proof (relay_utf8 env ws tree pc dk HK RO P HP DS DZ SS CL PN TD UP _ _ R) as U.
  destruct (spawn_report_is env mt ws tree SubUniversal pc dk FL NT UT doc sv client_nil H U) as (o & ok & s & E & ER). fold c in E.
  pose proof (relay_stored c pc dk _ _ _ R (kept_same sv)) as R1.
  destruct (relay_finished c pc dk P HK RO DS (conj eq_refl eq_refl) eq_refl DZ SS CL PN HP TD _ _ (sampled ws) R1) as (s' & bef & E' & EP & IN).
  rewrite E in E'. inversion E'; subst o ok s'.
  unfold r. rewrite ER. cbn [rr_outcome rr_complete rr_trace]. split; [reflexivity|]. split; [reflexivity|].
  split; [exists bef; exact EP|]. intro q. rewrite map_app. apply IN.
Qed.

Section FastJourney.
Variable env : environment.
Variable mt : matchers.
Variable ws : list with_option.
Variable tree : string.
Variable sub : subscription.
Variable pc : pathcalc.
Variable dk : disk.
Hypothesis FL : unfiltered ws.
Hypothesis NT : tree <> "".
Hypothesis UT : utf8 tree.
Let c := session_cfg env ws tree sub client_nil (reads ws) None None.
Hypothesis HK : hooks_ok c.
Hypothesis RO : root_ok c (dk tree).
Variable P : list place.
Hypothesis HP : preorder (entries c) [] tree (dk tree) P.
Hypothesis DS : default_skip c.
Hypothesis NF : sub <> SubFiles.
Hypothesis CL : clean tree = tree.
Hypothesis PN : proper_names (dk tree).
Hypothesis UN : distinct_names c tree (dk tree).
Hypothesis PA : passable c pc P.
Hypothesis UP : Forall (fun q => utf8 (pl_path q)) P.

Lemma fast_relay_utf8 : forall V sv, fast_relay c pc dk V sv -> utf8 (sv_path sv).
Proof.
  intros V sv R. destruct (fast_relay_due c pc dk P HK RO DS (conj eq_refl eq_refl) NF CL PN UN HP PA V sv R)
    as (_ & dn & g & bef & tl & _ & _ & SP & EA & _).
  rewrite SP. rewrite Forall_forall in UP. apply (UP (place_of dn)).
  assert (I : In (place_of dn) (filter (within (c_depth c) 0) P)) by (rewrite EA; apply in_or_app; right; left; reflexivity).
  apply filter_In in I. apply I.
Qed.
Lemma journey_fast_relay : forall V doc, journey env mt ws tree sub StrategyFastward pc dk V doc ->
  exists sv, holds ws tree sub doc sv /\ fast_relay c pc dk V sv.
Proof.
  intros V doc J. induction J as [cl n sv doc ST D RS M|V doc cl n sv a o doc' J IH [f BC] ST D RS L M|V doc cl n J IH [f BC] ST].
  - destruct (started_is env mt ws tree sub dk FL NT cl) as (o & s & H & E). rewrite E in *. cbn [rp_trace] in *.
    destruct (prime_sub env ws tree sub dk HK RO P HP DS NF cl s o n sv H ST D RS) as [T S].
    exists sv. split; [apply (start_holds env mt ws tree sub FL NT cl); assumption|].
    destruct D as (d & g & EN & ED). exact (fast_relay_prime c pc dk cl (sampled ws) o s n d g sv H ST EN ED RS).
  - destruct IH as (sv0 & H0 & R0). pose proof (fast_relay_utf8 _ _ R0) as U0.
    destruct (fastward_report_is env mt ws tree sub pc dk FL NT UT doc sv0 cl H0 U0) as (oo & s & H & E).
    rewrite E in *. cbn [rr_trace] in *. destruct (D eq_refl) as (d & g & EN & ED).
    pose proof (fast_relay_stored c pc dk _ _ _ R0 (kept_same sv0)) as R1.
    assert (X : sv_tree sv = tree /\ sv_sub sv = sub).
    { destruct ST as (pre & p & EC & FN).
      destruct (fastward_interrupted true (with_client cl c) (sampled ws) pc dk _ oo s n p d HK H) as (pre1 & sv1 & b1 & a1 & _ & _ & _ & RS1 & _ & (A & B & _));
        [rewrite EC; apply in_or_app; right; left; reflexivity|exact EN|].
      assert (sv1 = sv) by congruence. subst sv1. split; [exact A|exact B]. }
    rewrite BC in H.
    pose proof (fast_relay_again c pc dk _ _ f (sampled ws) oo s n d g sv R1 H ST EN ED RS) as R2.
    exists sv. split; [apply (next_holds env ws tree sub FL UT doc sv0 a o); try assumption; apply X|]. exact R2.
  - destruct IH as (sv0 & H0 & R0). pose proof (fast_relay_utf8 _ _ R0) as U0.
    destruct (fastward_report_is env mt ws tree sub pc dk FL NT UT doc sv0 cl H0 U0) as (oo & s & H & E).
    rewrite E in *. cbn [rr_trace] in *. rewrite BC in H.
    pose proof (fast_relay_stored c pc dk _ _ _ R0 (kept_same sv0)) as R1.
    exists (ac_saved (kept_state (mkActive sv0 false false))). split.
    + destruct H0 as (o0 & K & M & A & B). exists o0. split; [exact K|]. split; [|split; [exact A|exact B]].
      rewrite <- M. unfold marshal. reflexivity.
    + exact (fast_relay_retry c pc dk _ _ f (sampled ws) oo s n R1 H ST).
Qed.
End FastJourney.

Theorem fastward_journey_finished : forall env mt ws tree sub pc dk P,
  unfiltered ws -> hooks_sound ws -> undisturbed env ws (dk tree) -> sub <> SubFiles ->
  tree <> "" -> clean tree = tree -> utf8 tree -> proper_names (dk tree) ->
  let c := session_cfg env ws tree sub client_nil (reads ws) None None in
  distinct_names c tree (dk tree) -> preorder (entries c) [] tree (dk tree) P -> passable c pc P ->
  Forall (fun q => utf8 (pl_path q)) P ->
  forall V doc, journey env mt ws tree sub StrategyFastward pc dk V doc ->
  let r := resumed_from env mt ws StrategyFastward pc dk doc client_nil in
  rr_outcome r = Ret None /\ rr_complete r = true /\
  (exists bef, filter (within (depth_asked ws) 0) P = bef ++ places_called (rr_trace r)) /\
  (forall q, In q (V ++ places_called (rr_trace r)) <-> In q (filter (within (depth_asked ws) 0) P)).
Proof.
  intros env mt ws tree sub pc dk P FL HS UD NF NT CL UT PN c UN HP PA UP V doc J r.
  pose proof (sound_hooks env ws tree sub HS) as HK. destruct (undisturbed_root env ws tree sub _ UD) as [RO DS].
  fold c in HK, RO, DS.
  destruct (journey_fast_relay env mt ws tree sub pc dk FL NT UT HK RO P HP DS NF CL PN UN PA UP V doc J) as (sv & H & R).
  fold c in R.
  pose proof (fast_relay_utf8 env ws tree sub pc dk HK RO P HP DS NF CL PN UN PA UP _ _ R) as U.
  destruct (fastward_report_is env mt ws tree sub pc dk FL NT UT doc sv client_nil H U) as (o & s & E & ER). fold c in E.
  pose proof (fast_relay_stored c pc dk _ _ _ R (kept_same sv)) as R1.
  destruct (fast_relay_finished c pc dk P HK RO DS (conj eq_refl eq_refl) NF CL PN UN HP PA _ _ (sampled ws) R1) as (s' & bef & E' & EP & IN).
  rewrite E in E'. inversion E'; subst o s'.
  unfold r. rewrite ER. cbn [rr_outcome rr_complete rr_trace]. split; [reflexivity|]. split; [reflexivity|].
  split; [exists bef; exact EP|]. exact IN.
Qed.

(** ** What is read *)
Lemma what_is_read : forall ws p e,
  (sampled ws = true <-> so_type (latest sets_sampling ws no_sampling) <> StUndefined) /\
  (sampled ws = false -> reads ws p e = latest sets_read ws default_read p e) /\
  (sampled ws = true -> let so := latest sets_sampling ws no_sampling in
     snd (reads ws p e) = None /\ exists fs ds, fst (reads ws p e) = fs ++ ds /\
     taken (so_reverse so) (so_files so) (files_read ws p e) fs /\ taken (so_reverse so) (so_dirs so) (dirs_read ws p e) ds).
Proof.
  intros ws p e. split; [|split].
  - unfold sampled, sampling_active. destruct (so_type _); split; intro H; try discriminate; try reflexivity; exfalso; apply H; reflexivity.
  - intro H. unfold reads. rewrite H. reflexivity.
  - intro H. cbn zeta. unfold reads. rewrite H. cbn [fst snd]. split; [reflexivity|].
    unfold union. eexists _, _. split; [reflexivity|].
    destruct (so_reverse (latest sets_sampling ws no_sampling)); unfold last_n, first_n; split; (apply last_taken || apply first_taken).
Qed.
