(** Traversals finished by several sessions of either kind: proofs. *)
From Verif Require Import Base Paths Level Kernel Session Defaults Spec KernelRel KernelFacts JournalFacts SessionFacts RescueFacts WalkCor PathFacts WalkProps
  Cases Filters SpecFilter Hooks Life Options Build SpecBuild BuildFacts BuildProps ReuseFacts Settle Persist SpecPersist PersistFacts
  Resume SpecResume RecoverFacts ResumeBuild ResumeWalk SpecInterrupt InterruptFacts SpecRelay RelayFacts FastRelayFacts
  SpecJourney JourneyFacts SpecMixed.
Local Open Scope string_scope.
Local Open Scope list_scope.

Section Mixed.
Variable c : cfg.
Variable pc : pathcalc.
Variable dk : disk.
Variable P : list place.
Hypothesis HK : hooks_ok c.
Hypothesis RO : root_ok c (dk (c_tree c)).
Hypothesis DS : default_skip c.
Hypothesis PL : plain c.
Hypothesis SU : c_sub c = SubUniversal.
Hypothesis DZ : c_depth c = 0%N.
Hypothesis SS : stable_sort c.
Hypothesis CL : clean (c_tree c) = c_tree c.
Hypothesis PN : proper_names (dk (c_tree c)).
Hypothesis UN : distinct_names c (c_tree c) (dk (c_tree c)).
Hypothesis HP : preorder (entries_all c) [] (c_tree c) (dk (c_tree c)) P.
Hypothesis TD : tidy c pc dk P.
Hypothesis PA : passable c pc P.

Lemma mixed_entries : preorder (entries c) [] (c_tree c) (dk (c_tree c)) P.
Proof.
  assert (EU : forall q u, entries_all c q u = entries c q u) by (intros; unfold entries; rewrite SU; reflexivity).
  eapply (proj1 (preorder_ext (entries_all c) (entries c) EU)). exact HP.
Qed.
Lemma mixed_not_files : c_sub c <> SubFiles.
Proof. rewrite SU. discriminate. Qed.
Lemma mixed_within : filter (within (c_depth c) 0) P = P.
Proof. apply filter_true. intro q. rewrite DZ. apply within_0. Qed.

Lemma mixed_placed : forall bef x tl, P = bef ++ x :: tl -> pl_pos x <> [] ->
  exists m g, stands c (entries c) (c_tree c) (c_tree c) (dk (c_tree c)) 0 m /\ place_of m = x /\ n_parent m = Some g.
Proof.
  intros bef x tl EP NP. set (c0 := with_client client_nil c).
  destruct (universal_all c0 false (dk (c_tree c)) P HK RO DS PL ltac:(intros tr m; reflexivity) SU DZ HP) as (s & HS & EV).
  pose proof (visited_stands c0 false _ _ _ HK RO HS) as VS. rewrite Forall_forall in VS.
  assert (IX : In x (map place_of (visited s))) by (rewrite EV, EP; apply in_or_app; right; left; reflexivity).
  apply in_map_iff in IX. destruct IX as (m & EM & IM). specialize (VS m IM).
  assert (GM : exists g, n_parent m = Some g).
  { inversion VS as [n' E1 E2 E3 E4|q i e n' HPq NT E1 E2 E3 E4]; subst n'; [|eauto].
    exfalso. apply NP. rewrite <- EM. exact E4. }
  destruct GM as [g EG]. exists m, g. split; [|split; [exact EM|exact EG]]. exact (stands_for c dk client_nil m VS).
Qed.

Lemma due_fdue : forall V sv, due c P V sv -> exists bef, fdue c dk P bef sv /\ incl (map thing bef) V /\ incl V (map thing P).
Proof.
  intros V sv (ST & bef & x & tl & EP & NX & SP & I1 & I2).
  destruct (mixed_placed bef x tl EP NX) as (m & g & SM & EM & EG).
  exists bef. split; [|split; assumption]. split; [exact ST|]. exists m, g, bef, tl. rewrite mixed_within, EM.
  split; [exact SM|]. split; [exact EG|]. split; [rewrite SP, <- EM; reflexivity|]. split; [exact EP|]. split; [apply incl_refl|].
  rewrite EP. apply incl_appl, incl_refl.
Qed.
Lemma fdue_due : forall V W sv, fdue c dk P W sv -> incl (map thing W) V -> incl V (map thing P) -> due c P V sv.
Proof.
  intros V W sv (ST & dn & g & bef & tl & SD & EG & SP & EA & I1 & I2) IW IV. rewrite mixed_within in EA, I2.
  split; [exact ST|]. exists bef, (place_of dn), tl. split; [exact EA|]. split.
  - inversion SD as [n' E1 E2 E3 E4|q i e n' HPq NT E1 E2 E3 E4]; subst n'; [congruence|].
    cbn. rewrite E4. intro X. apply app_eq_nil in X. destruct X. discriminate.
  - split; [exact SP|]. split; [|exact IV]. intros q Hq. apply IW. apply in_map_iff in Hq. destruct Hq as (p & <- & Ip). apply in_map, I1, Ip.
Qed.

Lemma fast_step : forall V bef s sv, fdue c dk P (bef ++ map place_of (visited s)) sv -> incl (map thing bef) V -> incl V (map thing P) ->
  due c P (V ++ things s) sv.
Proof.
  intros V bef s sv F J1 J2. pose proof F as (_ & _ & _ & _ & _ & _ & _ & _ & _ & _ & I2). rewrite mixed_within in I2.
  apply (fdue_due _ _ _ F).
  - rewrite map_app. fold (things s). apply incl_app; [apply incl_appl; exact J1|apply incl_appr, incl_refl].
  - apply incl_app; [exact J2|]. unfold things. intros q Hq. apply in_map_iff in Hq. destruct Hq as (p & <- & Ip).
    apply in_map, I2. apply in_or_app. right. exact Ip.
Qed.

Lemma mixed_due : forall V sv, mixed_relay c pc dk V sv -> due c P V sv.
Proof.
  intros V sv H. pose proof mixed_entries as HE. pose proof mixed_not_files as NF.
  induction H as [cl sampling o s n dn g sv H PK EN ED RS
                 |V sv cl sampling o ok s n sv' HR IH H PK RS
                 |V sv f sampling o s n dn g sv' HR IH H PK EN ED RS
                 |V sv cl sampling o ok s n HR IH H PK
                 |V sv f sampling o s n HR IH H PK
                 |V sv sv' HR IH E].
  - eapply due_prime; eassumption.
  - eapply due_again; eassumption.
  - destruct (due_fdue _ _ IH) as (bef & F & J1 & J2). apply (fast_step V bef); [|exact J1|exact J2]. eapply fdue_again; eassumption.
  - eapply due_retry; eassumption.
  - destruct (due_fdue _ _ IH) as (bef & F & J1 & J2). apply (fast_step V bef); [|exact J1|exact J2]. eapply fdue_retry; eassumption.
  - exact (due_stored c P V sv sv' IH E).
Qed.

Theorem mixed_finished : forall V sv sampling, mixed_relay c pc dk V sv ->
  (exists s bef, spawn_session (with_client client_nil c) sampling pc dk sv = (Ret None, true, s) /\
    map thing P = bef ++ things s /\ (forall q, In q (V ++ things s) <-> In q (map thing P))) /\
  (exists s bef, fastward_session true (with_client client_nil c) sampling pc dk sv = (Ret None, s) /\
    map thing P = bef ++ things s /\ (forall q, In q (V ++ things s) <-> In q (map thing P))).
Proof.
  intros V sv sampling H. apply mixed_due in H. split; [eapply due_finished; eassumption|].
  destruct (due_fdue _ _ H) as (bef & F & J1 & J2).
  destruct (fdue_finished c pc dk P HK RO DS PL mixed_not_files CL PN UN mixed_entries PA bef sv sampling F) as (s & b & E & EP & IN).
  rewrite mixed_within in EP, IN. exists s, (map thing b). split; [exact E|]. split; [rewrite EP, map_app; reflexivity|].
  assert (IT : incl (things s) (map thing P)) by (rewrite EP, map_app; apply incl_appr, incl_refl).
  intro q. split; intro I.
  - apply in_app_or in I. destruct I as [I|I]; [apply J2; exact I|apply IT; exact I].
  - apply in_map_iff in I. destruct I as (p & <- & Ip). apply IN in Ip. apply in_or_app. apply in_app_or in Ip.
    destruct Ip as [Ip|Ip]; [left; apply J1, in_map, Ip|right; apply (in_map thing), Ip].
Qed.
Theorem mixed_stretch : forall V sv, mixed_relay c pc dk V sv ->
  exists bef x tl, P = bef ++ x :: tl /\ sv_path sv = pl_path x /\ incl (map thing bef) V /\ incl V (map thing P).
Proof.
  intros V sv H. apply mixed_due in H. destruct H as (_ & bef & x & tl & A & _ & B & C & D). eauto 8.
Qed.
End Mixed.

Section MixedWay.
Variable env : environment.
Variable mt : matchers.
Variable ws : list with_option.
Variable tree : string.
Variable pc : pathcalc.
Variable dk : disk.
Hypothesis FL : unfiltered ws.
Hypothesis NT : tree <> "".
Hypothesis UT : utf8 tree.
Let c := session_cfg env ws tree SubUniversal client_nil (reads ws) None None.
Hypothesis HK : hooks_ok c.
Hypothesis RO : root_ok c (dk tree).
Variable P : list place.
Hypothesis HP : preorder (entries_all c) [] tree (dk tree) P.
Hypothesis DS : default_skip c.
Hypothesis DZ : depth_asked ws = 0%N.
Hypothesis SS : stable_sort c.
Hypothesis CL : clean tree = tree.
Hypothesis PN : proper_names (dk tree).
Hypothesis UN : distinct_names c tree (dk tree).
Hypothesis TD : tidy c pc dk P.
Hypothesis PA : passable c pc P.
Hypothesis UP : Forall (fun q => utf8 (pl_path q)) P.

Lemma mixed_utf8 : forall V sv, mixed_relay c pc dk V sv -> utf8 (sv_path sv).
Proof.
  intros V sv R. destruct (mixed_stretch c pc dk P HK RO DS (conj eq_refl eq_refl) eq_refl DZ SS CL PN UN HP TD PA V sv R)
    as (bef & x & tl & EP & SP & _).
  rewrite SP. rewrite Forall_forall in UP. apply UP. rewrite EP. apply in_or_app. right. left. reflexivity.
Qed.
Lemma mixed_holds_kept : forall doc sv, holds ws tree SubUniversal doc sv ->
  holds ws tree SubUniversal doc (ac_saved (kept_state (mkActive sv false false))).
Proof. intros doc sv (o0 & K & M & A & B). exists o0. split; [exact K|]. split; [|split; [exact A|exact B]]. rewrite <- M. reflexivity. Qed.

Lemma mixed_journey_relay : forall V doc, mixed_journey env mt ws tree pc dk V doc ->
  exists sv, holds ws tree SubUniversal doc sv /\ mixed_relay c pc dk (map thing V) sv.
Proof.
  intros V doc J. induction J as [cl n sv doc ST D RS M|V doc st cl n sv a o doc' J IH WH [f BC] ST D RS L M|V doc st cl n J IH WH [f BC] ST].
  - destruct (started_is env mt ws tree SubUniversal dk FL NT cl) as (o & s & H & E). rewrite E in *. cbn [rp_trace] in *.
    assert (HP' : preorder (entries c) [] tree (dk tree) P) by exact HP.
    destruct (prime_sub env ws tree SubUniversal dk HK RO P HP' DS ltac:(discriminate) cl s o n sv H ST D RS) as [T S].
    exists sv. split; [apply (start_holds env mt ws tree SubUniversal FL NT cl); assumption|].
    rewrite called_things. destruct D as (d & g & EN & ED). exact (mixed_prime c pc dk cl (sampled ws) o s n d g sv H ST EN ED RS).
  - destruct IH as (sv0 & H0 & R0). pose proof (mixed_utf8 _ _ R0) as U0.
    pose proof (mixed_stored c pc dk _ _ _ R0 (kept_same sv0)) as R1. destruct WH as [-> | ->].
    + destruct (spawn_report_is env mt ws tree SubUniversal pc dk FL NT UT doc sv0 cl H0 U0) as (oo & ok & s & H & E).
      rewrite E in *. cbn [rr_trace] in *.
      pose proof (mixed_spawn c pc dk _ _ cl (sampled ws) oo ok s n sv R1 H ST RS) as R2.
      assert (X : sv_tree sv = tree /\ sv_sub sv = SubUniversal).
      { destruct ST as (pre & p & EC & FN).
        destruct (n_parent n) as [d|] eqn:EN.
        - destruct (spawn_interrupted (with_client cl c) (sampled ws) pc dk _ oo ok s n p d HK H) as (pre1 & sv1 & b1 & a1 & _ & _ & _ & RS1 & _ & _ & (A & B & _));
            [rewrite EC; apply in_or_app; right; left; reflexivity|exact EN|].
          assert (sv1 = sv) by congruence. subst sv1. split; [exact A|exact B].
        - exfalso. destruct (spawned_entry_escapes (with_client cl c) (sampled ws) pc dk _ oo ok s n p HK H) as (_ & _ & Z & _);
            [rewrite EC; apply in_or_app; right; left; reflexivity|exact EN|]. congruence. }
      exists sv. split; [apply (next_holds env ws tree SubUniversal FL UT doc sv0 a o); try assumption; apply X|].
      rewrite map_app, called_things. exact R2.
    + destruct (fastward_report_is env mt ws tree SubUniversal pc dk FL NT UT doc sv0 cl H0 U0) as (oo & s & H & E).
      rewrite E in *. cbn [rr_trace] in *. destruct (D eq_refl) as (d & g & EN & ED).
      assert (X : sv_tree sv = tree /\ sv_sub sv = SubUniversal).
      { destruct ST as (pre & p & EC & FN).
        destruct (fastward_interrupted true (with_client cl c) (sampled ws) pc dk _ oo s n p d HK H) as (pre1 & sv1 & b1 & a1 & _ & _ & _ & RS1 & _ & (A & B & _));
          [rewrite EC; apply in_or_app; right; left; reflexivity|exact EN|].
        assert (sv1 = sv) by congruence. subst sv1. split; [exact A|exact B]. }
      rewrite BC in H.
      pose proof (mixed_fastward c pc dk _ _ f (sampled ws) oo s n d g sv R1 H ST EN ED RS) as R2.
      exists sv. split; [apply (next_holds env ws tree SubUniversal FL UT doc sv0 a o); try assumption; apply X|].
      rewrite map_app, called_things. exact R2.
  - destruct IH as (sv0 & H0 & R0). pose proof (mixed_utf8 _ _ R0) as U0.
    pose proof (mixed_stored c pc dk _ _ _ R0 (kept_same sv0)) as R1.
    exists (ac_saved (kept_state (mkActive sv0 false false))). split; [apply mixed_holds_kept; exact H0|]. rewrite map_app.
    destruct WH as [-> | ->].
    + destruct (spawn_report_is env mt ws tree SubUniversal pc dk FL NT UT doc sv0 cl H0 U0) as (oo & ok & s & H & E).
      rewrite E in *. cbn [rr_trace] in *. rewrite called_things. exact (mixed_spawn_retry c pc dk _ _ cl (sampled ws) oo ok s n R1 H ST).
    + destruct (fastward_report_is env mt ws tree SubUniversal pc dk FL NT UT doc sv0 cl H0 U0) as (oo & s & H & E).
      rewrite E in *. cbn [rr_trace] in *. rewrite BC in H. rewrite called_things.
      exact (mixed_fastward_retry c pc dk _ _ f (sampled ws) oo s n R1 H ST).
Qed.
End MixedWay.

Theorem mixed_journey_finished : forall env mt ws tree pc dk P,
  unfiltered ws -> hooks_sound ws -> undisturbed env ws (dk tree) -> depth_asked ws = 0%N ->
  tree <> "" -> clean tree = tree -> utf8 tree -> proper_names (dk tree) ->
  let c := session_cfg env ws tree SubUniversal client_nil (reads ws) None None in
  stable_sort c -> distinct_names c tree (dk tree) -> preorder (entries_all c) [] tree (dk tree) P -> tidy c pc dk P -> passable c pc P ->
  Forall (fun q => utf8 (pl_path q)) P ->
  forall V doc st, mixed_journey env mt ws tree pc dk V doc -> st = StrategySpawn \/ st = StrategyFastward ->
  let r := resumed_from env mt ws st pc dk doc client_nil in
  rr_outcome r = Ret None /\ rr_complete r = true /\
  (exists bef, map thing P = bef ++ map thing (places_called (rr_trace r))) /\
  (forall q, In q (map thing (V ++ places_called (rr_trace r))) <-> In q (map thing P)).
Proof.
  intros env mt ws tree pc dk P FL HS UD DZ NT CL UT PN c SS UN HP TD PA UP V doc st J WH r.
  pose proof (sound_hooks env ws tree SubUniversal HS) as HK. destruct (undisturbed_root env ws tree SubUniversal _ UD) as [RO DS].
  fold c in HK, RO, DS.
  destruct (mixed_journey_relay env mt ws tree pc dk FL NT UT HK RO P HP DS DZ SS CL PN UN TD PA UP V doc J) as (sv & H & R).
  fold c in R.
  pose proof (mixed_utf8 env ws tree pc dk HK RO P HP DS DZ SS CL PN UN TD PA UP _ _ R) as U.
  pose proof (mixed_stored c pc dk _ _ _ R (kept_same sv)) as R1.
  destruct (mixed_finished c pc dk P HK RO DS (conj eq_refl eq_refl) eq_refl DZ SS CL PN UN HP TD PA _ _ (sampled ws) R1)
    as [(s1 & b1 & E1 & P1 & I1) (s2 & b2 & E2 & P2 & I2)].
  unfold r. destruct WH as [-> | ->].
  - destruct (spawn_report_is env mt ws tree SubUniversal pc dk FL NT UT doc sv client_nil H U) as (o & ok & s & E & ER). fold c in E.
    rewrite E in E1. inversion E1; subst o ok s1.
    rewrite ER. cbn [rr_outcome rr_complete rr_trace]. split; [reflexivity|]. split; [reflexivity|].
    split; [exists b1; exact P1|]. intro q. rewrite map_app. apply I1.
  - destruct (fastward_report_is env mt ws tree SubUniversal pc dk FL NT UT doc sv client_nil H U) as (o & s & E & ER). fold c in E.
    rewrite E in E2. inversion E2; subst o s2.
    rewrite ER. cbn [rr_outcome rr_complete rr_trace]. split; [reflexivity|]. split; [reflexivity|].
    split; [exists b2; exact P2|]. intro q. rewrite map_app. apply I2.
Qed.
