(** Sampled sessions, from the options to the callbacks. *)
From Verif Require Import Base Paths Level Lo Kernel Session Defaults Spec KernelFacts WalkFacts SessionFacts Filters SpecFilter FiltersFacts Hooks Life SpecHooks HooksFacts
  Options Build SpecBuild ReadFacts Feature HibFacts WalkCor WalkProps BuildFacts BuildProps ReuseFacts Settle FilterProps.
From Coq Require Import Permutation.

Lemma plan_inactive : forall mt fo so ho, filtering_active fo = false -> hib_active ho = false ->
  plan mt fo so ho = Some (None, None, if sampling_active so then [sample_listener so] else []).
Proof. intros mt fo so ho F H. unfold plan. rewrite F, H. reflexivity. Qed.

Lemma subscription_eq_dec' : forall a b : subscription, {a = b} + {a <> b}.
Proof. decide equality. Qed.

(** A plain session whose read hook finds only kids, and nothing in a file. *)
Section Plain.
Variable env : environment.
Variable ws : list with_option.
Variable tree : string.
Variable sub : subscription.
Variable t : fsnode.
Variable rd : read_fn.
Variable smp : bool.
Hypothesis UD : undisturbed env ws t.
Hypothesis SO : forall l, Permutation (latest sets_sort ws default_sort l) l.
Hypothesis RK : forall p e x, In x (fst (rd p e)) -> In x (fkids e).
Hypothesis RF : forall p e, fisdir e = false -> fst (rd p e) = [].
Hypothesis RE : sub = SubFiles -> forall p e, snd (rd p e) = None \/ fst (rd p e) = [].
Let c := session_cfg env ws tree sub cnil rd None None.
Let listing_of (p : string) (e : fsnode) : list fsnode :=
  arranged ws sub (filter (fun x => negb (fisdir x)) (fst (rd p e))) (filter fisdir (fst (rd p e))).

Lemma sorted_nil : latest sets_sort ws default_sort [] = [].
Proof. apply Permutation_nil. symmetry. apply SO. Qed.
Lemma plain_walk : exists P s, preorder listing_of [] tree t P /\ session c smp t = (Ret None, s) /\
  map place_of (visited s) = told sub (filter (within (depth_asked ws) 0) P).
Proof.
  assert (HK : hooks_ok c) by (split; [exact RK|exact SO]).
  destruct UD as [U1 U2].
  assert (RO : root_ok c t) by exact U2.
  assert (DS : default_skip c) by (intros n k e; change (c_ask c) with (latest sets_skip ws default_ask); rewrite U1; reflexivity).
  assert (PL : plain c) by (split; reflexivity).
  assert (NC : nil_callback c) by (intros tr n; reflexivity).
  assert (EA : sub = SubUniversal \/ sub = SubFiles -> forall p e, entries_all c p e = listing_of p e).
  { intros S p e. unfold entries_all, listing_of, arranged. change (c_read c) with rd. change (c_sort c) with (latest sets_sort ws default_sort).
    change (c_files_first c) with (latest sets_files_first ws false).
    destruct (fisdir e) eqn:D; [destruct S as [-> | ->]; reflexivity|]. rewrite (RF p e D). cbn [filter].
    destruct S as [-> | ->]; rewrite sorted_nil; destruct (latest sets_files_first ws false); reflexivity. }
  assert (ED : sub = SubDirectories \/ sub = SubDirectoriesWithFiles -> forall p e, entries_dirs c p e = listing_of p e).
  { intros S p e. unfold entries_dirs, listing_of, arranged. destruct S as [-> | ->]; reflexivity. }
  assert (EE : forall p e, entries c p e = listing_of p e).
  { intros p e. unfold entries. change (c_sub c) with sub. destruct sub; [apply EA|apply ED|apply ED|apply EA]; auto. }
  destruct (preorder_exists c HK [] tree t) as [P HP].
  exists P. 
  assert (HL : preorder listing_of [] tree t P) by (eapply (proj1 (preorder_ext _ _ EE)); exact HP).
  destruct (subscription_eq_dec' sub SubFiles) as [S|S].
  - assert (LE : forall p e, listing_of p e = entries_files c p e).
    { intros p e. rewrite <- EA by auto. unfold entries_files. change (c_read c) with rd.
      destruct (RE S p e) as [E|E]; [rewrite E; reflexivity|].
      destruct (snd (rd p e)); [|reflexivity]. unfold entries_all. change (c_read c) with rd. rewrite E. cbn [filter].
      change (c_sort c) with (latest sets_sort ws default_sort). rewrite sorted_nil. destruct (fisdir e), (c_files_first c); reflexivity. }
    destruct (files_nil c smp t P HK RO DS PL NC S) as (s & E & M).
    { eapply (proj1 (preorder_ext _ _ LE)). exact HL. }
    exists s. split; [exact HL|]. split; [exact E|]. rewrite S. exact M.
  - destruct (session_total c smp t) as (o & s & H).
    destruct (plain_nil _ _ _ _ _ HK RO PL NC H) as [E FN].
    destruct (walk_nil _ _ _ _ _ _ HK RO DS S HP H FN) as [-> EM].
    exists s. split; [exact HL|]. split; [exact H|]. unfold visited. rewrite map_map, E.
    assert (X : forall l, told sub l = l) by (intro l; destruct sub; [contradiction|reflexivity..]). rewrite X. exact EM.
Qed.
End Plain.

(** ** Sampling *)
Section Sampled.
Variable env : environment.
Variable mt : matchers.
Variable u : prime_facade.
Variable ws : list with_option.
Variable t : fsnode.
Variable sub : subscription.
Hypothesis OR : ordinary u ws sub.
Hypothesis UD : undisturbed env ws t.
Let so := latest sets_sampling ws no_sampling.
Let rd0 := latest sets_read ws default_read.
Let l2 := if sampling_active so then [sample_listener so] else [].

Lemma union_none : union so [] [] = [].
Proof.
  unfold union. destruct (so_reverse so); unfold last_n, first_n; cbn; rewrite ?Nat.min_0_r; cbn; rewrite ?firstn_nil, ?skipn_nil; reflexivity.
Qed.
Lemma sampled_kids : forall (m : list fsnode -> list fsnode) ls, ls = filter_listener m :: l2 \/ ls = l2 ->
  (forall l e, In e (m l) -> In e l) ->
  forall p e x, In x (fst (then_all rd0 ls p e)) -> In x (fkids e).
Proof.
  intros m ls L M p e x I. destruct OR as (_ & _ & _ & _ & _ & (R & _)). apply (R p). fold rd0.
  assert (U : forall l, In x (union so (files_of l) (dirs_of l)) -> In x l).
  { intros l J. apply union_in in J. destruct J as [J|J]; apply filter_In in J; apply J. }
  unfold then_all in I. destruct L as [-> | ->]; unfold l2 in I; destruct (sampling_active so); cbn [fold_left] in I.
  - unfold sample_listener, filter_listener in I. cbn [fst] in I. apply U, M in I. exact I.
  - unfold filter_listener in I. cbn [fst] in I. apply M in I. exact I.
  - unfold sample_listener in I. cbn [fst] in I. apply U in I. exact I.
  - exact I.
Qed.
Lemma sampled_leaf : forall (m : list fsnode -> list fsnode) ls, ls = filter_listener m :: l2 \/ ls = l2 ->
  (forall l e, In e (m l) -> In e l) ->
  forall p e, fisdir e = false -> fst (then_all rd0 ls p e) = [].
Proof.
  intros m ls L M p e F. destruct OR as (_ & _ & _ & _ & _ & (_ & R & _)). specialize (R p e F). fold rd0 in R.
  assert (M0 : m [] = []). { destruct (m []) as [|x l] eqn:E; [reflexivity|]. destruct (M [] x). rewrite E. left. reflexivity. }
  unfold then_all. destruct L as [-> | ->]; unfold l2; destruct (sampling_active so); cbn [fold_left];
    unfold sample_listener, filter_listener; cbn [fst]; rewrite R, ?M0; cbn; try apply union_none; reflexivity.
Qed.
Lemma sampled_error : forall (m : list fsnode -> list fsnode) ls, ls = filter_listener m :: l2 \/ ls = l2 ->
  (forall l e, In e (m l) -> In e l) -> sampling_active so = true \/ clean_reads ws ->
  forall p e, snd (then_all rd0 ls p e) = None \/ fst (then_all rd0 ls p e) = [].
Proof.
  intros m ls L M C p e.
  assert (M0 : m [] = []). { destruct (m []) as [|x l] eqn:E; [reflexivity|]. destruct (M [] x). rewrite E. left. reflexivity. }
  unfold then_all. destruct (sampling_active so) eqn:A.
  - left. unfold l2 in L. destruct L as [-> | ->]; reflexivity.
  - destruct C as [C|C]; [discriminate|]. specialize (C p e). fold rd0 in C. unfold l2 in L.
    destruct L as [-> | ->]; cbn [fold_left]; [|exact C]. unfold filter_listener. cbn [fst snd].
    destruct C as [C|C]; [left; exact C|right; rewrite C; exact M0].
Qed.

(** The files and directories which the read hook with its listeners yields. *)
Lemma sampled_parts : forall l fs ds, files_of l = fs -> dirs_of l = ds ->
  let l' := fst (fold_left (fun r li => li (fst r) (snd r) EmptyString t) l2 (l, None)) in
  sampled_part so (so_files so) fs (files_of l') /\ sampled_part so (so_dirs so) ds (dirs_of l').
Proof.
  intros l fs ds F D. unfold l2, sampling_active, sampled_part. destruct (so_type so); cbn [fold_left fst]; [auto|..];
    unfold sample_listener; cbn [fst]; rewrite <- F, <- D; apply union_parts; try apply files_are; apply dirs_are.
Qed.
Lemma listeners_blind : forall l er er' p e p' e',
  fst (fold_left (fun r li => li (fst r) (snd r) p e) l2 (l, er)) = fst (fold_left (fun r li => li (fst r) (snd r) p' e') l2 (l, er')).
Proof. intros. unfold l2. destruct (sampling_active so); reflexivity. Qed.

Lemma sampled_session : latest sets_filter ws no_filter = no_filter -> sampling_active so = true ->
  exists es P tr m, walk_prime env mt (FacUsing u) (options_of env ws) t = mkReport (Ret None) tr (Some m) /\
    (forall p e, exists fs ds, es p e = arranged ws sub fs ds /\
       taken (so_reverse so) (so_files so) (files_read ws p e) fs /\ taken (so_reverse so) (so_dirs so) (dirs_read ws p e) ds) /\
    preorder es [] (us_tree u) t P /\
    map place_of (map fst (calls tr)) = told sub (filter (within (depth_asked ws) 0) P).
Proof.
  intros NF SA. pose proof (ordinary_facade _ _ _ OR) as CF. pose proof OR as (NO & _ & SU & HA & NH & HS).
  pose proof (walk_settled env mt u ws sub cnil None None l2 t NO CF SU HA) as W. rewrite NF in W. fold so in W.
  specialize (W (plan_off _ _ _ (no_hib_inactive _ NH))). destruct W as (o & s & S & E). fold rd0 in S.
  destruct (plain_walk env ws (us_tree u) sub t (then_all rd0 l2) (sampling_active so) UD (proj2 (proj2 HS))) as (P & s' & HP & S' & V).
  - apply (sampled_kids (fun l => l)); auto.
  - apply (sampled_leaf (fun l => l)); auto.
  - intros _. apply (sampled_error (fun l => l)); auto.
  - rewrite S in S'. inversion S'; subst o s'.
    eexists _, P, _, _. split; [exact E|]. split; [|split; [exact HP|exact V]].
    intros p e. eexists _, _. split; [reflexivity|]. unfold files_read, dirs_read.
    destruct (sampled_parts (fst (rd0 p e)) _ _ eq_refl eq_refl) as [A B].
    unfold sampled_part in A, B. unfold then_all. fold rd0.
    rewrite (surjective_pairing (rd0 p e)). rewrite (listeners_blind _ _ None p e EmptyString t).
    unfold sampling_active in SA. unfold files_of, dirs_of in *.
    destruct (so_type so); [discriminate|..]; auto.
Qed.

(** ** Sample filters *)
Lemma tree_scope_root : forall c es tree root n, stands c es tree root t 0 n ->
  scope_is_tree (n_scope n) = fisdir t && match n_pos n with [] => true | _ => false end.
Proof.
  intros c es tree root n S. pose proof (stands_depth _ _ _ _ _ _ _ S) as D.
  assert (AT : attributes c tree n) by (destruct S; assumption).
  assert (RT : n_pos n = [] -> n_src n = t). { destruct S; [auto|]. match goal with H : n_pos n = _ ++ _ |- _ => rewrite H end. intro A. destruct (n_pos p); discriminate. }
  rewrite (at_scope _ _ _ AT), D. unfold expected_scope. destruct (n_pos n) as [|k q]; cbn [length Z.of_nat].
  - rewrite (RT eq_refl), andb_true_r. destruct (fisdir t); [|reflexivity]. destruct (n_leaf n); reflexivity.
  - rewrite andb_false_r. destruct (fisdir (n_src n)); [|reflexivity].
    destruct (Z.eqb_spec (0 + Z.pos (Pos.of_succ_nat (length q))) 0); [lia|].
    destruct (0 + Z.pos (Pos.of_succ_nat (length q)) =? 1)%Z; destruct (n_leaf n); reflexivity.
Qed.

Definition enough (sd : sample_def) : Prop :=
  (asks_for sd ScopeFile -> so_files so <> 0) /\ (asks_for sd ScopeDirectory -> so_dirs so <> 0).
Definition files_alone (sd : sample_def) : Prop := asks_for sd ScopeFile /\ ~ asks_for sd ScopeDirectory.
Definition scope_valid (sd : sample_def) : N := let sc := scope_scrub (sd_scope sd) in if (sc =? ScopeUndefined)%N then ScopeAll else sc.
Lemma asks_spec : forall sd k, (asks_for sd k /\ (0 <? N.land (sd_scope sd) k)%N = true) \/ (~ asks_for sd k /\ (0 <? N.land (sd_scope sd) k)%N = false).
Proof. intros sd k. unfold asks_for. destruct (N.ltb_spec 0 (N.land (sd_scope sd) k)); [left|right]; split; try reflexivity; lia. Qed.
Lemma scrub_counts : forall sd, enough sd ->
  scope_is_file (scope_scrub (sd_scope sd)) && Nat.eqb (so_files so) 0 = false /\
  scope_is_directory (scope_scrub (sd_scope sd)) && Nat.eqb (so_dirs so) 0 = false.
Proof.
  intros sd [A B]. unfold scope_scrub, scope_is_file, scope_is_directory.
  destruct (asks_spec sd ScopeFile) as [[F F']|[F F']], (asks_spec sd ScopeDirectory) as [[D D']|[D D']]; rewrite F', D';
    try (apply A, Nat.eqb_neq in F; rewrite F); try (apply B, Nat.eqb_neq in D; rewrite D); rewrite ?andb_false_r; split; reflexivity.
Qed.
Lemma new_sample_builds : forall sd, sample_compiles mt sd -> enough sd ->
  new_sample mt sd so = (Some (sample_matching (scope_valid sd) (fun e => sample_keeps mt sd (fname e))), None).
Proof.
  intros sd C EN. destruct (scrub_counts sd EN) as [X1 X2]. unfold new_sample, sample_keeps. fold so. rewrite X1, X2. fold (scope_valid sd).
  destruct C as [T|[T [rex R]]]; rewrite T; [reflexivity|]. rewrite R. reflexivity.
Qed.
Lemma new_sample_own : forall sd m, sd_type sd = FtCustom -> sd_custom sd = Some (None, m) -> enough sd -> new_sample mt sd so = (Some m, None).
Proof.
  intros sd m T C EN. destruct (scrub_counts sd EN) as [X1 X2]. unfold new_sample. fold so. rewrite X1, X2, T, C. reflexivity.
Qed.
Lemma scrub_files : forall sd, files_alone sd -> scope_valid sd = ScopeFile.
Proof.
  intros sd (A & B). unfold scope_valid, scope_scrub, scope_is_file, scope_is_directory.
  destruct (asks_spec sd ScopeFile) as [[F F']|[F F']], (asks_spec sd ScopeDirectory) as [[D D']|[D D']]; try contradiction. rewrite F', D'. reflexivity.
Qed.
Lemma scrub_dirs : forall sd, ~ files_alone sd -> scope_is_directory (scope_valid sd) = true.
Proof.
  intros sd A. unfold files_alone in A. unfold scope_valid, scope_scrub, scope_is_file, scope_is_directory.
  destruct (asks_spec sd ScopeFile) as [[F F']|[F F']], (asks_spec sd ScopeDirectory) as [[D D']|[D D']]; try tauto; rewrite F', D'; reflexivity.
Qed.
Lemma alone_or_not : forall sd, files_alone sd \/ ~ files_alone sd.
Proof. intro sd. unfold files_alone. destruct (asks_spec sd ScopeFile) as [[]|[]], (asks_spec sd ScopeDirectory) as [[]|[]]; tauto. Qed.
Lemma matching_in : forall sc keep l e, In e (sample_matching sc keep l) -> In e l.
Proof.
  intros sc keep l e. unfold sample_matching, fetch. destruct (scope_is_directory sc); [|destruct (scope_is_file sc)]; rewrite lo_filter_filter;
    intro I; apply in_app_or in I; destruct I as [I|I]; repeat (apply filter_In in I; destruct I as [I ?]); try exact I; destruct I.
Qed.

Lemma plan_sample : forall sd m, new_sample mt sd so = (Some m, None) -> no_hibernation ws ->
  plan mt (only_sample sd) so (hibernate_when ws) = Some (Some (mkScheme (Some (PrimarySampler m)) None), None, filter_listener m :: l2).
Proof.
  intros sd m N NH. unfold plan. rewrite (no_hib_inactive _ NH). unfold filtering_active, create_scheme, create_primary. cbn.
  rewrite N. reflexivity.
Qed.
Lemma filter_and : forall {A} (p q : A -> bool) l, filter p (filter q l) = filter q (filter p l).
Proof.
  intros A p q l. induction l as [|x l IH]; [reflexivity|]. cbn. destruct (q x) eqn:Q, (p x) eqn:PP; cbn; rewrite ?Q, ?PP, IH; reflexivity.
Qed.
Lemma filter_map_place : forall g h l, (forall n, In n l -> g n = h (place_of n)) -> map place_of (filter g l) = filter h (map place_of l).
Proof.
  intros g h l H. induction l as [|n l IH]; [reflexivity|]. cbn. rewrite (H n (or_introl eq_refl)).
  destruct (h (place_of n)); cbn; rewrite IH; auto; intros; apply H; right; assumption.
Qed.

Lemma sample_session_of : forall sd m, sub <> SubDirectoriesWithFiles ->
  latest sets_filter ws no_filter = only_sample sd -> new_sample mt sd so = (Some m, None) -> (forall l e, In e (m l) -> In e l) ->
  so_type so <> StUndefined \/ clean_reads ws ->
  exists es P tr mm, walk_prime env mt (FacUsing u) (options_of env ws) t = mkReport (Ret None) tr (Some mm) /\
    (forall p e, exists fs ds, es p e = arranged ws sub fs ds /\
      sampled_part so (so_files so) (files_of (m (fst (rd0 p e)))) fs /\ sampled_part so (so_dirs so) (dirs_of (m (fst (rd0 p e)))) ds) /\
    preorder es [] (us_tree u) t P /\
    map place_of (map fst (calls tr)) = filter (unless_root (negb (fisdir t) || match m [t] with [] => false | _ => true end))
      (told sub (filter (within (depth_asked ws) 0) P)).
Proof.
  intros sd m ND FO NS MI CR. pose proof (ordinary_facade _ _ _ OR) as CF. pose proof OR as (NO & _ & SU & HA & NH & HS).
  set (ls := filter_listener m :: l2).
  pose proof (walk_settled env mt u ws sub cnil (Some (mkScheme (Some (PrimarySampler m)) None)) None ls t NO CF SU HA) as W.
  rewrite FO in W. fold so in W. specialize (W (plan_sample sd m NS NH)). destruct W as (o & s & S & E). fold rd0 in S.
  assert (LS : ls = filter_listener m :: l2 \/ ls = l2) by (left; reflexivity).
  assert (CR' : sampling_active so = true \/ clean_reads ws).
  { destruct CR as [C|C]; [left|right; exact C]. unfold sampling_active. destruct (so_type so); [contradiction|reflexivity..]. }
  destruct (plain_walk env ws (us_tree u) sub t (then_all rd0 ls) (sampling_active so) UD (proj2 (proj2 HS))) as (P & s' & HP & S' & V).
  - exact (sampled_kids m ls LS MI).
  - exact (sampled_leaf m ls LS MI).
  - intros _. exact (sampled_error m ls LS MI CR').
  - set (c := session_cfg env ws (us_tree u) sub cnil (then_all rd0 ls) None None) in *.
    change (session_cfg env ws (us_tree u) sub cnil (then_all rd0 ls) (Some (mkScheme (Some (PrimarySampler m)) None)) None) with
      (with_features (Some (mkScheme (Some (PrimarySampler m)) None)) None cnil c) in S.
    destruct (sampler_nil c m (sampling_active so) t o s (Ret None) s' ND S S') as [-> VS].
    pose (rt := negb (fisdir t) || match m [t] with [] => false | _ => true end).
    exists (fun p e => arranged ws sub (files_of (fst (then_all rd0 ls p e))) (dirs_of (fst (then_all rd0 ls p e)))), P, (s_trace s), (s_metrics s).
    split; [exact E|]. split; [|split; [exact HP|]].
    + intros p e. eexists _, _. split; [reflexivity|]. 
      assert (TA : forall fs ds, files_of (m (fst (rd0 p e))) = fs -> dirs_of (m (fst (rd0 p e))) = ds ->
        sampled_part so (so_files so) fs (files_of (fst (then_all rd0 ls p e))) /\
        sampled_part so (so_dirs so) ds (dirs_of (fst (then_all rd0 ls p e)))).
      { intros fs ds F D. unfold then_all, ls. cbn [fold_left].
        change (filter_listener m (fst (rd0 p e)) (snd (rd0 p e)) p e) with (m (fst (rd0 p e)), snd (rd0 p e)).
        rewrite (listeners_blind _ _ None p e EmptyString t). apply sampled_parts; assumption. }
      apply TA; reflexivity.
    + fold (visited s). rewrite VS. rewrite <- V. 
      fold rt. rewrite <- (filter_map_place (sampler_passes m) (unless_root rt)); [reflexivity|].
      intros n IN. assert (ST : Forall (stands c (entries c) (c_tree c) (c_tree c) t 0) (visited s')).
      { eapply visited_stands; [| |exact S'].
        - split; [exact (sampled_kids m ls LS MI)|exact (proj2 (proj2 HS))].
        - exact (proj2 UD). }
      rewrite Forall_forall in ST. specialize (ST n IN). unfold sampler_passes, unless_root, rt. cbn [place_of pl_pos].
      rewrite (tree_scope_root _ _ _ _ _ ST). destruct (n_pos n) eqn:PO.
      * assert (n_src n = t). { destruct ST; [assumption|]. match goal with H : n_pos n = _ ++ _ |- _ => rewrite H in PO end. destruct (n_pos p); discriminate. }
        rewrite H. destruct (fisdir t); cbn; rewrite ?orb_false_r; reflexivity.
      * rewrite andb_false_r, orb_true_r. reflexivity.
Qed.

Lemma sample_filter_session : forall sd, sub <> SubDirectoriesWithFiles ->
  latest sets_filter ws no_filter = only_sample sd -> sample_compiles mt sd ->
  (asks_for sd ScopeFile -> so_files so <> 0) -> (asks_for sd ScopeDirectory -> so_dirs so <> 0) ->
  so_type so <> StUndefined \/ clean_reads ws ->
  let only_files := asks_for sd ScopeFile /\ ~ asks_for sd ScopeDirectory in
  exists es P tr m root_too, walk_prime env mt (FacUsing u) (options_of env ws) t = mkReport (Ret None) tr (Some m) /\
    (forall p e, exists fs ds, es p e = arranged ws sub fs ds /\
      (only_files -> sampled_part so (so_files so) (filter (fun x => sample_keeps mt sd (fname x)) (files_read ws p e)) fs /\
         sampled_part so (so_dirs so) (dirs_read ws p e) ds) /\
      (~ only_files -> sampled_part so (so_files so) (files_read ws p e) fs /\
         sampled_part so (so_dirs so) (filter (fun x => sample_keeps mt sd (fname x)) (dirs_read ws p e)) ds)) /\
    preorder es [] (us_tree u) t P /\
    (root_too = true <-> (~ only_files -> fisdir t = true -> sample_keeps mt sd (fname t) = true)) /\
    map place_of (map fst (calls tr)) = filter (unless_root root_too) (told sub (filter (within (depth_asked ws) 0) P)).
Proof.
  intros sd ND FO CP E1 E2 CR only_files. change only_files with (files_alone sd). clear only_files.
  pose proof (new_sample_builds sd CP (conj E1 E2)) as NS. set (m := sample_matching _ _) in NS.
  destruct (sample_session_of sd m ND FO NS (matching_in (scope_valid sd) (fun e => sample_keeps mt sd (fname e))) CR) as (es & P & tr & mm & W & ES & HP & V).
  exists es, P, tr, mm. eexists. split; [exact W|]. split; [|split; [exact HP|split; [|exact V]]].
  - intros p e. destruct (ES p e) as (fs & ds & A & B & C). exists fs, ds. split; [exact A|]. unfold files_read, dirs_read. fold rd0.
    split; intro X; unfold m in B, C.
    + rewrite (scrub_files _ X) in B, C. destruct (sample_files (fun x => sample_keeps mt sd (fname x)) (fst (rd0 p e))) as [F D].
      unfold files_of, dirs_of in *. rewrite F in B. rewrite D in C. split; assumption.
    + destruct (sample_dirs (scope_valid sd) (fun x => sample_keeps mt sd (fname x)) (fst (rd0 p e)) (scrub_dirs _ X)) as [F D].
      unfold files_of, dirs_of in *. rewrite F in B. rewrite D in C. split; assumption.
  - unfold m. destruct (alone_or_not sd) as [A|A].
    + rewrite (scrub_files _ A). split; [intros _ B; contradiction|intros _].
      unfold sample_matching, fetch. change (scope_is_directory ScopeFile) with false. change (scope_is_file ScopeFile) with true. cbn iota.
      rewrite lo_filter_filter. destruct (fisdir t) eqn:DT; [|reflexivity]. cbn. rewrite DT. reflexivity.
    + unfold sample_matching, fetch. rewrite (scrub_dirs _ A).
      rewrite lo_filter_filter. destruct (fisdir t) eqn:DT; cbn; rewrite ?DT; cbn [negb filter app].
      * destruct (sample_keeps mt sd (fname t)); cbn; split; auto.
      * split; [intros _ _ X; discriminate|reflexivity].
Qed.
Lemma own_sample_session : forall sd m, sub <> SubDirectoriesWithFiles ->
  latest sets_filter ws no_filter = only_sample sd -> sd_type sd = FtCustom -> sd_custom sd = Some (None, m) ->
  (forall l e, In e (m l) -> In e l) ->
  (asks_for sd ScopeFile -> so_files so <> 0) -> (asks_for sd ScopeDirectory -> so_dirs so <> 0) ->
  so_type so <> StUndefined \/ clean_reads ws ->
  exists es P tr mm root_too, walk_prime env mt (FacUsing u) (options_of env ws) t = mkReport (Ret None) tr (Some mm) /\
    (forall p e, let kept := m (fst (latest sets_read ws default_read p e)) in
      exists fs ds, es p e = arranged ws sub fs ds /\
        sampled_part so (so_files so) (filter (fun x => negb (fisdir x)) kept) fs /\ sampled_part so (so_dirs so) (filter fisdir kept) ds) /\
    preorder es [] (us_tree u) t P /\
    (root_too = true <-> (fisdir t = true -> m [t] <> [])) /\
    map place_of (map fst (calls tr)) = filter (unless_root root_too) (told sub (filter (within (depth_asked ws) 0) P)).
Proof.
  intros sd m ND FO T C MI E1 E2 CR.
  destruct (sample_session_of sd m ND FO (new_sample_own sd m T C (conj E1 E2)) MI CR) as (es & P & tr & mm & W & ES & HP & V).
  exists es, P, tr, mm. eexists. split; [exact W|]. split; [exact ES|]. split; [exact HP|]. split; [|exact V].
  destruct (fisdir t), (m [t]); cbn; split; try reflexivity; try (intros; discriminate).
  intro X. exfalso. exact (X eq_refl eq_refl).
Qed.
End Sampled.
