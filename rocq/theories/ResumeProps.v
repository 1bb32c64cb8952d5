(** Further facts on resumed sessions, for the property theorems. *)
From Verif Require Import Base Paths PathFacts Level Kernel Defaults Session Spec WalkProps Cases CasesFacts Filters Options Build SpecBuild BuildFacts BuildCases Persist SpecPersist PersistFacts
  Resume SpecResume RecoverFacts MuteFacts ResumeBuild ResumeCases ResumeRefuted.
Local Open Scope string_scope.
Local Open Scope list_scope.

(** ** The panic was on an entry of the tree's own directory *)
Theorem root_child_crash : forall c sampling pc dk o s pre n p P,
  let t := dk (c_tree c) in
  hooks_ok c -> root_ok c t -> default_skip c -> plain c -> c_sub c = SubUniversal -> c_depth c = 0%N ->
  clean (c_tree c) = c_tree c -> pc_base pc (c_tree c) = snd (split_path (c_tree c)) ->
  preorder (entries_all c) [] (c_tree c) t P ->
  session c sampling t = (o, s) -> calls (s_trace s) = pre ++ [(n, CPanic p)] ->
  Forall (fun x => snd x = CNil) pre -> length (n_pos n) = 1 ->
  exists sv missed, rescues (s_trace s) = [sv] /\ P = map place_of (visited s) ++ missed /\
    forall sv', sv_tree sv' = sv_tree sv -> sv_path sv' = sv_path sv ->
    (exists s2, spawn_session (with_client client_nil c) sampling pc dk sv' = (Ret None, true, s2) /\ visited s2 = []) /\
    (exists s2, fastward_session true (with_client client_nil c) sampling pc dk sv' = (Pan nil_deref, s2) /\ visited s2 = []).
Proof.
  intros c sampling pc dk o s pre n p P t HK RO DS PL SU DZ CL BA HP H HC FN LN.
  assert (NP : n_pos n <> []) by (destruct (n_pos n); discriminate).
  assert (EU : forall q u, entries c q u = entries_all c q u) by (intros; unfold entries; rewrite SU; reflexivity).
  assert (HP' : preorder (entries c) [] (c_tree c) t P).
  { eapply (proj1 (SessionFacts.preorder_ext (entries_all c) (entries c) ltac:(intros; symmetry; apply EU))). exact HP. }
  destruct (crash_prefix c sampling t o s pre n p P HK RO DS PL ltac:(congruence) HP' H HC FN NP)
    as (sv & dn & old & m & mid & af & RS & EN & ST & _ & SP & SD & SN & EV & EM & EF & FA).
  assert (WT : filter (within (c_depth c) 0) P = P) by (apply WalkCor.filter_true; intro q; rewrite DZ; apply within_0).
  rewrite WT in EF.
  assert (PD : n_path dn = c_tree c).
  { inversion SN as [n' E1 E2 E3 E4|q i e n' HPq NT E1 E2 E3 E4]; subst n'; [congruence|].
    assert (q = dn) by congruence. subst q. rewrite E4, app_length in LN. cbn [length] in LN.
    inversion HPq as [n' F1 F2 F3 F4|q i' e' n' HPq' NT' F1 F2 F3 F4]; subst n'; [exact F1|].
    rewrite F4, app_length in LN. cbn [length] in LN. lia. }
  exists sv, af. split; [exact RS|]. split; [exact EF|]. intros sv' ST' SP'. rewrite ST in ST'. rewrite SP, PD in SP'. split.
  - destruct (spawn_root (with_client client_nil c) sampling pc dk sv') as (s2 & R2 & V2 & _); [congruence|].
    exists s2. split; [exact R2|]. unfold visited. rewrite V2. reflexivity.
  - destruct (fastward_root (with_client client_nil c) sampling pc dk sv') as (s2 & R2 & V2 & _).
    + exact PL.
    + left. exact SU.
    + exact DZ.
    + rewrite ST'. exact RO.
    + rewrite SP', ST'. exact BA.
    + exists s2. split; [exact R2|]. unfold visited. rewrite V2. reflexivity.
Qed.

(** ** What the nodes of a spawn resume say about themselves *)
Lemma spawned_stand_differently : exists c pc dk s0 sv s1 s2 n1 n2,
  interrupted c pc dk s0 sv /\
  session (with_client client_nil c) false (dk (c_tree c)) = (Ret None, s1) /\
  spawn_session (with_client client_nil c) false pc dk sv = (Ret None, true, s2) /\
  In n1 (visited s1) /\ In n2 (visited s2) /\ n_path n1 = n_path n2 /\
  n_depth n1 <> n_depth n2 /\ n_parent n1 <> None /\ n_parent n2 = None.
Proof.
  destruct skip_crash as (s0 & I & _). destruct spawned_standing as [V1 V2].
  assert (R1 : fst (session (base_cfg SubUniversal) false tree4) = Ret None) by (vm_compute; reflexivity).
  assert (R2 : fst (spawn_session calm_cfg false unix_calc disk4 saved4) = (Ret None, true)) by (vm_compute; reflexivity).
  exists (crash "/r/A/c/y"), unix_calc, disk4, s0, saved4.
  change (with_client client_nil (crash "/r/A/c/y")) with calm_cfg.
  assert (ED : disk4 (c_tree (crash "/r/A/c/y")) = tree4) by (vm_compute; reflexivity). rewrite ED.
  change (base_cfg SubUniversal) with calm_cfg in V1, R1.
  destruct (spawn_session calm_cfg false unix_calc disk4 saved4) as [x s2]. cbn [fst snd] in R2, V2. subst x.
  destruct (session calm_cfg false tree4) as [x s1]. cbn [fst snd] in R1, V1. subst x.
  assert (I1 : In ("/r/D", 1%Z, Some "/r") (standing s1)) by (rewrite V1; cbn; auto 10).
  assert (I2 : In ("/r/D", 2%Z, None) (standing s2)) by (rewrite V2; cbn; auto 10).
  unfold standing in I1, I2. apply in_map_iff in I1, I2. destruct I1 as (n1 & E1 & I1), I2 as (n2 & E2 & I2).
  injection E1 as A1 A2 A3. injection E2 as B1 B2 B3.
  exists s1, s2, n1, n2. split; [exact I|]. split; [reflexivity|]. split; [reflexivity|]. split; [exact I1|]. split; [exact I2|].
  split; [congruence|]. split; [rewrite A2, B2; discriminate|]. split; [intro X; rewrite X in A3; discriminate|].
  destruct (n_parent n2); [discriminate|reflexivity].
Qed.

(** ** A relative root *)
Definition dot_cfg (p : string) : cfg := rel_cfg (answer p (CPanic (PVal 1))).
Lemma dot_interrupted : exists s0, interrupted (dot_cfg "c/x") unix_calc (disk_of "." tree7) s0 saved7 /\
  map n_path (visited s0) = ["."; "b"; "b/c"; "c"; "c/x"].
Proof.
  destruct dot_early as (RS & VS & _ & _). fold (dot_cfg "c/x") in RS, VS.
  assert (ED : disk_of "." tree7 (c_tree (dot_cfg "c/x")) = tree7) by (vm_compute; reflexivity).
  assert (E : map snd (calls (s_trace (snd (session (dot_cfg "c/x") false tree7)))) = repeat CNil 4 ++ [CPanic (PVal 1)]) by (vm_compute; reflexivity).
  exists (snd (session (dot_cfg "c/x") false tree7)). split; [|exact VS].
  unfold interrupted. rewrite ED.
  split; [exact (base_hooks SubUniversal)|]. split; [reflexivity|]. split; [intros ? ? ?; reflexivity|]. split; [split; reflexivity|].
  split; [reflexivity|]. split; [reflexivity|]. split; [exact (base_stable SubUniversal)|]. split; [exact unix_sound|].
  split; [vm_compute; reflexivity|]. split; [unfold tree7; names|]. split; [reflexivity|]. split; [exact RS|].
  destruct (session (dot_cfg "c/x") false tree7) as [o s]. cbn [snd] in *. clear RS VS ED.
  destruct (@exists_last _ (calls (s_trace s))) as (pre & [n r] & EL).
  { intro X. rewrite X in E. discriminate. }
  rewrite EL in E. rewrite map_app in E. cbn [map snd] in E. apply app_inj_tail in E. destruct E as [E1 E2]. subst r.
  exists n, (PVal 1), pre. split; [exact EL|]. clear - E1. revert E1. generalize 4. induction pre as [|x pre IH]; intros [|k] E1; cbn in *; try discriminate; [constructor|].
  injection E1 as E1 E2. constructor; [exact E1|]. exact (IH k E2).
Qed.
Lemma dot_repeats : exists c pc dk s sv s2 q,
  interrupted c pc dk s sv /\ c_tree c = "." /\
  fastward_session true (with_client client_nil c) false pc dk sv = (Ret None, s2) /\
  In q (map n_path (visited s)) /\ In q (map n_path (visited s2)) /\ q <> sv_path sv /\ String.prefix (sv_path sv ++ "/") q = false.
Proof.
  destruct dot_interrupted as (s0 & I & V0). destruct dot_early as (_ & _ & _ & V2).
  assert (R2 : fst (fastward_session true (rel_cfg client_nil) false unix_calc (disk_of "." tree7) saved7) = Ret None) by (vm_compute; reflexivity).
  exists (dot_cfg "c/x"), unix_calc, (disk_of "." tree7), s0, saved7.
  change (with_client client_nil (dot_cfg "c/x")) with (rel_cfg client_nil).
  destruct (fastward_session true (rel_cfg client_nil) false unix_calc (disk_of "." tree7) saved7) as [x s2]. cbn [fst snd] in R2, V2. subst x.
  exists s2, "b/c". split; [exact I|]. split; [reflexivity|]. split; [reflexivity|].
  split; [rewrite V0; apply is_in; reflexivity|]. split; [rewrite V2; apply is_in; reflexivity|]. split; [vm_compute; discriminate|vm_compute; reflexivity].
Qed.

(** ** Building *)
Theorem resume_refusals : forall env mt rs ss pc dk,
  (forall u, walk_resume env mt rs (FacUsing u) ss pc dk = mkResumeReport (Ret (Some err_wrong_resume)) [] None false) /\
  (forall r e, rs_file rs (re_from r) = inr e ->
     walk_resume env mt rs (FacRelic r) ss pc dk = mkResumeReport (Ret (Some e)) [] None false) /\
  (forall r o a v e, Forall utf8 (option_texts o) -> utf8 (sv_tree (ac_saved a)) -> utf8 (sv_path (ac_saved a)) ->
     marshal o a None = (Some v, None) -> rs_file rs (re_from r) = inl v -> snd (apply ss (carried env o)) = None ->
     forest_error rs a = Some e ->
     walk_resume env mt rs (FacRelic r) ss pc dk = mkResumeReport (Ret (Some e)) [] None false) /\
  (forall r o a v e, Forall utf8 (option_texts o) -> utf8 (sv_tree (ac_saved a)) -> utf8 (sv_path (ac_saved a)) ->
     marshal o a None = (Some v, None) -> rs_file rs (re_from r) = inl v -> snd (apply ss (carried env o)) = Some e ->
     walk_resume env mt rs (FacRelic r) ss pc dk = mkResumeReport (Ret (Some e)) [] None false).
Proof.
  intros env mt rs ss pc dk. unfold walk_resume, build_resume. split; [reflexivity|]. split.
  { intros r e E. rewrite E. reflexivity. }
  split; intros r o a v e U1 U2 U3 M F.
  - intros AP FE. destruct (resume_loads env o a ss U1 U2 U3) as (v' & M' & L). assert (v' = v) by congruence. subst v'.
    rewrite F, L, AP. change (forest_error rs (kept_state a)) with (forest_error rs a). rewrite FE. reflexivity.
  - intros AP. destruct (resume_loads env o a ss U1 U2 U3) as (v' & M' & L). assert (v' = v) by congruence. subst v'.
    rewrite F, L, AP. reflexivity.
Qed.

(** A relic without a path, a strategy and a handler is accepted. *)
Definition rel_state : active := mkActive (mkSaved "/r" "/r/A" true 1 SubUniversal metrics0) false false.
Definition rel_doc : jv := Eval vm_compute in
  match marshal (default_options env0) rel_state None with (Some v, _) => v | _ => JNull end.
Lemma incomplete_relic : exists env mt rs r ss c sampling sv,
  re_from r = "" /\ re_strategy r = StrategyUndefined /\ re_handler r = None /\
  build_resume env mt rs (FacRelic r) ss = ResumeReady c sampling sv.
Proof.
  exists env0, mt0, (mkRestore (fun _ => inl rel_doc) None), (mkRelic "" StrategyUndefined None), [].
  eexists _, _, _. split; [reflexivity|]. split; [reflexivity|]. split; [reflexivity|]. vm_compute. reflexivity.
Qed.
