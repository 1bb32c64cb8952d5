(** More concurrent runs. Properties C92 and C93. *)
From Verif Require Import Base Paths Level Kernel Defaults Session Spec Filters Hooks Life Options Build SpecBuild Pool PoolFacts
  Cases CasesFacts BuildFacts BuildCases FilterCases ResumeCases ResumeProps Persist Resume SpecResume PropPool PropResume KernelFacts Again RunMore.
From Coq Require Import Permutation Lia.
Local Open Scope string_scope.
Local Open Scope list_scope.

(** ** C92: a concurrent resume *)

(** The sequential resume of the same session with a callback which returns nil. *)
Definition nil_resume (env : environment) (mt : matchers) (rs : restore) (r : relic) (settings : list (option setting))
    (pc : pathcalc) (dk : disk) : resume_report :=
  walk_resume env mt rs (FacRelic (mkRelic (re_from r) (re_strategy r) (Some (fun _ _ => CNil)))) settings pc dk.
Definition resumed_nodes (r : resume_report) : list node := map fst (calls (rr_trace r)).

(** What the navigator does in a concurrent resume (visits, notifications, result,
    metrics, completeness) does not depend on what the callback answers: it is the
    sequential resume with a callback returning nil. *)
Theorem c92_run_is_walk : forall env mt rs r settings pc dk,
  run_resumed env mt rs (FacRelic r) settings pc dk = nil_resume env mt rs r settings pc dk.
Proof.
  intros env mt rs r settings pc dk. unfold run_resumed, nil_resume, walk_resume. cbn [re_strategy]. f_equal.
  unfold build_resume. cbn [re_from re_handler client_of].
  destruct (rs_file rs (re_from r)) as [doc|e]; [|reflexivity].
  destruct (resume_load env doc settings) as [[[[[a|] o] [e|]]|e]|p|]; try reflexivity.
  destruct (forest_error rs a); [reflexivity|].
  pose proof (build_plugins_client mt (afterwards o) (sv_sub (ac_saved a)) (sv_tree (ac_saved a)) (client_of (re_handler r)) sending) as A.
  pose proof (swap_sending mt (afterwards o) (sv_sub (ac_saved a)) (sv_tree (ac_saved a))) as B. rewrite B in A.
  change (fun (_ : list event) (_ : node) => CNil) with sending.
  destruct (build_plugins mt (afterwards o) (sv_sub (ac_saved a)) (sv_tree (ac_saved a)) (client_of (re_handler r))) as [b1 o1].
  destruct (build_plugins mt (afterwards o) (sv_sub (ac_saved a)) (sv_tree (ac_saved a)) sending) as [b2 o2].
  cbn [fst] in A. subst b2. destruct b1; reflexivity.
Qed.
Print Assumptions c92_run_is_walk.

(** Under every schedule, with any number of workers and any size of the channel,
    once nothing more can happen: Navigate has returned and the callback has been
    executed exactly once for each node the sequential resume visits, begun in its
    order (as in C45: if Release lets inputs it has accepted be worked on). *)
Theorem c92_exactly_once : forall env mt rs r settings pc dk now size s, 1 <= now ->
  reachable_pool true now size (resumed_nodes (run_resumed env mt rs (FacRelic r) settings pc dk)) s ->
  (forall s', ~ step true now size s s') ->
  pl_phase s = Returned /\ pl_started s = resumed_nodes (nil_resume env mt rs r settings pc dk) /\
  Permutation (pl_done s) (resumed_nodes (nil_resume env mt rs r settings pc dk)).
Proof.
  intros env mt rs r settings pc dk now size s NW [n R] Q. rewrite c92_run_is_walk in R. apply inv_reach in R.
  pose proof (quiet_finished _ _ _ _ NW s R Q) as F. split; [apply F|].
  apply (finished_all _ _ _ _ eq_refl s R F).
Qed.
Print Assumptions c92_exactly_once.
(** And something can happen until then. *)
Theorem c92_no_deadlock : forall env mt rs r settings pc dk now size s, 1 <= now ->
  reachable_pool true now size (resumed_nodes (run_resumed env mt rs (FacRelic r) settings pc dk)) s ->
  (exists s', step true now size s s') \/
  (pl_phase s = Returned /\ Permutation (pl_done s) (resumed_nodes (nil_resume env mt rs r settings pc dk))).
Proof.
  intros env mt rs r settings pc dk now size s NW [n R]. rewrite c92_run_is_walk in R. apply inv_reach in R.
  assert (D : finished s \/ ~ finished s).
  { unfold finished. destruct s as [todo ph ch h ru st dn]. cbn. destruct ph, ch, h, ru;
      try (right; intros (A & B & C & D); discriminate); left; auto. }
  destruct D as [D|D].
  - right. split; [apply D|]. apply (finished_all _ _ _ _ eq_refl s R D).
  - left. apply (progress _ _ _ _ NW s R D).
Qed.
Print Assumptions c92_no_deadlock.
Definition resumed_run (st : resume_strategy) (cl : client) : resume_report :=
  run_resumed env0 mt0 (mkRestore (fun _ => match saved_doc with Some v => inl v | None => inr err_json end) None)
    (FacRelic (mkRelic "saved.json" st (Some cl))) (options_of env0 []) unix_calc disk4.
Example c92_case :
  map n_path (resumed_nodes (resumed_run StrategySpawn (fun _ _ => CErr (Err SkipAll)))) =
    ["/r/A/c"; "/r/A/c/y"; "/r/A/c/z"; "/r/A/x"; "/r/D"; "/r/D/w"; "/r/e"] /\
  map n_path (resumed_nodes (resumed_run StrategyFastward (fun _ _ => CErr (Err SkipAll)))) =
    ["/r/A/c"; "/r/A/c/y"; "/r/A/c/z"; "/r/A/x"; "/r/D"; "/r/D/w"; "/r/e"].
Proof. split; vm_compute; reflexivity. Qed.

(** ** C93: a worker pool which cannot be made *)

(** Navigations whose pool could be made, any number of them: each does what the
    sequential navigator does with a callback returning nil. *)
Theorem c93_again_partial : forall c sampling ts os n,
  runs c (map (fun t => (None, t)) ts) (concurrent_start c sampling) = (os, n) ->
  (os, cn_st n) = navigations (swap_client sending c) ts (start_st (swap_client sending c) sampling).
Proof.
  intros c sampling ts os n H.
  assert (G : forall ts ch s os n, ch <> ChOpen ->
    runs c (map (fun t => (None, t)) ts) (mkConcurrent None ch s) = (os, n) ->
    (os, cn_st n) = navigations (swap_client sending c) ts s).
  { clear. induction ts as [|t ts IH]; intros ch s os n NO H; cbn [map runs navigations] in *.
    - inversion H. reflexivity.
    - unfold run_drive, run_kernel in H. cbn [cn_st cn_err cn_ch] in H. unfold drive.
      change (c_tree (swap_client sending c)) with (c_tree c).
      destruct (navigate (swap_client sending c) t (dispatch (mu_begin (s_mutes s)) (EvBegin (c_tree c)) s)) as [o1 s1].
      cbn [close_channel cn_ch cn_err cn_st] in H. destruct o1 as [e|p|].
      + cbn [cn_err cn_ch cn_st] in H.
        destruct (runs c (map _ ts) _) as [os2 n2] eqn:R in H. inversion H; subst. clear H.
        apply IH in R; [|discriminate]. destruct (navigations _ ts _) as [os3 s3]. inversion R; subst. reflexivity.
      + destruct (runs c (map _ ts) _) as [os2 n2] eqn:R in H. inversion H; subst. clear H.
        apply IH in R; [|discriminate]. destruct (navigations _ ts _) as [os3 s3]. inversion R; subst. reflexivity.
      + destruct (runs c (map _ ts) _) as [os2 n2] eqn:R in H. inversion H; subst. clear H.
        apply IH in R; [|discriminate]. destruct (navigations _ ts _) as [os3 s3]. inversion R; subst. reflexivity. }
  apply (G ts ChNil (start_st c sampling) os n); [discriminate|exact H].
Qed.
Print Assumptions c93_again_partial.

Lemma runs_app : forall c a b n, runs c (a ++ b) n =
  let '(os, n1) := runs c a n in let '(ps, n2) := runs c b n1 in (os ++ ps, n2).
Proof.
  intros c a. induction a as [|[p t] a IH]; intros b n; cbn [app runs].
  - destruct (runs c b n). reflexivity.
  - destruct (run_drive c p t n) as [o n1]. rewrite IH. destruct (runs c a n1) as [os n2]. destruct (runs c b n2). reflexivity.
Qed.

Lemma one_event_calls : forall b e s, (forall n r, e <> EvCall n r) -> calls (s_trace (dispatch b e s)) = calls (s_trace s).
Proof.
  intros b e s N. destruct b; [reflexivity|]. cbn [dispatch emit s_trace]. rewrite calls_app.
  destruct e; cbn [calls]; try apply app_nil_r. exfalso. eapply N. reflexivity.
Qed.

(** When the first pool cannot be made its error is returned. But then no
    Navigate of that navigator succeeds any more, even if the pool could be made:
    all return the first error and make no callback. *)
Theorem c93_error_sticks_refuted : forall c sampling e t ts os n,
  runs c ((Some e, t) :: ts) (concurrent_start c sampling) = (os, n) ->
  Forall (fun o => o = Ret (Some e)) os /\ length os = S (length ts) /\ calls (s_trace (cn_st n)) = [].
Proof.
  intros c sampling e t ts os n H.
  assert (G : forall ts n0 os n, cn_err n0 = Some e -> cn_ch n0 = ChNil -> runs c ts n0 = (os, n) ->
    Forall (fun o => o = Ret (Some e)) os /\ length os = length ts /\ calls (s_trace (cn_st n)) = calls (s_trace (cn_st n0))).
  { clear. induction ts as [|[p t] ts IH]; intros n0 os n E K H; cbn [runs] in H.
    - inversion H. repeat split; constructor.
    - unfold run_drive, run_kernel in H. cbn [cn_st cn_err cn_ch] in H. rewrite E in H. unfold close_channel in H. cbn [cn_ch] in H. rewrite K in H.
      cbn [cn_st cn_err cn_ch] in H.
      destruct (runs c ts _) as [os1 n1] eqn:R in H. inversion H; subst. apply IH in R; [|reflexivity|reflexivity].
      destruct R as (R1 & R2 & R3). split; [constructor; auto|]. split; [cbn; congruence|].
      rewrite R3. cbn [cn_st]. rewrite !one_event_calls by (intros; discriminate). reflexivity. }
  cbn [runs] in H. unfold run_drive, run_kernel, concurrent_start in H. cbn [cn_st cn_err cn_ch close_channel] in H.
  destruct (runs c ts _) as [os1 n1] eqn:R in H. inversion H; subst. apply G in R; [|reflexivity|reflexivity].
  destruct R as (R1 & R2 & R3). split; [constructor; auto|]. split; [cbn; congruence|].
  rewrite R3. cbn [cn_st]. rewrite !one_event_calls by (intros; discriminate). reflexivity.
Qed.
Print Assumptions c93_error_sticks_refuted.

(** And when a later pool cannot be made, after any number of navigations, Navigate
    does not return the error but panics, and so does every Navigate after. *)
Theorem c93_close_panics_refuted : forall c sampling t0 before e t ts os n,
  runs c (map (fun t => (None, t)) (t0 :: before) ++ (Some e, t) :: ts) (concurrent_start c sampling) = (os, n) ->
  Forall (fun o => o = Pan close_of_closed) (skipn (S (length before)) os) /\ length os = S (length before) + S (length ts).
Proof.
  intros c sampling t0 before e t ts os n H. rewrite runs_app in H.
  assert (A : forall ts n0 os n, cn_err n0 = None -> runs c (map (fun t => (None, t)) ts) n0 = (os, n) ->
    (cn_ch n0 = ChClosed \/ ts <> []) -> cn_err n = None /\ cn_ch n = ChClosed /\ length os = length ts).
  { clear. induction ts as [|t ts IH]; intros n0 os n E H C; cbn [map runs] in H.
    - inversion H; subst. destruct C as [C|C]; [auto|contradiction].
    - assert (S : cn_err (snd (run_drive c None t n0)) = None /\ cn_ch (snd (run_drive c None t n0)) = ChClosed).
      { unfold run_drive, run_kernel. cbn [cn_st cn_err cn_ch]. rewrite E.
        destruct (navigate (swap_client sending c) t _) as [o1 s1]. cbn [close_channel cn_ch cn_err cn_st].
        destruct o1; split; reflexivity. }
      destruct (run_drive c None t n0) as [o1 n1]. cbn [snd] in S. destruct S as [S1 S2].
      destruct (runs c (map _ ts) n1) as [os2 n2] eqn:R in H. inversion H; subst.
      destruct (IH n1 os2 n S1 R (or_introl S2)) as (X1 & X2 & X3). repeat split; auto. cbn. congruence. }
  assert (B : forall ts n0 os n e, cn_err n0 = Some e -> cn_ch n0 = ChClosed -> runs c ts n0 = (os, n) ->
    Forall (fun o => o = Pan close_of_closed) os /\ length os = length ts).
  { clear. induction ts as [|[p t] ts IH]; intros n0 os n e E K H; cbn [runs] in H.
    - inversion H. split; constructor.
    - unfold run_drive, run_kernel in H. cbn [cn_st cn_err cn_ch] in H. rewrite E in H. unfold close_channel in H. cbn [cn_ch] in H. rewrite K in H.
      destruct (runs c ts _) as [os1 n1] eqn:R in H. inversion H; subst. eapply IH in R; [|reflexivity|reflexivity].
      destruct R as (R1 & R2). split; [constructor; auto|]. cbn. congruence. }
  destruct (runs c (map _ (t0 :: before)) _) as [os1 n1] eqn:R in H.
  apply A in R; [|reflexivity|right; discriminate]. destruct R as (E1 & E2 & E3).
  cbn [runs] in H. unfold run_drive at 1, run_kernel in H. cbn [cn_st cn_err cn_ch] in H. rewrite E1 in H.
  unfold close_channel in H at 1. cbn [cn_ch] in H. rewrite E2 in H.
  destruct (runs c ts _) as [os2 n2] eqn:R2 in H. inversion H; subst.
  eapply B in R2; [|reflexivity|reflexivity]. destruct R2 as (F & L).
  change (S (length before)) with (length (t0 :: before)). rewrite <- E3. rewrite skipn_app, skipn_all, Nat.sub_diag. cbn [skipn app].
  split; [constructor; [reflexivity|exact F]|]. rewrite app_length. cbn. lia.
Qed.
Print Assumptions c93_close_panics_refuted.
Definition no_pool : error := Err (Plain 7).
Example c93_case : let c := base_cfg SubUniversal in
  fst (runs c [(None, tree1); (None, tree1)] (concurrent_start c false)) = [Ret None; Ret None] /\
  fst (runs c [(Some no_pool, tree1); (None, tree1)] (concurrent_start c false)) = [Ret (Some no_pool); Ret (Some no_pool)] /\
  fst (runs c [(None, tree1); (Some no_pool, tree1); (None, tree1)] (concurrent_start c false)) =
    [Ret None; Pan close_of_closed; Pan close_of_closed].
Proof. vm_compute. repeat split; reflexivity. Qed.
