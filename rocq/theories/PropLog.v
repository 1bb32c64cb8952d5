(** What is logged. Property C109. *)
From Verif Require Import Base Paths Level Kernel Defaults Session Spec Filters Hooks Life Options Build SpecBuild BuildFacts BuildCases
  Cases CasesFacts FilterCases Persist SpecPersist PersistFacts Resume ResumeCases ResumeProps Log.
Local Open Scope string_scope.
Local Open Scope list_scope.

(** fs.SkipDir, fs.SkipAll, or an error wrapping one of them *)
Definition says_skip (e : error) : Prop := errors_is SkipDir e = true \/ errors_is SkipAll e = true.

(** The full property: the error which Navigate returns, unless it is one of fs's
    skip errors, has been logged once, with the session's logger, and nothing else
    has been. It holds for prime sessions (whose logger is not nil). *)
Theorem c109_prime : forall own env mt fac ss t n, prime_logger own env fac ss = Some n ->
  let '(r, log) := walk_prime_log own env mt fac ss t in
  r = walk_prime env mt fac (plain_all ss) t /\
  match rp_outcome r with
  | Ret (Some e) => (~ says_skip e -> log = [(n, e)]) /\ (log = [] \/ log = [(n, e)])
  | _ => log = []
  end.
Proof.
  intros own env mt fac ss t n L. unfold walk_prime_log, walk_prime. rewrite L. split; [reflexivity|].
  destruct (fst (build_prime env mt fac (plain_all ss))) as [p|e|e|c smp]; cbn [run_built prime_errors].
  - reflexivity.
  - cbn. split; [reflexivity|right; reflexivity].
  - cbn. split; [reflexivity|right; reflexivity].
  - destruct (session c smp t) as [o s]. cbn [rp_outcome]. destruct o as [[e|]|p|]; try reflexivity.
    cbn [benign]. destruct (errors_is SkipDir e || errors_is SkipAll e) eqn:B; cbn [map].
    + split; [|left; reflexivity]. intros N. exfalso. apply N. apply orb_prop in B. exact B.
    + split; [reflexivity|right; reflexivity].
Qed.
Print Assumptions c109_prime.
(** A skip error with which a traversal ends is not logged. *)
Theorem c109_skips_not_logged : forall own env mt fac ss t e c smp,
  fst (build_prime env mt fac (plain_all ss)) = BuildReady c smp -> prime_logger own env fac ss <> None ->
  rp_outcome (walk_prime env mt fac (plain_all ss) t) = Ret (Some e) -> says_skip e ->
  snd (walk_prime_log own env mt fac ss t) = [].
Proof.
  intros own env mt fac ss t e c smp B L O S. unfold walk_prime_log, walk_prime in *. rewrite B in *.
  destruct (prime_logger own env fac ss) as [n|]; [|congruence]. cbn [snd]. cbn [prime_errors]. rewrite O. cbn [benign].
  replace (errors_is SkipDir e || errors_is SkipAll e) with true; [reflexivity|]. symmetry. apply orb_true_intro. exact S.
Qed.
Print Assumptions c109_skips_not_logged.

(** The session's logger is the last one given among the settings, if none of them
    fails; the options given as Using.O keep their own. *)
Fixpoint last_logger (ss : list (option lsetting)) (l : logger) : logger :=
  match ss with
  | [] => l
  | Some (WithLogger x) :: r => last_logger r x
  | _ :: r => last_logger r l
  end.
Lemma logger_last : forall ss o l, snd (apply (plain_all ss) o) = None -> logger_after ss o l = last_logger ss l.
Proof.
  induction ss as [|[[x|f]|] ss IH]; intros o l H; cbn in *; auto.
  destruct (f o) as [o1 [e|]] eqn:F; cbn in *; [discriminate|]. apply IH, H.
Qed.
Theorem c109_which_logger : forall own env u ss,
  (us_options u = None -> snd (apply (plain_all ss) (default_options env)) = None ->
   prime_logger own env (FacUsing u) ss = last_logger ss discard) /\
  (us_options u <> None -> prime_logger own env (FacUsing u) ss = own).
Proof.
  intros own env [tr su ha o] ss. cbn. split.
  - intros -> H. apply logger_last, H.
  - destruct o; [reflexivity|congruence].
Qed.
Print Assumptions c109_which_logger.

(** A nil logger is not a way to log nothing: every session which would return an
    error (one which would be logged) panics instead, without a notification of End. *)
Theorem c109_nil_logger_refuted : forall own env mt fac ss t e, prime_logger own env fac ss = None ->
  rp_outcome (walk_prime env mt fac (plain_all ss) t) = Ret (Some e) -> ~ says_skip e ->
  let r := fst (walk_prime_log own env mt fac ss t) in
  rp_outcome r = Pan nil_deref /\ rp_metrics r = None /\
  (exists after, rp_trace (walk_prime env mt fac (plain_all ss) t) = rp_trace r ++ after /\ calls after = []).
Proof.
  intros own env mt fac ss t e L O N. cbv zeta. unfold walk_prime_log, walk_prime in *. rewrite L.
  destruct (fst (build_prime env mt fac (plain_all ss))) as [p|e1|e1|c smp]; cbn [run_built prime_errors] in *; try discriminate O.
  - cbn. repeat split. exists []. split; reflexivity.
  - cbn. repeat split. eexists. split; reflexivity.
  - unfold unfinished. unfold session in *. cbv zeta in *.
    destruct (navigate c t (dispatch (mu_begin (s_mutes (start_st c smp))) (EvBegin (c_tree c)) (start_st c smp))) as [[e2|p|] s2] eqn:E;
      cbn [rp_outcome] in O; inversion O; subst e2. cbn [rp_outcome]. cbn [benign].
    destruct (errors_is SkipDir e || errors_is SkipAll e) eqn:B.
    + exfalso. apply N. apply orb_prop in B. exact B.
    + cbn [fst snd rp_outcome rp_metrics rp_trace]. repeat split. unfold dispatch. destruct (mu_end (s_mutes s2)).
      * exists []. rewrite app_nil_r. split; reflexivity.
      * cbn. eexists. split; [reflexivity|reflexivity].
Qed.
Print Assumptions c109_nil_logger_refuted.

Definition a_panic : client := answer "/r/A" (CErr (Err (Plain 5))).
Definition logged (l : logger) (cl : client) : report * list (nat * error) :=
  walk_prime_log discard env0 mt0 (FacUsing (mkUsing "/r" (Some SubUniversal) (Some cl) None))
    [Some (WithLogger (Some 3)); None; Some (Ordinary (fun o => (o, None))); Some (WithLogger l)] tree1.
Example c109_case :
  snd (logged (Some 7) a_panic) = [(7, Err (Plain 5))] /\ snd (logged (Some 7) client_nil) = [] /\
  rp_outcome (fst (logged (Some 7) a_panic)) = Ret (Some (Err (Plain 5))) /\
  rp_outcome (fst (logged None a_panic)) = Pan nil_deref /\ rp_outcome (fst (logged None client_nil)) = Ret None /\
  length (calls (rp_trace (fst (logged None a_panic)))) = 2.
Proof. vm_compute. repeat split. Qed.

(** ** Resumes *)

(** The errors of a resume which cannot be built are logged once. *)
Theorem c109_resume_refused : forall n env mt rs fac ss pc dk e,
  (forall c smp sv, build_resume env mt rs fac (plain_all ss) <> ResumeReady c smp sv) ->
  rr_outcome (walk_resume env mt rs fac (plain_all ss) pc dk) = Ret (Some e) ->
  resume_log n env mt rs fac ss = [(n, e)].
Proof.
  intros n env mt rs fac ss pc dk e N O. unfold walk_resume in O. unfold resume_log.
  destruct (build_resume env mt rs fac (plain_all ss)) as [p|e1|e1 sv|c smp sv].
  - discriminate O.
  - inversion O. reflexivity.
  - cbn [run_resume] in O. destruct (match fac with FacRelic r => re_strategy r | FacUsing _ => StrategyUndefined end); inversion O; reflexivity.
  - exfalso. exact (N c smp sv eq_refl).
Qed.
Print Assumptions c109_resume_refused.
(** But the error with which a resumed traversal ends is not logged, whatever it is. *)
Theorem c109_resume_not_logged_refuted :
  (forall n env mt rs fac ss c smp sv, build_resume env mt rs fac (plain_all ss) = ResumeReady c smp sv ->
     resume_log n env mt rs fac ss = []) /\
  (exists env mt rs r ss pc dk e, rr_outcome (walk_resume env mt rs (FacRelic r) (plain_all ss) pc dk) = Ret (Some e) /\
     ~ says_skip e /\ forall n, resume_log n env mt rs (FacRelic r) ss = []).
Proof.
  split.
  - intros n env mt rs fac ss c smp sv B. unfold resume_log. rewrite B. reflexivity.
  - exists env0, mt0, (mkRestore (fun _ => inl rel_doc) None),
      (mkRelic "f" StrategySpawn (Some (fun _ _ => CErr (Err (Plain 5))))), [], unix_calc, (fun _ => tree1), (Err (Plain 5)).
    split; [vm_compute; reflexivity|]. split; [intros [H|H]; discriminate H|]. intros n. vm_compute. reflexivity.
Qed.
Print Assumptions c109_resume_not_logged_refuted.
