(** Property C123: conditional options (pref/options.go:62-96). [with_setting env w]:
    the option which the client makes by With...; an option is [None] where
    Go's is nil. *)
From Verif Require Import Base Paths Level Kernel Defaults Session Spec Filters Hooks Life Options Build SpecBuild
  Persist Resume Cases CasesFacts BuildFacts BuildCases FilterCases.
Local Open Scope string_scope.

Lemma apply_nil_left_out : forall l1 l2 o, apply (l1 ++ None :: l2) o = apply (l1 ++ l2) o.
Proof.
  induction l1 as [|[f|] l1 IH]; intros l2 o; cbn; [reflexivity| |apply IH]. destruct (f o) as [o1 [e|]]; [reflexivity|apply IH].
Qed.
Lemma prime_by_options : forall env mt fac ss ss', get_options env ss = get_options env ss' ->
  forall t, walk_prime env mt fac ss t = walk_prime env mt fac ss' t.
Proof.
  intros env mt [u|r] ss ss' E t; unfold walk_prime, build_prime; [|reflexivity]. unfold prime_options. rewrite E. reflexivity.
Qed.
Lemma resume_by_options : forall env mt rs fac ss ss', (forall o, bind_options o ss = bind_options o ss') ->
  forall pc dk, walk_resume env mt rs fac ss pc dk = walk_resume env mt rs fac ss' pc dk.
Proof.
  intros env mt rs fac ss ss' E pc dk. unfold walk_resume, build_resume, resume_load.
  destruct fac as [u|r]; [reflexivity|]. destruct (rs_file rs (re_from r)) as [doc|e]; [|reflexivity].
  destruct (unmarshal env doc) as [[[[a o] [e|]]|e]|q|]; try reflexivity. rewrite E. reflexivity.
Qed.

(** *** C123 *)
(** What Navigate does with a conditional option among the others, for a prime
    facade: exactly what it does with the chosen option in this place, or with
    none there. *)
Theorem c123_prime : forall env mt fac before after t b s s' (f f' : unit -> option setting),
  let run l := walk_prime env mt fac l t in
  run (before ++ if_option b s :: after)%list = run (before ++ (if b then [s] else []) ++ after)%list /\
  run (before ++ if_option_f b f :: after)%list = run (before ++ (if b then [f tt] else []) ++ after)%list /\
  run (before ++ if_else_option_f b f f' :: after)%list = run (before ++ (if b then f tt else f' tt) :: after)%list /\
  run (before ++ if_option b s :: if_option (negb b) s' :: after)%list = run (before ++ (if b then s else s') :: after)%list.
Proof.
  intros env mt fac before after t b s s' f f'.
  assert (G : forall l1 l2, get_options env (l1 ++ None :: l2) = get_options env (l1 ++ l2)) by (intros; apply apply_nil_left_out).
  assert (P : forall l1 l2, walk_prime env mt fac (l1 ++ None :: l2) t = walk_prime env mt fac (l1 ++ l2) t) by (intros; apply prime_by_options, G).
  destruct b; cbn [if_option if_option_f if_else_option_f negb app].
  - split; [reflexivity|]. split; [reflexivity|]. split; [reflexivity|].
    change (before ++ s :: None :: after)%list with (before ++ [s] ++ None :: after)%list. rewrite app_assoc, P, <- app_assoc. reflexivity.
  - split; [apply P|]. split; [apply P|]. split; [reflexivity|]. apply P.
Qed.
Print Assumptions c123_prime.
(** The same for a resume. *)
Theorem c123_resume : forall env mt rs fac pc dk before after b s s' (f f' : unit -> option setting),
  let run l := walk_resume env mt rs fac l pc dk in
  run (before ++ if_option b s :: after)%list = run (before ++ (if b then [s] else []) ++ after)%list /\
  run (before ++ if_option_f b f :: after)%list = run (before ++ (if b then [f tt] else []) ++ after)%list /\
  run (before ++ if_else_option_f b f f' :: after)%list = run (before ++ (if b then f tt else f' tt) :: after)%list /\
  run (before ++ if_option b s :: if_option (negb b) s' :: after)%list = run (before ++ (if b then s else s') :: after)%list.
Proof.
  intros env mt rs fac pc dk before after b s s' f f'.
  assert (G : forall l1 l2 o, bind_options o (l1 ++ None :: l2) = bind_options o (l1 ++ l2)) by (intros; apply apply_nil_left_out).
  assert (P : forall l1 l2, walk_resume env mt rs fac (l1 ++ None :: l2) pc dk = walk_resume env mt rs fac (l1 ++ l2) pc dk) by (intros; apply resume_by_options, G).
  destruct b; cbn [if_option if_option_f if_else_option_f negb app].
  - split; [reflexivity|]. split; [reflexivity|]. split; [reflexivity|].
    change (before ++ s :: None :: after)%list with (before ++ [s] ++ None :: after)%list. rewrite app_assoc, P, <- app_assoc. reflexivity.
  - split; [apply P|]. split; [apply P|]. split; [reflexivity|]. apply P.
Qed.
Print Assumptions c123_resume.
Example c123_case :
  let run ss := let r := walk_prime env0 mt0 (FacUsing (using_ SubUniversal None)) ss tree1 in
    (rp_outcome r, map n_path (nodes_of r)) in
  let depth k := Some (with_setting env0 (WithDepth k)) in
  run [if_option true (depth 1%N)] = (Ret None, ["/r"; "/r/A"; "/r/b"; "/r/c"; "/r/Z"]) /\
  run [if_option false (depth 1%N)] = (Ret None, ["/r"; "/r/A"; "/r/A/B"; "/r/A/B/y"; "/r/A/x"; "/r/b"; "/r/c"; "/r/Z"]) /\
  run [if_else_option_f false (fun _ => depth 1%N) (fun _ => None)] = run [] /\
  run [None; if_option false (Some (fun o => (o, Some (Err (Plain 7))))); depth 1%N] = run [depth 1%N] /\
  run [if_option true (Some (fun o => (o, Some (Err (Plain 7))))); depth 1%N] = (Ret (Some (Err (Plain 7))), []).
Proof. repeat (split; [vm_compute; reflexivity|]). vm_compute; reflexivity. Qed.
