(** Poly filters with parts of any kind: proofs. *)
From Verif Require Import Base Paths Level Kernel Defaults Session Spec Filters SpecFilter FiltersFacts Hooks Life AskFacts Options Build SpecBuild
  BuildFacts FilterProps SpecPoly.

Section Parts.
Variable mt : matchers.

Lemma part_builds : forall files d a fo sc, part_says mt files d a -> fo_custom fo = None ->
  sc = (if files then scope_clear (scope_set (fd_scope d) ScopeFile) ScopeDirectory
        else scope_clear (scope_set (fd_scope d) ScopeDirectory) ScopeFile) ->
  is_poly_type (fd_type d) = false /\
  exists f, build_constituent mt (with_scope sc d) fo = Ret (Some f, None) /\
    forall n, scope_ok n -> file_bit n -> dir_bit n -> n_isdir n = negb files -> is_match mt f (Some n) = Ret (a n).
Proof.
  intros files d a fo sc P C SC. destruct P as [files d CM|dir excl items s neg na ans D E F L|dir excl items s neg na D E F].
  - split; [destruct (compiles_type _ _ CM) as [T|T]; rewrite T; reflexivity|].
    destruct (constituent_builds mt d fo sc CM C) as [f B]. exists f. split; [exact B|].
    intros n S FB DB I. assert (TY : fd_type (with_scope sc d) = FtGlob \/ fd_type (with_scope sc d) = FtRegex) by exact (compiles_type _ _ CM).
    rewrite (build_native_accepts mt (with_scope sc d) f n TY S (constituent_accepts _ _ _ _ C TY B)).
    rewrite accepts_with_scope; [reflexivity|]. subst sc. destruct files; cbn [negb] in I.
    + apply enforced_file; assumption.
    + apply enforced_dir; assumption.
  - split; [reflexivity|]. unfold build_constituent, or_func, get_custom. rewrite C. cbn [option_map].
    change (with_scope sc (globex_def dir excl items s neg na)) with (globex_def dir excl items sc neg na).
    rewrite build_globex by assumption. eexists. split; [reflexivity|]. intros n S FB DB I. cbn [negb] in I.
    destruct (globex_answer mt dir excl items sc neg na fo n (ans (n_name n)) D E F C FB (L _)) as (f & NF & M).
    rewrite new_filter_native in NF by (assumption || discriminate). rewrite build_globex in NF by assumption.
    injection NF as <-. rewrite M, I. cbn [negb andb]. reflexivity.
  - split; [reflexivity|]. unfold build_constituent, or_func, get_custom. rewrite C. cbn [option_map].
    change (with_scope sc (globex_def dir excl items s neg na)) with (globex_def dir excl items sc neg na).
    rewrite build_globex by assumption. eexists. split; [reflexivity|]. intros n S FB DB I. cbn [negb] in I.
    destruct (listed_total (fun p x => mt_glob mt (to_lower p) x) (n_name n) items) as [b L].
    destruct (globex_answer mt dir excl items sc neg na fo n b D E F C FB L) as (f & NF & M).
    rewrite new_filter_native in NF by (assumption || discriminate). rewrite build_globex in NF by assumption.
    injection NF as <-. rewrite M, I. cbn [negb andb]. reflexivity.
Qed.

Lemma parts_build : forall file directory af ad, part_says mt true file af -> part_says mt false directory ad ->
  exists f, new_filter mt (poly_def file directory) (only_node (poly_def file directory)) = Ret (Some f, None) /\
  (forall n, n_isdir n = true -> is_match mt f (Some n) = Ret true) /\
  (forall n p, n_isdir n = false -> n_parent n = Some p -> n_isdir p = true ->
     scope_ok n -> file_bit n -> dir_bit n -> scope_ok p -> file_bit p -> dir_bit p ->
     is_match mt f (Some n) = Ret (ad p && af n)).
Proof.
  intros file directory af ad PF PD. set (fo := only_node (poly_def file directory)).
  destruct (part_builds true file af fo _ PF eq_refl eq_refl) as (TF & ff & BF & MF).
  destruct (part_builds false directory ad fo _ PD eq_refl eq_refl) as (TD & df & BD & MD).
  exists (NfPoly ff df). split.
  - unfold new_filter, or_func, build_poly. cbn [fd_type poly_def is_poly_type fo_node fo only_node fd_poly].
    cbn [fd_type with_scope]. rewrite TF. fold (poly_def file directory). fold (only_node (poly_def file directory)). fold fo.
    cbn [fd_type with_scope] in BF, BD. rewrite BF, TD, BD. reflexivity.
  - split.
    + intros n I. cbn [is_match]. rewrite I. reflexivity.
    + intros n p I P IP S1 F1 D1 S2 F2 D2. cbn [is_match]. rewrite I, P, (MD p S2 F2 D2 IP).
      destruct (ad p); [|reflexivity]. rewrite (MF n S1 F1 D1 I). reflexivity.
Qed.
End Parts.

Lemma parts_session : forall env mt u ws t sub, ordinary u ws sub -> sub <> SubDirectoriesWithFiles ->
  forall file directory af ad, part_says mt true file af -> part_says mt false directory ad -> fisdir t = true ->
  selected (both_parts af ad) (fun n => n)
    (walk_prime env mt (FacUsing u) (options_of env (ws ++ [WithFilter (only_node (poly_def file directory))])) t)
    (walk_prime env mt (FacUsing u) (options_of env (ws ++ [WithFilter no_filter])) t).
Proof.
  intros env mt u ws t sub OR ND file directory af ad PF PD DT.
  destruct (parts_build mt file directory af ad PF PD) as (f & NF & A & B).
  eapply run_selected; [exact OR|exact ND|reflexivity|exact NF|].
  intros n [(O1 & O2 & O3) [BD BP]]. unfold both_parts. destruct (n_isdir n) eqn:I; cbn [orb].
  - apply A, I.
  - destruct (n_parent n) as [p|] eqn:P.
    + destruct BP as [(Q1 & Q2 & Q3) QD]. apply B; try assumption. 
    + rewrite BP, DT in BD. discriminate.
Qed.
