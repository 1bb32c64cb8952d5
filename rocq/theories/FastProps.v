(** Consequences for fastward resumes. *)
From Verif Require Import Base Paths Level Lo Collections Kernel Session Spec KernelRel KernelFacts
  KernelInv WalkFacts StandsFacts JournalFacts SessionFacts RescueFacts FilesFacts WalkCor PathFacts WalkProps Simulate Feature
  Cases Resume SpecResume SpawnFacts FastFacts.
From Coq Require Import Permutation Sorted.
Local Open Scope string_scope.
Local Open Scope list_scope.

(** ** Paths *)
Lemma join_inj : forall d b d' b', clean d = d -> clean d' = d' -> proper b -> proper b' ->
  join d b = join d' b' -> d = d' /\ b = b'.
Proof.
  intros d b d' b' CD CD' PB PB' E. rewrite !join_below in E by assumption.
  assert (S := split_below d b PB). rewrite E, (split_below d' b' PB') in S.
  pose proof (f_equal fst S) as S1. pose proof (f_equal snd S) as S2. cbn [fst snd] in S1, S2. split; [|congruence].
  clear S S2. assert (ND : d <> "" /\ d' <> "") by (rewrite <- CD, <- CD'; split; apply clean_ne).
  destruct ND as [ND ND'].
  destruct (String.eqb d "." ) eqn:D1; destruct (String.eqb d' ".") eqn:D1'.
  - apply String.eqb_eq in D1, D1'. congruence.
  - exfalso. destruct (String.eqb d' "/"); [discriminate|]. destruct (app_eq_empty _ _ S1). discriminate.
  - exfalso. destruct (String.eqb d "/"); [discriminate|]. symmetry in S1. destruct (app_eq_empty _ _ S1). discriminate.
  - assert (INJ : forall a a', (a ++ "/")%string = (a' ++ "/")%string -> a = a').
    { clear. intros a a' E. apply list_ascii_inj. apply (f_equal list_ascii_of_string) in E.
      rewrite !list_ascii_app in E. apply app_inv_tail in E. exact E. }
    destruct (String.eqb d "/") eqn:D2; destruct (String.eqb d' "/") eqn:D2'.
    + apply String.eqb_eq in D2, D2'. congruence.
    + exfalso. apply (INJ d' "") in S1. contradiction.
    + exfalso. symmetry in S1. apply (INJ d "") in S1. contradiction.
    + apply INJ in S1. congruence.
Qed.

Lemma split_join : forall d b, clean d = d -> proper b -> snd (split_path (join d b)) = b.
Proof. intros d b CD PB. rewrite join_below, split_below by assumption. reflexivity. Qed.

(** The node of the saved path. *)
Lemma node_is_path : forall c tree t base d b, hooks_ok c -> clean tree = tree -> proper_names t ->
  clean d = d -> proper b -> b <> snd (split_path tree) ->
  forall n, stands c (entries c) tree tree t base n -> node_is d b n = String.eqb (n_path n) (join d b).
Proof.
  intros c tree t base d b HK CT PN CD PB NB n H.
  assert (H0 := H). inversion H0 as [n' E1 E2 E3 E4 E5 E6 AT|p i e n' HP NT E1 E2 E3 E4 E5 E6 AT]; subst n'.
  - unfold node_is. rewrite E3, andb_false_r. symmetry. apply String.eqb_neq. rewrite E1. intro E.
    apply NB. rewrite E. symmetry. apply split_join; assumption.
  - destruct (stands_paths c tree tree t base HK CT PN n H) as (_ & _ & SP).
    destruct (SP p E3) as [_ EN].
    destruct (stands_paths c tree tree t base HK CT PN p HP) as (CP & PP & _).
    assert (PE : proper (fname e)).
    { inversion PP as [u X]; subst u. apply X. eapply entries_in_kids; [exact HK|]. eapply nth_error_In. exact NT. }
    unfold node_is. rewrite E3, EN, E2, E1.
    destruct (String.eqb (join (n_path p) (fname e)) (join d b)) eqn:J.
    + apply String.eqb_eq in J. apply join_inj in J; try assumption. destruct J as [-> ->].
      rewrite !String.eqb_refl. reflexivity.
    + destruct (String.eqb (fname e) b) eqn:B; [|reflexivity]. cbn [andb].
      destruct (String.eqb (n_path p) d) eqn:D; [|reflexivity].
      apply String.eqb_eq in B, D. subst. rewrite String.eqb_refl in J. discriminate.
Qed.

Lemma from_first_ext : forall A (f g : A -> bool) l, (forall x, In x l -> f x = g x) -> from_first f l = from_first g l.
Proof.
  induction l as [|x l IH]; intro H; [reflexivity|]. cbn. rewrite (H x (or_introl eq_refl)).
  destruct (g x); [reflexivity|]. apply IH. intros y Hy. apply H. right. exact Hy.
Qed.

(** ** The plain session with a nil callback, any subscription *)
Lemma session_nil : forall c sampling t P, hooks_ok c -> root_ok c t -> default_skip c -> plain c -> nil_callback c ->
  preorder (travelled c) [] (c_tree c) t P ->
  exists s, session c sampling t = (Ret None, s) /\ map place_of (visited s) = called_at c 0 P.
Proof.
  intros c sampling t P HK RO DS PL NC HP. unfold session, navigate.
  set (s0 := dispatch _ _ (start_st c sampling)).
  assert (Q0 : quiet_state c sampling s0) by (split; [apply session_items_chain|reflexivity]).
  assert (T0 : s_trace s0 = [EvBegin (c_tree c)]) by reflexivity.
  assert (D0 : s_depth s0 = 0%Z) by reflexivity. clearbody s0.
  destruct (top c (c_tree c) t s0) as [o s1] eqn:T.
  destruct (top_nil c sampling HK DS PL NC _ _ _ _ _ _ Q0 RO HP T) as (-> & Q1 & _ & tr & TR & M & _).
  eexists. split; [reflexivity|]. rewrite (proj2 Q1). cbn [mutes_none mu_end dispatch].
  unfold visited. cbn [emit s_trace]. rewrite TR, T0, !calls_app. cbn [calls app]. rewrite app_nil_r, M, D0. reflexivity.
Qed.

Lemma waking_nil : forall m tr n, waking m (fun _ _ => CNil) tr n = CNil.
Proof. intros m tr n. unfold waking. destruct (from_first _ (calls tr)); [destruct (m n)|]; reflexivity. Qed.

(** Fastward resume with a nil callback: the listing from the saved path on. *)
Theorem fastward_nil : forall c sampling pc dk sv d b P,
  let t := dk (sv_tree sv) in
  hooks_ok c -> root_ok c t -> default_skip c -> plain c -> nil_callback c ->
  c_tree c = sv_tree sv -> clean (sv_tree sv) = sv_tree sv -> proper_names t ->
  sv_path sv = join d b -> sound_at pc d -> proper b -> d <> "." -> b <> snd (split_path (sv_tree sv)) ->
  preorder (travelled c) [] (sv_tree sv) t P ->
  exists s, fastward_session true c sampling pc dk sv = (Ret None, s) /\
    map place_of (visited s) = from_first (fun p => String.eqb (pl_path p) (sv_path sv)) (called_at c 0 P).
Proof.
  intros c sampling pc dk sv d b P t HK RO DS PL NC CT CL PN EP [CD SA] PB ND NB HP.
  destruct (SA b PB) as (_ & _ & PD & PBS). rewrite <- EP in PD, PBS.
  set (g := fun (_ : list (node * cbres)) (_ : node) => CNil).
  set (c2 := with_client (waking (node_is d b) g) c).
  assert (NC2 : nil_callback c2) by (intros tr n; apply waking_nil).
  destruct (session_nil c2 sampling t P HK RO DS PL NC2) as (s2 & H2 & M2);
    [change (c_tree c2) with (c_tree c); rewrite CT; exact HP|].
  destruct (fastward_session true c sampling pc dk sv) as [o1 s1] eqn:H1.
  destruct (fastward_locked c sampling pc dk sv g o1 s1 (Ret None) s2) as (A & B & _).
  - apply plain_filter_ok. exact PL.
  - exact CT.
  - rewrite PD. exact ND.
  - rewrite PBS. apply PB.
  - rewrite PBS. exact NB.
  - intros tr n. apply NC.
  - exact H1.
  - rewrite PD, PBS. exact H2.
  - apply alike_none in A. subst o1. exists s1. split; [reflexivity|]. rewrite PD, PBS in B.
    assert (V : visited s1 = from_first (node_is d b) (visited s2)).
    { unfold visited. rewrite B, from_first_map. reflexivity. }
    rewrite V. change (called_at c 0 P) with (called_at c2 0 P). rewrite <- M2. rewrite from_first_map. f_equal. apply from_first_ext. intros n Hn.
    pose proof (visited_stands c2 sampling t _ _ HK RO H2) as F. rewrite Forall_forall in F. specialize (F n Hn).
    change (c_tree c2) with (c_tree c) in F. rewrite CT in F. rewrite EP.
    apply (node_is_path c2 (sv_tree sv) t 0 d b HK CL PN CD PB NB n F).
Qed.

(** Nothing is visited when the saved path is not met. *)
Lemma from_first_none : forall A (f : A -> bool) l, (forall x, In x l -> f x = false) -> from_first f l = [].
Proof.
  induction l as [|x l IH]; intro H; [reflexivity|]. cbn. rewrite (H x (or_introl eq_refl)). apply IH.
  intros y Hy. apply H. right. exact Hy.
Qed.
