(** A generic invariant principle for the traversal: a reflexive, transitive
    relation on states which every primitive step satisfies holds between the
    states before and after every part of a traversal. *)
From Verif Require Import Base Paths Level Kernel KernelRel Spec KernelFacts.

Section Inv.
Variable c : cfg.
Variable tree : string.
(** [ent n s]: on entry to Traverse; [pre n s]: after descend;
    [post n es s]: while the entries [es] of [n] are travelled. *)
Variable R : st -> st -> Prop.
Variable ent : node -> st -> Prop.
Variable pre : node -> st -> Prop.
Variable post : node -> list fsnode -> st -> Prop.

Hypothesis R_refl : forall s, R s s.
Hypothesis R_trans : forall a b d, R a b -> R b d -> R a d.
Hypothesis post_R : forall n es s s', post n es s -> R s s' -> post n es s'.
Hypothesis H_descend : forall n s s1, ent n s -> descend c n s = (true, s1) -> pre n s1.
Hypothesis H_around : forall n n1 s s1 s2, ent n s -> descend c n s = (true, s1) ->
  (exists s0, pre n s0 /\ same_node (ext_of c tree n s0) n1) -> R s1 s2 -> R s (ascend n1 s2).
Hypothesis H_invoke : forall n s o n1 s1, pre n s -> (c_sub c = SubFiles -> n_isdir n = false) ->
  invoke c (ext_of c tree n s) (cargo_of c n) s = (o, n1, s1) ->
  R s s1 /\ (o = Ret None -> post n1 (ents_of c n) s1).
Hypothesis H_files : forall n s, pre n s -> c_sub c = SubFiles -> n_isdir n = true ->
  post (ext_of c tree n s) (ents_of c n) s.
Hypothesis H_child : forall n es s i e, post n es s -> nth_error es i = Some e ->
  ent (child_node n i e) s.
Hypothesis H_rescue : forall n es s, post n es s -> R s (emit (EvRescue (saved_of c n s)) s).

Lemma kernel_inv_body :
  (forall n s o s1, run c tree n s o s1 -> ent n s -> R s s1) /\
  (forall n s o n1 s1, body c tree n s o n1 s1 -> pre n s -> R s s1 /\ exists s0, pre n s0 /\ same_node (ext_of c tree n s0) n1) /\
  (forall n es s o s1, trav c tree n es s o s1 -> post n es s -> R s s1) /\
  (forall n i es s o s1, loop c tree n i es s o s1 ->
     forall es0, post n es0 s -> (forall k, nth_error es k = nth_error es0 (i + k)) -> R s s1).
Proof.
  assert (LV : forall n0 s o n1 s1, pre n0 s -> invoke c (ext_of c tree n0 s) (cargo_of c n0) s = (o, n1, s1) ->
    exists s0, pre n0 s0 /\ same_node (ext_of c tree n0 s0) n1).
  { intros n0 s o n1 s1 P I. exists s. split; [exact P|]. apply (invoke_step _ _ _ _ _ _ _ I). }
  assert (LE : forall n0 s, pre n0 s -> exists s0, pre n0 s0 /\ same_node (ext_of c tree n0 s0) (ext_of c tree n0 s)).
  { intros n0 s P. exists s. split; [exact P|apply same_refl]. }
  apply kernel_mut.
  - intros n s s1 E _. apply descend_false in E. subst. apply R_refl.
  - intros n s s1 o nn s2 E B IH EN. destruct (IH (H_descend _ _ _ EN E)) as [A L]. eapply H_around; eauto.
  - intros n0 s e n1 s1 SB D I P. split; [|eauto]. eapply (proj1 (H_invoke _ _ _ _ _ P (fun _ => D) I)).
  - intros n0 s p n1 s1 SB D I P. split; [|eauto]. eapply (proj1 (H_invoke _ _ _ _ _ P (fun _ => D) I)).
  - intros n0 s skip e SB D A C P. split; [apply R_refl|eauto].
  - intros n0 s e o s1 SB D A RE T IH P. split; [|eauto]. apply IH. apply H_files; assumption.
  - intros n0 s e n1 s1 SB I P. split; [|eauto].
    eapply (proj1 (H_invoke _ _ _ _ _ P (fun X => False_ind _ (SB X)) I)).
  - intros n0 s p n1 s1 SB I P. split; [|eauto].
    eapply (proj1 (H_invoke _ _ _ _ _ P (fun X => False_ind _ (SB X)) I)).
  - intros n0 s e n1 s1 SB I _ P. split; [|eauto].
    eapply (proj1 (H_invoke _ _ _ _ _ P (fun X => False_ind _ (SB X)) I)).
  - intros n0 s e n1 s1 SB I _ P. split; [|eauto].
    assert (NF : c_sub c = SubFiles -> n_isdir n0 = false) by (intro X; congruence).
    eapply (proj1 (H_invoke _ _ _ _ _ P NF I)).
  - intros n0 s skip e n1 s1 o s2 SB I _ _ T IH P. split; [|eauto].
    destruct (H_invoke _ _ _ _ _ P (fun X => False_ind _ (SB X)) I) as [R1 P1].
    eapply R_trans; [exact R1|]. apply IH. apply P1. reflexivity.
  - intros n es s r s1 L IH P. eapply IH; [exact P|reflexivity].
  - intros n es s p s1 er L IH _ P.
    assert (R1 : R s s1) by (eapply IH; [exact P|reflexivity]).
    eapply R_trans; [exact R1|]. eapply H_rescue. eapply post_R; eassumption.
  - intros; apply R_refl.
  - intros n i e es s er s1 HR IH _ es0 P N.
    apply IH. eapply H_child; [exact P|]. specialize (N 0). cbn in N. rewrite Nat.add_0_r in N. auto.
  - intros n i e es s b er s1 HR IH _ _ es0 P N.
    apply IH. eapply H_child; [exact P|]. specialize (N 0). cbn in N. rewrite Nat.add_0_r in N. auto.
  - intros n i e es s p s1 HR IH es0 P N.
    apply IH. eapply H_child; [exact P|]. specialize (N 0). cbn in N. rewrite Nat.add_0_r in N. auto.
  - intros n i e es s b er s1 o s2 HR IHR _ L IHL es0 P N.
    assert (R1 : R s s1).
    { apply IHR. eapply H_child; [exact P|]. specialize (N 0). cbn in N. rewrite Nat.add_0_r in N. auto. }
    eapply R_trans; [exact R1|]. apply (IHL es0).
    + eapply post_R; eassumption.
    + intro k. specialize (N (S k)). cbn in N. rewrite N. f_equal. lia.
Qed.

Lemma kernel_inv :
  (forall n s o s1, run c tree n s o s1 -> ent n s -> R s s1) /\
  (forall n s o n1 s1, body c tree n s o n1 s1 -> pre n s -> R s s1) /\
  (forall n es s o s1, trav c tree n es s o s1 -> post n es s -> R s s1) /\
  (forall n i es s o s1, loop c tree n i es s o s1 ->
     forall es0, post n es0 s -> (forall k, nth_error es k = nth_error es0 (i + k)) -> R s s1).
Proof.
  destruct kernel_inv_body as (A & B & C & D). split; [exact A|]. split; [|split; [exact C|exact D]].
  intros n s o n1 s1 H P. apply (B _ _ _ _ _ H P).
Qed.
End Inv.
