(** What the panic handler answers reaches only the error returned. *)
From Verif Require Import Base Paths Level Lo Collections Kernel Session Spec Simulate Resume SpecResume.
Local Open Scope list_scope.

Section Handler.
Variable c : cfg.
Variable rc : list event -> panicv -> saved -> string + error.
Notation c' := (with_rescue rc c).

Lemma links_id : with_links (c_rescue c) (c_scheme c) (c_hib c) (c_fast c) (c_client c) c = c.
Proof. destruct c; reflexivity. Qed.

Lemma invoke_handler : forall n k s, invoke c n k s = invoke c' n k s.
Proof. intros n k s. unfold invoke. generalize (s_items s). intro rs. 
  assert (X : iterate c rs n k s = iterate c' rs n k s); [|rewrite X; reflexivity].
  revert n s. induction rs as [|r rs IH]; intros n s; [reflexivity|].
  cbn [iterate]. replace (link_next c' r n k s) with (link_next c r n k s) by (destruct r; reflexivity).
  destruct (link_next c r n k s) as [[[[[|] [e|]]|p|] n1] s1]; try reflexivity. apply IH.
Qed.

Lemma traverse_handler : forall tree f n s o1 s1 o2 s2,
  traverse f c tree n s = (o1, s1) -> traverse f c' tree n s = (o2, s2) ->
  same_res (fun _ => True) o1 o2 /\ s1 = s2.
Proof.
  intros tree f n s o1 s1 o2 s2 H1 H2. rewrite <- links_id in H1.
  assert (K : together (@eq st) (fun _ _ => False) (fun _ => True) o1 o2 s1 s2);
    [|destruct K as [(A & B & _)|[]]; auto].
  refine (lockstep_links c (c_rescue c) rc (c_scheme c) (c_scheme c) (c_hib c) (c_hib c) (c_fast c) (c_fast c)
    (c_client c) (c_client c) tree (@eq node) _ _ _ _ _ _ (@eq st) (fun _ _ => False) (fun _ => True)
    _ _ _ _ _ _ _ _ _ _ _ _ _ _ _ _ eq_refl eq_refl H1 H2);
    try (intros; subst; reflexivity).
  - intros a b k u v E D. subst. unfold extend. rewrite D. reflexivity.
  - intros a b k u v x1 m1 u' x2 m2 v' EN ES _ I1 I2. subst b v. left.
    rewrite links_id in I1. change (invoke c' a k u = (x2, m2, v')) in I2. rewrite invoke_handler, I2 in I1. inversion I1; subst. auto.
  - intros a b [].
  - intros a b [].
Qed.

Lemma top_handler : forall tree t s o1 s1 o2 s2,
  top c tree t s = (o1, s1) -> top c' tree t s = (o2, s2) -> alike o1 o2 /\ s1 = s2.
Proof.
  intros tree t s o1 s1 o2 s2 H1 H2. unfold top in H1, H2. change (c_stat c') with (c_stat c) in H2.
  change (c_fault c') with (c_fault c) in H2.
  destruct (c_stat c t) as [er|]; [inversion H1; inversion H2; subst; auto using alike_refl|].
  destruct (traverse (S (height t)) c tree (new_node tree t None None []) s) as [t1 v1] eqn:T1.
  destruct (traverse (S (height t)) c' tree (new_node tree t None None []) s) as [t2 v2] eqn:T2.
  destruct (traverse_handler _ _ _ _ _ _ _ _ T1 T2) as [SR ->]. apply same_agree, agree_alike in SR.
  assert (E1 : (fate t1, v2) = (o1, s1)) by (destruct t1 as [[b e]|p|]; exact H1).
  assert (E2 : (fate t2, v2) = (o2, s2)) by (destruct t2 as [[b e]|p|]; exact H2).
  inversion E1; inversion E2; subst. auto.
Qed.

Lemma session_handler : forall sampling t o1 s1 o2 s2,
  session c sampling t = (o1, s1) -> session c' sampling t = (o2, s2) -> alike o1 o2 /\ s1 = s2.
Proof.
  intros sampling t o1 s1 o2 s2 H1 H2. unfold session, navigate in H1, H2.
  change (start_st c' sampling) with (start_st c sampling) in H2. change (c_tree c') with (c_tree c) in H2.
  set (u := dispatch _ _ (start_st c sampling)) in *.
  destruct (top c (c_tree c) t u) as [p1 v1] eqn:T1. destruct (top c' (c_tree c) t u) as [p2 v2] eqn:T2.
  destruct (top_handler _ _ _ _ _ _ _ T1 T2) as [A ->].
  pose proof (alike_shape _ _ A) as SH.
  destruct p1, p2; try contradiction; inversion H1; inversion H2; subst; auto.
Qed.

Lemma seed_handler : forall pc dk parent es s o1 s1 o2 s2,
  seed c pc dk parent es s = (o1, s1) -> seed c' pc dk parent es s = (o2, s2) -> alike o1 o2 /\ s1 = s2.
Proof.
  intros pc dk parent. induction es as [|e es IH]; intros s o1 s1 o2 s2 H1 H2; cbn [seed] in H1, H2;
    [inversion H1; inversion H2; subst; auto using alike_refl|].
  destruct (top c _ _ s) as [p1 v1] eqn:T1. destruct (top c' _ _ s) as [p2 v2] eqn:T2.
  destruct (top_handler _ _ _ _ _ _ _ T1 T2) as [A ->].
  destruct A as [->|(e1 & e2 & -> & -> & P1 & P2)].
  - destruct p2 as [[er|]|q|]; try (inversion H1; inversion H2; subst; auto using alike_refl). eapply IH; eassumption.
  - inversion H1; inversion H2; subst. split; [right; eauto 8|reflexivity].
Qed.

Lemma crown_handler : forall pc dk tree f p own s o1 k1 s1 o2 k2 s2,
  crown f c pc dk tree p own s = (o1, k1, s1) -> crown f c' pc dk tree p own s = (o2, k2, s2) ->
  alike o1 o2 /\ k1 = k2 /\ s1 = s2.
Proof.
  intros pc dk tree. induction f as [|f IH]; intros p own s o1 k1 s1 o2 k2 s2 H1 H2; cbn [crown] in H1, H2;
    [inversion H1; inversion H2; subst; auto using alike_refl|].
  destruct (String.eqb p tree); [inversion H1; inversion H2; subst; auto using alike_refl|].
  destruct (pc_split pc p) as [pa b]. change (following c' dk pa b own) with (following c dk pa b own) in H2.
  destruct (following c dk pa b own) as [es [e|]]; [inversion H1; inversion H2; subst; auto using alike_refl|].
  destruct (seed c pc dk pa es s) as [p1 v1] eqn:T1. destruct (seed c' pc dk pa es s) as [p2 v2] eqn:T2.
  destruct (seed_handler _ _ _ _ _ _ _ _ _ T1 T2) as [A ->].
  destruct A as [->|(e1 & e2 & -> & -> & P1 & P2)].
  - destruct p2 as [[er|]|q|]; try (inversion H1; inversion H2; subst; auto using alike_refl). eapply IH; eassumption.
  - inversion H1; inversion H2; subst. split; [right; eauto 8|auto].
Qed.

Theorem spawn_handler : forall sampling pc dk sv o1 k1 s1 o2 k2 s2,
  spawn_session c sampling pc dk sv = (o1, k1, s1) -> spawn_session c' sampling pc dk sv = (o2, k2, s2) ->
  alike o1 o2 /\ k1 = k2 /\ s1 = s2.
Proof.
  intros sampling pc dk sv o1 k1 s1 o2 k2 s2 H1 H2. unfold spawn_session in H1, H2.
  change (session_items c' sampling SpawnPlugin) with (session_items c sampling SpawnPlugin) in H2.
  change (start_hib c') with (start_hib c) in H2. change (c_tree c') with (c_tree c) in H2.
  change (bridge c' sv) with (bridge c sv) in H2.
  set (u := bridge c sv _) in *.
  destruct (crown _ c pc dk _ _ true u) as [[p1 b1] v1] eqn:T1. destruct (crown _ c' pc dk _ _ true u) as [[p2 b2] v2] eqn:T2.
  destruct (crown_handler _ _ _ _ _ _ _ _ _ _ _ _ _ T1 T2) as (A & -> & ->).
  pose proof (alike_shape _ _ A) as SH.
  destruct p1, p2; try contradiction; inversion H1; inversion H2; subst; auto.
Qed.
End Handler.

Theorem fastward_handler : forall linked c rc sampling pc dk sv o1 s1 o2 s2,
  fastward_session linked c sampling pc dk sv = (o1, s1) ->
  fastward_session linked (with_rescue rc c) sampling pc dk sv = (o2, s2) -> alike o1 o2 /\ s1 = s2.
Proof.
  intros linked c rc sampling pc dk sv o1 s1 o2 s2 H1 H2. unfold fastward_session in H1, H2.
  set (f := Some (fast_of pc sv)) in *.
  change (set_fast f (with_rescue rc c)) with (with_rescue rc (set_fast f c)) in H2.
  set (d := set_fast f c) in *.
  change (session_items (with_rescue rc d) sampling) with (session_items d sampling) in H2.
  change (start_hib (with_rescue rc d)) with (start_hib d) in H2.
  change (c_tree (with_rescue rc d)) with (c_tree d) in H2.
  set (u := dispatch _ (EvBegin (c_tree d)) _) in *.
  destruct (top d _ _ u) as [p1 v1] eqn:T1. destruct (top (with_rescue rc d) _ _ u) as [p2 v2] eqn:T2.
  destruct (top_handler d rc _ _ _ _ _ _ _ T1 T2) as [A ->].
  pose proof (alike_shape _ _ A) as SH.
  destruct p1, p2; try contradiction; inversion H1; inversion H2; subst; auto.
Qed.
