(** Resumed sessions with hibernation against the same without: proofs. *)
From Verif Require Import Base Paths Level Lo Collections Kernel Session Spec KernelRel KernelFacts
  KernelInv WalkFacts StandsFacts JournalFacts SessionFacts WalkCor PathFacts WalkProps Simulate Feature HibFacts Cases Resume SpecResume SpawnFacts FastFacts FastProps FastRelayFacts ReadFacts.
Local Open Scope list_scope.

Section Within.
Variable c : cfg.
Variable hb : hibcfg.
Variable sampling : bool.
Hypothesis ND : c_sub c <> SubDirectoriesWithFiles.
Hypothesis CA : conditions_answer hb.
Notation c1 := (with_features None (Some hb) cnil c).
Notation c2 := (with_features None None cnil c).
Notation same := (fun n : node => n).
Notation HRs := (HR c hb sampling same).
Notation HSs := (HS c hb sampling same).

Lemma nanny_none : has_nanny (with_scheme None c) = true -> False.
Proof. unfold has_nanny. cbn. intro E. apply ND. destruct (c_sub c); try discriminate. reflexivity. Qed.
Definition nanny_any : has_nanny (with_scheme None c) = true -> forall (n : node) (cs : list fsnode), with_children cs n = n :=
  fun E => False_ind _ (nanny_none E).

Lemma asleep1 : forall s1 s2, HSs s1 s2 ->
  (forall n ok s1', descend c1 n s1 = (ok, s1') -> HSs s1' s2) /\
  (forall n, HSs (ascend n s1) s2) /\
  (forall n, HSs (emit (EvRescue (saved_of c1 n s1)) s1) s2) /\
  (forall n k o m s1', invoke c1 n k s1 = (o, m, s1') -> HSs s1' s2).
Proof.
  intros a b (ST & RAB). assert (X := RAB). destruct X as (M1 & M2 & I1 & I2 & SG).
  split; [|split; [|split]].
  - intros n ok a' E. unfold descend in E. destruct (per_descend (c_depth c1) (s_depth a)) as [ok' d].
    rewrite M1 in E. cbn [mu_descend mutes_none dispatch] in E.
    destruct ok'; inversion E; subst; (split; [exact ST|]); [|exact RAB].
    apply HC_emit1; [reflexivity|]. apply HC_depth1. exact RAB.
  - intro n. unfold ascend. rewrite M1. split; [exact ST|]. apply HC_emit1; [reflexivity|]. apply HC_depth1. exact RAB.
  - intro n. split; [exact ST|]. apply HC_emit1; [reflexivity|exact RAB].
  - intros n k o m a' E.
    assert (IT : invoke c1 n k a = (Ret (Some (Err SkipAll)), n, emit (EvOffer n (CErr (Err SkipAll))) a)).
    { unfold invoke. rewrite I1. unfold chain. cbn [has c_hib with_features role_if app iterate link_next].
      unfold hib_next. cbn [c_hib with_features]. rewrite ST. reflexivity. }
    rewrite IT in E. inversion E; subst. split; [exact ST|]. apply HC_emit1; [reflexivity|exact RAB].
Qed.
Lemma asleep2 : forall s1 s2, HSs s1 s2 ->
  (forall n ok s2', descend c2 n s2 = (ok, s2') -> HSs s1 s2') /\
  (forall n, HSs s1 (ascend n s2)) /\
  (forall n, HSs s1 (emit (EvRescue (saved_of c2 n s2)) s2)) /\
  (forall n k o m s2', invoke c2 n k s2 = (o, m, s2') -> HSs s1 s2').
Proof.
  intros a b (ST & RAB). assert (X := RAB). destruct X as (M1 & M2 & I1 & I2 & SG).
  split; [|split; [|split]].
  - intros n ok b' E. unfold descend in E. destruct (per_descend (c_depth c2) (s_depth b)) as [ok' d].
    rewrite M2 in E. cbn [mu_descend mutes_none dispatch] in E.
    destruct ok'; inversion E; subst; (split; [exact ST|]); [|exact RAB].
    apply HC_emit2; [reflexivity|]. apply HC_depth2. exact RAB.
  - intro n. unfold ascend. rewrite M2. split; [exact ST|]. apply HC_emit2; [reflexivity|]. apply HC_depth2. exact RAB.
  - intro n. split; [exact ST|]. apply HC_emit2; [reflexivity|exact RAB].
  - intros n k o m b' E. split; [exact ST|]. destruct (plain_any c sampling same nanny_any _ _ _ _ _ _ I2 E) as (A1 & A2 & l & A3).
    split; [exact M1|]. split; [congruence|]. split; [exact I1|]. split; [congruence|].
    intro ext. rewrite A3, <- app_assoc, SG, ST. reflexivity.
Qed.

(** Once asleep, whatever else either session does. *)
Lemma alone1 : forall root f n s o s1, traverse f c1 root n s = (o, s1) -> forall s2, HSs s s2 -> HSs s1 s2.
Proof.
  intros root. apply (keep_traverse c1 root (fun s s1 => forall s2, HSs s s2 -> HSs s1 s2)); auto.
  - intros n s ok s1 D s2 S. eapply (proj1 (asleep1 _ _ S)); exact D.
  - intros n s s2 S. apply (asleep1 _ _ S).
  - intros n s s2 S. apply (asleep1 _ _ S).
  - intros n k s o n1 s1 I s2 S. eapply (asleep1 _ _ S); exact I.
Qed.
Lemma alone2 : forall root f n s o s1, traverse f c2 root n s = (o, s1) -> forall s0, HSs s0 s -> HSs s0 s1.
Proof.
  intros root. apply (keep_traverse c2 root (fun s s1 => forall s0, HSs s0 s -> HSs s0 s1)); auto.
  - intros n s ok s1 D s2 S. eapply (proj1 (asleep2 _ _ S)); exact D.
  - intros n s s2 S. apply (asleep2 _ _ S).
  - intros n s s2 S. apply (asleep2 _ _ S).
  - intros n k s o n1 s1 I s2 S. eapply (asleep2 _ _ S); exact I.
Qed.
Lemma alone1_top : forall root t s o s1 s2, top c1 root t s = (o, s1) -> HSs s s2 -> HSs s1 s2.
Proof.
  intros root t s o s1 s2 H S. unfold top in H. destruct (c_stat c1 t); [inversion H; subst; exact S|].
  destruct (traverse _ c1 root _ s) as [t1 v1] eqn:T. assert (K := alone1 _ _ _ _ _ _ T _ S).
  destruct t1 as [[b e]|p|]; inversion H; subst; exact K.
Qed.
Lemma alone2_top : forall root t s o s1 s0, top c2 root t s = (o, s1) -> HSs s0 s -> HSs s0 s1.
Proof.
  intros root t s o s1 s0 H S. unfold top in H. destruct (c_stat c2 t); [inversion H; subst; exact S|].
  destruct (traverse _ c2 root _ s) as [t1 v1] eqn:T. assert (K := alone2 _ _ _ _ _ _ T _ S).
  destruct t1 as [[b e]|p|]; inversion H; subst; exact K.
Qed.
Lemma alone1_seed : forall pc dk parent es s o s1 s2, seed c1 pc dk parent es s = (o, s1) -> HSs s s2 -> HSs s1 s2.
Proof.
  intros pc dk parent. induction es as [|e es IH]; cbn [seed]; intros s o s1 s2 H S.
  - inversion H; subst; exact S.
  - destruct (top c1 _ _ s) as [x v] eqn:T. assert (K := alone1_top _ _ _ _ _ _ T S).
    destruct x as [[er|]|p|]; try (inversion H; subst; exact K). eapply IH; eassumption.
Qed.
Lemma alone2_seed : forall pc dk parent es s o s1 s0, seed c2 pc dk parent es s = (o, s1) -> HSs s0 s -> HSs s0 s1.
Proof.
  intros pc dk parent. induction es as [|e es IH]; cbn [seed]; intros s o s1 s2 H S.
  - inversion H; subst; exact S.
  - destruct (top c2 _ _ s) as [x v] eqn:T. assert (K := alone2_top _ _ _ _ _ _ T S).
    destruct x as [[er|]|p|]; try (inversion H; subst; exact K). eapply IH; eassumption.
Qed.
Lemma alone1_crown : forall pc dk tree fuel current incl s o ok s1 s2,
  crown fuel c1 pc dk tree current incl s = (o, ok, s1) -> HSs s s2 -> HSs s1 s2.
Proof.
  intros pc dk tree. induction fuel as [|k IH]; cbn [crown]; intros current incl s o ok s1 s2 H S.
  - inversion H; subst; exact S.
  - destruct (String.eqb current tree); [inversion H; subst; exact S|].
    destruct (pc_split pc current) as [parent child]. destruct (following c1 dk parent child incl) as [sib [er|]]; [inversion H; subst; exact S|].
    destruct (seed c1 _ _ _ _ s) as [x v] eqn:T. assert (K := alone1_seed _ _ _ _ _ _ _ _ T S).
    destruct x as [[er|]|p|]; try (inversion H; subst; exact K). eapply IH; eassumption.
Qed.
Lemma alone2_crown : forall pc dk tree fuel current incl s o ok s1 s0,
  crown fuel c2 pc dk tree current incl s = (o, ok, s1) -> HSs s0 s -> HSs s0 s1.
Proof.
  intros pc dk tree. induction fuel as [|k IH]; cbn [crown]; intros current incl s o ok s1 s2 H S.
  - inversion H; subst; exact S.
  - destruct (String.eqb current tree); [inversion H; subst; exact S|].
    destruct (pc_split pc current) as [parent child]. destruct (following c2 dk parent child incl) as [sib [er|]]; [inversion H; subst; exact S|].
    destruct (seed c2 _ _ _ _ s) as [x v] eqn:T. assert (K := alone2_seed _ _ _ _ _ _ _ _ T S).
    destruct x as [[er|]|p|]; try (inversion H; subst; exact K). eapply IH; eassumption.
Qed.

Definition pairwise (o1 o2 : outcome (option error)) (s1 s2 : st) : Prop :=
  (o1 = o2 /\ HRs s1 s2) \/ HSs s1 s2.

Lemma hib_top : forall root t u1 u2 o1 s1 o2 s2, HRs u1 u2 ->
  top c1 root t u1 = (o1, s1) -> top c2 root t u2 = (o2, s2) -> pairwise o1 o2 s1 s2.
Proof.
  intros root t u1 u2 o1 s1 o2 s2 R0 H1 H2. unfold top in H1, H2.
  change (c_stat c1) with (c_stat c) in H1. change (c_stat c2) with (c_stat c) in H2.
  change (c_fault c1) with (c_fault c) in H1. change (c_fault c2) with (c_fault c) in H2.
  destruct (c_stat c t) as [er|].
  - inversion H1; inversion H2; subst. left. split; [reflexivity|exact R0].
  - destruct (traverse (S (height t)) c1 root (new_node root t None None []) u1) as [t1 v1] eqn:T1.
    destruct (traverse (S (height t)) c2 root (new_node root t None None []) u2) as [t2 v2] eqn:T2.
    assert (K : together HRs HSs (fun _ => False) t1 t2 v1 v2).
    { refine (lockstep_links c (c_rescue c) (c_rescue c) None None (Some hb) None (c_fast c) (c_fast c) cnil cnil root (fun n m => n = m)
        _ _ _ _ _ _ HRs HSs (fun _ => False) _ _ _ _ _ _ _ _ _ _ _ _ _ _ _ _ eq_refl R0 T1 T2);
        try (intros n m ->; reflexivity).
      - intros p q i e ->. reflexivity.
      - intros n m k a b -> E. unfold extend. rewrite E. destruct (split_path (n_path m)). reflexivity.
      - intros n m k e ->. reflexivity.
      - intros a b RAB. apply RAB.
      - intros n m a b d NN (D0 & ST & RAB). assert (X := RAB). destruct X as (M1 & M2 & _). rewrite M1, M2.
        cbn [mu_descend mutes_none dispatch]. split; [reflexivity|]. split; [exact ST|].
        apply HC_emit; try reflexivity. apply HC_depth. exact RAB.
      - intros n m a b d NN (D0 & ST & RAB). assert (X := RAB). destruct X as (M1 & M2 & _). rewrite M1, M2.
        cbn [mu_ascend mutes_none dispatch]. split; [reflexivity|]. split; [exact ST|].
        apply HC_emit; try reflexivity. apply HC_depth. exact RAB.
      - intros n m a b _ (D0 & ST & RAB). split; [exact D0|]. split; [exact ST|]. apply HC_emit; try reflexivity. exact RAB.
      - intros n m k a b x1 m1 a' x2 m2 b' NN (D0 & ST & (M1 & M2 & I1 & I2 & SG)) KO E1 E2.
        destruct (hib_invoke c hb sampling same nanny_any CA (fun _ => eq_refl) (fun _ => eq_refl) n k a I1 M1 (fun X => False_ind _ (nanny_none X)))
          as (w1 & z1 & F1 & P1 & Q1 & Q2 & Q3 & Q4 & Q5).
        destruct (plain_invoke c sampling same nanny_any m k b I2 (fun X => False_ind _ (nanny_none X)))
          as (w2 & z2 & F2 & P2 & Y1 & Y2 & Y3 & Y4).
        change (with_links (c_rescue c) None (Some hb) (c_fast c) cnil c) with c1 in E1.
        change (with_links (c_rescue c) None None (c_fast c) cnil c) with c2 in E2.
        rewrite F1 in E1. rewrite F2 in E2. inversion E1; inversion E2; subst x1 m1 a' x2 m2 b'. clear E1 E2.
        assert (HCZ : HC c hb sampling same z1 z2).
        { split; [congruence|]. split; [congruence|]. split; [congruence|]. split; [congruence|].
          intro ext. rewrite Y1, <- app_assoc, SG. cbn [app]. rewrite <- NN. apply Q4. }
        destruct (s_hib z1) eqn:HZ.
        + left. split; [|split; [congruence|split; [|discriminate]]].
          * destruct (s_hib a); try reflexivity. exfalso. apply ST. reflexivity.
          * split; [congruence|]. split; [rewrite HZ; discriminate|exact HCZ].
        + left. split; [|split; [congruence|split; [|discriminate]]].
          * destruct (s_hib a); try reflexivity. exfalso. apply ST. reflexivity.
          * split; [congruence|]. split; [rewrite HZ; discriminate|exact HCZ].
        + right. split; assumption.
      - exact asleep1.
      - exact asleep2. }
    destruct K as [([E|((p & []) & _)] & RV & _)|SV].
    + subst t2. left. destruct t1 as [[b e]|p|]; inversion H1; inversion H2; subst; (split; [reflexivity|exact RV]).
    + right. destruct t1 as [[b e]|p|], t2 as [[b' e']|p'|]; inversion H1; inversion H2; subst; exact SV.
Qed.

(** Retired only after the sleep notification. *)
Definition slept (a b : st) : Prop :=
  s_items a = chain c1 sampling false -> s_mutes a = mutes_none ->
  s_items b = s_items a /\ s_mutes b = s_mutes a /\ (exists l, s_trace b = s_trace a ++ l) /\
  (s_hib b = HibRetired -> s_hib a = HibRetired \/ In EvSleep (s_trace b)).
Lemma slept_refl : forall s, slept s s.
Proof. intros s I M. split; [reflexivity|]. split; [reflexivity|]. split; [exists []; rewrite app_nil_r; reflexivity|]. auto. Qed.
Lemma slept_trans : forall a b d, slept a b -> slept b d -> slept a d.
Proof.
  intros a b d A B I M. destruct (A I M) as (A1 & A2 & (l & A3) & A4). destruct B as (B1 & B2 & (k & B3) & B4); try congruence.
  split; [congruence|]. split; [congruence|]. split; [exists (l ++ k); rewrite B3, A3, app_assoc; reflexivity|].
  intro R. destruct (B4 R) as [X|X]; [|auto]. destruct (A4 X) as [Y|Y]; [auto|]. right. rewrite B3. apply in_or_app. left. exact Y.
Qed.
Lemma slept_emit : forall e a b, slept a b -> slept a (emit e b).
Proof.
  intros e a b A I M. destruct (A I M) as (A1 & A2 & (l & A3) & A4).
  split; [exact A1|]. split; [exact A2|]. split; [exists (l ++ [e]); cbn [emit s_trace]; rewrite A3, app_assoc; reflexivity|].
  intro R. destruct (A4 R) as [X|X]; [auto|]. right. cbn [emit s_trace]. apply in_or_app. left. exact X.
Qed.
Lemma slept_depth : forall d a b, slept a b -> slept a (set_depth d b).
Proof. intros d a b A I M. exact (A I M). Qed.

Lemma slept_invoke : forall n k s o m u, invoke c1 n k s = (o, m, u) -> slept s u.
Proof.
  intros n k s o m u H I M. unfold invoke in H. rewrite I in H. unfold chain in H.
  cbn [has c_hib c_scheme with_features role_if app] in H.
  change (has_nanny c1) with (has_nanny (with_scheme None c)) in H.
  destruct (has_nanny (with_scheme None c)) eqn:HN; [exfalso; apply nanny_none; exact HN|].
  cbn [role_if app iterate link_next] in H. unfold hib_next in H. cbn [c_hib with_features] in H. rewrite M in H.
  cbn [mu_wake mu_sleep mutes_none dispatch] in H.
  assert (TAIL : forall s' x, (let '(o0, n1, s1) := iterate c1 (role_if sampling RoleSampler ++ [RoleAnchor]) n k s' in
      (o0, n1, emit (EvOffer n1 (res_of o0)) s1)) = (o, m, x) -> slept s s' -> slept s x).
  { intros s' x E S. rewrite (iterate_tail c1 sampling) in E. inversion E; subst. apply slept_emit. unfold after_call. apply slept_emit.
    intros I' M'. exact (S I' M'). }
  assert (DONE : forall b s', s_trace s' = s_trace s ++ b -> s_items s' = s_items s -> s_mutes s' = s_mutes s ->
      (s_hib s' = HibRetired -> s_hib s = HibRetired \/ In EvSleep b) -> slept s s').
  { intros b s' E1 E2 E3 E4 _ _. split; [exact E2|]. split; [exact E3|]. split; [exists b; exact E1|].
    intro R. destruct (E4 R) as [X|X]; [auto|]. right. rewrite E1. apply in_or_app. right. exact X. }
  assert (OK : slept s u); [|exact (OK I M)].
  destruct (s_hib s) eqn:ST.
  - destruct (hb_wake hb n) as [[|]|p].
    + destruct (hb_incl_wake hb).
      * eapply TAIL; [exact H|]. apply DONE with (b := [EvWake]); try reflexivity. discriminate.
      * inversion H; subst. apply slept_emit. apply DONE with (b := [EvWake]); try reflexivity. discriminate.
    + inversion H; subst. apply slept_emit. apply slept_refl.
    + inversion H; subst. apply slept_emit. apply slept_refl.
  - destruct (hb_sleep hb n) as [[|]|p].
    + destruct (hb_incl_sleep hb).
      * eapply TAIL; [exact H|]. apply DONE with (b := [EvSleep]); try reflexivity. intro; right; left; reflexivity.
      * inversion H; subst. apply slept_emit. apply DONE with (b := [EvSleep]); try reflexivity. intro; right; left; reflexivity.
    + eapply TAIL; [exact H|]. apply slept_refl.
    + inversion H; subst. apply slept_emit. apply slept_refl.
  - inversion H; subst. apply slept_emit. apply slept_refl.
Qed.
Lemma slept_traverse : forall root f n s o s1, traverse f c1 root n s = (o, s1) -> slept s s1.
Proof.
  intros root. apply keep_traverse.
  - exact slept_refl.
  - exact slept_trans.
  - intros n s ok s1 E I M. unfold descend in E. destruct (per_descend (c_depth c1) (s_depth s)) as [ok' d].
    rewrite M in E. cbn [mu_descend mutes_none dispatch] in E.
    assert (K : slept s s1); [|exact (K I M)]. destruct ok'; inversion E; subst; [|apply slept_refl].
    apply slept_emit. apply slept_depth. apply slept_refl.
  - intros n s I M.
    assert (E : ascend n s = emit (EvAscend n) (set_depth (per_ascend (s_depth s)) s)) by (unfold ascend; rewrite M; reflexivity).
    rewrite E. refine (_ I M). apply slept_emit, slept_depth, slept_refl.
  - intros n s. apply slept_emit. apply slept_refl.
  - exact slept_invoke.
Qed.
Lemma slept_top : forall root t s o s1, top c1 root t s = (o, s1) -> slept s s1.
Proof.
  intros root t s o s1 H. unfold top in H. destruct (c_stat c1 t); [inversion H; subst; apply slept_refl|].
  destruct (traverse _ c1 root _ s) as [t1 v1] eqn:T. apply slept_traverse in T.
  destruct t1 as [[b e]|p|]; inversion H; subst; exact T.
Qed.
Lemma slept_seed : forall pc dk parent es s o s1, seed c1 pc dk parent es s = (o, s1) -> slept s s1.
Proof.
  intros pc dk parent. induction es as [|e es IH]; cbn [seed]; intros s o s1 H.
  - inversion H; subst; apply slept_refl.
  - destruct (top c1 _ _ s) as [x v] eqn:T. apply slept_top in T.
    destruct x as [[er|]|p|]; try (inversion H; subst; exact T). eapply slept_trans; [exact T|eapply IH; exact H].
Qed.
Lemma slept_crown : forall pc dk tree fuel current incl s o ok s1,
  crown fuel c1 pc dk tree current incl s = (o, ok, s1) -> slept s s1.
Proof.
  intros pc dk tree. induction fuel as [|k IH]; cbn [crown]; intros current incl s o ok s1 H.
  - inversion H; subst; apply slept_refl.
  - destruct (String.eqb current tree); [inversion H; subst; apply slept_refl|].
    destruct (pc_split pc current) as [parent child]. destruct (following c1 dk parent child incl) as [sib [er|]]; [inversion H; subst; apply slept_refl|].
    destruct (seed c1 _ _ _ _ s) as [x v] eqn:T. apply slept_seed in T.
    destruct x as [[er|]|p|]; try (inversion H; subst; exact T). eapply slept_trans; [exact T|eapply IH; exact H].
Qed.

Lemma hib_seed : forall pc dk parent es u1 u2 o1 s1 o2 s2, HRs u1 u2 ->
  seed c1 pc dk parent es u1 = (o1, s1) -> seed c2 pc dk parent es u2 = (o2, s2) -> pairwise o1 o2 s1 s2.
Proof.
  intros pc dk parent. induction es as [|e es IH]; cbn [seed]; intros u1 u2 o1 s1 o2 s2 R0 H1 H2.
  - inversion H1; inversion H2; subst. left. split; [reflexivity|exact R0].
  - destruct (top c1 _ _ u1) as [x1 v1] eqn:T1. destruct (top c2 _ _ u2) as [x2 v2] eqn:T2.
    destruct (hib_top _ _ _ _ _ _ _ _ R0 T1 T2) as [[E RV]|SV].
    + subst x2. destruct x1 as [[er|]|p|]; try (inversion H1; inversion H2; subst; left; split; [reflexivity|exact RV]).
      eapply IH; eassumption.
    + right.
      assert (S1 : HSs s1 v2).
      { destruct x1 as [[er|]|p|]; try (inversion H1; subst; exact SV). eapply alone1_seed; eassumption. }
      destruct x2 as [[er|]|p|]; try (inversion H2; subst; exact S1). eapply alone2_seed; eassumption.
Qed.

Lemma hib_crown : forall pc dk tree fuel current incl u1 u2 o1 ok1 s1 o2 ok2 s2, HRs u1 u2 ->
  crown fuel c1 pc dk tree current incl u1 = (o1, ok1, s1) -> crown fuel c2 pc dk tree current incl u2 = (o2, ok2, s2) ->
  (o1 = o2 /\ ok1 = ok2 /\ HRs s1 s2) \/ HSs s1 s2.
Proof.
  intros pc dk tree. induction fuel as [|k IH]; cbn [crown]; intros current incl u1 u2 o1 ok1 s1 o2 ok2 s2 R0 H1 H2.
  - inversion H1; inversion H2; subst. left. split; [reflexivity|]. split; [reflexivity|exact R0].
  - destruct (String.eqb current tree).
    + inversion H1; inversion H2; subst. left. split; [reflexivity|]. split; [reflexivity|exact R0].
    + destruct (pc_split pc current) as [parent child].
      change (following c1 dk parent child incl) with (following c dk parent child incl) in H1.
      change (following c2 dk parent child incl) with (following c dk parent child incl) in H2.
      destruct (following c dk parent child incl) as [sib [er|]].
      * inversion H1; inversion H2; subst. left. split; [reflexivity|]. split; [reflexivity|exact R0].
      * destruct (seed c1 _ _ _ _ u1) as [x1 v1] eqn:T1. destruct (seed c2 _ _ _ _ u2) as [x2 v2] eqn:T2.
        destruct (hib_seed _ _ _ _ _ _ _ _ _ _ R0 T1 T2) as [[E RV]|SV].
        -- subst x2. destruct x1 as [[er|]|p|]; try (inversion H1; inversion H2; subst; left; split; [reflexivity|]; split; [reflexivity|exact RV]).
           eapply IH; eassumption.
        -- right.
           assert (S1 : HSs s1 v2).
           { destruct x1 as [[er|]|p|]; try (inversion H1; subst; exact SV). eapply alone1_crown; eassumption. }
           destruct x2 as [[er|]|p|]; try (inversion H2; subst; exact S1). eapply alone2_crown; eassumption.
Qed.

Theorem hib_spawn : forall pc dk sv o1 ok1 s1 o2 ok2 s2,
  spawn_session c1 sampling pc dk sv = (o1, ok1, s1) -> spawn_session c2 sampling pc dk sv = (o2, ok2, s2) ->
  visited s1 = segment hb (visited s2) /\ (~ In EvSleep (s_trace s1) -> o1 = o2 /\ ok1 = ok2).
Proof.
  intros pc dk sv o1 ok1 s1 o2 ok2 s2 H1 H2. unfold spawn_session in H1, H2.
  set (u1 := bridge c1 _ _) in H1. set (u2 := bridge c2 _ _) in H2.
  assert (R0 : HRs u1 u2).
  { unfold u1, u2, bridge, init_st. rewrite !session_items_chain. repeat split.
    - cbn. unfold hb_launch. destruct (hb_wake_at hb); discriminate.
    - cbn. unfold segment, hb_launch, cont. intro ext. destruct (hb_wake_at hb) as [w|] eqn:W; [|reflexivity].
      induction ext as [|x ext IH]; [reflexivity|]. cbn [from_wake]. unfold hb_wake at 1. rewrite W, IH. reflexivity. }
  clearbody u1 u2.
  destruct (crown _ c1 pc dk (sv_tree sv) (sv_path sv) true u1) as [[x1 k1] v1] eqn:T1.
  destruct (crown _ c2 pc dk (sv_tree sv) (sv_path sv) true u2) as [[x2 k2] v2] eqn:T2.
  assert (K := hib_crown _ _ _ _ _ _ _ _ _ _ _ _ _ _ R0 T1 T2).
  assert (V : HC c hb sampling same v1 v2) by (destruct K as [(_ & _ & (_ & _ & B))|(_ & B)]; exact B).
  assert (SL : s_hib v1 = HibRetired -> In EvSleep (s_trace v1)).
  { intro R. destruct (slept_crown _ _ _ _ _ _ _ _ _ _ T1) as (_ & _ & _ & X); [exact (proj1 (proj2 (proj2 (proj2 (proj2 R0)))))|apply R0|].
    destruct (X R) as [Y|Y]; [|exact Y]. exfalso. apply (proj1 (proj2 R0)). exact Y. }
  assert (E1 : visited s1 = visited v1 /\ (~ In EvSleep (s_trace s1) -> s_hib v1 <> HibRetired) /\ o1 = x1 /\ ok1 = k1).
  { destruct V as (A & _). rewrite A in H1. cbn in H1.
    assert (K1 : ~ In EvSleep (s_trace v1) -> s_hib v1 <> HibRetired) by (intros N R; apply N, SL; exact R).
    destruct x1; inversion H1; subst; auto.
    unfold visited. cbn [emit s_trace]. rewrite calls_app. cbn. rewrite app_nil_r. split; [reflexivity|]. split; [|auto].
    intros N. apply K1. intro X. apply N. apply in_or_app. left. exact X. }
  assert (E2 : visited s2 = visited v2 /\ o2 = x2 /\ ok2 = k2).
  { destruct V as (_ & A & _). rewrite A in H2. cbn in H2. destruct x2; inversion H2; subst; auto.
    unfold visited. cbn [emit s_trace]. rewrite calls_app. cbn. rewrite app_nil_r. auto. }
  destruct E1 as (-> & HE & -> & ->), E2 as (-> & -> & ->). split.
  - destruct V as (_ & _ & _ & _ & SG). specialize (SG []). unfold seen in SG.
    change (segment hb (map same (visited v2) ++ []) = map same (visited v1) ++ cont hb (s_hib v1) []) in SG.
    rewrite (map_id_eq (visited v2)), (map_id_eq (visited v1)), app_nil_r in SG.
    rewrite SG. destruct (s_hib v1); cbn; rewrite app_nil_r; reflexivity.
  - intro NR. apply HE in NR. destruct K as [(A & B & _)|(B & _)]; [auto|]. exfalso. apply NR. exact B.
Qed.
End Within.

(** ** Two callbacks which answer alike *)
Section Alike.
Variable c : cfg.
Variables cl' : list event -> node -> cbres.
Hypothesis CL : forall tr n, cl' tr n = c_client c tr n.
Notation c' := (with_client cl' c).
Lemma iterate_client : forall rs n k s, iterate c' rs n k s = iterate c rs n k s.
Proof.
  induction rs as [|r rs IH]; intros n k s; [reflexivity|]. cbn [iterate].
  assert (E : link_next c' r n k s = link_next c r n k s).
  { destruct r; try reflexivity. cbn [link_next]. unfold anchor_next. cbn [c_client with_client]. rewrite CL. reflexivity. }
  rewrite E. destruct (link_next c r n k s) as [[[[[|] [e|]]|p|] n1] s1]; try reflexivity. apply IH.
Qed.
Lemma traverse_client : forall f tree n s, traverse f c' tree n s = traverse f c tree n s.
Proof.
  induction f as [|f IH]; intros tree n s; [reflexivity|]. cbn [traverse].
  change (descend c' n s) with (descend c n s). destruct (descend c n s) as [ok s1]. destruct ok; [|reflexivity].
  assert (E : traverse_body c' (traverse f c' tree) tree n s1 = traverse_body c (traverse f c tree) tree n s1);
    [|rewrite E; reflexivity].
  assert (TE : forall p es s, travel c' (traverse f c' tree) p es s = travel c (traverse f c tree) p es s).
  { intros p es s0. unfold travel. rewrite (travel_loop_ext _ (traverse f c tree)) by (intros; apply IH).
    destruct (travel_loop (traverse f c tree) p 0 es s0) as [[r|pv|] s2]; reflexivity. }
  unfold traverse_body. change (inspect c' n) with (inspect c n). destruct (inspect c n) as [[k es] err].
  change (extend c' tree n k s1) with (extend c tree n k s1). set (n1 := extend c tree n k s1).
  change (c_sub c') with (c_sub c). change (c_ask c') with (c_ask c).
  assert (IN : forall m k s, invoke c' m k s = invoke c m k s) by (intros; unfold invoke; rewrite iterate_client; reflexivity).
  destruct (c_sub c); rewrite ?IN.
  - destruct (n_isdir n1); [|reflexivity].
    destruct err as [e|]; (destruct (c_ask c n1 k _) as [[] [?|]]; try reflexivity; try (unfold with_node; rewrite TE; reflexivity)).
  - destruct (invoke c n1 k s1) as [[[[e|]|p|] n2] s2]; try reflexivity.
    destruct (c_ask c n2 k err) as [[] [?|]]; try reflexivity; try (unfold with_node; rewrite TE; reflexivity).
  - destruct (invoke c n1 k s1) as [[[[e|]|p|] n2] s2]; try reflexivity.
    destruct (c_ask c n2 k err) as [[] [?|]]; try reflexivity; try (unfold with_node; rewrite TE; reflexivity).
  - destruct (invoke c n1 k s1) as [[[[e|]|p|] n2] s2]; try reflexivity.
    destruct (c_ask c n2 k err) as [[] [?|]]; try reflexivity; try (unfold with_node; rewrite TE; reflexivity).
Qed.
Lemma session_client : forall sampling t, session c' sampling t = session c sampling t.
Proof.
  intros sampling t. unfold session, navigate, top.
  change (start_st c' sampling) with (start_st c sampling).
  change (c_stat c') with (c_stat c). change (c_fault c') with (c_fault c). change (c_tree c') with (c_tree c).
  destruct (c_stat c t); [reflexivity|]. rewrite traverse_client. reflexivity.
Qed.
End Alike.

(** ** Fastward *)
Theorem hib_fastward : forall c hb sampling pc dk sv o1 s1 o2 s2,
  c_sub c <> SubDirectoriesWithFiles -> conditions_answer hb -> c_tree c = sv_tree sv ->
  let d := pc_dir pc (sv_path sv) in
  let b := pc_base pc (sv_path sv) in
  d <> "."%string -> b <> ""%string -> b <> snd (split_path (sv_tree sv)) ->
  fastward_session true (with_features None (Some hb) cnil c) sampling pc dk sv = (o1, s1) ->
  session (with_features None None cnil c) sampling (dk (sv_tree sv)) = (o2, s2) ->
  visited s1 = from_first (node_is d b) (segment hb (visited s2)) /\
  alike o1 (fst (session (with_features None (Some hb) cnil c) sampling (dk (sv_tree sv)))).
Proof.
  intros c hb sampling pc dk sv o1 s1 o2 s2 ND CA CT d b NE NB NT H1 H2.
  set (m := node_is d b). set (g0 := fun (_ : list (node * cbres)) (_ : node) => CNil).
  set (c1 := with_features None (Some hb) cnil c) in *.
  assert (O1 : filter_ok c1).
  { split; [discriminate|]. intros h E. inversion E; subst h. exact CA. }
  destruct (session (with_client (waking m g0) c1) sampling (dk (sv_tree sv))) as [p1 u1] eqn:U1.
  destruct (fastward_locked c1 sampling pc dk sv g0 o1 s1 p1 u1 O1 CT NE NB NT ltac:(reflexivity) H1 U1) as (A1 & B1 & _).
  rewrite (session_client c1 (waking m g0)) in U1 by (intros tr n; apply waking_nil).
  assert (V : visited s1 = from_first m (visited u1)) by (unfold visited; rewrite B1, from_first_map; reflexivity).
  rewrite U1. split; [|exact A1]. rewrite V, (hib_segment _ _ _ _ _ _ _ _ CA ND U1 H2). reflexivity.
Qed.
