(** Comparing two sessions which differ only in their features (filter scheme,
    hibernation) and callback: they run in lockstep until they part. *)
From Verif Require Import Base Paths Level Lo Collections Kernel Session Spec.

(** A relation between states kept by every primitive is kept by traverse. *)
Section Keep.
Variable c : cfg.
Variable tree : string.
Variable R : st -> st -> Prop.
Hypothesis R_refl : forall s, R s s.
Hypothesis R_trans : forall a b d, R a b -> R b d -> R a d.
Hypothesis R_descend : forall n s ok s1, descend c n s = (ok, s1) -> R s s1.
Hypothesis R_ascend : forall n s, R s (ascend n s).
Hypothesis R_rescue : forall n s, R s (emit (EvRescue (saved_of c n s)) s).
Hypothesis R_invoke : forall n k s o n1 s1, invoke c n k s = (o, n1, s1) -> R s s1.

Lemma keep_loop : forall trav, (forall n s o s1, trav n s = (o, s1) -> R s s1) ->
  forall es p i s o s1, travel_loop trav p i es s = (o, s1) -> R s s1.
Proof.
  intros trav HT. induction es as [|e es IH]; cbn [travel_loop]; intros p i s o s1 H.
  - inversion H; subst; apply R_refl.
  - destruct (trav (child_node p i e) s) as [to ts] eqn:T. apply HT in T.
    destruct to as [[[|] [er|]]|pv|];
      try (inversion H; subst; exact T); try (eapply R_trans; [exact T|eapply IH; exact H]).
    + destruct (errors_is SkipDir er); [eapply R_trans; [exact T|eapply IH; exact H]|].
      destruct (errors_is SkipAll er); [eapply R_trans; [exact T|eapply IH; exact H]|].
      inversion H; subst; exact T.
    + destruct (errors_is SkipDir er); inversion H; subst; exact T.
Qed.

Lemma keep_travel : forall trav, (forall n s o s1, trav n s = (o, s1) -> R s s1) ->
  forall p es s o s1, travel c trav p es s = (o, s1) -> R s s1.
Proof.
  intros trav HT p es s o s1 H. unfold travel in H.
  destruct (travel_loop trav p 0 es s) as [[r|pv|] ls] eqn:L; apply (keep_loop _ HT) in L;
    try (inversion H; subst; exact L).
  destruct (c_rescue c (s_trace ls) pv (saved_of c p ls)); inversion H; subst;
    (eapply R_trans; [exact L|apply R_rescue]).
Qed.

Lemma keep_body : forall trav, (forall n s o s1, trav n s = (o, s1) -> R s s1) ->
  forall n s o n1 s1, traverse_body c trav tree n s = (o, n1, s1) -> R s s1.
Proof.
  intros trav HT n s o n1 s1 H. unfold traverse_body in H.
  destruct (inspect c n) as [[k es] err].
  set (m := extend c tree n k s) in H. clearbody m.
  assert (TR := keep_travel trav HT).
  destruct (c_sub c).
  - destruct (n_isdir m).
    + destruct (c_ask c m k err) as [[| |] e]; destruct err; try (inversion H; subst; apply R_refl).
      apply with_node_inv in H. eapply TR; apply H.
    + destruct (invoke c m k s) as [[[e|p|] m1] s2] eqn:I; apply R_invoke in I; inversion H; subst; exact I.
  - destruct (invoke c m k s) as [[[[e|]|p|] m1] s2] eqn:I; apply R_invoke in I;
      try (inversion H; subst; exact I).
    destruct (c_ask c m1 k err) as [[| |] e]; try (inversion H; subst; exact I);
      (eapply R_trans; [exact I|apply with_node_inv in H; eapply TR; apply H]).
  - destruct (invoke c m k s) as [[[[e|]|p|] m1] s2] eqn:I; apply R_invoke in I;
      try (inversion H; subst; exact I).
    destruct (c_ask c m1 k err) as [[| |] e]; try (inversion H; subst; exact I);
      (eapply R_trans; [exact I|apply with_node_inv in H; eapply TR; apply H]).
  - destruct (invoke c m k s) as [[[[e|]|p|] m1] s2] eqn:I; apply R_invoke in I;
      try (inversion H; subst; exact I).
    destruct (c_ask c m1 k err) as [[| |] e]; try (inversion H; subst; exact I);
      (eapply R_trans; [exact I|apply with_node_inv in H; eapply TR; apply H]).
Qed.

Lemma keep_traverse : forall f n s o s1, traverse f c tree n s = (o, s1) -> R s s1.
Proof.
  induction f as [|f IH]; cbn [traverse]; intros n s o s1 H.
  - inversion H; subst; apply R_refl.
  - destruct (descend c n s) as [ok s0] eqn:D. apply R_descend in D. destruct ok.
    + destruct (traverse_body c (traverse f c tree) tree n s0) as [[bo bn] bs] eqn:B.
      apply (keep_body _ IH) in B. inversion H; subst.
      eapply R_trans; [exact D|]. eapply R_trans; [exact B|]. apply R_ascend.
    + inversion H; subst; exact D.
Qed.
End Keep.

(** What is known of a node and its cargo when the chain is asked. *)
Definition node_cargo (n : node) (k : contents) : Prop := k = None -> n_scope n = N.lor ScopeLeaf ScopeFile.

Lemma extend_cargo : forall c0 c tree n k es err s, inspect c n = (k, es, err) -> node_cargo (extend c0 tree n k s) k.
Proof.
  intros c0 c tree n k es err s I E. subst k. unfold extend. destruct (split_path (n_path n)). cbn.
  assert (D : n_isdir n = false).
  { unfold inspect in I. destruct (read_contents c n) as [[fs ds] er].
    destruct (c_sub c), (n_isdir n); inversion I; reflexivity. }
  rewrite D. reflexivity.
Qed.

(** Panic handler, filter scheme, hibernation, fastward link and callback. *)
Definition with_links (rc : list event -> panicv -> saved -> string + error) (sc : option scheme) (h : option hibcfg) (f : option fastcfg)
    (cl : list event -> node -> cbres) (c : cfg) : cfg :=
  mkCfg (c_sub c) (c_depth c) (c_files_first c) (c_keep_sep c) (c_read c) (c_sort c) (c_subpath c)
    (c_stat c) (c_fault c) (c_ask c) rc (c_tree c) sc h f cl.

Section Lockstep.
Variable c : cfg.
Variables rc1 rc2 : list event -> panicv -> saved -> string + error.
Variables sc1 sc2 : option scheme.
Variables h1 h2 : option hibcfg.
Variables fw1 fw2 : option fastcfg.
Variables cl1 cl2 : list event -> node -> cbres.
Notation c1 := (with_links rc1 sc1 h1 fw1 cl1 c).
Notation c2 := (with_links rc2 sc2 h2 fw2 cl2 c).
Variable tree : string.

(** How the nodes of the two sessions are related. *)
Variable NR : node -> node -> Prop.
Hypothesis NR_path : forall n m, NR n m -> n_path n = n_path m.
Hypothesis NR_src : forall n m, NR n m -> n_src n = n_src m.
Hypothesis NR_isdir : forall n m, NR n m -> n_isdir n = n_isdir m.
Hypothesis NR_child : forall p q i e, NR p q -> NR (child_node p i e) (child_node q i e).
Hypothesis NR_extend : forall n m k s1 s2, NR n m -> s_depth s1 = s_depth s2 ->
  NR (extend c tree n k s1) (extend c tree m k s2).
Hypothesis NR_ask : forall n m k e, NR n m -> c_ask c n k e = c_ask c m k e.

Variable R : st -> st -> Prop.
Variable Sep : st -> st -> Prop.
Variable pan_ok : panicv -> Prop.
Hypothesis R_depth : forall s1 s2, R s1 s2 -> s_depth s1 = s_depth s2.
Hypothesis R_descend : forall n m s1 s2 d, NR n m -> R s1 s2 ->
  R (dispatch (mu_descend (s_mutes s1)) (EvDescend n) (set_depth d s1))
    (dispatch (mu_descend (s_mutes s2)) (EvDescend m) (set_depth d s2)).
Hypothesis R_ascend : forall n m s1 s2 d, NR n m -> R s1 s2 ->
  R (dispatch (mu_ascend (s_mutes s1)) (EvAscend n) (set_depth d s1))
    (dispatch (mu_ascend (s_mutes s2)) (EvAscend m) (set_depth d s2)).
Hypothesis R_rescue : forall n m s1 s2, NR n m -> R s1 s2 ->
  R (emit (EvRescue (saved_of c1 n s1)) s1) (emit (EvRescue (saved_of c2 m s2)) s2).
Hypothesis H_invoke : forall n m k s1 s2 o1 m1 s1' o2 m2 s2', NR n m -> R s1 s2 ->
  (c_sub c = SubDirectories \/ c_sub c = SubDirectoriesWithFiles -> k <> None) /\ node_cargo n k /\ node_cargo m k ->
  invoke c1 n k s1 = (o1, m1, s1') -> invoke c2 m k s2 = (o2, m2, s2') ->
  (o1 = o2 /\ NR m1 m2 /\ R s1' s2' /\ (forall p, o2 = Pan p -> pan_ok p)) \/ Sep s1' s2'.
Hypothesis Sep1 : forall s1 s2, Sep s1 s2 ->
  (forall n ok s1', descend c1 n s1 = (ok, s1') -> Sep s1' s2) /\
  (forall n, Sep (ascend n s1) s2) /\
  (forall n, Sep (emit (EvRescue (saved_of c1 n s1)) s1) s2) /\
  (forall n k o m s1', invoke c1 n k s1 = (o, m, s1') -> Sep s1' s2).
Hypothesis Sep2 : forall s1 s2, Sep s1 s2 ->
  (forall n ok s2', descend c2 n s2 = (ok, s2') -> Sep s1 s2') /\
  (forall n, Sep s1 (ascend n s2)) /\
  (forall n, Sep s1 (emit (EvRescue (saved_of c2 n s2)) s2)) /\
  (forall n k o m s2', invoke c2 n k s2 = (o, m, s2') -> Sep s1 s2').

(** The same result, or - where a panic is possible - both the errors of the panic handler. *)
Definition same_res (o1 o2 : outcome (bool * option error)) : Prop :=
  o1 = o2 \/
  ((exists p, pan_ok p) /\
   exists b a a', o1 = Ret (b, Some (rescue_error a)) /\ o2 = Ret (b, Some (rescue_error a'))).
Definition together (o1 o2 : outcome (bool * option error)) (s1 s2 : st) : Prop :=
  (same_res o1 o2 /\ R s1 s2 /\ (forall p, o2 = Pan p -> pan_ok p)) \/ Sep s1 s2.

Definition L1 (s s' : st) : Prop := forall s2, Sep s s2 -> Sep s' s2.
Definition L2 (s s' : st) : Prop := forall s1, Sep s1 s -> Sep s1 s'.

Lemma L1_trav : forall f n s o s', traverse f c1 tree n s = (o, s') -> L1 s s'.
Proof.
  apply keep_traverse; unfold L1; auto.
  - intros n s ok s1 D s2 S. eapply (proj1 (Sep1 _ _ S)); exact D.
  - intros n s s2 S. apply (Sep1 _ _ S).
  - intros n s s2 S. apply (Sep1 _ _ S).
  - intros n k s o n1 s1 I s2 S. eapply (Sep1 _ _ S); exact I.
Qed.
Lemma L2_trav : forall f n s o s', traverse f c2 tree n s = (o, s') -> L2 s s'.
Proof.
  apply keep_traverse; unfold L2; auto.
  - intros n s ok s1 D s2 S. eapply (proj1 (Sep2 _ _ S)); exact D.
  - intros n s s2 S. apply (Sep2 _ _ S).
  - intros n s s2 S. apply (Sep2 _ _ S).
  - intros n k s o n1 s1 I s2 S. eapply (Sep2 _ _ S); exact I.
Qed.
Lemma L1_loop : forall f es p i s o s1, travel_loop (traverse f c1 tree) p i es s = (o, s1) -> L1 s s1.
Proof. intros f. apply keep_loop; unfold L1; auto. apply L1_trav. Qed.
Lemma L2_loop : forall f es p i s o s1, travel_loop (traverse f c2 tree) p i es s = (o, s1) -> L2 s s1.
Proof. intros f. apply keep_loop; unfold L2; auto. apply L2_trav. Qed.
Lemma L1_travel : forall f p es s o s1, travel c1 (traverse f c1 tree) p es s = (o, s1) -> L1 s s1.
Proof.
  intros f. apply keep_travel; unfold L1; auto; [|apply L1_trav].
  intros n s s2 S. apply (Sep1 _ _ S).
Qed.
Lemma L2_travel : forall f p es s o s1, travel c2 (traverse f c2 tree) p es s = (o, s1) -> L2 s s1.
Proof.
  intros f. apply keep_travel; unfold L2; auto; [|apply L2_trav].
  intros n s s2 S. apply (Sep2 _ _ S).
Qed.

Section Step.
Variable f : nat.
Hypothesis IH : forall n m s1 s2 o1 s1' o2 s2', NR n m -> R s1 s2 ->
  traverse f c1 tree n s1 = (o1, s1') -> traverse f c2 tree m s2 = (o2, s2') ->
  together o1 o2 s1' s2'.

Lemma lock_loop : forall es p q i s1 s2 o1 s1' o2 s2', NR p q -> R s1 s2 ->
  travel_loop (traverse f c1 tree) p i es s1 = (o1, s1') ->
  travel_loop (traverse f c2 tree) q i es s2 = (o2, s2') -> together o1 o2 s1' s2'.
Proof.
  induction es as [|e es IHL]; cbn [travel_loop]; intros p q i s1 s2 o1 s1' o2 s2' NP RS H1 H2.
  - inversion H1; inversion H2; subst. left. split; [left; reflexivity|]. split; [auto|discriminate].
  - pose proof (NR_child _ _ i e NP) as NC.
    destruct (traverse f c1 tree (child_node p i e) s1) as [t1 u1] eqn:T1.
    destruct (traverse f c2 tree (child_node q i e) s2) as [t2 u2] eqn:T2.
    destruct (IH _ _ _ _ _ _ _ _ NC RS T1 T2) as [([-> | (PP & b & a & a' & -> & ->)] & RU & PO)|SU].
    + assert (EQ : forall (x : outcome (bool * option error)), (x, u1) = (o1, s1') -> (x, u2) = (o2, s2') ->
                 (forall p, x = Pan p -> pan_ok p) -> together o1 o2 s1' s2').
      { intros x E1 E2 PX. inversion E1; inversion E2; subst. left. split; [left; reflexivity|auto]. }
      destruct t2 as [[[|] [er|]]|pv|]; try (eapply EQ; eauto; discriminate);
        try (eapply IHL; [exact NP|exact RU|exact H1|exact H2]).
      * destruct (errors_is SkipDir er); [eapply IHL; [exact NP|exact RU|exact H1|exact H2]|].
        destruct (errors_is SkipAll er); [eapply IHL; [exact NP|exact RU|exact H1|exact H2]|]. eapply EQ; eauto; discriminate.
      * destruct (errors_is SkipDir er); eapply EQ; eauto; discriminate.
    + left. assert (NS : forall x, errors_is SkipDir (rescue_error x) = false /\ errors_is SkipAll (rescue_error x) = false)
        by (intros [d|r]; split; reflexivity).
      destruct (NS a) as [A1 A2], (NS a') as [A3 A4]. rewrite A1, ?A2 in H1. rewrite A3, ?A4 in H2.
      destruct b; inversion H1; inversion H2; subst; (split; [right; split; [exact PP|eauto 6]|]);
        (split; [exact RU|discriminate]).
    + right.
      assert (A1 : L1 u1 s1').
      { destruct t1 as [[[|] [er|]]|pv|]; try (inversion H1; subst; exact (fun _ x => x));
          try (eapply L1_loop; exact H1).
        - destruct (errors_is SkipDir er); [eapply L1_loop; exact H1|].
          destruct (errors_is SkipAll er); [eapply L1_loop; exact H1|].
          inversion H1; subst; exact (fun _ x => x).
        - destruct (errors_is SkipDir er); inversion H1; subst; exact (fun _ x => x). }
      assert (A2 : L2 u2 s2').
      { destruct t2 as [[[|] [er|]]|pv|]; try (inversion H2; subst; exact (fun _ x => x));
          try (eapply L2_loop; exact H2).
        - destruct (errors_is SkipDir er); [eapply L2_loop; exact H2|].
          destruct (errors_is SkipAll er); [eapply L2_loop; exact H2|].
          inversion H2; subst; exact (fun _ x => x).
        - destruct (errors_is SkipDir er); inversion H2; subst; exact (fun _ x => x). }
      apply A1. apply A2. exact SU.
Qed.

Lemma lock_travel : forall es p q s1 s2 o1 s1' o2 s2', NR p q -> R s1 s2 ->
  travel c1 (traverse f c1 tree) p es s1 = (o1, s1') ->
  travel c2 (traverse f c2 tree) q es s2 = (o2, s2') -> together o1 o2 s1' s2'.
Proof.
  intros es p q s1 s2 o1 s1' o2 s2' NP RS H1 H2. unfold travel in H1, H2.
  destruct (travel_loop (traverse f c1 tree) p 0 es s1) as [t1 u1] eqn:T1.
  destruct (travel_loop (traverse f c2 tree) q 0 es s2) as [t2 u2] eqn:T2.
  destruct (lock_loop _ _ _ _ _ _ _ _ _ _ NP RS T1 T2) as [([-> | (PP & b & a & a' & -> & ->)] & RU & PO)|SU].
  - destruct t2 as [r|pv|].
    + inversion H1; inversion H2; subst. left. split; [left; reflexivity|auto].
    + inversion H1; inversion H2; subst; left. split; [right; split; [exists pv; apply PO; reflexivity|eauto]|].
      split; [apply R_rescue; assumption|discriminate].
    + inversion H1; inversion H2; subst. left. split; [left; reflexivity|auto].
  - inversion H1; inversion H2; subst. left. split; [right; split; [exact PP|eauto]|]. split; [exact RU|discriminate].
  - right.
    assert (A1 : L1 u1 s1').
    { destruct t1; try (inversion H1; subst; exact (fun _ x => x)).
      inversion H1; subst; intros x S; apply (Sep1 _ _ S). }
    assert (A2 : L2 u2 s2').
    { destruct t2; try (inversion H2; subst; exact (fun _ x => x)).
      inversion H2; subst; intros x S; apply (Sep2 _ _ S). }
    apply A1. apply A2. exact SU.
Qed.

Lemma inspect_NR : forall n m, NR n m -> inspect c1 n = inspect c2 m.
Proof.
  intros n m H. unfold inspect, read_contents. rewrite (NR_path _ _ H), (NR_src _ _ H), (NR_isdir _ _ H). reflexivity.
Qed.

Lemma lock_body : forall n' n s1 s2 o1 x1 s1' o2 x2 s2', NR n' n -> R s1 s2 ->
  traverse_body c1 (traverse f c1 tree) tree n' s1 = (o1, x1, s1') ->
  traverse_body c2 (traverse f c2 tree) tree n s2 = (o2, x2, s2') ->
  (same_res o1 o2 /\ NR x1 x2 /\ R s1' s2' /\ (forall p, o2 = Pan p -> pan_ok p)) \/ Sep s1' s2'.
Proof.
  intros n' n s1 s2 o1 x1 s1' o2 x2 s2' NN RS H1 H2. unfold traverse_body in H1, H2.
  rewrite (inspect_NR _ _ NN) in H1. destruct (inspect c2 n) as [[k es] err] eqn:I.
  change (extend c1 tree n' k s1) with (extend c tree n' k s1) in H1.
  pose proof (NR_extend _ _ k s1 s2 NN (R_depth _ _ RS)) as NE.
  change (extend c2 tree n k s2) with (extend c tree n k s2) in H2.
  assert (KO : (c_sub c = SubDirectories \/ c_sub c = SubDirectoriesWithFiles -> k <> None) /\
    node_cargo (extend c tree n' k s1) k /\ node_cargo (extend c tree n k s2) k).
  { split; [|split; [eapply extend_cargo; rewrite (inspect_NR _ _ NN); exact I|eapply extend_cargo; exact I]]. unfold inspect in I. change (c_sub c2) with (c_sub c) in I. destruct (read_contents c2 n) as [[fs ds] er].
    intros [E|E]; rewrite E in I; inversion I; discriminate. }
  set (m' := extend c tree n' k s1) in *. set (m := extend c tree n k s2) in *. clearbody m m'. clear I.
  rewrite (NR_isdir _ _ NE) in H1. change (c_sub c1) with (c_sub c) in H1. change (c_sub c2) with (c_sub c) in H2.
  change (c_ask c1) with (c_ask c) in H1. change (c_ask c2) with (c_ask c) in H2.
  assert (SAME : forall (x : outcome (bool * option error)) y1 y2 u1 u2, NR y1 y2 -> R u1 u2 -> (x, y1, u1) = (o1, x1, s1') ->
                 (x, y2, u2) = (o2, x2, s2') -> (forall p, x = Pan p -> pan_ok p) ->
                 (same_res o1 o2 /\ NR x1 x2 /\ R s1' s2' /\ (forall p, o2 = Pan p -> pan_ok p)) \/ Sep s1' s2').
  { intros x y1 y2 u1 u2 NY RU E1 E2 PX. inversion E1; inversion E2; subst. left. split; [left; reflexivity|auto]. }
  assert (LT : forall y1 y2 u1 u2, NR y1 y2 -> R u1 u2 ->
                 with_node y1 (travel c1 (traverse f c1 tree) y1 es u1) = (o1, x1, s1') ->
                 with_node y2 (travel c2 (traverse f c2 tree) y2 es u2) = (o2, x2, s2') ->
                 (same_res o1 o2 /\ NR x1 x2 /\ R s1' s2' /\ (forall p, o2 = Pan p -> pan_ok p)) \/ Sep s1' s2').
  { intros y1 y2 u1 u2 NY RU E1 E2. apply with_node_inv in E1, E2. destruct E1 as [-> E1], E2 as [-> E2].
    destruct (lock_travel _ _ _ _ _ _ _ _ _ NY RU E1 E2) as [(A & B & D)|S]; [left; auto|right; exact S]. }
  remember (c_sub c) as sub eqn:SUB. destruct sub.
  - destruct (n_isdir m).
    + rewrite (NR_ask _ _ k err NE) in H1. destruct (c_ask c m k err) as [[| |] e]; destruct err;
        try (eapply SAME; eauto; discriminate).
      (eapply LT; [|first [exact RU|exact RS]|exact H1|exact H2]; first [exact NM|exact NE]).
    + destruct (invoke c1 m' k s1) as [[i1 m1] u1] eqn:I1.
      destruct (invoke c2 m k s2) as [[i2 m2] u2] eqn:I2.
      destruct (H_invoke _ _ _ _ _ _ _ _ _ _ _ NE RS KO I1 I2) as [(-> & NM & RU & PO)|SU].
      * destruct i2; eapply SAME; eauto; try discriminate. intros q E. inversion E; subst. apply PO. reflexivity.
      * right. destruct i1, i2; inversion H1; inversion H2; subst; exact SU.
  - destruct (invoke c1 m' k s1) as [[i1 m1] u1] eqn:I1.
    destruct (invoke c2 m k s2) as [[i2 m2] u2] eqn:I2.
    destruct (H_invoke _ _ _ _ _ _ _ _ _ _ _ NE RS KO I1 I2) as [(-> & NM & RU & PO)|SU].
    + destruct i2 as [[e|]|pv|]; try (eapply SAME; eauto; discriminate).
      * rewrite (NR_ask _ _ k err NM) in H1. destruct (c_ask c m2 k err) as [[| |] e];
          try (eapply SAME; eauto; discriminate); (eapply LT; [|first [exact RU|exact RS]|exact H1|exact H2]; first [exact NM|exact NE]).
      * eapply SAME; eauto. intros q E. inversion E; subst. apply PO. reflexivity.
    + right.
      assert (A1 : L1 u1 s1').
      { destruct i1 as [[e|]|pv|]; try (inversion H1; subst; exact (fun _ x => x)).
        destruct (c_ask c m1 k err) as [[| |] e]; try (inversion H1; subst; exact (fun _ x => x));
          apply with_node_inv in H1; eapply L1_travel; apply H1. }
      assert (A2 : L2 u2 s2').
      { destruct i2 as [[e|]|pv|]; try (inversion H2; subst; exact (fun _ x => x)).
        destruct (c_ask c m2 k err) as [[| |] e]; try (inversion H2; subst; exact (fun _ x => x));
          apply with_node_inv in H2; eapply L2_travel; apply H2. }
      apply A1. apply A2. exact SU.
  - destruct (invoke c1 m' k s1) as [[i1 m1] u1] eqn:I1.
    destruct (invoke c2 m k s2) as [[i2 m2] u2] eqn:I2.
    destruct (H_invoke _ _ _ _ _ _ _ _ _ _ _ NE RS KO I1 I2) as [(-> & NM & RU & PO)|SU].
    + destruct i2 as [[e|]|pv|]; try (eapply SAME; eauto; discriminate).
      * rewrite (NR_ask _ _ k err NM) in H1. destruct (c_ask c m2 k err) as [[| |] e];
          try (eapply SAME; eauto; discriminate); (eapply LT; [|first [exact RU|exact RS]|exact H1|exact H2]; first [exact NM|exact NE]).
      * eapply SAME; eauto. intros q E. inversion E; subst. apply PO. reflexivity.
    + right.
      assert (A1 : L1 u1 s1').
      { destruct i1 as [[e|]|pv|]; try (inversion H1; subst; exact (fun _ x => x)).
        destruct (c_ask c m1 k err) as [[| |] e]; try (inversion H1; subst; exact (fun _ x => x));
          apply with_node_inv in H1; eapply L1_travel; apply H1. }
      assert (A2 : L2 u2 s2').
      { destruct i2 as [[e|]|pv|]; try (inversion H2; subst; exact (fun _ x => x)).
        destruct (c_ask c m2 k err) as [[| |] e]; try (inversion H2; subst; exact (fun _ x => x));
          apply with_node_inv in H2; eapply L2_travel; apply H2. }
      apply A1. apply A2. exact SU.
  - destruct (invoke c1 m' k s1) as [[i1 m1] u1] eqn:I1.
    destruct (invoke c2 m k s2) as [[i2 m2] u2] eqn:I2.
    destruct (H_invoke _ _ _ _ _ _ _ _ _ _ _ NE RS KO I1 I2) as [(-> & NM & RU & PO)|SU].
    + destruct i2 as [[e|]|pv|]; try (eapply SAME; eauto; discriminate).
      * rewrite (NR_ask _ _ k err NM) in H1. destruct (c_ask c m2 k err) as [[| |] e];
          try (eapply SAME; eauto; discriminate); (eapply LT; [|first [exact RU|exact RS]|exact H1|exact H2]; first [exact NM|exact NE]).
      * eapply SAME; eauto. intros q E. inversion E; subst. apply PO. reflexivity.
    + right.
      assert (A1 : L1 u1 s1').
      { destruct i1 as [[e|]|pv|]; try (inversion H1; subst; exact (fun _ x => x)).
        destruct (c_ask c m1 k err) as [[| |] e]; try (inversion H1; subst; exact (fun _ x => x));
          apply with_node_inv in H1; eapply L1_travel; apply H1. }
      assert (A2 : L2 u2 s2').
      { destruct i2 as [[e|]|pv|]; try (inversion H2; subst; exact (fun _ x => x)).
        destruct (c_ask c m2 k err) as [[| |] e]; try (inversion H2; subst; exact (fun _ x => x));
          apply with_node_inv in H2; eapply L2_travel; apply H2. }
      apply A1. apply A2. exact SU.
Qed.
End Step.

Theorem lockstep_links : forall f n m s1 s2 o1 s1' o2 s2', NR n m -> R s1 s2 ->
  traverse f c1 tree n s1 = (o1, s1') -> traverse f c2 tree m s2 = (o2, s2') ->
  together o1 o2 s1' s2'.
Proof.
  induction f as [|f IH]; cbn [traverse]; intros n m s1 s2 o1 s1' o2 s2' NN RS H1 H2.
  - inversion H1; inversion H2; subst. left. split; [left; reflexivity|]. split; [auto|discriminate].
  - unfold descend in H1, H2. change (c_depth c1) with (c_depth c) in H1. change (c_depth c2) with (c_depth c) in H2.
    rewrite (R_depth _ _ RS) in H1.
    destruct (per_descend (c_depth c) (s_depth s2)) as [ok d]. destruct ok.
    + pose proof (R_descend n m s1 s2 d NN RS) as RD.
      set (v1 := dispatch _ _ (set_depth d s1)) in *. set (v2 := dispatch _ _ (set_depth d s2)) in *.
      clearbody v1 v2.
      destruct (traverse_body c1 (traverse f c1 tree) tree n v1) as [[b1 x1] w1] eqn:B1.
      destruct (traverse_body c2 (traverse f c2 tree) tree m v2) as [[b2 x2] w2] eqn:B2.
      destruct (lock_body f IH _ _ _ _ _ _ _ _ _ _ NN RD B1 B2) as [(SR & NX & RW & PO)|SW].
      * inversion H1; inversion H2; subst. left. split; [exact SR|]. split; [|exact PO].
        unfold ascend. rewrite (R_depth _ _ RW). apply R_ascend; assumption.
      * inversion H1; inversion H2; subst. right.
        apply (Sep1 w1 (ascend x2 w2)). apply (Sep2 _ _ SW).
    + inversion H1; inversion H2; subst. left. split; [left; reflexivity|]. split; [auto|discriminate].
Qed.
End Lockstep.

(** ** The outcome of a walk from the result of its traversal *)
Definition fate (o : outcome (bool * option error)) : outcome (option error) :=
  match o with Ret (_, e) => Ret e | Pan p => Pan p | Stuck => Stuck end.
(** The same outcome or, where a panic is possible, alike. *)
Definition agree (pan_ok : panicv -> Prop) (o1 o2 : outcome (option error)) : Prop :=
  o1 = o2 \/ ((exists p, pan_ok p) /\ alike o1 o2).

Lemma rescue_error_panic : forall a, panic_error (rescue_error a).
Proof. intros [d|r]; cbn; [left|right]; eexists; reflexivity. Qed.
Lemma same_agree : forall pan_ok t1 t2, same_res pan_ok t1 t2 -> agree pan_ok (fate t1) (fate t2).
Proof.
  intros P t1 t2 [->|(PP & b & a & a' & -> & ->)]; [left; reflexivity|]. right. split; [exact PP|]. right.
  exists (rescue_error a), (rescue_error a'). repeat split; apply rescue_error_panic.
Qed.
Lemma agree_alike : forall P o1 o2, agree P o1 o2 -> alike o1 o2.
Proof. intros P o1 o2 [->|[_ A]]; [left; reflexivity|exact A]. Qed.
Lemma agree_none : forall (P : panicv -> Prop) o1 o2, (forall p, ~ P p) -> agree P o1 o2 -> o1 = o2.
Proof. intros P o1 o2 N [E|[[p H] _]]; [exact E|]. destruct (N p H). Qed.
Lemma same_none : forall (P : panicv -> Prop) t1 t2, (forall p, ~ P p) -> same_res P t1 t2 -> t1 = t2.
Proof. intros P t1 t2 N [E|[[p H] _]]; [exact E|]. destruct (N p H). Qed.
Lemma alike_refl : forall o, alike o o.
Proof. intro o. left. reflexivity. Qed.
Lemma alike_sym : forall a b, alike a b -> alike b a.
Proof. intros a b [->|(e1 & e2 & -> & -> & P & Q)]; [left; reflexivity|]. right. exists e2, e1. auto. Qed.
Lemma alike_trans : forall a b d, alike a b -> alike b d -> alike a d.
Proof.
  intros a b d [->|(e1 & e2 & -> & -> & P & Q)] K; [exact K|].
  destruct K as [<-|(e3 & e4 & E & -> & P' & Q')]; right; [exists e1, e2|exists e1, e4]; auto.
Qed.
Lemma end_agree : forall P (o1 o2 o1' o2' : outcome (option error)) v1 v2 s1 s2, agree P o1' o2' ->
  (match o1' with Ret e => (Ret e, dispatch (mu_end (s_mutes v1)) (EvEnd (s_metrics v1)) v1) | x => (x, v1) end) = (o1, s1) ->
  (match o2' with Ret e => (Ret e, dispatch (mu_end (s_mutes v2)) (EvEnd (s_metrics v2)) v2) | x => (x, v2) end) = (o2, s2) ->
  agree P o1 o2 /\ ((s1 = v1 /\ s2 = v2) \/
    (s1 = dispatch (mu_end (s_mutes v1)) (EvEnd (s_metrics v1)) v1 /\
     s2 = dispatch (mu_end (s_mutes v2)) (EvEnd (s_metrics v2)) v2)).
Proof.
  intros P o1 o2 o1' o2' v1 v2 s1 s2 AG E1 E2.
  assert (A : agree P o1 o2).
  { destruct AG as [->|[PP AL]].
    - left. destruct o2'; congruence.
    - right. split; [exact PP|]. destruct AL as [->|(e1 & e2 & -> & -> & P1 & P2)].
      + left. destruct o2'; congruence.
      + right. exists e1, e2. repeat split; auto; congruence. }
  split; [exact A|]. clear A.
  destruct AG as [->|[_ [->|(e1 & e2 & -> & -> & _ & _)]]]; [destruct o2'| destruct o2'|];
    inversion E1; inversion E2; subst; auto.
Qed.
Lemma alike_shape : forall o1 o2, alike o1 o2 ->
  match o1, o2 with Ret _, Ret _ => True | Pan p, Pan q => p = q | Stuck, Stuck => True | _, _ => False end.
Proof. intros o1 o2 [->|(e1 & e2 & -> & -> & _)]; [destruct o2; auto|exact I]. Qed.
Lemma alike_none : forall o, alike o (Ret None) -> o = Ret None.
Proof. intros o [E|(e1 & e2 & _ & E & _)]; [exact E|discriminate]. Qed.
