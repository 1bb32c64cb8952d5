(** Unreadable directories (C18) and the order of siblings (C19). *)
From Verif Require Import Base Paths Level Lo Collections Kernel Session Spec KernelRel KernelFacts
  KernelInv WalkFacts StandsFacts JournalFacts SessionFacts RescueFacts FilesFacts BracketFacts WalkCor WalkProps.
From Coq Require Import Permutation Sorted.

(** ** C18 *)
(** The read hook with its errors forgotten. *)
Definition error_free (rd : string -> fsnode -> list fsnode * option error) :
    string -> fsnode -> list fsnode * option error := fun p t => (fst (rd p t), None).
(** A failing read yields no entries (as the default hook, pref/defaults.go:19-22). *)
Definition empty_on_error (c : cfg) : Prop :=
  forall p t e, snd (c_read c p t) = Some e -> fst (c_read c p t) = [].

Section Unreadable.
Variable c : cfg.
Notation c' := (with_read (error_free (c_read c)) c).
Hypothesis DS : default_skip c.
Hypothesis EE : empty_on_error c.

Lemma travel_loop_ext : forall tr1 tr2 parent es i s,
  (forall n s, tr1 n s = tr2 n s) -> travel_loop tr1 parent i es s = travel_loop tr2 parent i es s.
Proof.
  intros tr1 tr2 parent es. induction es as [|e es IH]; intros i s E; [reflexivity|].
  cbn [travel_loop]. rewrite E. destruct (tr2 (child_node parent i e) s) as [[[[|] [er|]]|p|] s1]; try reflexivity;
    rewrite ?IH by exact E; reflexivity.
Qed.

Lemma iterate_read : forall rs n k s, iterate c' rs n k s = iterate c rs n k s.
Proof.
  induction rs as [|r rs IH]; intros n k s; [reflexivity|]. cbn [iterate].
  change (link_next c' r n k s) with (link_next c r n k s).
  destruct (link_next c r n k s) as [[[[[|] [e|]]|p|] n1] s1]; try reflexivity. apply IH.
Qed.
Lemma invoke_read : forall n k s, invoke c' n k s = invoke c n k s.
Proof. intros. unfold invoke. rewrite iterate_read. reflexivity. Qed.

Lemma read_contents_eq : forall n, fst (read_contents c' n) = fst (read_contents c n).
Proof.
  intro n. unfold read_contents. cbn [c_read with_read]. unfold error_free.
  destruct (c_read c (n_path n) (n_src n)) as [es err]. reflexivity.
Qed.

Lemma travel_nil : forall cc trav n s, travel cc trav n [] s = (Ret (true, None), s).
Proof. reflexivity. Qed.

Lemma inspect_eq : forall n, fst (inspect c' n) = fst (inspect c n).
Proof.
  intro n. pose proof (read_contents_eq n) as E. unfold inspect.
  change (c_sub c') with (c_sub c).
  destruct (read_contents c' n) as [[f1 d1] e1], (read_contents c n) as [[f2 d2] e2]. cbn in E.
  inversion E; subst. destruct (c_sub c), (n_isdir n); reflexivity.
Qed.
Lemma inspect_empty : forall n e, (c_sub c = SubFiles -> n_isdir n = true) ->
  snd (inspect c n) = Some e -> snd (fst (inspect c n)) = c_sort c [] \/ snd (fst (inspect c n)) = c_sort c [] ++ c_sort c [].
Proof.
  intros n e D. unfold inspect, read_contents. pose proof (EE (n_path n) (n_src n)) as X.
  destruct (c_read c (n_path n) (n_src n)) as [es err]. cbn in X.
  destruct (c_sub c) eqn:SUB; try (destruct (n_isdir n)); cbn; intro H; try discriminate;
    rewrite (X e H); cbn; unfold all_of; destruct (c_files_first c); auto.
Qed.

Lemma traverse_read : hooks_ok c -> forall f tree n s, traverse f c' tree n s = traverse f c tree n s.
Proof.
  intro HK. assert (SN : c_sort c [] = []) by (destruct HK as [_ P]; apply Permutation_nil; symmetry; apply P).
  induction f as [|f IH]; intros tree n s; [reflexivity|]. cbn [traverse].
  change (descend c' n s) with (descend c n s). destruct (descend c n s) as [ok s1]. destruct ok; [|reflexivity].
  assert (E : traverse_body c' (traverse f c' tree) tree n s1 = traverse_body c (traverse f c tree) tree n s1);
    [|rewrite E; reflexivity].
  assert (TE : forall p es s, travel c' (traverse f c' tree) p es s = travel c (traverse f c tree) p es s).
  { intros p es s0. unfold travel. rewrite (travel_loop_ext _ (traverse f c tree)) by (intros; apply IH).
    destruct (travel_loop (traverse f c tree) p 0 es s0) as [[r|pv|] s2]; reflexivity. }
  unfold traverse_body. pose proof (inspect_eq n) as EI.
  destruct (inspect c' n) as [[k1 es1] err1] eqn:I1, (inspect c n) as [[k2 es2] err2] eqn:I2. cbn in EI.
  inversion EI; subst k1 es1.
  change (extend c' tree n k2 s1) with (extend c tree n k2 s1). set (n1 := extend c tree n k2 s1).
  change (c_sub c') with (c_sub c).
  assert (ERR1 : err1 = None).
  { assert (X : snd (inspect c' n) = None).
    { unfold inspect, read_contents. cbn. destruct (c_sub c), (n_isdir n); reflexivity. }
    rewrite I1 in X. exact X. }
  change (c_ask c') with (c_ask c).
  destruct (c_sub c) eqn:SUB.
  - destruct (n_isdir n1) eqn:D.
    + rewrite !DS. subst err1. destruct err2 as [e2|].
      * assert (ES : es2 = []).
        { assert (DD : n_isdir n = true).
          { subst n1. unfold extend in D. destruct (split_path (n_path n)). exact D. }
          pose proof (inspect_empty n e2 (fun _ => DD)) as X. rewrite I2 in X. cbn in X.
          destruct (X eq_refl) as [->| ->]; rewrite SN; reflexivity. }
        subst es2. rewrite travel_nil. reflexivity.
      * unfold with_node. rewrite TE. reflexivity.
    + rewrite invoke_read. reflexivity.
  - rewrite invoke_read. destruct (invoke c n1 k2 s1) as [[[[e|]|p|] n2] s2]; try reflexivity.
    rewrite !DS. unfold with_node. rewrite TE. reflexivity.
  - rewrite invoke_read. destruct (invoke c n1 k2 s1) as [[[[e|]|p|] n2] s2]; try reflexivity.
    rewrite !DS. unfold with_node. rewrite TE. reflexivity.
  - rewrite invoke_read. destruct (invoke c n1 k2 s1) as [[[[e|]|p|] n2] s2]; try reflexivity.
    rewrite !DS. unfold with_node. rewrite TE. reflexivity.
Qed.

Theorem session_read : hooks_ok c -> forall sampling t, session c' sampling t = session c sampling t.
Proof.
  intros HK sampling t. unfold session, navigate, top.
  change (start_st c' sampling) with (start_st c sampling).
  change (c_stat c') with (c_stat c). change (c_fault c') with (c_fault c). change (c_tree c') with (c_tree c).
  destruct (c_stat c t); [reflexivity|]. rewrite traverse_read by exact HK. reflexivity.
Qed.
End Unreadable.

(** ** C19 *)
(** Siblings in the order of visiting. *)
Lemma sorted_pairs : forall (A : Type) (R : A -> A -> Prop) a x b y d,
  StronglySorted R (a ++ x :: b ++ y :: d) -> R x y.
Proof.
  intros A R a x b y d H. induction a as [|z a IH]; cbn in H.
  - inversion H as [|? ? H1 H2]; subst. rewrite Forall_forall in H2. apply H2. apply in_or_app. right. left. reflexivity.
  - inversion H; subst. apply IH. assumption.
Qed.
Lemma before_sibling : forall q i j, before (q ++ [i]) (q ++ [j]) -> i < j.
Proof.
  intros q i j [H|(r & a & b & x & y & E1 & E2 & L)].
  - rewrite above_below_same in H. cbn in H. destruct (Nat.eqb i j); discriminate.
  - assert (K : forall q r i j a b (x y : list nat), q ++ [i] = r ++ a :: x -> q ++ [j] = r ++ b :: y -> a < b -> i < j).
    { clear. induction q as [|z q IH]; intros r i j a b x y E1 E2 L.
      - destruct r as [|w r]; cbn in *; inversion E1; inversion E2; subst; [exact L|destruct r; discriminate].
      - destruct r as [|w r]; cbn in *; inversion E1; inversion E2; subst; [lia|]. eapply IH; eassumption. }
    eapply K; eassumption.
Qed.

Lemma filter_sorted : forall (A B : Type) (R : B -> B -> Prop) (g : A -> B) (f : A -> bool) l,
  StronglySorted R (map g l) -> StronglySorted R (map g (filter f l)).
Proof.
  intros A B R g f l H. induction l as [|x l IH]; [exact H|]. cbn in *. inversion H; subst.
  destruct (f x); [|apply IH; assumption]. cbn. constructor; [apply IH; assumption|].
  rewrite Forall_forall in *. intros y Iy. match goal with F : forall _, _ -> R _ _ |- _ => apply F end.
  apply in_map_iff in Iy. destruct Iy as (z & <- & Iz). apply in_map. apply filter_In in Iz. apply Iz.
Qed.
Lemma prefix_sorted : forall (A : Type) (R : A -> A -> Prop) a b, StronglySorted R (a ++ b) -> StronglySorted R a.
Proof.
  intros A R a b H. induction a as [|x a IH]; [constructor|]. cbn in H. inversion H; subst.
  constructor; [apply IH; assumption|]. rewrite Forall_forall in *. intros y I. 
  match goal with F : forall _, _ -> R _ _ |- _ => apply F end. apply in_or_app. left. exact I.
Qed.

(** Nodes are called in strictly increasing order of position, whatever the
    callback does. *)
Lemma visited_sorted : forall c sampling t o s, hooks_ok c -> root_ok c t -> default_skip c -> filter_ok c ->
  session c sampling t = (o, s) -> StronglySorted before (map n_pos (visited s)).
Proof.
  intros c sampling t o s HK RO DS FO H.
  assert (S : StronglySorted before (map n_pos (map fst (offers (s_trace s))))).
  { destruct (c_sub c) eqn:SUB.
    1:{ destruct (listing_files c HK t) as [P HP]. destruct (preorder_characterised _ _ _ _ HP) as [_ SP].
      destruct (session_files _ _ _ _ _ _ HK RO DS SUB HP H) as (ro & EO & NS & [[rest [K _]] _] & _).
      apply (filter_sorted _ _ before pl_pos (within (c_depth c) 0)) in SP.
      apply (filter_sorted _ _ before pl_pos afile) in SP.
      apply (filter_sorted _ _ before pl_pos (fun p => negb (cut_off (offers (s_trace s)) p))) in SP.
      rewrite K, map_app in SP. apply prefix_sorted in SP. rewrite map_map in SP. rewrite map_map. exact SP. }
    all: destruct (preorder_exists c HK [] (c_tree c) t) as [P HP]; destruct (preorder_characterised _ _ _ _ HP) as [_ SP];
      destruct (session_walk c sampling t o s P HK RO DS ltac:(congruence) HP H) as (ro & EO & NS & [[rest [K _]] _] & _);
      apply (filter_sorted _ _ before pl_pos (within (c_depth c) 0)) in SP;
      apply (filter_sorted _ _ before pl_pos (fun p => negb (below_skip (offers (s_trace s)) p))) in SP;
      rewrite K, map_app in SP; apply prefix_sorted in SP; rewrite map_map in SP; rewrite map_map; exact SP. }
  destruct (session_journal _ _ _ _ _ HK RO FO H) as (J & O & C & _ & _).
  unfold visited. rewrite C. rewrite O in S. rewrite !map_map in *.
  apply (filter_sorted _ _ before (fun x => n_pos (fst (fst x))) e_called). exact S.
Qed.

(** What the parent position tells about a visited sibling. *)
Lemma sibling_entry : forall c t n q i, stands c (entries c) (c_tree c) (c_tree c) t 0 n -> n_pos n = q ++ [i] ->
  exists p, n_parent n = Some p /\ n_pos p = q /\ stands c (entries c) (c_tree c) (c_tree c) t 0 p /\
    nth_error (entries c (n_path p) (n_src p)) i = Some (n_src n).
Proof.
  intros c t n q i H E. inversion H as [m E1 E2 E3 E4|p j e m HP NT E1 E2 E3 E4]; subst m.
  - rewrite E4 in E. destruct q; discriminate.
  - rewrite E4 in E. apply app_inj_tail in E. destruct E as [<- ->]. exists p. rewrite E2. auto.
Qed.
Lemma stands_place_fun : forall c es tree root t base n m,
  stands c es tree root t base n -> stands c es tree root t base m -> n_pos n = n_pos m -> place_of n = place_of m.
Proof.
  intros c es tree root t base n m H. revert m.
  induction H as [n E1 E2 E3 E4|p i e n HP IH NT E1 E2 E3 E4]; intros m HM EP.
  - inversion HM as [x F1 F2 F3 F4|q j g x HQ NQ F1 F2 F3 F4]; subst x.
    + unfold place_of. congruence.
    + rewrite E4, F4 in EP. destruct (n_pos q); discriminate.
  - inversion HM as [x F1 F2 F3 F4|q j g x HQ NQ F1 F2 F3 F4]; subst x.
    + rewrite E4, F4 in EP. destruct (n_pos p); discriminate.
    + assert (EP' := EP). rewrite E4, F4 in EP. apply app_inj_tail in EP. destruct EP as [EQ <-].
      pose proof (IH q HQ EQ) as PQ. unfold place_of in PQ. inversion PQ as [[P1 P2 P3]].
      rewrite P2, P3 in NT. rewrite NT in NQ. inversion NQ; subst g.
      unfold place_of. congruence.
Qed.

(** [earlier s n m]: the callback ran for [n] and, later, for [m]. *)
Definition earlier (s : st) (n m : node) : Prop := exists a b d, visited s = a ++ n :: b ++ m :: d.

(** Siblings: same containing directory. *)
Definition siblings (n m : node) : Prop :=
  exists p q, n_parent n = Some p /\ n_parent m = Some q /\ place_of p = place_of q.

Lemma sibling_positions : forall c sampling t o s n m, hooks_ok c -> root_ok c t -> default_skip c -> filter_ok c ->
  session c sampling t = (o, s) -> earlier s n m -> siblings n m ->
  exists es i j, i < j /\ nth_error es i = Some (n_src n) /\ nth_error es j = Some (n_src m) /\
    exists p u, es = entries c p u /\ (c_sub c = SubUniversal \/ c_sub c = SubFiles -> fisdir u = true).
Proof.
  intros c sampling t o s n m HK RO DS FO H (a & b & d & EV) (p & q & PN & PM & PQ).
  pose proof (visited_sorted _ _ _ _ _ HK RO DS FO H) as S. rewrite EV in S.
  rewrite map_app in S. cbn [map] in S. rewrite map_app in S. cbn [map] in S. apply sorted_pairs in S.
  pose proof (visited_stands _ _ _ _ _ HK RO H) as F. rewrite Forall_forall in F.
  assert (SN : stands c (entries c) (c_tree c) (c_tree c) t 0 n).
  { apply F. rewrite EV. apply in_or_app. right. left. reflexivity. }
  assert (SM : stands c (entries c) (c_tree c) (c_tree c) t 0 m).
  { apply F. rewrite EV. apply in_or_app. right. right. apply in_or_app. right. left. reflexivity. }
  inversion SN as [x E1 E2 E3|p' i e x HP NT E1 E2 E3 E4]; subst x; [congruence|].
  inversion SM as [x F1 F2 F3|q' j g x HQ NQ F1 F2 F3 F4]; subst x; [congruence|].
  rewrite PN in E3. inversion E3; subst p'. rewrite PM in F3. inversion F3; subst q'.
  unfold place_of in PQ. inversion PQ as [[P1 P2 P3]].
  rewrite E4, F4, P1 in S. apply before_sibling in S.
  rewrite <- P2, <- P3 in NQ.
  exists (entries c (n_path p) (n_src p)), i, j. rewrite E2, F2. repeat (split; [assumption|]).
  exists (n_path p), (n_src p). split; [reflexivity|].
  intro SUB. destruct (fisdir (n_src p)) eqn:D; [reflexivity|exfalso].
  unfold entries in NT. destruct SUB as [SUB|SUB]; rewrite SUB in NT; rewrite entries_all_file in NT by exact D;
    destruct i; discriminate.
Qed.

Lemma nth_app_both : forall (A : Type) (a b : list A) i j x y, i < j ->
  nth_error (a ++ b) i = Some x -> nth_error (a ++ b) j = Some y ->
  (In x a /\ In y a /\ nth_error a i = Some x /\ nth_error a j = Some y) \/ (In x a /\ In y b) \/
  (In x b /\ In y b /\ nth_error b (i - length a) = Some x /\ nth_error b (j - length a) = Some y /\ length a <= i).
Proof.
  intros A a b i j x y L X Y.
  destruct (Nat.lt_ge_cases j (length a)) as [J|J].
  - left. rewrite nth_error_app1 in X by lia. rewrite nth_error_app1 in Y by lia.
    repeat split; try assumption; eapply nth_error_In; eassumption.
  - rewrite nth_error_app2 in Y by lia. destruct (Nat.lt_ge_cases i (length a)) as [I|I].
    + right. left. rewrite nth_error_app1 in X by lia. split; eapply nth_error_In; eassumption.
    + right. right. rewrite nth_error_app2 in X by lia. repeat split; try assumption; eapply nth_error_In; eassumption.
Qed.

Lemma sort_Forall : forall c (Q : fsnode -> Prop) l, hooks_ok c -> Forall Q l -> Forall Q (c_sort c l).
Proof.
  intros c Q l [_ P] F. eapply Permutation_Forall; [|exact F]. symmetry. apply P.
Qed.

(** directories come before files (or the other way round) *)
Lemma groups_in_order : forall c sampling t o s n m, hooks_ok c -> root_ok c t -> default_skip c -> filter_ok c ->
  session c sampling t = (o, s) -> earlier s n m -> siblings n m ->
  if c_files_first c then ~ (fisdir (n_src n) = true /\ fisdir (n_src m) = false)
  else ~ (fisdir (n_src n) = false /\ fisdir (n_src m) = true).
Proof.
  intros c sampling t o s n m HK RO DS FO H EA SI.
  destruct (sibling_positions _ _ _ _ _ _ _ HK RO DS FO H EA SI) as (es & i & j & L & X & Y & p & u & -> & D).
  assert (FD : forall l, Forall (fun e => fisdir e = true) (c_sort c (filter fisdir l))).
  { intro l. apply sort_Forall; [exact HK|]. apply Forall_forall. intros e I. apply filter_In in I. apply I. }
  assert (FF : forall l, Forall (fun e => fisdir e = false) (c_sort c (filter (fun e => negb (fisdir e)) l))).
  { intro l. apply sort_Forall; [exact HK|]. apply Forall_forall. intros e I. apply filter_In in I. apply negb_true_iff. apply I. }
  assert (AD : c_sub c = SubDirectories \/ c_sub c = SubDirectoriesWithFiles ->
    forall v, (exists k, nth_error (entries c p u) k = Some v) -> fisdir v = true).
  { intros SUB v (k & N). assert (EN : entries c p u = entries_dirs c p u) by (unfold entries; destruct SUB as [-> | ->]; reflexivity).
    rewrite EN in N. apply nth_error_In in N. unfold entries_dirs in N.
    specialize (FD (fst (c_read c p u))). rewrite Forall_forall in FD. apply FD. exact N. }
  assert (CASE : (c_sub c = SubDirectories \/ c_sub c = SubDirectoriesWithFiles) \/ (c_sub c = SubUniversal \/ c_sub c = SubFiles))
    by (destruct (c_sub c); auto).
  destruct CASE as [SUB|SUB].
  - pose proof (AD SUB _ (ex_intro _ i X)). pose proof (AD SUB _ (ex_intro _ j Y)).
    destruct (c_files_first c); intros [A B]; congruence.
  - assert (EN : entries c p u = entries_all c p u) by (unfold entries; destruct SUB as [-> | ->]; reflexivity).
    rewrite EN in X, Y. unfold entries_all in X, Y. rewrite (D SUB) in X, Y.
    specialize (FD (fst (c_read c p u))). specialize (FF (fst (c_read c p u))).
    rewrite Forall_forall in FD, FF.
    destruct (c_files_first c); intros [A B];
      destruct (nth_app_both _ _ _ i j _ _ L X Y) as [(I1 & I2 & _)|[(I1 & I2)|(I1 & I2 & _)]];
      repeat match goal with I : In _ (c_sort c (filter fisdir _)) |- _ => apply FD in I
                        | I : In _ (c_sort c (filter (fun _ => _) _)) |- _ => apply FF in I end; congruence.
Qed.

(** within a group, the order is that of the sort hook *)
Lemma sorted_nth : forall (A : Type) (R : A -> A -> Prop) l i j x y, StronglySorted R l -> i < j ->
  nth_error l i = Some x -> nth_error l j = Some y -> R x y.
Proof.
  intros A R l i j x y S. revert i j. induction S as [|z l S IH F]; intros i j L X Y; [destruct i; discriminate|].
  destruct i; cbn in X.
  - inversion X; subst z. destruct j; [lia|]. cbn in Y. rewrite Forall_forall in F. apply F. eapply nth_error_In. exact Y.
  - destruct j; [lia|]. cbn in Y. eapply IH; [|exact X|exact Y]. lia.
Qed.
Lemma group_sorted : forall c sampling t o s n m (le : fsnode -> fsnode -> Prop),
  hooks_ok c -> root_ok c t -> default_skip c -> filter_ok c ->
  (forall l, StronglySorted le (c_sort c l)) ->
  session c sampling t = (o, s) -> earlier s n m -> siblings n m ->
  fisdir (n_src n) = fisdir (n_src m) -> le (n_src n) (n_src m).
Proof.
  intros c sampling t o s n m le HK RO DS FO SS H EA SI EQ.
  destruct (sibling_positions _ _ _ _ _ _ _ HK RO DS FO H EA SI) as (es & i & j & L & X & Y & p & u & -> & D).
  assert (FD : forall l, Forall (fun e => fisdir e = true) (c_sort c (filter fisdir l))).
  { intro l. apply sort_Forall; [exact HK|]. apply Forall_forall. intros e I. apply filter_In in I. apply I. }
  assert (FF : forall l, Forall (fun e => fisdir e = false) (c_sort c (filter (fun e => negb (fisdir e)) l))).
  { intro l. apply sort_Forall; [exact HK|]. apply Forall_forall. intros e I. apply filter_In in I. apply negb_true_iff. apply I. }
  assert (CASE : (c_sub c = SubDirectories \/ c_sub c = SubDirectoriesWithFiles) \/ (c_sub c = SubUniversal \/ c_sub c = SubFiles))
    by (destruct (c_sub c); auto).
  destruct CASE as [SUB|SUB].
  - assert (EN : entries c p u = entries_dirs c p u) by (unfold entries; destruct SUB as [-> | ->]; reflexivity).
    rewrite EN in X, Y. eapply sorted_nth; [apply SS|exact L|exact X|exact Y].
  - assert (EN : entries c p u = entries_all c p u) by (unfold entries; destruct SUB as [-> | ->]; reflexivity).
    rewrite EN in X, Y. unfold entries_all in X, Y. rewrite (D SUB) in X, Y.
    specialize (FD (fst (c_read c p u))). specialize (FF (fst (c_read c p u))).
    rewrite Forall_forall in FD, FF.
    destruct (c_files_first c);
      destruct (nth_app_both _ _ _ i j _ _ L X Y) as [(I1 & I2 & N1 & N2)|[(I1 & I2)|(I1 & I2 & N1 & N2 & LI)]];
      try (eapply sorted_nth; [apply SS| |exact N1|exact N2]; lia);
      try (exfalso; repeat match goal with I : In _ (c_sort c (filter fisdir _)) |- _ => apply FD in I
                        | I : In _ (c_sort c (filter (fun _ => _) _)) |- _ => apply FF in I end; congruence).
Qed.

(** ** Independence of the listing order *)
Lemma sorted_perm_unique : forall (A : Type) (R : A -> A -> Prop) l l',
  (forall a b, In a l -> In b l -> R a b -> R b a -> a = b) ->
  Permutation l l' -> StronglySorted R l -> StronglySorted R l' -> l = l'.
Proof.
  intros A R l. induction l as [|x l IH]; intros l' AS P S S'.
  - apply Permutation_nil in P. congruence.
  - destruct l' as [|y l']; [symmetry in P; apply Permutation_nil in P; discriminate|].
    inversion S as [|? ? S1 F1]; subst. inversion S' as [|? ? S2 F2]; subst.
    assert (E : x = y).
    { assert (IY : In y (x :: l)) by (eapply Permutation_in; [symmetry; exact P|left; reflexivity]).
      assert (IX : In x (y :: l')) by (eapply Permutation_in; [exact P|left; reflexivity]).
      destruct IY as [->|IY]; [reflexivity|]. destruct IX as [->|IX]; [reflexivity|].
      rewrite Forall_forall in F1, F2. apply AS; auto; [left; reflexivity|right; exact IY]. }
    subst y. f_equal. apply Permutation_cons_inv in P. apply IH; auto.
    intros a b Ia Ib. apply AS; right; assumption.
Qed.

Definition sorts_by_key (c : cfg) (key : string -> string) : Prop :=
  forall l, StronglySorted (fun a b => (key (fname a) <=? key (fname b))%string = true) (c_sort c l).
(** No two entries of one directory of the tree sort alike. *)
Definition distinct_keys (c : cfg) (key : string -> string) (t : fsnode) : Prop :=
  forall q, reachable (fun p u => fst (c_read c p u)) (c_tree c) t q ->
  forall a b, In a (fst (c_read c (pl_path q) (pl_obj q))) -> In b (fst (c_read c (pl_path q) (pl_obj q))) ->
    key (fname a) = key (fname b) -> a = b.
(** [rd] lists the entries of each directory in some other order. *)
Definition relisted (c : cfg) (rd : string -> fsnode -> list fsnode * option error) : Prop :=
  forall p t, Permutation (fst (c_read c p t)) (fst (rd p t)) /\ snd (rd p t) = snd (c_read c p t).

Lemma filter_perm : forall (A : Type) (f : A -> bool) l l', Permutation l l' -> Permutation (filter f l) (filter f l').
Proof.
  intros A f l l' P. induction P as [|x l l' P IH|x y l|l l' l'' P1 IH1 P2 IH2]; cbn; auto.
  - destruct (f x); auto.
  - destruct (f x), (f y); auto. constructor.
  - etransitivity; eassumption.
Qed.

Section Relist.
Variable c : cfg.
Variable key : string -> string.
Variable rd : string -> fsnode -> list fsnode * option error.
Hypothesis HK : hooks_ok c.
Hypothesis SK : sorts_by_key c key.
Variable t : fsnode.
Hypothesis DK : distinct_keys c key t.
Hypothesis RL : relisted c rd.
(** an object of the tree, at its path *)
Definition in_tree (p : string) (u : fsnode) : Prop :=
  exists pos, reachable (fun p u => fst (c_read c p u)) (c_tree c) t (mkPlace pos p u).
Notation c' := (with_read rd c).

Lemma relist_hooks : hooks_ok c'.
Proof.
  destruct HK as [A B]. split; [|exact B]. intros p u e I. apply (A p u e). cbn in I.
  eapply Permutation_in; [symmetry; apply RL|exact I].
Qed.

Lemma in_tree_root : in_tree (c_tree c) t.
Proof. exists []. apply reach_root. Qed.
Lemma in_tree_entry : forall p u e, in_tree p u -> In e (fst (c_read c p u)) -> in_tree (join p (fname e)) e.
Proof.
  intros p u e [pos R] I. apply In_nth_error in I. destruct I as [i N].
  exists (pos ++ [i]). apply (reach_entry _ _ _ _ i e R N).
Qed.

Lemma relist_sort : forall f p u, in_tree p u ->
  c_sort c (filter f (fst (c_read c p u))) = c_sort c (filter f (fst (rd p u))).
Proof.
  intros f p u [pos R]. destruct HK as [_ PS].
  eapply sorted_perm_unique; [| |apply SK|apply SK].
  - intros a b Ia Ib L1 L2. cbn in L1, L2.
    assert (KE : key (fname a) = key (fname b)) by (apply String.leb_antisym; assumption).
    assert (X : forall e, In e (c_sort c (filter f (fst (c_read c p u)))) -> In e (fst (c_read c p u))).
    { intros e I. eapply Permutation_in in I; [|apply PS]. apply filter_In in I. apply I. }
    apply (DK (mkPlace pos p u) R); auto.
  - etransitivity; [apply PS|]. etransitivity; [|symmetry; apply PS]. apply filter_perm. apply RL.
Qed.

Lemma relist_all : forall p u, in_tree p u -> entries_all c p u = entries_all c' p u.
Proof.
  intros p u T. unfold entries_all. cbn [c_read c_sort c_files_first with_read]. rewrite !relist_sort by exact T. reflexivity.
Qed.
Lemma relist_dirs : forall p u, in_tree p u -> entries_dirs c p u = entries_dirs c' p u.
Proof. intros p u T. apply relist_sort. exact T. Qed.
Lemma relist_files : forall p u, in_tree p u -> entries_files c p u = entries_files c' p u.
Proof.
  intros p u T. unfold entries_files. cbn [c_read with_read]. destruct (RL p u) as [_ ->]. rewrite relist_all by exact T. reflexivity.
Qed.
Lemma dirs_in_read : forall p u e, In e (entries_dirs c p u) -> In e (fst (c_read c p u)).
Proof.
  intros p u e I. destruct HK as [_ PS]. unfold entries_dirs in I. eapply Permutation_in in I; [|apply PS].
  apply filter_In in I. apply I.
Qed.
Lemma all_in_read : forall p u e, In e (entries_all c p u) -> In e (fst (c_read c p u)).
Proof.
  intros p u e I. destruct HK as [_ PS]. unfold entries_all in I. destruct (fisdir u); [|destruct I].
  destruct (c_files_first c); apply in_app_or in I; destruct I as [I|I];
    (eapply Permutation_in in I; [|apply PS]); apply filter_In in I; apply I.
Qed.
Lemma files_in_read : forall p u e, In e (entries_files c p u) -> In e (fst (c_read c p u)).
Proof.
  intros p u e I. apply all_in_read. unfold entries_files in I. destruct (snd (c_read c p u)); [destruct I|exact I].
Qed.

(** listings that agree on the tree have the same pre-order *)
Lemma preorder_in_tree : forall es es',
  (forall p u e, In e (es p u) -> In e (fst (c_read c p u))) ->
  (forall p u, in_tree p u -> es p u = es' p u) ->
  forall P, preorder es [] (c_tree c) t P -> preorder es' [] (c_tree c) t P.
Proof.
  intros es es' IN EQ P H.
  assert (G : (forall pos path u l, preorder es pos path u l -> in_tree path u -> preorder es' pos path u l) /\
    (forall pos path i ts l, preorders es pos path i ts l ->
       Forall (fun e => in_tree (join path (fname e)) e) ts -> preorders es' pos path i ts l)).
  { apply preorder_both.
    - intros pos path u l _ IH T. constructor. rewrite <- EQ by exact T. apply IH.
      apply Forall_forall. intros e I. eapply in_tree_entry; [exact T|]. apply IN. exact I.
    - intros. constructor.
    - intros pos path i e rest l1 l2 _ IH1 _ IH2 F. inversion F; subst. constructor; auto. }
  apply (proj1 G); [exact H|apply in_tree_root].
Qed.

Theorem relisted_same : forall sampling, root_ok c t -> default_skip c -> plain c -> nil_callback c ->
  exists s s', session c sampling t = (Ret None, s) /\ session c' sampling t = (Ret None, s') /\
    map place_of (visited s') = map place_of (visited s).
Proof.
  intros sampling RO DS PL NC. pose proof relist_hooks as HK'.
  destruct (c_sub c) eqn:SUB.
  - destruct (listing_files c HK t) as [P HP].
    destruct (files_nil c sampling t P HK RO DS PL NC SUB HP) as (s & E & M).
    assert (HP' : preorder (entries_files c') [] (c_tree c) t P).
    { exact (preorder_in_tree _ _ files_in_read relist_files _ HP). }
    destruct (files_nil c' sampling t P HK' RO DS PL NC SUB HP') as (s' & E' & M').
    exists s, s'. repeat (split; [assumption|]). rewrite M, M'. reflexivity.
  - destruct (preorder_exists c HK [] (c_tree c) t) as [P HP0].
    assert (HP : preorder (entries_dirs c) [] (c_tree c) t P).
    { eapply (proj1 (preorder_ext (entries c) (entries_dirs c) (fun p u => eq_sym (entries_directories c (or_introl SUB) p u)))). exact HP0. }
    destruct (directories_nil c sampling t P HK RO DS PL NC (or_introl SUB) HP) as (s & E & M).
    assert (HP' : preorder (entries_dirs c') [] (c_tree c) t P).
    { exact (preorder_in_tree _ _ dirs_in_read relist_dirs _ HP). }
    destruct (directories_nil c' sampling t P HK' RO DS PL NC (or_introl SUB) HP') as (s' & E' & M').
    exists s, s'. repeat (split; [assumption|]). rewrite M, M'. reflexivity.
  - destruct (preorder_exists c HK [] (c_tree c) t) as [P HP0].
    assert (HP : preorder (entries_dirs c) [] (c_tree c) t P).
    { eapply (proj1 (preorder_ext (entries c) (entries_dirs c) (fun p u => eq_sym (entries_directories c (or_intror SUB) p u)))). exact HP0. }
    destruct (directories_nil c sampling t P HK RO DS PL NC (or_intror SUB) HP) as (s & E & M).
    assert (HP' : preorder (entries_dirs c') [] (c_tree c) t P).
    { exact (preorder_in_tree _ _ dirs_in_read relist_dirs _ HP). }
    destruct (directories_nil c' sampling t P HK' RO DS PL NC (or_intror SUB) HP') as (s' & E' & M').
    exists s, s'. repeat (split; [assumption|]). rewrite M, M'. reflexivity.
  - destruct (preorder_exists c HK [] (c_tree c) t) as [P HP0].
    assert (HP : preorder (entries_all c) [] (c_tree c) t P).
    { eapply (proj1 (preorder_ext (entries c) (entries_all c) (fun p u => eq_sym (entries_universal c SUB p u)))). exact HP0. }
    destruct (universal_nil c sampling t P HK RO DS PL NC SUB HP) as (s & E & M).
    assert (HP' : preorder (entries_all c') [] (c_tree c) t P).
    { exact (preorder_in_tree _ _ all_in_read relist_all _ HP). }
    destruct (universal_nil c' sampling t P HK' RO DS PL NC SUB HP') as (s' & E' & M').
    exists s, s'. repeat (split; [assumption|]). rewrite M, M'. reflexivity.
Qed.
End Relist.
