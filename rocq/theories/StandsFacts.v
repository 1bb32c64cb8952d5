(** Every node offered by a traversal stands where the specification says. *)
From Verif Require Import Base Paths Level Kernel KernelRel Spec KernelFacts KernelInv WalkFacts.
From Coq Require Import Permutation.

Lemma list_ascii_inj : forall a b, list_ascii_of_string a = list_ascii_of_string b -> a = b.
Proof.
  intros a b H. rewrite <- (string_of_list_ascii_of_string a), H.
  apply string_of_list_ascii_of_string.
Qed.

Lemma list_ascii_app : forall a b,
  list_ascii_of_string (a ++ b) = (list_ascii_of_string a ++ list_ascii_of_string b)%list.
Proof. induction a as [|x a IH]; intro b; cbn; [reflexivity|]. rewrite IH. reflexivity. Qed.

Lemma substring_0_firstn : forall p k,
  list_ascii_of_string (substring 0 k p) = firstn k (list_ascii_of_string p).
Proof.
  induction p as [|x p IH]; intro k; destruct k; cbn; try reflexivity. rewrite IH. reflexivity.
Qed.
Lemma length_list_ascii : forall p, String.length p = length (list_ascii_of_string p).
Proof. induction p; cbn; congruence. Qed.

Lemma strip_trimmed : forall p, strip_last_sep p = trimmed false p.
Proof.
  intro p. unfold strip_last_sep, trimmed, ends_with_sep.
  destruct (rev (list_ascii_of_string p)) as [|ch r] eqn:E; [reflexivity|].
  destruct (Ascii.eqb ch sep); [|reflexivity].
  apply list_ascii_inj. rewrite substring_0_firstn, list_ascii_of_string_of_list_ascii.
  apply (f_equal (@rev _)) in E. rewrite rev_involutive in E. cbn in E.
  rewrite length_list_ascii, E, app_length. cbn.
  rewrite Nat.add_sub. rewrite firstn_app, Nat.sub_diag, firstn_all. cbn. apply app_nil_r.
Qed.

Lemma scope_expected : forall d leaf isdir, (isdir = false -> leaf = false) ->
  (if isdir then N.lor (per_scope d leaf) ScopeDirectory else N.lor ScopeLeaf ScopeFile) =
  expected_scope isdir leaf (per_depth d).
Proof.
  intros d leaf isdir H. unfold expected_scope. destruct isdir; [|reflexivity].
  unfold per_scope. destruct leaf; cbn [andb]; destruct (per_depth d =? 0)%Z; try reflexivity;
    destruct (per_depth d =? 1)%Z; reflexivity.
Qed.

Lemma filter_nil : forall (A : Type) (f : A -> bool) l,
  filter f l = [] <-> forall x, In x l -> f x = false.
Proof.
  intros A f l. induction l as [|y l IH]; cbn; [split; [contradiction|reflexivity]|].
  destruct (f y) eqn:E; split; intro H; try discriminate.
  - rewrite (H y (or_introl eq_refl)) in E. discriminate.
  - intros x [->|Hx]; [exact E|]. apply IH; assumption.
  - apply IH. intros x Hx. apply H. right; exact Hx.
Qed.

Section Stands.
Variable c : cfg.
Hypothesis HK : hooks_ok c.
Variables tree root : string.
Variable t : fsnode.
Variable base : Z.
Notation stds := (stands c (entries c) tree root t base).

Lemma sort_nil : forall l, (match c_sort c l with [] => true | _ => false end) =
                           (match l with [] => true | _ => false end).
Proof.
  intro l. destruct HK as [_ HS]. pose proof (HS l) as P.
  destruct (c_sort c l) as [|x r]; destruct l as [|y k]; try reflexivity.
  - apply Permutation_nil in P. discriminate.
  - symmetry in P. apply Permutation_nil in P. discriminate.
Qed.

Lemma ext_leaf : forall n s, n_isdir n = fisdir (n_src n) ->
  n_leaf (ext_of c tree n s) =
  fisdir (n_src n) && match filter fisdir (fst (c_read c (n_path n) (n_src n))) with [] => true | _ => false end.
Proof.
  intros n s D. unfold ext_of, extend, cargo_of, inspect, read_contents, dirs_of, files_of.
  destruct (split_path (n_path n)) as [dp nm].
  destruct (c_read c (n_path n) (n_src n)) as [es er]. cbn [fst snd].
  rewrite D. destruct (c_sub c); destruct (fisdir (n_src n)); cbn; rewrite ?sort_nil; reflexivity.
Qed.

Lemma ext_attributes : forall n s, n_isdir n = fisdir (n_src n) -> n_children n = [] ->
  attributes c tree (ext_of c tree n s).
Proof.
  intros n s D CH. pose proof (ext_leaf n s D) as L.
  destruct (extend_fields c tree n (cargo_of c n) s) as (X1 & X2 & X3 & X4 & X5 & X6 & X7).
  fold (ext_of c tree n s) in X1, X2, X3, X4, X5, X6, X7.
  constructor.
  - rewrite X3, X2. exact D.
  - rewrite L, X1, X2. rewrite andb_true_iff.
    split; intros [A B]; (split; [exact A|]).
    + apply filter_nil. destruct (filter _ _); [reflexivity|discriminate].
    + destruct (filter fisdir (fst (c_read c (n_path n) (n_src n)))) as [|y l] eqn:E; [reflexivity|].
      exfalso. assert (Hy : In y (filter fisdir (fst (c_read c (n_path n) (n_src n))))) by (rewrite E; left; reflexivity).
      apply filter_In in Hy. destruct Hy as [Hy Dy]. rewrite (B y Hy) in Dy. discriminate.
  - rewrite X1. unfold ext_of, extend. destruct (split_path (n_path n)). reflexivity.
  - rewrite X2, <- D. unfold ext_of, extend. destruct (split_path (n_path n)). cbn.
    apply scope_expected. intro F. rewrite F. reflexivity.
  - unfold ext_of, extend. destruct (split_path (n_path n)) as [dp nm]. cbn.
    rewrite <- CH. destruct n. cbn in *. subst.
    unfold with_extension, with_children. cbn.
    destruct (c_keep_sep c); [reflexivity|]. apply strip_trimmed.
Qed.

(** The node before it is extended. *)
Definition bud (n : node) : Prop :=
  n_isdir n = fisdir (n_src n) /\ n_children n = [] /\
  ((n_path n = root /\ n_src n = t /\ n_parent n = None /\ n_pos n = [] /\ n_err n = None) \/
   (exists p i e, stds p /\ nth_error (entries c (n_path p) (n_src p)) i = Some e /\
      n = child_node p i e /\ n_depth p = (base + Z.of_nat (length (n_pos p)))%Z)).

Lemma same_attributes : forall n m, same_node n m -> attributes c tree n -> attributes c tree m.
Proof. intros n m [cs ->] [A B C D E]. constructor; assumption. Qed.
Lemma same_stands : forall n m, same_node n m -> stds n -> stds m.
Proof.
  intros n m S H. destruct (same_fields _ _ S) as (A & B & C & D & E & F & G & _).
  destruct H as [n H1 H2 H3 H4 H5 H6 H7|p i e n HP H1 H2 H3 H4 H5 H6 H7 H8].
  - apply stands_root; try congruence. eapply same_attributes; eassumption.
  - eapply stands_child; try eassumption; try congruence. eapply same_attributes; eassumption.
Qed.

Lemma bud_ext : forall n s, bud n -> s_depth s = (base + Z.of_nat (length (n_pos n)) + 1)%Z ->
  stds (ext_of c tree n s) /\
  n_depth (ext_of c tree n s) = (base + Z.of_nat (length (n_pos (ext_of c tree n s))))%Z.
Proof.
  intros n s (D & CH & H) SD.
  pose proof (ext_attributes n s D CH) as A.
  destruct (extend_fields c tree n (cargo_of c n) s) as (X1 & X2 & X3 & X4 & X5 & X6 & X7).
  fold (ext_of c tree n s) in X1, X2, X3, X4, X5, X6, X7.
  assert (DD : n_depth (ext_of c tree n s) = (base + Z.of_nat (length (n_pos n)))%Z).
  { assert (n_depth (ext_of c tree n s) = per_depth (s_depth s)).
    { unfold ext_of, extend. destruct (split_path (n_path n)). reflexivity. }
    unfold per_depth in *. lia. }
  split; [|rewrite X4; exact DD].
  destruct H as [(H1 & H2 & H3 & H4 & H5)|(p & i & e & HP & HN & HC & HD)].
  - apply stands_root; try congruence.
    rewrite DD, H4. cbn. lia.
  - eapply stands_child; [exact HP|exact HN| | | | | | |exact A].
    + rewrite X1, HC. reflexivity.
    + rewrite X2, HC. reflexivity.
    + rewrite X5, HC. reflexivity.
    + rewrite X4, HC. reflexivity.
    + rewrite DD, HC. cbn. rewrite app_length, HD. cbn. lia.
    + rewrite X6, HC. reflexivity.
Qed.

(** Events of a trace which mention nodes offered to the chain or the client
    mention nodes which stand rightly. *)
Definition ev_stands (e : event) : Prop :=
  match e with
  | EvCall n _ | EvOffer n _ | EvAscend n => stds n
  | _ => True
  end.

Definition RS (s s1 : st) : Prop :=
  s_depth s1 = s_depth s /\ exists tr, s_trace s1 = s_trace s ++ tr /\ Forall ev_stands tr.

Lemma RS_refl : forall s, RS s s.
Proof. intro s. split; [reflexivity|]. exists []. rewrite app_nil_r. split; [reflexivity|constructor]. Qed.
Lemma RS_trans : forall a b d, RS a b -> RS b d -> RS a d.
Proof.
  intros a b d [D1 (t1 & T1 & F1)] [D2 (t2 & T2 & F2)]. split; [congruence|].
  exists (t1 ++ t2). split; [rewrite T2, T1, app_assoc; reflexivity|].
  apply Forall_app; split; assumption.
Qed.

Definition at_depth (n : node) (s : st) : Prop := s_depth s = (base + Z.of_nat (length (n_pos n)))%Z.
Definition ent_s (n : node) (s : st) : Prop := bud n /\ at_depth n s.
Definition pre_s (n : node) (s : st) : Prop :=
  bud n /\ s_depth s = (base + Z.of_nat (length (n_pos n)) + 1)%Z.
Definition post_s (n : node) (es : list fsnode) (s : st) : Prop :=
  stds n /\ n_depth n = (base + Z.of_nat (length (n_pos n)))%Z /\
  es = entries c (n_path n) (n_src n) /\ s_depth s = (base + Z.of_nat (length (n_pos n)) + 1)%Z.

Lemma stands_inv :
  (forall n s o s1, run c tree n s o s1 -> ent_s n s -> RS s s1).
Proof.
  refine (proj1 (kernel_inv c tree RS ent_s pre_s post_s RS_refl RS_trans _ _ _ _ _ _ _)).
  - intros n es s s' (A & B & C & D) [E _]. unfold post_s. rewrite E. auto.
  - intros n s s1 [B D] E. destruct (descend_true _ _ _ _ E) as (D1 & _). split; [exact B|].
    unfold at_depth in D. rewrite D1, D. reflexivity.
  - intros n nn s s1 s2 _ E (s0 & [BU DS] & SN) [D3 (tr & T & F)].
    pose proof (same_stands _ _ SN (proj1 (bud_ext n s0 BU DS))) as HN.
    destruct (descend_true _ _ _ _ E) as (D1 & T1 & _).
    destruct (ascend_fields nn s2) as (D2 & T2 & _). split; [lia|].
    exists ((if mu_descend (s_mutes s) then [] else [EvDescend n]) ++ tr ++
            (if mu_ascend (s_mutes s2) then [] else [EvAscend nn])).
    split; [rewrite T2, T, T1, <- !app_assoc; reflexivity|].
    apply Forall_app; split; [destruct (mu_descend _); repeat constructor|].
    apply Forall_app; split; [exact F|destruct (mu_ascend _); [constructor|constructor; [exact HN|constructor]]].
  - intros n s o n1 s1 [B D] _ I.
    destruct (invoke_step _ _ _ _ _ _ _ I) as (SD & SM & tr & T & F).
    destruct (bud_ext n s B D) as [HS HD].
    pose proof (same_stands _ _ SM HS) as HS1.
    split.
    + split; [exact SD|]. eexists. split; [exact T|]. apply Forall_app; split; [|apply Forall_cons; [exact HS1|apply Forall_nil]].
      eapply Forall_impl; [|exact F]. intros e He. destruct e; cbn in *; try contradiction; auto.
      eapply same_stands; eassumption.
    + intros _. destruct (same_fields _ _ SM) as (A1 & A2 & A3 & A4 & A5 & A6 & A7 & _).
      destruct (extend_fields c tree n (cargo_of c n) s) as (X1 & X2 & X3 & X4 & _).
      fold (ext_of c tree n s) in X1, X2, X3, X4.
      split; [exact HS1|]. split; [congruence|]. split.
      * rewrite A1, A2, X1, X2. apply ents_of_entries. apply B.
      * rewrite SD, D, A4, X4. reflexivity.
  - intros n s [B D] SB ID. destruct (bud_ext n s B D) as [HS HD].
    destruct (extend_fields c tree n (cargo_of c n) s) as (X1 & X2 & X3 & X4 & _).
    fold (ext_of c tree n s) in X1, X2, X3, X4.
    split; [exact HS|]. split; [exact HD|]. split.
    + rewrite X1, X2. apply ents_of_entries. apply B.
    + rewrite X4. exact D.
  - intros n es s i e (A & B & C & D) N. subst es. split.
    + split; [reflexivity|]. split; [reflexivity|]. right. exists n, i, e. auto.
    + unfold at_depth. cbn. rewrite app_length. cbn. lia.
  - intros n es s _. split; [reflexivity|]. exists [EvRescue (saved_of c n s)].
    split; [reflexivity|repeat constructor].
Qed.

End Stands.

Theorem top_stands : forall c, hooks_ok c -> forall tree t s o s1,
  c_stat c t = None -> top c tree t s = (o, s1) ->
  exists tr, s_trace s1 = s_trace s ++ tr /\
    Forall (ev_stands c tree tree t (s_depth s)) tr.
Proof.
  intros c HK tree t s o s1 ST H. destruct (top_adequate _ _ _ _ _ _ HK ST H) as (ro & HR & _).
  apply (stands_inv c HK tree tree t (s_depth s) _ _ _ _ HR).
  split.
  - split; [reflexivity|]. split; [reflexivity|]. left. auto.
  - unfold at_depth. cbn. lia.
Qed.
