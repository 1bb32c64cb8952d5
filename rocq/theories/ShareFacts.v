(** Nodes shared with callbacks: proofs. *)
From Verif Require Import Base Paths Level Kernel Session Spec SpecShare BracketFacts.
From Coq Require Import Lia.

Definition leads (p q : list nat) : Prop := exists x, q = p ++ x.
Lemma leads_refl : forall p, leads p p.
Proof. intro p. exists []. rewrite app_nil_r. reflexivity. Qed.
Lemma leads_trans : forall p q r, leads p q -> leads q r -> leads p r.
Proof. intros p q r [x ->] [y ->]. exists (x ++ y). rewrite app_assoc. reflexivity. Qed.
Lemma leads_not : forall p j x, ~ leads (p ++ j :: x) p.
Proof.
  intros p j x [y H]. rewrite <- app_assoc in H. rewrite <- (app_nil_r p) in H at 1. apply app_inv_head in H. discriminate.
Qed.
Lemma leads_apart : forall p i j q r, i <> j -> leads (p ++ [i]) q -> leads (p ++ [j]) r -> ~ leads r q.
Proof.
  intros p i j q r NE [x ->] [y ->] [z H]. rewrite <- !app_assoc in H. apply app_inv_head in H. injection H as X _. contradiction.
Qed.

Definition orderly (n : node) : Prop := forall q, has n q -> leads (n_pos q) (n_pos n).
Lemma orderly_root : forall n, n_parent n = None -> orderly n.
Proof. intros n P q H. inversion H; subst; [apply leads_refl|congruence]. Qed.
Lemma orderly_kid : forall n m j, orderly n -> n_parent m = Some n -> n_pos m = n_pos n ++ [j] -> orderly m.
Proof.
  intros n m j O P E q H. inversion H; subst; [apply leads_refl|]. rewrite P in H0. injection H0 as <-.
  apply (leads_trans _ (n_pos n)); [apply O; exact H1|]. rewrite E. exists [j]. reflexivity.
Qed.
Lemma orderly_completed : forall n m, orderly n -> completed n m -> orderly m.
Proof.
  intros n m O (P & _ & _ & Q) q H. assert (E : n_pos m = n_pos n) by (unfold place_of in P; congruence).
  inversion H; subst; [apply leads_refl|]. rewrite E. apply O. eapply has_above; [rewrite <- Q; exact H0|exact H1].
Qed.

(** Every descent is to a place not above any node sent before. *)
Definition tidy (tr : list event) : Prop :=
  forall a b m k r, tr = a ++ EvDescend m :: b -> In (EvCall k r) a -> ~ leads (n_pos m) (n_pos k).
(** The places of a stretch of the trace; its callbacks have orderly nodes. *)
Definition below (p : list nat) (tr : list event) : Prop :=
  (forall m, In (EvDescend m) tr -> leads p (n_pos m)) /\
  (forall k r, In (EvCall k r) tr -> leads p (n_pos k) /\ orderly k).
Lemma below_app : forall p t1 t2, below p t1 -> below p t2 -> below p (t1 ++ t2).
Proof.
  intros p t1 t2 [A B] [C D]. split.
  - intros m H. apply in_app_iff in H. destruct H; auto.
  - intros k r H. apply in_app_iff in H. destruct H; eauto.
Qed.
Lemma below_weaken : forall p q tr, leads p q -> below q tr -> below p tr.
Proof.
  intros p q tr L [A B]. split.
  - intros m H. exact (leads_trans _ _ _ L (A m H)).
  - intros k r H. destruct (B k r H). split; [exact (leads_trans _ _ _ L H0)|assumption].
Qed.

Lemma split_app : forall (A : Type) (x : A) t1 t2 a b, t1 ++ t2 = a ++ x :: b ->
  (exists b', t1 = a ++ x :: b') \/ (exists a', a = t1 ++ a' /\ t2 = a' ++ x :: b).
Proof.
  intros A x t1. induction t1 as [|y t1 IH]; intros t2 a b H; cbn in H.
  - right. exists a. auto.
  - destruct a as [|z a]; cbn in H; injection H as -> H.
    + left. exists t1. reflexivity.
    + destruct (IH t2 a b H) as [(b' & ->)|(a' & -> & ->)]; [left; exists b'; reflexivity|right; exists a'; auto].
Qed.
(** Two stretches one after the other. *)
Lemma tidy_app : forall t1 t2, tidy t1 -> tidy t2 ->
  (forall k r m, In (EvCall k r) t1 -> In (EvDescend m) t2 -> ~ leads (n_pos m) (n_pos k)) -> tidy (t1 ++ t2).
Proof.
  intros t1 t2 A B C a b m k r E H. destruct (split_app _ _ _ _ _ _ E) as [(b' & ->)|(a' & -> & ->)].
  - eapply A; [reflexivity|exact H].
  - apply in_app_iff in H. destruct H as [H|H].
    + apply (C k r m H). apply in_app_iff. right. left. reflexivity.
    + eapply B; [reflexivity|exact H].
Qed.
Definition no_descents (tr : list event) : Prop := forall m, ~ In (EvDescend m) tr.
Lemma tidy_none : forall tr, no_descents tr -> tidy tr.
Proof. intros tr N a b m k r ->. exfalso. apply (N m). apply in_app_iff. right. left. reflexivity. Qed.

Lemma bracket_shared :
  forall n tr, bracketed n tr -> orderly n -> tidy tr /\ below (n_pos n) tr.
Proof.
  assert (G : forall n m own kids resc, completed n m -> Forall (own_event m) own -> (resc = [] \/ exists sv, resc = [EvRescue sv]) ->
     orderly n -> tidy kids -> below (n_pos m) kids ->
     (forall d, In (EvDescend d) kids -> exists j, 0 <= j /\ leads (n_pos m ++ [j]) (n_pos d)) ->
     tidy ([EvDescend n] ++ own ++ kids ++ resc ++ [EvAscend m]) /\ below (n_pos n) ([EvDescend n] ++ own ++ kids ++ resc ++ [EvAscend m])).
  { intros n m own kids resc CM OWN RS ON TK BK DK. pose proof (orderly_completed _ _ ON CM) as OM.
    assert (E : n_pos m = n_pos n) by (destruct CM as [P _]; unfold place_of in P; congruence).
    assert (OD : no_descents own) by (intros d H; rewrite Forall_forall in OWN; exact (OWN _ H)).
    assert (RD : no_descents (resc ++ [EvAscend m])).
    { intros d H. apply in_app_iff in H. destruct H as [H|[H|[]]]; [|discriminate].
      destruct RS as [->|[sv ->]]; [destruct H|]. destruct H as [H|[]]; discriminate. }
    assert (OC : forall k r, In (EvCall k r) own -> k = m) by (intros k r H; rewrite Forall_forall in OWN; exact (OWN _ H)).
    split.
    - apply (tidy_app [EvDescend n]).
      + intros a b d k r H. destruct a as [|x a]; [intros []|]. destruct a; discriminate.
      + apply tidy_app; [apply tidy_none; exact OD| |].
        * apply tidy_app; [exact TK|apply tidy_none; exact RD|]. intros k r d _ H. exfalso. exact (RD d H).
        * intros k r d H HD. rewrite (OC k r H). apply in_app_iff in HD. destruct HD as [HD|HD]; [|exfalso; exact (RD d HD)].
          destruct (DK d HD) as (j & _ & x & X). rewrite X, <- app_assoc. cbn. apply leads_not.
      + intros k r d [H|[]]; discriminate.
    - apply below_app.
      { split; [intros d [H|[]]; injection H as <-; apply leads_refl|intros k r [H|[]]; discriminate]. }
      apply below_app.
      { split; [intros d H; exfalso; exact (OD d H)|]. intros k r H. rewrite (OC k r H), E. split; [apply leads_refl|exact OM]. }
      apply below_app; [rewrite <- E; exact BK|]. split; [intros d H; exfalso; exact (RD d H)|].
      intros k r H. exfalso. apply in_app_iff in H. destruct H as [H|[H|[]]]; [|discriminate].
      destruct RS as [->|[sv ->]]; [destruct H|]. destruct H as [H|[]]; discriminate. }
  assert (K0 : forall (n : node) (i : nat), tidy [] /\ below (n_pos n) [] /\
    (forall m, In (EvDescend m) [] -> exists j, i <= j /\ leads (n_pos n ++ [j]) (n_pos m)) /\
    (forall k r, In (EvCall k r) [] -> exists j, i <= j /\ leads (n_pos n ++ [j]) (n_pos k))).
  { intros n i. split; [intros a b m k r H; destruct a; discriminate|]. split; [split; [intros m []|intros k r []]|].
    split; [intros m []|intros k r []]. }
  assert (K1 : forall n i j m visit rest, i <= j -> n_pos m = n_pos n ++ [j] -> n_parent m = Some n -> orderly n ->
    (orderly m -> tidy visit /\ below (n_pos m) visit) ->
    (tidy rest /\ below (n_pos n) rest /\
     (forall d, In (EvDescend d) rest -> exists j', S j <= j' /\ leads (n_pos n ++ [j']) (n_pos d)) /\
     (forall k r, In (EvCall k r) rest -> exists j', S j <= j' /\ leads (n_pos n ++ [j']) (n_pos k))) ->
    tidy (visit ++ rest) /\ below (n_pos n) (visit ++ rest) /\
    (forall d, In (EvDescend d) (visit ++ rest) -> exists j', i <= j' /\ leads (n_pos n ++ [j']) (n_pos d)) /\
    (forall k r, In (EvCall k r) (visit ++ rest) -> exists j', i <= j' /\ leads (n_pos n ++ [j']) (n_pos k))).
  { intros n i j m visit rest LE PM PA ON V (TR & BR & DR & CR). destruct (V (orderly_kid _ _ _ ON PA PM)) as [TV BV].
    destruct BV as [BD BC]. rewrite PM in BD, BC. split.
    - apply tidy_app; [exact TV|exact TR|]. intros k r d HC HD. destruct (DR d HD) as (j' & L & LD).
      apply (leads_apart (n_pos n) j j'); [lia|apply (BC k r HC)|exact LD].
    - split.
      + apply below_app; [|exact BR]. apply (below_weaken _ (n_pos n ++ [j])); [exists [j]; reflexivity|]. split; assumption.
      + split.
        * intros d H. apply in_app_iff in H. destruct H as [H|H]; [exists j; auto|].
          destruct (DR d H) as (j' & L & LD). exists j'. split; [lia|exact LD].
        * intros k r H. apply in_app_iff in H. destruct H as [H|H]; [exists j; split; [exact LE|apply (BC k r H)]|].
          destruct (CR k r H) as (j' & L & LD). exists j'. split; [lia|exact LD]. }
  fix F 3. intros n tr H ON. destruct H as [n m own kids resc U CM OWN KIDS RS].
    assert (X : forall n i tr, bracketed_kids n i tr -> orderly n -> tidy tr /\ below (n_pos n) tr /\
      (forall m, In (EvDescend m) tr -> exists j, i <= j /\ leads (n_pos n ++ [j]) (n_pos m)) /\
      (forall k r, In (EvCall k r) tr -> exists j, i <= j /\ leads (n_pos n ++ [j]) (n_pos k))).
    { fix FK 4. intros n0 i tr H O. destruct H as [n0 i|n0 i j m0 visit rest LE PM PA V R]; [apply K0|].
      apply (K1 n0 i j m0 visit rest LE PM PA O); [intro OM; exact (F m0 visit V OM)|exact (FK n0 (S j) rest R O)]. }
    destruct (X m 0 kids KIDS (orderly_completed _ _ ON CM)) as (A & B & C & D).
    exact (G n m own kids resc CM OWN RS ON A B C).
Qed.

Lemma writing_split : forall a now m, writing now a = Some m ->
  (now = Some m /\ (forall k r, ~ In (EvCall k r) a)) \/
  exists a1 a2, a = a1 ++ EvDescend m :: a2 /\ forall k r, ~ In (EvCall k r) a2.
Proof.
  induction a as [|e a IH]; intros now m H; cbn [writing] in H.
  - left. split; [exact H|]. intros k r [].
  - assert (STEP : forall now', writing now' a = Some m -> (now' = Some m -> (exists n, e = EvDescend n /\ n = m) \/ (now = Some m /\ forall k r, e <> EvCall k r)) ->
      (now = Some m /\ (forall k r, ~ In (EvCall k r) (e :: a))) \/
      exists a1 a2, e :: a = a1 ++ EvDescend m :: a2 /\ forall k r, ~ In (EvCall k r) a2).
    { intros now' H' S. destruct (IH now' m H') as [[N C]|(a1 & a2 & -> & C)].
      - destruct (S N) as [(n & -> & ->)|[N' D]].
        + right. exists [], a. auto.
        + left. split; [exact N'|]. intros k r [X|X]; [exact (D k r X)|exact (C k r X)].
      - right. exists (e :: a1), a2. auto. }
    destruct e; try (apply (STEP now H); intro X; right; split; [exact X|intros; discriminate]).
    + apply (STEP _ H). intro X. left. exists n. split; [reflexivity|congruence].
    + apply (STEP _ H). discriminate.
    + apply (STEP _ H). discriminate.
Qed.

(** Whatever has been sent so far, the navigator is not writing to it, nor to a node above it. *)
Lemma session_shared : forall c sampling t o s, hooks_ok c -> root_ok c t -> session c sampling t = (o, s) ->
  forall a b m k r q, s_trace s = a ++ b -> writing None a = Some m -> In (EvCall k r) a -> has k q -> n_pos q <> n_pos m.
Proof.
  intros c sampling t o s HK RO H a b m k r q TR W IK HQ EQ.
  destruct (session_bracketed _ _ _ _ _ HK RO H) as (_ & visit & E & V).
  assert (X : tidy (s_trace s) /\ forall k r, In (EvCall k r) (s_trace s) -> orderly k).
  { rewrite E. destruct V as [->|(n & _ & PN & BR)].
    - split.
      + apply tidy_none. intros d D. destruct D as [D|D]; [discriminate|]. destruct o; cbn in D; intuition discriminate.
      + intros k0 r0 D. destruct D as [D|D]; [discriminate|]. destruct o; cbn in D; intuition discriminate.
    - destruct (bracket_shared n visit BR (orderly_root n PN)) as [T [B C]].
      assert (END : forall k r, ~ In (EvCall k r) (match o with Ret _ => [EvEnd (s_metrics s)] | _ => [] end)) by (intros; destruct o; cbn; intuition discriminate).
      assert (ENDD : no_descents (match o with Ret _ => [EvEnd (s_metrics s)] | _ => [] end)) by (intros d; destruct o; cbn; intuition discriminate).
      split.
      + apply (tidy_app [_]).
        * apply tidy_none. intros d [D|[]]; discriminate.
        * apply tidy_app; [exact T|apply tidy_none; exact ENDD|]. intros k0 r0 d _ D. exfalso. exact (ENDD d D).
        * intros k0 r0 d [D|[]]; discriminate.
      + intros k0 r0 D. destruct D as [D|D]; [discriminate|]. apply in_app_iff in D. destruct D as [D|D]; [apply (C k0 r0 D)|].
        exfalso. exact (END k0 r0 D). }
  destruct X as [T O]. destruct (writing_split _ _ _ W) as [[N _]|(a1 & a2 & -> & C)]; [discriminate|].
  assert (IK1 : In (EvCall k r) a1).
  { apply in_app_iff in IK. destruct IK as [IK|[IK|IK]]; [exact IK|discriminate|exfalso; exact (C k r IK)]. }
  apply (T a1 (a2 ++ b) m k r).
  - rewrite TR, <- app_assoc. reflexivity.
  - exact IK1.
  - rewrite <- EQ. apply (O k r).
    + rewrite TR. apply in_app_iff. left. exact IK.
    + exact HQ.
Qed.
