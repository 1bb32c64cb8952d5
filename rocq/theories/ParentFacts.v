(** The node of a directory is the same in all events and as parent of its entries. *)
From Verif Require Import Base Paths Level Lo Collections Kernel Session Spec KernelRel KernelFacts
  KernelInv WalkFacts StandsFacts JournalFacts SessionFacts RescueFacts BracketFacts WalkProps.

Lemma handed_app : forall a b x, handed_out (a ++ b) x <-> handed_out a x \/ handed_out b x.
Proof.
  intros a b x. split.
  - intros (e & I & H). apply in_app_or in I. destruct I as [I|I]; [left|right]; exists e; auto.
  - intros [(e & I & H)|(e & I & H)]; exists e; split; auto; apply in_or_app; auto.
Qed.

(** All events of a visit below position [q] *)
Definition below_pos (q : list nat) (tr : list event) : Prop :=
  forall x, handed_out tr x -> exists r, n_pos x = q ++ r.
Definition one_each (tr : list event) : Prop :=
  forall x y, handed_out tr x -> handed_out tr y -> n_pos x = n_pos y -> x = y.
Definition parents_in (par : option node) (tr : list event) : Prop :=
  forall x, (handed_out tr x \/ In (EvDescend x) tr) -> n_parent x = par \/ exists p, n_parent x = Some p /\ In (EvAscend p) tr.
Definition descends_ok (tr : list event) : Prop :=
  forall n, In (EvDescend n) tr -> unextended n /\ exists m, In (EvAscend m) tr /\ completed n m.

Definition visit_facts (n : node) (tr : list event) : Prop :=
  below_pos (n_pos n) tr /\ one_each tr /\ parents_in (n_parent n) tr /\ descends_ok tr.
Definition kids_facts (m : node) (i : nat) (tr : list event) : Prop :=
  (forall x, handed_out tr x -> exists j r, i <= j /\ n_pos x = n_pos m ++ j :: r) /\
  one_each tr /\ parents_in (Some m) tr /\ descends_ok tr.

Lemma own_handed : forall m own x, Forall (own_event m) own -> handed_out own x -> x = m.
Proof.
  intros m own x F (e & I & H). rewrite Forall_forall in F. specialize (F e I).
  destruct e; cbn in *; try discriminate; inversion H; subst; try reflexivity; try contradiction; assumption.
Qed.
Lemma own_descend : forall m own x, Forall (own_event m) own -> ~ In (EvDescend x) own.
Proof. intros m own x F I. rewrite Forall_forall in F. apply (F _ I). Qed.
Lemma resc_handed : forall resc x, (resc = [] \/ exists sv, resc = [EvRescue sv]) -> ~ handed_out resc x.
Proof. intros resc x [->|(sv & ->)] (e & I & H); [contradiction|]. destruct I as [I|[]]; subst; discriminate. Qed.
Lemma resc_descend : forall resc x, (resc = [] \/ exists sv, resc = [EvRescue sv]) -> ~ In (EvDescend x) resc.
Proof. intros resc x [->|(sv & ->)] I; [contradiction|destruct I as [I|[]]; discriminate]. Qed.
Lemma handed_one : forall e x, handed_out [e] x <-> handed e = Some x.
Proof. intros e x. split; [intros (e0 & [->|[]] & H); exact H|intro H; exists e; split; [left; reflexivity|exact H]]. Qed.

Lemma bracketed_facts : forall n tr, bracketed n tr -> visit_facts n tr.
Proof.
  apply (bracketed_mut visit_facts kids_facts).
  - intros n m own kids resc U C F _ (K1 & K2 & K3 & K4) R.
    assert (PM : n_pos m = n_pos n) by (destruct C as [P _]; exact (f_equal pl_pos P)).
    assert (PP : n_parent m = n_parent n) by (destruct C as (_ & _ & _ & P); exact P).
    assert (HO : forall x, handed_out ([EvDescend n] ++ own ++ kids ++ resc ++ [EvAscend m]) x -> x = m \/ handed_out kids x).
    { intros x H. rewrite !handed_app in H. destruct H as [H|[H|[H|[H|H]]]].
      - apply handed_one in H. discriminate.
      - left. eapply own_handed; eassumption.
      - right. exact H.
      - exfalso. eapply resc_handed; eassumption.
      - apply handed_one in H. inversion H. left; reflexivity. }
    assert (DE : forall x, In (EvDescend x) ([EvDescend n] ++ own ++ kids ++ resc ++ [EvAscend m]) -> x = n \/ In (EvDescend x) kids).
    { intros x H. rewrite !in_app_iff in H. destruct H as [[H|[]]|[H|[H|[H|[H|[]]]]]].
      - inversion H. left; reflexivity.
      - exfalso. eapply own_descend; eassumption.
      - right. exact H.
      - exfalso. eapply resc_descend; eassumption.
      - discriminate. }
    assert (AM : In (EvAscend m) ([EvDescend n] ++ own ++ kids ++ resc ++ [EvAscend m])).
    { rewrite !in_app_iff. right. right. right. right. left. reflexivity. }
    assert (AK : forall e, In e kids -> In e ([EvDescend n] ++ own ++ kids ++ resc ++ [EvAscend m])).
    { intros e I. rewrite !in_app_iff. auto. }
    split; [|split; [|split]].
    + intros x H. destruct (HO x H) as [->|H1]; [exists []; rewrite app_nil_r; exact PM|].
      destruct (K1 x H1) as (j & r & _ & E). exists (j :: r). rewrite E, PM. reflexivity.
    + assert (NO : forall x, handed_out kids x -> n_pos x = n_pos m -> False).
      { intros x H E. destruct (K1 x H) as (j & r & _ & E2). rewrite E2 in E.
        rewrite <- (app_nil_r (n_pos m)) in E at 2. apply app_inv_head in E. discriminate. }
      intros x y HX HY E. destruct (HO x HX) as [->|X], (HO y HY) as [->|Y].
      * reflexivity.
      * exfalso. apply (NO y Y). symmetry; exact E.
      * exfalso. apply (NO x X E).
      * apply K2; assumption.
    + intros x H. assert (Q : x = m \/ x = n \/ handed_out kids x \/ In (EvDescend x) kids).
      { destruct H as [H|H]; [destruct (HO x H)|destruct (DE x H)]; auto. }
      destruct Q as [->|[->|Q]]; [left; exact PP|left; reflexivity|]. right.
      destruct (K3 x Q) as [E|(p & E & I)]; [exists m; split; [exact E|exact AM]|exists p; split; [exact E|apply AK; exact I]].
    + intros x H. destruct (DE x H) as [->|H1].
      * split; [exact U|]. exists m. split; [exact AM|exact C].
      * destruct (K4 x H1) as [X (y & I & Y)]. split; [exact X|]. exists y. split; [apply AK; exact I|exact Y].
  - intros n i. split; [|split; [|split]].
    + intros x (e & [] & _).
    + intros x y (e & [] & _).
    + intros x [(e & [] & _)|[]].
    + intros x [].
  - intros n i j m visit rest L PO PA _ (V1 & V2 & V3 & V4) _ (R1 & R2 & R3 & R4).
    split; [|split; [|split]].
    + intros x H. apply handed_app in H. destruct H as [H|H].
      * destruct (V1 x H) as (r & E). exists j, r. split; [exact L|]. rewrite E, PO, <- app_assoc. reflexivity.
      * destruct (R1 x H) as (k & r & LK & E). exists k, r. split; [lia|exact E].
    + assert (NO : forall x y, handed_out visit x -> handed_out rest y -> n_pos x = n_pos y -> False).
      { intros x y HX HY E. destruct (V1 x HX) as (r & EX). destruct (R1 y HY) as (k & r2 & LK & EY).
        rewrite EX, EY, PO, <- app_assoc in E. apply app_inv_head in E. inversion E. lia. }
      intros x y HX HY E. apply handed_app in HX. apply handed_app in HY. destruct HX as [X|X], HY as [Y|Y].
      * apply V2; assumption.
      * exfalso. apply (NO x y X Y E).
      * exfalso. apply (NO y x Y X). symmetry; exact E.
      * apply R2; assumption.
    + intros x H. rewrite handed_app, in_app_iff in H.
      assert (Q : (handed_out visit x \/ In (EvDescend x) visit) \/ (handed_out rest x \/ In (EvDescend x) rest)) by tauto.
      destruct Q as [Q|Q].
      * destruct (V3 x Q) as [E|(p & E & I)]; [left; congruence|right; exists p; split; [exact E|apply in_or_app; auto]].
      * destruct (R3 x Q) as [E|(p & E & I)]; [left; exact E|right; exists p; split; [exact E|apply in_or_app; auto]].
    + intros x H. apply in_app_or in H. destruct H as [H|H].
      * destruct (V4 x H) as [X (y & I & Y)]. split; [exact X|]. exists y. split; [apply in_or_app; auto|exact Y].
      * destruct (R4 x H) as [X (y & I & Y)]. split; [exact X|]. exists y. split; [apply in_or_app; auto|exact Y].
Qed.

Theorem session_parents : forall c sampling t o s,
  hooks_ok c -> root_ok c t -> session c sampling t = (o, s) ->
  (forall x y, handed_out (s_trace s) x -> handed_out (s_trace s) y -> n_pos x = n_pos y -> x = y) /\
  (forall x p, handed_out (s_trace s) x \/ In (EvDescend x) (s_trace s) -> n_parent x = Some p ->
     In (EvAscend p) (s_trace s)) /\
  (forall n, In (EvDescend n) (s_trace s) ->
     unextended n /\ exists m, In (EvAscend m) (s_trace s) /\ completed n m).
Proof.
  intros c sampling t o s HK RO H.
  destruct (session_bracketed _ _ _ _ _ HK RO H) as (_ & visit & E & B).
  assert (ED : forall e, In e (s_trace s) -> In e visit \/ handed e = None /\ (forall n, e <> EvDescend n)).
  { intros e I. rewrite E in I. destruct I as [<-|I]; [right; split; [reflexivity|discriminate]|].
    apply in_app_or in I. destruct I as [I|I]; [left; exact I|right].
    destruct o; cbn in I; try contradiction. destruct I as [<-|[]]. split; [reflexivity|discriminate]. }
  assert (HV : forall x, handed_out (s_trace s) x -> handed_out visit x).
  { intros x (e & I & HE). destruct (ED e I) as [V|[N _]]; [exists e; auto|congruence]. }
  assert (DV : forall x, In (EvDescend x) (s_trace s) -> In (EvDescend x) visit).
  { intros x I. destruct (ED _ I) as [V|[_ N]]; [exact V|exfalso; apply (N x); reflexivity]. }
  assert (VS : forall e, In e visit -> In e (s_trace s)).
  { intros e I. rewrite E. right. apply in_or_app. auto. }
  destruct B as [->|(n & PL & PN & B)].
  { split; [|split].
    - intros x y X. destruct (HV x X) as (e & [] & _).
    - intros x p [X|X]; [destruct (HV x X) as (e & [] & _)|destruct (DV x X)].
    - intros x X. destruct (DV x X). }
  destruct (bracketed_facts _ _ B) as (_ & F2 & F3 & F4). split; [|split].
  - intros x y X Y. apply F2; auto.
  - intros x p X EP. destruct (F3 x) as [Q|(p0 & Q & I)].
    + destruct X as [X|X]; auto.
    + congruence.
    + apply VS. congruence.
  - intros x X. destruct (F4 x (DV x X)) as [U (m & I & CM)]. split; [exact U|]. exists m. auto.
Qed.
