(** Sessions in several goroutines: proofs. *)
From Verif Require Import Base Bus Race.
From Coq Require Import Lia.

Lemma go_trans : forall a b c, go_steps a b -> go_steps b c -> go_steps a c.
Proof. intros a b c H1 H2. induction H2 as [|x y z H2 IH ST]; [exact H1|]. econstructor; [apply IH; exact H1|exact ST]. Qed.
Lemma go_run : forall pre l1 l2 rest, go_steps (l1 ++ mkGo None (pre ++ rest) :: l2) (l1 ++ mkGo None rest :: l2).
Proof.
  induction pre as [|a pre IH]; intros l1 l2 rest; [constructor|]. cbn [app].
  eapply go_trans; [|apply IH]. econstructor; [econstructor; [constructor|apply gs_begin]|apply gs_end].
Qed.
Lemma navigate_first : forall matches shuffle b, exists r, navigate_accesses matches shuffle b = R HandlersMap :: r.
Proof. intros. eexists. reflexivity. Qed.
Lemma navigate_writes : forall matches shuffle b, exists pre post,
  navigate_accesses matches shuffle b = pre ++ W HandlersMap :: post.
Proof. intros. unfold navigate_accesses, register_accesses. eexists. eexists. cbn [app]. reflexivity. Qed.

Lemma two_sessions_race : forall matches shuffle b l1 l2 l3, exists s,
  go_steps (l1 ++ goes (navigate_accesses matches shuffle b) :: l2 ++ goes (navigate_accesses matches shuffle b) :: l3) s /\ racing s.
Proof.
  intros matches shuffle b l1 l2 l3.
  destruct (navigate_writes matches shuffle b) as (pre & post & E).
  destruct (navigate_first matches shuffle b) as (r & F).
  exists ((l1 ++ mkGo (Some (W HandlersMap)) post :: l2) ++ mkGo (Some (R HandlersMap)) r :: l3). split.
  - unfold goes. rewrite E at 1. eapply go_trans; [apply (go_run pre l1 _ (W HandlersMap :: post))|].
    eapply gss_cons; [eapply gss_cons; [apply gss_nil|apply gs_begin]|].
    rewrite F. 
    replace (l1 ++ mkGo (Some (W HandlersMap)) post :: l2 ++ mkGo None (R HandlersMap :: r) :: l3)
      with ((l1 ++ mkGo (Some (W HandlersMap)) post :: l2) ++ mkGo None (R HandlersMap :: r) :: l3)
      by (rewrite <- app_assoc; reflexivity).
    apply gs_begin.
  - exists (length l1), (length (l1 ++ mkGo (Some (W HandlersMap)) post :: l2)). do 4 eexists.
    split; [rewrite app_length; cbn; lia|]. split; [|split; [|split; [|split; [|split]]]].
    + rewrite <- app_assoc. rewrite nth_error_app2 by lia. rewrite Nat.sub_diag. reflexivity.
    + rewrite nth_error_app2 by lia. rewrite Nat.sub_diag. reflexivity.
    + reflexivity.
    + reflexivity.
    + reflexivity.
    + left. reflexivity.
Qed.

(** One session which accesses the bus at a time. *)
Lemma alone : forall l s, go_steps l s -> forall i, (forall j g, j <> i -> nth_error l j = Some g -> g = mkGo None []) ->
  length s = length l /\ forall j g, j <> i -> nth_error s j = Some g -> g = mkGo None [].
Proof.
  intros l s H i A. induction H as [l|l1 l2 l3 H IH ST]; [auto|]. destruct (IH A) as [L B]. split.
  - rewrite <- L. inversion ST; subst; rewrite !app_length; reflexivity.
  - intros j g NE E.
    assert (X : forall p q x y, l2 = p ++ x :: q -> l3 = p ++ y :: q -> x <> mkGo None [] -> g = mkGo None []).
    { intros p q x y E2 E3 NX. subst l2 l3. destruct (Nat.eq_dec j (length p)) as [->|NJ].
      - exfalso. apply NX. apply (B (length p)); [exact NE|]. rewrite nth_error_app2 by lia. rewrite Nat.sub_diag. reflexivity.
      - apply (B j g NE). rewrite <- E. destruct (Nat.lt_ge_cases j (length p)) as [LT|GE].
        + rewrite !nth_error_app1 by lia. reflexivity.
        + rewrite !nth_error_app2 by lia. destruct (j - length p) as [|k] eqn:K; [lia|]. reflexivity. }
    inversion ST; subst; eapply X; try reflexivity; discriminate.
Qed.
Lemma one_session_no_race : forall l i s, (forall j g, j <> i -> nth_error l j = Some g -> g = mkGo None []) ->
  go_steps l s -> ~ racing s.
Proof.
  intros l i s A H (x & y & g & h & a & b & NE & G & K & GA & KB & _).
  destruct (alone l s H i A) as [_ B]. destruct (Nat.eq_dec x i) as [->|NX].
  - rewrite (B y h) in KB by (congruence || exact K). discriminate.
  - rewrite (B x g) in GA by assumption. discriminate.
Qed.
