(** The concrete configurations meet the hypotheses of the theorems. *)
From Verif Require Import Base Paths Level Kernel Defaults Session Spec Cases ReadFacts.
From Coq Require Import Permutation Sorted.
Local Open Scope string_scope.

Lemma insert_perm : forall key e l, Permutation (insert_by key e l) (e :: l).
Proof.
  intros key e l. induction l as [|x l IH]; [reflexivity|]. cbn.
  destruct (key (fname e) <=? key (fname x))%string; [reflexivity|].
  rewrite IH. constructor.
Qed.
Lemma sort_by_perm : forall key l, Permutation (sort_by key l) l.
Proof.
  intros key l. induction l as [|x l IH]; [reflexivity|]. cbn. rewrite insert_perm. constructor. exact IH.
Qed.

Lemma ascii_compare_N : forall a b, Ascii.compare a b = N.compare (N_of_ascii a) (N_of_ascii b).
Proof. reflexivity. Qed.
Lemma string_compare_trans_le : forall a b d,
  String.compare a b <> Gt -> String.compare b d <> Gt -> String.compare a d <> Gt.
Proof.
  induction a as [|x a IH]; intros [|y b] [|z d]; cbn; try discriminate; try congruence; intros H1 H2.
  rewrite !ascii_compare_N in *.
  destruct (N.compare_spec (N_of_ascii x) (N_of_ascii y)) as [E1|E1|E1]; try contradiction;
  destruct (N.compare_spec (N_of_ascii y) (N_of_ascii z)) as [E2|E2|E2]; try contradiction;
  destruct (N.compare_spec (N_of_ascii x) (N_of_ascii z)) as [E3|E3|E3]; try lia; try discriminate.
  eapply IH; eassumption.
Qed.
Lemma leb_trans : forall a b d, (a <=? b)%string = true -> (b <=? d)%string = true -> (a <=? d)%string = true.
Proof.
  intros a b d. unfold String.leb. intros H1 H2.
  pose proof (string_compare_trans_le a b d) as T.
  destruct (String.compare a b), (String.compare b d), (String.compare a d); try discriminate; try reflexivity;
    exfalso; apply T; congruence.
Qed.

Definition key_le (key : string -> string) (a b : fsnode) : Prop := (key (fname a) <=? key (fname b))%string = true.
Lemma insert_sorted : forall key e l, StronglySorted (key_le key) l -> StronglySorted (key_le key) (insert_by key e l).
Proof.
  intros key e l S. induction S as [|x l S IH F]; cbn; [repeat constructor|].
  destruct (key (fname e) <=? key (fname x))%string eqn:L.
  - constructor; [constructor; assumption|]. constructor; [exact L|].
    eapply Forall_impl; [|exact F]. intros y Hy. eapply leb_trans; [exact L|exact Hy].
  - constructor; [exact IH|]. eapply Permutation_Forall; [symmetry; apply insert_perm|].
    constructor; [|exact F]. destruct (String.leb_total (key (fname e)) (key (fname x))); [congruence|assumption].
Qed.
Lemma sort_by_sorted : forall key l, StronglySorted (key_le key) (sort_by key l).
Proof. intros key l. induction l as [|x l IH]; cbn; [constructor|]. apply insert_sorted. exact IH. Qed.

Lemma default_read_kids : forall p t e, In e (fst (default_read p t)) -> In e (fkids t).
Proof.
  intros p t e. unfold default_read. destruct (fread t); [contradiction|]. destruct (fisdir t); cbn; [|contradiction].
  intro I. apply filter_In in I. apply I.
Qed.

Lemma base_hooks : forall sub, hooks_ok (base_cfg sub).
Proof. intro sub. split; [apply default_read_kids|apply sort_by_perm]. Qed.
Lemma base_sorts : forall sub, sorts_by_key (base_cfg sub) to_lower.
Proof. intros sub l. apply sort_by_sorted. Qed.
Lemma default_read_empty : forall sub, empty_on_error (base_cfg sub).
Proof.
  intros sub p t e. cbn. unfold default_read. destruct (fread t); [reflexivity|]. destruct (fisdir t); [discriminate|reflexivity].
Qed.

(** Computing a listing. *)
Fixpoint lister (fuel : nat) (es : string -> fsnode -> list fsnode) (pos : list nat) (path : string) (t : fsnode)
    : option (list place) :=
  match fuel with
  | O => None
  | S f =>
      match (fix go (i : nat) (ts : list fsnode) : option (list place) :=
         match ts with
         | [] => Some []
         | e :: rest =>
             match lister f es (pos ++ [i])%list (join path (fname e)) e, go (S i) rest with
             | Some l1, Some l2 => Some (l1 ++ l2)%list
             | _, _ => None
             end
         end) 0 (es path t) with
      | Some l => Some (mkPlace pos path t :: l)
      | None => None
      end
  end.
Lemma lister_sound : forall fuel es pos path t l, lister fuel es pos path t = Some l -> preorder es pos path t l.
Proof.
  induction fuel as [|f IH]; intros es pos path t l H; [discriminate|]. cbn [lister] in H.
  match type of H with match ?g ?i ?ts with _ => _ end = _ => remember (g i ts) as r eqn:ER; generalize dependent r; set (go := g) in * end.
  intros r ER H. destruct r as [l'|]; [|discriminate]. injection H as H. subst l. constructor.
  revert ER. generalize 0. generalize (es path t). intro ts. revert l'. induction ts as [|e ts IHt]; intros l' i ER; cbn in ER.
  - injection ER as ER. subst l'. constructor.
  - destruct (lister f es (pos ++ [i])%list (join path (fname e)) e) as [l1|] eqn:E1; [|discriminate].
    destruct (go (S i) ts) as [l2|] eqn:E2; [|discriminate]. injection ER as ER. subst l'.
    constructor; [apply IH; exact E1|apply IHt; symmetry; exact E2].
Qed.

