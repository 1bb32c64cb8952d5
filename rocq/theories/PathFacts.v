(** Joining names onto clean paths. *)
From Verif Require Import Base Paths StandsFacts.
Local Open Scope string_scope.

(** A file name: not empty, no separator, not one of the two special names. *)
Definition has_sep (b : string) : bool := existsb (Ascii.eqb sep) (list_ascii_of_string b).
Definition proper (b : string) : Prop := b <> "" /\ b <> "." /\ b <> ".." /\ has_sep b = false.

(** The path of the entry [b] of the directory at the clean path [p]. *)
Definition below_path (p b : string) : string :=
  if String.eqb p "." then b else if String.eqb p "/" then "/" ++ b else p ++ "/" ++ b.

Lemma split_sep_nonempty : forall s, split_sep s <> [].
Proof.
  induction s as [|ch s IH]; cbn; [discriminate|]. destruct (Ascii.eqb ch sep); [discriminate|].
  destruct (split_sep s); discriminate.
Qed.

Lemma split_sep_app : forall a b, split_sep (a ++ "/" ++ b) = (split_sep a ++ split_sep b)%list.
Proof.
  induction a as [|ch a IH]; intro b.
  - cbn. reflexivity.
  - cbn [append split_sep]. destruct (Ascii.eqb ch sep) eqn:E.
    + cbn [append] in *. rewrite IH. reflexivity.
    + cbn [append] in *. rewrite IH.
      pose proof (split_sep_nonempty a) as NE. destruct (split_sep a) as [|h t] eqn:S; [contradiction|reflexivity].
Qed.

Lemma split_sep_name : forall b, has_sep b = false -> split_sep b = [b].
Proof.
  induction b as [|ch b IH]; intro H; [reflexivity|].
  unfold has_sep in H. cbn [list_ascii_of_string existsb] in H. apply orb_false_iff in H. destruct H as [H1 H2].
  cbn [split_sep]. rewrite Ascii.eqb_sym in H1. rewrite H1, (IH H2). reflexivity.
Qed.

Lemma clean_step_proper : forall r st b, proper b -> clean_step r st b = b :: st.
Proof.
  intros r st b (A & B & D & _). unfold clean_step.
  apply String.eqb_neq in A, B, D. rewrite A, B, D. reflexivity.
Qed.

(** The segments which remain after cleaning *)
Definition segments (p : string) : list string :=
  rev (fold_left (clean_step (starts_with_sep p)) (split_sep p) []).
Definition render (rooted : bool) (segs : list string) : string :=
  let out := if rooted then "/" ++ join_sep segs else join_sep segs in
  if String.eqb out "" then "." else out.
Lemma clean_render : forall p, clean p = render (starts_with_sep p) (segments p).
Proof. reflexivity. Qed.

Lemma starts_app : forall p b, p <> "" -> starts_with_sep (p ++ b) = starts_with_sep p.
Proof. intros [|ch p] b H; [contradiction|reflexivity]. Qed.

Lemma segments_below : forall p b, p <> "" -> proper b -> segments (p ++ "/" ++ b) = (segments p ++ [b])%list.
Proof.
  intros p b NE PB. unfold segments. rewrite starts_app by exact NE.
  rewrite split_sep_app, (split_sep_name b) by apply PB.
  rewrite fold_left_app. cbn [fold_left]. rewrite clean_step_proper by exact PB. reflexivity.
Qed.

Lemma join_sep_snoc : forall l b, l <> [] -> join_sep (l ++ [b]) = join_sep l ++ "/" ++ b.
Proof.
  induction l as [|x l IH]; intros b NE; [contradiction|].
  destruct l as [|y l]; [reflexivity|].
  change ((x :: y :: l) ++ [b])%list with (x :: (y :: l) ++ [b])%list.
  change (join_sep (x :: (y :: l) ++ [b])%list) with (x ++ "/" ++ join_sep ((y :: l) ++ [b])%list).
  rewrite IH by discriminate.
  change (join_sep (x :: y :: l)) with (x ++ "/" ++ join_sep (y :: l)).
  apply list_ascii_inj. rewrite !list_ascii_app. rewrite <- !app_assoc. reflexivity.
Qed.

Lemma sapp_assoc : forall a b d : string, (a ++ b) ++ d = a ++ (b ++ d).
Proof. intros. apply list_ascii_inj. rewrite !list_ascii_app, app_assoc. reflexivity. Qed.
Lemma app_eq_empty : forall a b : string, a ++ b = "" -> a = "" /\ b = "".
Proof. intros [|ch a] b H; [split; [reflexivity|exact H]|discriminate]. Qed.

Lemma eqb_app_empty : forall a b, b <> "" -> String.eqb (a ++ b) "" = false.
Proof. intros a b H. apply String.eqb_neq. intro E. destruct (app_eq_empty _ _ E). contradiction. Qed.

(** segments never contain the empty string *)
Lemma stack_no_empty : forall r l st, ~ In "" st -> ~ In "" (fold_left (clean_step r) l st).
Proof.
  intros r. induction l as [|x l IH]; intros st H; [exact H|]. cbn [fold_left]. apply IH.
  unfold clean_step. destruct (String.eqb x "") eqn:E1; [exact H|]. destruct (String.eqb x ".") eqn:E2; [exact H|].
  apply String.eqb_neq in E1.
  destruct (String.eqb x "..") eqn:E3.
  - destruct st as [|a st]; [destruct r; [auto|]|].
    + intros [X|[]]. apply E1. exact X.
    + destruct (String.eqb a ".."); [|intro X; apply H; right; exact X].
      intros [X|X]; [apply E1; exact X|apply H; exact X].
  - intros [X|X]; [apply E1; exact X|apply H; exact X].
Qed.
Lemma stack_no_dot : forall r l st, ~ In "." st -> ~ In "." (fold_left (clean_step r) l st).
Proof.
  intros r. induction l as [|x l IH]; intros st H; [exact H|]. cbn [fold_left]. apply IH.
  unfold clean_step. destruct (String.eqb x "") eqn:E1; [exact H|]. destruct (String.eqb x ".") eqn:E2; [exact H|].
  apply String.eqb_neq in E2.
  destruct (String.eqb x "..") eqn:E3.
  - destruct st as [|a st]; [destruct r; [auto|]|].
    + intros [X|[]]. apply E2. exact X.
    + destruct (String.eqb a ".."); [|intro X; apply H; right; exact X].
      intros [X|X]; [apply E2; exact X|apply H; exact X].
  - intros [X|X]; [apply E2; exact X|apply H; exact X].
Qed.

Lemma join_sep_ne : forall l, l <> [] -> ~ In "" l -> join_sep l <> "".
Proof.
  intros [|x l] NE H; [contradiction|]. destruct l as [|y l].
  - cbn. intro E. apply H. left. exact E.
  - change (join_sep (x :: y :: l)) with (x ++ ("/" ++ join_sep (y :: l))). intro E.
    destruct (app_eq_empty _ _ E). discriminate.
Qed.
Lemma join_sep_dot : forall l, ~ In "" l -> ~ In "." l -> join_sep l <> ".".
Proof.
  intros [|x l] HE HD; [discriminate|]. destruct l as [|y l].
  - cbn. intro E. apply HD. left. exact E.
  - change (join_sep (x :: y :: l)) with (x ++ ("/" ++ join_sep (y :: l))). intro E.
    destruct x as [|ch x]; [apply HE; left; reflexivity|].
    cbn in E. inversion E as [[E1 E2]]. destruct (app_eq_empty _ _ E2). discriminate.
Qed.

Lemma clean_ne : forall p, clean p <> "".
Proof.
  intro p. rewrite clean_render. unfold render.
  destruct (String.eqb _ "") eqn:E; [discriminate|]. apply String.eqb_neq in E. exact E.
Qed.

Lemma render_snoc : forall p b, clean p = p -> proper b ->
  render (starts_with_sep p) (segments p ++ [b]) = below_path p b.
Proof.
  intros p b CP PB. pose proof CP as CP'. rewrite clean_render in CP.
  assert (NE : ~ In "" (segments p)).
  { unfold segments. rewrite <- in_rev. apply stack_no_empty. auto. }
  assert (ND : ~ In "." (segments p)).
  { unfold segments. rewrite <- in_rev. apply stack_no_dot. auto. }
  destruct PB as (B1 & B2 & B3 & B4).
  unfold render in *. destruct (starts_with_sep p) eqn:R.
  - destruct (segments p) as [|x l] eqn:SG.
    + cbn in CP. subst p. cbn [app join_sep]. unfold below_path. cbn. reflexivity.
    + rewrite join_sep_snoc by discriminate. cbn [append String.eqb] in *.
      assert (PS : p <> "/").
      { intro E. rewrite <- CP in E. inversion E as [[E1]]. apply (join_sep_ne (x :: l)); auto. discriminate. }
      assert (PD : p <> ".") by (intro E; rewrite E in R; discriminate).
      unfold below_path. apply String.eqb_neq in PS, PD. rewrite PS, PD.
      rewrite <- CP. reflexivity.
  - destruct (segments p) as [|x l] eqn:SG.
    + cbn in CP. subst p. cbn [app join_sep]. apply String.eqb_neq in B1. rewrite B1. reflexivity.
    + assert (J : join_sep (x :: l) <> "") by (apply join_sep_ne; [discriminate|exact NE]).
      apply String.eqb_neq in J. rewrite J in CP.
      rewrite join_sep_snoc by discriminate. rewrite eqb_app_empty by discriminate.
      assert (PD : p <> ".") by (intro E; apply (join_sep_dot (x :: l)); auto; congruence).
      assert (PS : p <> "/") by (intro E; rewrite E in R; discriminate).
      unfold below_path. apply String.eqb_neq in PS, PD. rewrite PS, PD, CP. reflexivity.
Qed.

Lemma join_below : forall p b, clean p = p -> proper b -> join p b = below_path p b.
Proof.
  intros p b CP PB. assert (NE : p <> "") by (rewrite <- CP; apply clean_ne).
  unfold join. apply String.eqb_neq in NE as NE'. rewrite NE'.
  change (p ++ seps ++ b) with (p ++ "/" ++ b).
  rewrite clean_render, starts_app, segments_below by assumption. apply render_snoc; assumption.
Qed.

Lemma clean_name : forall b, proper b -> clean b = b.
Proof.
  intros b PB. rewrite clean_render. unfold segments. rewrite split_sep_name by apply PB. cbn [fold_left].
  rewrite clean_step_proper by exact PB. cbn [rev app].
  assert (starts_with_sep b = false).
  { destruct b as [|ch b]; [reflexivity|]. destruct PB as (_ & _ & _ & H).
    unfold has_sep in H. cbn [list_ascii_of_string existsb] in H. apply orb_false_iff in H. destruct H as [H _].
    cbn. rewrite Ascii.eqb_sym. exact H. }
  rewrite H. unfold render. cbn [join_sep]. destruct PB as [A _]. apply String.eqb_neq in A. rewrite A. reflexivity.
Qed.

Lemma clean_below : forall p b, clean p = p -> proper b -> clean (below_path p b) = below_path p b.
Proof.
  intros p b CP PB. unfold below_path at 1. destruct (String.eqb p ".") eqn:ED.
  - apply String.eqb_eq in ED. subst p. rewrite clean_name by exact PB. reflexivity.
  - destruct (String.eqb p "/") eqn:ES.
    + apply String.eqb_eq in ES. subst p. rewrite clean_render. unfold segments.
      change ("/" ++ b) with (String sep b). cbn [starts_with_sep].
      replace (Ascii.eqb sep sep) with true by reflexivity.
      cbn [split_sep]. replace (Ascii.eqb sep sep) with true by reflexivity.
      rewrite split_sep_name by apply PB. cbn [fold_left].
      change (clean_step true [] "") with (@nil string). rewrite clean_step_proper by exact PB. reflexivity.
    + assert (NE : p <> "") by (rewrite <- CP; apply clean_ne).
      rewrite clean_render, starts_app, segments_below by assumption. apply render_snoc; assumption.
Qed.

(** Splitting gives the name back. *)
Lemma split_path_name : forall b, has_sep b = false -> split_path b = ("", b).
Proof.
  induction b as [|ch b IH]; intro H; [reflexivity|].
  unfold has_sep in H. cbn [list_ascii_of_string existsb] in H. apply orb_false_iff in H. destruct H as [H1 H2].
  cbn [split_path]. rewrite (IH H2), Ascii.eqb_sym, H1. reflexivity.
Qed.
Lemma split_path_app : forall a b, has_sep b = false -> split_path (a ++ "/" ++ b) = (a ++ "/", b).
Proof.
  induction a as [|ch a IH]; intros b H.
  - cbn [append split_path]. rewrite split_path_name by exact H. reflexivity.
  - cbn [append split_path]. cbn [append] in IH. rewrite (IH b H).
    destruct (Ascii.eqb ch sep); [reflexivity|]. destruct (a ++ "/") eqn:E; [|reflexivity].
    destruct (app_eq_empty _ _ E). discriminate.
Qed.
Lemma split_below : forall p b, proper b ->
  split_path (below_path p b) =
  ((if String.eqb p "." then "" else if String.eqb p "/" then "/" else p ++ "/"), b).
Proof.
  intros p b (_ & _ & _ & H). unfold below_path.
  destruct (String.eqb p "."); [apply split_path_name; exact H|].
  destruct (String.eqb p "/"); [apply (split_path_app "" b H)|apply split_path_app; exact H].
Qed.
