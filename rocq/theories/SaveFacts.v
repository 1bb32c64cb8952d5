(** Where sessions are stored: proofs. *)
From Verif Require Import Base Paths Kernel Filters Options Persist PersistFacts PathFacts StandsFacts Save SpecSave.
From Coq Require Import Lia.
Local Open Scope string_scope.

(** ** Paths *)
Lemma join_sep_app : forall l xs, xs <> [] ->
  join_sep (l ++ xs) = (match l with [] => "" | _ => join_sep l ++ "/" end) ++ join_sep xs.
Proof.
  induction l as [|x l IH]; intros xs NE; [reflexivity|].
  destruct l as [|y l].
  - destruct xs as [|z xs]; [contradiction|]. cbn [app]. change (join_sep (x :: z :: xs)) with (x ++ "/" ++ join_sep (z :: xs)).
    cbn [join_sep]. rewrite sapp_assoc. reflexivity.
  - cbn [app]. specialize (IH xs NE). cbn [app] in IH.
    change (join_sep (x :: y :: l ++ xs)) with (x ++ "/" ++ join_sep (y :: l ++ xs)). rewrite IH.
    change (join_sep (x :: y :: l)) with (x ++ "/" ++ join_sep (y :: l)). rewrite !sapp_assoc. reflexivity.
Qed.
(** what comes before a last element *)
Definition opening (pre : string) : Prop := pre = "" \/ exists p, pre = p ++ "/".
Lemma render_app : forall r l xs, xs <> [] -> join_sep xs <> "" ->
  exists pre, opening pre /\ render r (l ++ xs) = pre ++ join_sep xs.
Proof.
  intros r l xs NE J. unfold render. rewrite join_sep_app by exact NE.
  assert (O : opening (match l with [] => "" | _ => join_sep l ++ "/" end)).
  { destruct l; [left; reflexivity|right; eexists; reflexivity]. }
  set (pre := match l with [] => "" | _ => join_sep l ++ "/" end) in *.
  destruct r.
  - exists ("/" ++ pre). split.
    + right. destruct O as [-> | [p ->]]; [exists ""; reflexivity|exists ("/" ++ p); rewrite sapp_assoc; reflexivity].
    + cbn [append String.eqb]. reflexivity.
  - exists pre. split; [exact O|]. rewrite eqb_app_empty by exact J. reflexivity.
Qed.
Lemma clean_app : forall d xs, d <> "" -> xs <> [] -> Forall proper xs ->
  exists pre, opening pre /\ clean (d ++ "/" ++ join_sep xs) = pre ++ join_sep xs.
Proof.
  intros d xs D NE F. rewrite clean_render, starts_app by exact D.
  assert (SP : split_sep (join_sep xs) = xs).
  { clear D. induction F as [|x xs PX F IH]; [contradiction|]. destruct xs as [|y xs].
    - cbn [join_sep]. apply split_sep_name, PX.
    - change (join_sep (x :: y :: xs)) with (x ++ "/" ++ join_sep (y :: xs)). rewrite split_sep_app, IH by discriminate.
      rewrite split_sep_name by apply PX. reflexivity. }
  assert (SG : segments (d ++ "/" ++ join_sep xs) = (segments d ++ xs)%list).
  { unfold segments. rewrite starts_app by exact D. rewrite split_sep_app, SP, fold_left_app.
    generalize (fold_left (clean_step (starts_with_sep d)) (split_sep d) []). clear - F.
    induction F as [|x xs PX F IH]; intro st; cbn [fold_left]; [rewrite app_nil_r; reflexivity|].
    rewrite clean_step_proper by exact PX. rewrite IH. cbn [rev]. rewrite <- app_assoc. reflexivity. }
  rewrite SG. apply render_app; [exact NE|]. apply join_sep_ne; [exact NE|].
  rewrite Forall_forall in F. intro H. apply F in H. apply (proj1 H). reflexivity.
Qed.
Lemma split_opening : forall pre f, opening pre -> has_sep f = false -> snd (split_path (pre ++ f)) = f.
Proof.
  intros pre f [-> | [p ->]] H; [cbn [append]; rewrite split_path_name by exact H; reflexivity|].
  rewrite sapp_assoc, split_path_app by exact H. reflexivity.
Qed.
Lemma join_last : forall d f, proper f -> snd (split_path (join d f)) = f.
Proof.
  intros d f P. unfold join. destruct (String.eqb d "") eqn:E.
  - destruct P as [P1 P]. pose proof P1 as P1'. apply String.eqb_neq in P1. rewrite P1. rewrite clean_name by (split; [exact P1'|exact P]).
    rewrite split_path_name by apply P. reflexivity.
  - apply String.eqb_neq in E. destruct (clean_app d [f] E) as (pre & O & C); [discriminate|repeat constructor; apply P|].
    cbn [join_sep] in C. change (d ++ seps ++ f) with (d ++ "/" ++ f). rewrite C. apply split_opening; [exact O|apply P].
Qed.
Lemma tail_proper : Forall proper ["agenor"; "admin"; "resume"].
Proof. repeat constructor; discriminate. Qed.
Lemma join_tail : forall d, exists pre, join d resume_tail = pre ++ resume_tail.
Proof.
  intro d. unfold join. destruct (String.eqb d "") eqn:E.
  - exists "". reflexivity.
  - apply String.eqb_neq in E. assert (NE : ["agenor"; "admin"; "resume"] <> []) by discriminate.
    destruct (clean_app d _ E NE tail_proper) as (pre & _ & C).
    exists pre. exact C.
Qed.
Lemma has_suffix_iff : forall s e, has_suffix s e = true <-> ends_in s e.
Proof.
  induction s as [|ch s IH]; intro e; cbn [has_suffix].
  - rewrite orb_false_r, String.eqb_eq. split.
    + intros <-. exists "". reflexivity.
    + intros [pre H]. symmetry in H. destruct (app_eq_empty _ _ H). subst. reflexivity.
  - rewrite orb_true_iff, String.eqb_eq, IH. split.
    + intros [<- | [pre H]]; [exists ""; reflexivity|]. exists (String ch pre). cbn. rewrite <- H. reflexivity.
    + intros [[|c pre] H]; [left; exact H|]. right. inversion H. exists pre. reflexivity.
Qed.

(** ** Stamps *)
Lemma digit_inj : forall a b, digit a = digit b -> (a mod 10 = b mod 10)%N.
Proof.
  intros a b H. unfold digit in H. apply (f_equal N_of_ascii) in H. rewrite !N_ascii_embedding in H.
  - lia.
  - pose proof (N.mod_lt b 10). lia.
  - pose proof (N.mod_lt a 10). lia.
Qed.
Lemma two_inj : forall a b, (a < 100)%N -> (b < 100)%N -> two a = two b -> a = b.
Proof.
  intros a b A B H. unfold two in H. inversion H as [[H1 H2]].
  apply digit_inj in H1, H2.
  assert (a / 10 < 10)%N by (apply N.div_lt_upper_bound; lia). assert (b / 10 < 10)%N by (apply N.div_lt_upper_bound; lia).
  rewrite !N.mod_small in H1 by assumption.
  rewrite (N.div_mod a 10), (N.div_mod b 10) by discriminate. rewrite H1, H2. reflexivity.
Qed.
Lemma two_mod : forall n, two n = two (n mod 100).
Proof.
  intro n. unfold two, digit. f_equal.
  - f_equal. f_equal. replace 100%N with (10 * 10)%N by reflexivity. rewrite N.mod_mul_r by discriminate.
    rewrite (N.mul_comm 10 ((n / 10) mod 10)), N.add_comm, N.div_add_l by discriminate.
    rewrite (N.div_small (n mod 10)) by (apply N.mod_lt; discriminate). rewrite N.add_0_r, N.mod_mod by discriminate. reflexivity.
  - f_equal. f_equal. f_equal. replace 100%N with (10 * 10)%N by reflexivity. rewrite N.mod_mul_r by discriminate.
    rewrite (N.mul_comm 10 ((n / 10) mod 10)), N.mod_add by discriminate. rewrite N.mod_mod by discriminate. reflexivity.
Qed.
Lemma two_shape : forall n, exists a b, two n = String a (String b "").
Proof. intro n. eexists _, _. reflexivity. Qed.
Lemma stamp_inj : forall t u, calendar t -> calendar u -> stamp t = stamp u -> same_second t u.
Proof.
  intros t u (A1 & A2 & A3 & A4 & A5 & A6) (B1 & B2 & B3 & B4 & B5 & B6) H. unfold stamp, four in H.
  repeat match type of H with context [two ?n] => 
    let a := fresh "a" in let b := fresh "b" in let E := fresh "E" in
    destruct (two_shape n) as (a & b & E); remember (two n) as z eqn:Ez in H; rewrite E in Ez; subst z
  end.
  cbn [append] in H. inversion H. subst. clear H.
  assert (Y : cv_year t = cv_year u).
  { assert (Q : (cv_year t / 100 = cv_year u / 100)%N).
    { apply two_inj; [apply N.div_lt_upper_bound; lia|apply N.div_lt_upper_bound; lia|congruence]. }
    assert (M : (cv_year t mod 100 = cv_year u mod 100)%N).
    { apply two_inj; [apply N.mod_lt; discriminate|apply N.mod_lt; discriminate|rewrite <- !two_mod; congruence]. }
    rewrite (N.div_mod (cv_year t) 100), (N.div_mod (cv_year u) 100) by discriminate. rewrite Q, M. reflexivity. }
  split; [exact Y|]. repeat split; (apply two_inj; [assumption|assumption|congruence]).
Qed.
Lemma sapp_inj_l : forall a b d : string, a ++ b = a ++ d -> b = d.
Proof. induction a as [|ch a IH]; intros b d H; [exact H|]. inversion H. apply IH. assumption. Qed.
Lemma digit_range : forall n, exists k, (k < 10)%N /\ digit n = ascii_of_N (48 + k).
Proof. intro n. exists (n mod 10)%N. split; [apply N.mod_lt; discriminate|reflexivity]. Qed.
Lemma digit_not_sep : forall n, Ascii.eqb sep (digit n) = false.
Proof.
  intro n. destruct (digit_range n) as (k & L & ->). apply Ascii.eqb_neq. intro H.
  apply (f_equal N_of_ascii) in H. rewrite N_ascii_embedding in H by lia. change (N_of_ascii sep) with 47%N in H. lia.
Qed.
Lemma has_sep_app : forall a b, has_sep (a ++ b) = has_sep a || has_sep b.
Proof. intros a b. unfold has_sep. rewrite list_ascii_app, existsb_app. reflexivity. Qed.
Lemma two_no_sep : forall n, has_sep (two n) = false.
Proof. intro n. unfold has_sep, two. cbn [list_ascii_of_string existsb]. rewrite !digit_not_sep. reflexivity. Qed.
Definition file_name (r : bool) (t : civil) : string := magnitude r ++ "." ++ "panic" ++ "." ++ stamp t ++ ".json".
Lemma file_name_proper : forall r t, proper (file_name r t).
Proof.
  intros r t. unfold file_name, proper. repeat split; try (destruct r; discriminate).
  unfold stamp, four. rewrite !has_sep_app, !two_no_sep. destruct r; reflexivity.
Qed.
Lemma file_name_inj : forall r t r' t', calendar t -> calendar t' -> file_name r t = file_name r' t' -> r = r' /\ same_second t t'.
Proof.
  intros r t r' t' C C' H. assert (r = r') by (destruct r, r'; [reflexivity|discriminate|discriminate|reflexivity]).
  subst r'. split; [reflexivity|]. apply stamp_inj; [exact C|exact C'|].
  unfold file_name in H. apply sapp_inj_l in H. do 3 apply sapp_inj_l in H. rename H into H1.
  assert (G : forall a b e : string, a ++ e = b ++ e -> a = b).
  { intros a b e E. apply list_ascii_inj. apply (f_equal list_ascii_of_string) in E. rewrite !list_ascii_app in E.
    apply app_inv_tail in E. exact E. }
  exact (G _ _ _ H1).
Qed.
Lemma same_second_stamp : forall t u, same_second t u -> stamp t = stamp u.
Proof. intros t u (E1 & E2 & E3 & E4 & E5 & E6). unfold stamp. rewrite E1, E2, E3, E4, E5, E6. reflexivity. Qed.

(** ** Saving *)
Lemma destination_split : forall resolve admin r t,
  destination resolve admin r t = (fst (destination resolve admin false t), file_name r t).
Proof. reflexivity. Qed.
Definition place (resolve : string -> string) (admin : string) : string :=
  if has_suffix (resolve admin) resume_tail then resolve admin else join (resolve admin) resume_tail.
Lemma rescue_saved : forall resolve w admin r t o a fs p fs1,
  default_rescue resolve w admin r t o a fs = (inl p, fs1) ->
  exists doc, document_of o a doc /\ p = join (place resolve admin) (file_name r t) /\ fs1 = put_file p (Some (Document doc)) fs.
Proof.
  intros resolve w admin r t o a fs p fs1 H. unfold default_rescue, author_write, destination in H.
  fold (place resolve admin) in H. destruct (wr_mkdir w _); [discriminate|].
  fold (file_name r t) in H. unfold marshal in *. unfold document_of, marshal.
  destruct (equal_options o (to_json o)) as [e|]; [discriminate|].
  destruct (wr_write w _) as [[e l]|]; [discriminate|]. inversion H; subst. eexists. split; [reflexivity|]. split; reflexivity.
Qed.
Lemma place_tail : forall resolve admin, ends_in (place resolve admin) resume_tail.
Proof.
  intros resolve admin. unfold place. destruct (has_suffix (resolve admin) resume_tail) eqn:E.
  - apply has_suffix_iff. exact E.
  - apply join_tail.
Qed.
Lemma rescue_failed : forall resolve w admin r t o a fs e fs1,
  default_rescue resolve w admin r t o a fs = (inr e, fs1) ->
  (wr_mkdir w (place resolve admin) = Some e /\ fs1 = fs \/
   wr_mkdir w (place resolve admin) = None /\ exists rest,
   wr_write w (join (place resolve admin) (file_name r t)) = Some (e, rest) /\
   fs1 = put_file (join (place resolve admin) (file_name r t)) rest fs).
Proof.
  intros resolve w admin r t o a fs e fs1 H. unfold default_rescue, author_write, destination in H.
  fold (place resolve admin) in H. destruct (wr_mkdir w (place resolve admin)) eqn:M.
  - inversion H; subst. left. split; reflexivity.
  - fold (file_name r t) in H. unfold marshal in H. rewrite equal_to_json in H.
    destruct (wr_write w _) as [[e' l]|] eqn:W; [|discriminate]. inversion H; subst.
    right. split; [reflexivity|]. exists l. split; [reflexivity|reflexivity].
Qed.
Lemma rescue_stored : forall resolve w admin r t o a fs,
  (forall d, wr_mkdir w d = None) -> (forall p, wr_write w p = None) ->
  exists p fs1, default_rescue resolve w admin r t o a fs = (inl p, fs1).
Proof.
  intros resolve w admin r t o a fs M W. unfold default_rescue, author_write, destination. rewrite M. unfold marshal.
  rewrite equal_to_json, W. eexists _, _. reflexivity.
Qed.
