(** Telling the library's errors apart and reading them. Properties C105 and C106. *)
From Verif Require Import Base Paths Level Kernel Session Spec Filters Hooks Life Options Build SpecBuild BuildFacts BuildProps
  Cases CasesFacts WalkProps BuildCases FilterCases Persist Resume ResumeMetrics Result PropResult Errors SpecErrors.
Local Open Scope string_scope.

(** ** Auxiliary facts *)
Section Ind.
Variable P : gerror -> Prop.
Hypothesis step : forall e, (forall w, In w (unwrap e) -> P w) -> P e.
Fixpoint gerror_unwrap_ind (e : gerror) : P e.
Proof.
  apply step. destruct e; cbn [unwrap]; intros w I; try (destruct I; fail);
    try (destruct I as [<- | []]; apply gerror_unwrap_ind).
  induction l as [|x l IH]; [destruct I|]. destruct I as [<- | I]; [apply gerror_unwrap_ind|exact (IH I)].
Defined.
End Ind.

Lemma is_unwrap : forall t e, is t e = (same e t || existsb (is t) (unwrap e))%bool.
Proof. intros t e. destruct e; cbn; rewrite ?Bool.orb_false_r; reflexivity. Qed.
Definition variable (v : gerror) : Prop := (exists t, v = static_error t) \/ (exists k, v = Core k).
Lemma same_variable : forall v e, variable v -> (same e v = true <-> e = v).
Proof.
  intros v e [[t ->] | [k ->]]; split; intro H.
  - destruct e; try discriminate H. unfold static_error in *. cbn in H.
    destruct (static_type_eq_dec t0 t) as [->|]; [|discriminate H]. destruct (data_eq_dec d _) as [->|]; [reflexivity|discriminate H].
  - subst. unfold static_error, same. destruct (static_type_eq_dec t t); [|congruence].
    destruct (data_eq_dec _ _); congruence.
  - destruct e; try discriminate H. cbn in H. destruct (core_error_eq_dec k0 k) as [->|]; [reflexivity|discriminate H].
  - subst. cbn. destruct (core_error_eq_dec k k); congruence.
Qed.
Lemma inside_in : forall x e w, inside x w -> In w (unwrap e) -> inside x e.
Proof. intros x e w H I. exact (in_unwrap _ _ _ I H). Qed.
Lemma inside_inv : forall x e, inside x e -> x = e \/ exists w, In w (unwrap e) /\ inside x w.
Proof. intros x e H. destruct H as [|e w I H]; [left; reflexivity|right; eauto]. Qed.
Lemma inside_trans : forall x y z, inside x y -> inside y z -> inside x z.
Proof. intros x y z H K. induction K as [|e w I K IH]; [exact H|]. exact (in_unwrap _ _ _ I IH). Qed.
Lemma is_inside : forall v e, variable v -> (is v e = true <-> inside v e).
Proof.
  intros v e V. induction e as [e IH] using gerror_unwrap_ind. rewrite is_unwrap, Bool.orb_true_iff, existsb_exists.
  rewrite same_variable by exact V. split.
  - intros [-> | (w & I & H)]; [constructor|]. apply (in_unwrap _ _ w I). apply IH; assumption.
  - intros H. destruct (inside_inv _ _ H) as [-> | (w & I & K)]; [left; reflexivity|]. right. exists w. split; [exact I|].
    apply IH; assumption.
Qed.
Lemma target_variable : forall p, variable (target p).
Proof. intros []; cbn; unfold variable; eauto. Qed.

(** ** C105: telling errors apart *)

(** errors.Is with one of the library's error variables finds it exactly if the error
    is that variable or it is reached by unwrapping. *)
Theorem c105_is : forall e,
  (forall t, is (static_error t) e = true <-> inside (static_error t) e) /\
  (forall k, is (Core k) e = true <-> inside (Core k) e).
Proof. intros e. split; intros; apply is_inside; unfold variable; eauto. Qed.
Print Assumptions c105_is.

(** The predicate meant for a constructor recognises what the constructor
    returns, whatever the particulars and however it is wrapped or joined. *)
Theorem c105_recognised : forall p m e, meant_for p m -> inside (value m) e -> answers p e = true.
Proof.
  intros p m e M I. unfold answers. apply is_inside; [apply target_variable|]. apply (inside_trans _ (value m)); [|exact I].
  destruct M; cbn; eapply in_unwrap; try (left; reflexivity); constructor.
Qed.
Print Assumptions c105_recognised.

(** And it recognises nothing else: an error as a client can meet or make it is
    recognised only if it has within it what one of the constructors meant returned,
    or the exported error variable the predicate looks for. *)
Theorem c105_nothing_else : forall p e, client_error e -> answers p e = true ->
  (exists m, inside (value m) e /\ meant_for p m) \/
  (exists t, exported_static t /\ inside (static_error t) e /\ (p = IsCoreResumeFsMismatch /\ t = CoreResumeFsMismatch \/ p = IsCorePanicOccurred /\ t = CorePanicOccurred)).
Proof.
  intros p e C. induction C as [t X|k X|m|i s|m e C IH|m l C IH]; intro A; unfold answers in A;
    apply is_inside in A; try apply target_variable.
  - destruct (inside_inv _ _ A) as [E | (w & [] & _)]. right. exists t. split; [exact X|]. split; [constructor|].
    destruct X as [X1 X2]. destruct p, t; cbn in E; unfold static_error in E; try discriminate E; try congruence; auto.
  - destruct (inside_inv _ _ A) as [E | (w & [] & _)]. exfalso. cbn in X.
    destruct p; cbn in E; try discriminate E; injection E as <-; intuition discriminate.
  - left. exists m. split; [constructor|].
    destruct (inside_inv _ _ A) as [E | (w & I & B)].
    { destruct p, m; cbn in E; unfold static_error in E; discriminate E. }
    destruct m; cbn in I; destruct I as [<- | []];
      (destruct (inside_inv _ _ B) as [E | (w2 & [] & _)]); destruct p; cbn in E; unfold static_error in E; try discriminate E; constructor.
  - destruct (inside_inv _ _ A) as [E | (w & [] & _)]. destruct p; cbn in E; discriminate E.
  - destruct (inside_inv _ _ A) as [E | (w & [<- | []] & B)]; [destruct p; cbn in E; discriminate E|].
    destruct IH as [(x & I & M) | (t & X & I & P)]; [apply is_inside; [apply target_variable|exact B]| |].
    + left. exists x. split; [|exact M]. eapply in_unwrap; [left; reflexivity|exact I].
    + right. exists t. split; [exact X|]. split; [|exact P]. eapply in_unwrap; [left; reflexivity|exact I].
  - destruct (inside_inv _ _ A) as [E | (w & I & B)]; [destruct p; cbn in E; discriminate E|]. cbn in I.
    destruct (IH w I) as [(x & J & M) | (t & X & J & P)]; [apply is_inside; [apply target_variable|exact B]| |].
    + left. exists x. split; [|exact M]. eapply in_unwrap; [exact I|exact J].
    + right. exists t. split; [exact X|]. split; [|exact P]. eapply in_unwrap; [exact I|exact J].
Qed.
Print Assumptions c105_nothing_else.

(** But the failure to make a worker pool cannot be told by the exported error: with
    ErrWorkerPoolCreationFailed, errors.Is finds in the error returned only what was in
    the error of the pool library; its text is just prefixed, the first time. *)
Theorem c105_pool_failure_refuted : forall first i says,
  is (static_error WorkerPoolCreationFailed) (pool_failure first (Other i says)) = false /\
  text (pool_failure first (Other i says)) = Some (if first then "failed to create worker pool: " ++ says else says).
Proof. intros [] i says; split; reflexivity. Qed.
Print Assumptions c105_pool_failure_refuted.
Example c105_case :
  let e := Joined "two" [Other 1 "x"; Note "more" (value (NewBrokerTopicNotFound "t"))] in
  client_error e /\ inside (value (NewBrokerTopicNotFound "t")) e /\ answers IsBrokerTopicNotFound e = true /\
  answers IsInvalidResumeStateTransition e = false.
Proof.
  cbv zeta. repeat split; try reflexivity.
  - apply ce_joined. intros e [<- | [<- | []]]; [apply ce_other|apply ce_note, ce_made].
  - eapply in_unwrap; [right; left; reflexivity|]. eapply in_unwrap; [left; reflexivity|]. constructor.
Qed.

(** ** C106: reading errors *)

Lemma append_assoc : forall a b c, (a ++ b) ++ c = a ++ b ++ c.
Proof. induction a as [|x a IH]; cbn; intros; [reflexivity|]. rewrite IH. reflexivity. Qed.
Lemma append_nil : forall a, a ++ "" = a.
Proof. induction a as [|x a IH]; cbn; [reflexivity|]. rewrite IH. reflexivity. Qed.

Lemma contains_here : forall a p b, contains (a ++ p ++ b) p.
Proof. intros. exists a, b. reflexivity. Qed.
Lemma contains_end : forall a p, contains (a ++ p) p.
Proof. intros. exists a, "". rewrite append_nil. reflexivity. Qed.
Lemma contains_start : forall p b, contains (p ++ b) p.
Proof. intros. exists "", b. reflexivity. Qed.
Lemma contains_more : forall a s p, contains s p -> contains (a ++ s) p.
Proof. intros a s p (x & y & ->). exists (a ++ x), y. rewrite append_assoc. reflexivity. Qed.
Lemma contains_before : forall s b p, contains s p -> contains (s ++ b) p.
Proof. intros s b p (x & y & ->). exists x, (y ++ b). rewrite !append_assoc. reflexivity. Qed.

(** The text of every error made by the library, other than those for a panic, can be
    rendered, says what has happened and contains the particulars. *)
Theorem c106_texts_partial : forall m, ~ from_panic m ->
  exists s, text (value m) = Some s /\ contains s (complaint m) /\ forall x, In x (particulars m) -> contains s x.
Proof.
  intros m N. destruct m as [x|x|x|x|t c|x|x|x|x| | |x|r]; try (exfalso; apply N; exact I).
  - exists (("notification: " ++ x) ++ ": " ++ "invalid notification mute requested"). split; [reflexivity|]. split.
    + apply contains_more. apply contains_end.
    + intros y [<- | []]. apply contains_before, contains_end.
  - exists (("state: " ++ x) ++ ": " ++ "invalid resume state transition detected"). split; [reflexivity|]. split.
    + apply contains_more. apply contains_end.
    + intros y [<- | []]. apply contains_before, contains_end.
  - exists (("path: " ++ x) ++ ": " ++ "item already extended" ++ " for item"). split; [reflexivity|]. split.
    + apply contains_more. apply contains_here.
    + intros y [<- | []]. apply contains_before, contains_end.
  - exists (("state: " ++ x) ++ ": " ++ "missing listen detacher function"). split; [reflexivity|]. split.
    + apply contains_more. apply contains_end.
    + intros y [<- | []]. apply contains_before, contains_end.
  - exists (("tree: '" ++ t ++ "', current: '" ++ c ++ "'") ++ ": " ++ "tree path can't be longer than current"). split; [reflexivity|]. split.
    + apply contains_more. apply contains_end.
    + intros y [<- | [<- | []]]; apply contains_before.
      * apply contains_here.
      * apply contains_more, contains_more. apply contains_here.
  - exists (("from: " ++ x) ++ ": " ++ "resume controller not set"). split; [reflexivity|]. split.
    + apply contains_more. apply contains_end.
    + intros y [<- | []]. apply contains_before, contains_end.
  - exists (("topic: " ++ x) ++ ": " ++ "broker topic not found"). split; [reflexivity|]. split.
    + apply contains_more. apply contains_end.
    + intros y [<- | []]. apply contains_before, contains_end.
  - exists (("invalid incase filter definition; " ++ "pattern is missing separator" ++ ", ") ++ "pattern: " ++ x).
    split; [cbn; rewrite append_nil; reflexivity|]. split.
    + apply contains_before. apply contains_here.
    + intros y [<- | []]. apply contains_more, contains_end.
  - exists (("invalid glob ex filter definition; " ++ "pattern is missing separator" ++ ", ") ++ "pattern: " ++ x).
    split; [cbn; rewrite append_nil; reflexivity|]. split.
    + apply contains_before. apply contains_here.
    + intros y [<- | []]. apply contains_more, contains_end.
  - eexists. split; [reflexivity|]. split; [exists "", ""; reflexivity|intros ? []].
  - eexists. split; [reflexivity|]. split; [exists "", ""; reflexivity|intros ? []].
Qed.
Print Assumptions c106_texts_partial.

(** The texts of the error variables can be rendered, and no two of them are the
    same, ErrPolyFilterIsInvalid aside. *)
Theorem c106_variables_partial : forall t, (exists s, text (static_error t) = Some s) /\
  forall u, t <> PolyFilterIsInvalid -> u <> PolyFilterIsInvalid ->
    text (static_error t) = text (static_error u) -> t = u.
Proof.
  intros t. split; [destruct t; eexists; vm_compute; reflexivity|].
  intros u N1 N2 E. destruct t; try (exfalso; apply N1; reflexivity); destruct u; try (exfalso; apply N2; reflexivity);
    try reflexivity; vm_compute in E; discriminate E.
Qed.
Print Assumptions c106_variables_partial.

(** But the text of ErrPolyFilterIsInvalid is that of another error. *)
Theorem c106_poly_text_refuted :
  text (static_error PolyFilterIsInvalid) = text (static_error FilterIsNil) /\ static_error PolyFilterIsInvalid <> static_error FilterIsNil.
Proof. split; [vm_compute; reflexivity|discriminate]. Qed.
Print Assumptions c106_poly_text_refuted.

(** And the text of the error returned after a panic, saved or not, cannot be
    rendered at all, so that what it is made of (the destination, the reason) is
    not in it: the messages name fields which the data do not have. *)
Theorem c106_panic_text_refuted : forall go c sampling t o s n p,
  hooks_ok c -> root_ok c t -> filter_ok c -> session c sampling t = (o, s) ->
  In (n, CPanic p) (calls (s_trace s)) -> n_pos n <> [] ->
  exists er, o = Ret (Some er) /\ answers IsCorePanicOccurred (go_error go er) = true /\ text (go_error go er) = None.
Proof.
  intros go c sampling t o s n p HK RO FO H I NP.
  destruct (panic_answered _ _ _ _ _ _ _ HK RO FO H I NP) as (b & sv & a & T & E).
  eexists. split; [exact E|]. destruct (c_rescue c b p sv); split; reflexivity.
Qed.
Print Assumptions c106_panic_text_refuted.
Example c106_case :
  text (value (NewInvalidExtGlobFilterMissingSeparator "foo")) = Some "invalid glob ex filter definition; pattern is missing separator, pattern: foo" /\
  text (value NewTraverseFsMismatch) = Some "traverse-fs, resume file system mismatch" /\
  (exists n, In (n, CPanic (PErr (Err (Plain 5)))) (calls (s_trace (snd (session boom false tree1)))) /\ n_pos n <> []) /\
  (forall go, match fst (session boom false tree1) with Ret (Some er) => text (go_error go er) = None | _ => False end).
Proof.
  split; [vm_compute; reflexivity|]. split; [vm_compute; reflexivity|]. split.
  - eexists. split; [vm_compute; right; left; reflexivity|]. cbn. discriminate.
  - intros go. vm_compute. reflexivity.
Qed.
