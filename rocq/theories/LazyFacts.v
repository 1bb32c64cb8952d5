(** Only directories which are entered are read. *)
From Verif Require Import Base Paths Level Lo Collections Kernel Session Spec KernelRel KernelFacts KernelInv SpecLazy.

(** The trace only grows, and Descend stays notified. *)
Definition onward (s s1 : st) : Prop :=
  (exists tr, s_trace s1 = s_trace s ++ tr) /\ (mu_descend (s_mutes s) = false -> mu_descend (s_mutes s1) = false).
Lemma onward_refl : forall s, onward s s.
Proof. intro s. split; [exists []; rewrite app_nil_r; reflexivity|auto]. Qed.
Lemma onward_trans : forall a b d, onward a b -> onward b d -> onward a d.
Proof.
  intros a b d [[x X] A] [[y Y] B]. split; [exists (x ++ y); rewrite Y, X, app_assoc; reflexivity|auto].
Qed.
Lemma onward_dispatch : forall b e s, onward s (dispatch b e s).
Proof. intros [|] e s; cbn; [apply onward_refl|]. split; [exists [e]; reflexivity|auto]. Qed.
Lemma onward_emit : forall e s, onward s (emit e s).
Proof. intros e s. split; [exists [e]; reflexivity|auto]. Qed.
Lemma onward_same : forall s s1, s_trace s1 = s_trace s -> s_mutes s1 = s_mutes s -> onward s s1.
Proof. intros s s1 T M. split; [exists []; rewrite app_nil_r; exact T|rewrite M; auto]. Qed.

Lemma link_onward : forall c r n k s o n1 s1, link_next c r n k s = (o, n1, s1) -> onward s s1.
Proof.
  intros c r n k s o n1 s1 H.
  assert (PR : forall p o n1 s1, primary_next p n k s = (o, n1, s1) -> onward s s1).
  { intros p o' n' s' P. destruct p as [f|m]; cbn in P; unfold match_next, sampler_next in P.
    - destruct (f n) as [[|]|q]; injection P as _ _ <-; apply onward_same; reflexivity.
    - destruct (scope_is_tree (n_scope n)); [|injection P as _ _ <-; apply onward_refl].
      destruct k as [[fs ds]|]; injection P as _ _ <-; apply onward_same; reflexivity. }
  assert (NA : forall m n0 s0 o n1 s1, nanny_scheme_next c m n0 k s0 = (o, n1, s1) -> onward s0 s1).
  { intros m n0 s0 o' n' s' P. unfold nanny_scheme_next in P. destruct k as [[fs ds]|]; [|injection P as _ _ <-; apply onward_refl].
    destruct (m (c_sort c fs)); injection P as _ _ <-; apply onward_same; reflexivity. }
  destruct r; cbn [link_next] in H.
  - injection H as _ _ <-. apply onward_refl.
  - unfold anchor_next in H. cbv zeta in H.
    assert (A : forall r, onward s (emit (EvCall n r) (tick_by (if n_isdir n then DirectoriesInvoked else FilesInvoked) 1 s))).
    { intro r. eapply onward_trans; [|apply onward_emit]. apply onward_same; reflexivity. }
    destruct (c_client c _ n); injection H as _ _ <-; apply A.
  - unfold filter_next in H. destruct (c_scheme c) as [sc|]; [|injection H as _ _ <-; apply onward_refl].
    destruct (sc_primary sc) as [p|], (sc_child sc) as [m|].
    + destruct (primary_next p n k s) as [[[[[|] e]|q|] n2] s2] eqn:P.
      * destruct (nanny_scheme_next c m n2 k s2) as [[o3 n3] s3] eqn:Q.
        assert (onward s s3) by (eapply onward_trans; [eapply PR; exact P|eapply NA; exact Q]).
        destruct o3 as [[b e2]|q|]; injection H as _ _ <-; assumption.
      * injection H as _ _ <-. eapply PR; exact P.
      * injection H as _ _ <-. eapply PR; exact P.
      * injection H as _ _ <-. eapply PR; exact P.
    + eapply PR; exact H.
    + eapply NA; exact H.
    + injection H as _ _ <-. apply onward_refl.
  - unfold hib_next in H. destruct (c_hib c) as [h|]; [|injection H as _ _ <-; apply onward_refl].
    assert (D : forall b e x, onward s (set_hib x (dispatch b e s))).
    { intros b e x. eapply onward_trans; [apply (onward_dispatch b e)|]. apply onward_same; reflexivity. }
    destruct (s_hib s).
    + destruct (hb_wake h n) as [[|]|q].
      * cbv zeta in H. destruct (hb_incl_wake h); injection H as _ _ <-; apply D.
      * injection H as _ _ <-. apply onward_refl.
      * injection H as _ _ <-. apply onward_refl.
    + destruct (hb_sleep h n) as [[|]|q].
      * cbv zeta in H. destruct (hb_incl_sleep h); injection H as _ _ <-; apply D.
      * injection H as _ _ <-. apply onward_refl.
      * injection H as _ _ <-. apply onward_refl.
    + injection H as _ _ <-. apply onward_refl.
  - injection H as _ _ <-. apply onward_refl.
  - unfold nanny_next in H. destruct k as [[fs ds]|]; injection H as _ _ <-; apply onward_same; reflexivity.
  - unfold fast_next in H. destruct (c_fast c) as [f|]; [|injection H as _ _ <-; apply onward_refl].
    destruct (fast_match f n) as [[|]|q|]; injection H as _ _ <-.
    + split; [exists []; rewrite app_nil_r; reflexivity|reflexivity].
    + apply onward_refl.
    + apply onward_refl.
    + apply onward_refl.
Qed.

Lemma invoke_onward : forall c n k s o n1 s1, invoke c n k s = (o, n1, s1) -> onward s s1.
Proof.
  intros c n k s o n1 s1 H. unfold invoke in H.
  destruct (iterate c (s_items s) n k s) as [[o2 n2] s2] eqn:I. injection H as _ _ <-.
  eapply onward_trans; [|apply onward_emit].
  revert I. generalize (s_items s). intro rs. revert n s o2 n2 s2.
  induction rs as [|r rs IH]; intros n s o2 n2 s2 I; cbn [iterate] in I.
  - injection I as _ _ <-. apply onward_refl.
  - destruct (link_next c r n k s) as [[lo ln] ls] eqn:L. pose proof (link_onward _ _ _ _ _ _ _ _ L) as X.
    destruct lo as [[nx [e|]]|p|].
    + destruct nx; injection I as _ _ <-; exact X.
    + destruct nx; [|injection I as _ _ <-; exact X]. eapply onward_trans; [exact X|]. eapply IH. exact I.
    + injection I as _ _ <-. exact X.
    + injection I as _ _ <-. exact X.
Qed.

Section Lazy.
Variable c : cfg.
Variable rd : string -> fsnode -> list fsnode * option error.
Variable tree : string.
Notation c' := (with_read rd c).

Definition fore (f : node -> st -> tres) : Prop := forall n s o s1, f n s = (o, s1) -> onward s s1.

Lemma loop_onward : forall f parent es i s o s1, fore f -> travel_loop f parent i es s = (o, s1) -> onward s s1.
Proof.
  intros f parent es. induction es as [|e es IH]; intros i s o s1 F H; cbn [travel_loop] in H.
  - injection H as _ <-. apply onward_refl.
  - destruct (f (child_node parent i e) s) as [fo fs] eqn:E. pose proof (F _ _ _ _ E) as X.
    destruct fo as [[[|] [er|]]|p|]; try (injection H as _ <-; exact X).
    + destruct (errors_is SkipDir er); [eapply onward_trans; [exact X|eapply IH; eauto]|].
      destruct (errors_is SkipAll er); [eapply onward_trans; [exact X|eapply IH; eauto]|]. injection H as _ <-. exact X.
    + eapply onward_trans; [exact X|eapply IH; eauto].
    + destruct (errors_is SkipDir er); injection H as _ <-; exact X.
    + eapply onward_trans; [exact X|eapply IH; eauto].
Qed.
Lemma travel_onward : forall f parent es s o s1, fore f -> travel c f parent es s = (o, s1) -> onward s s1.
Proof.
  intros f parent es s o s1 F H. unfold travel in H.
  destruct (travel_loop f parent 0 es s) as [lo ls] eqn:L. pose proof (loop_onward _ _ _ _ _ _ _ F L) as X.
  destruct lo as [r|p|]; try (injection H as _ <-; exact X).
  cbv zeta in H. injection H as _ <-. eapply onward_trans; [exact X|apply onward_emit].
Qed.
Lemma body_onward : forall f n s o n1 s1, fore f -> traverse_body c f tree n s = (o, n1, s1) -> onward s s1.
Proof.
  intros f n s o n1 s1 F H. unfold traverse_body in H.
  destruct (inspect c n) as [[cargo es] err]. cbv zeta in H. set (m := extend c tree n cargo s) in H.
  destruct (c_sub c).
  - destruct (n_isdir m).
    + destruct (c_ask c m cargo err) as [skip e].
      destruct skip, err; try (injection H as _ _ <-; apply onward_refl).
      apply with_node_inv in H. destruct H as [_ H]. eapply travel_onward; eauto.
    + destruct (invoke c m cargo s) as [[[e|p|] n2] s2] eqn:I; injection H as _ _ <-; eapply invoke_onward; eauto.
  - destruct (invoke c m cargo s) as [[[[e|]|p|] n2] s2] eqn:I; pose proof (invoke_onward _ _ _ _ _ _ _ I) as X;
      try (injection H as _ _ <-; exact X).
    destruct (c_ask c n2 cargo err) as [skip e].
    destruct skip; try (injection H as _ _ <-; exact X);
      apply with_node_inv in H; destruct H as [_ H]; (eapply onward_trans; [exact X|eapply travel_onward; eauto]).
  - destruct (invoke c m cargo s) as [[[[e|]|p|] n2] s2] eqn:I; pose proof (invoke_onward _ _ _ _ _ _ _ I) as X;
      try (injection H as _ _ <-; exact X).
    destruct (c_ask c n2 cargo err) as [skip e].
    destruct skip; try (injection H as _ _ <-; exact X);
      apply with_node_inv in H; destruct H as [_ H]; (eapply onward_trans; [exact X|eapply travel_onward; eauto]).
  - destruct (invoke c m cargo s) as [[[[e|]|p|] n2] s2] eqn:I; pose proof (invoke_onward _ _ _ _ _ _ _ I) as X;
      try (injection H as _ _ <-; exact X).
    destruct (c_ask c n2 cargo err) as [skip e].
    destruct skip; try (injection H as _ _ <-; exact X);
      apply with_node_inv in H; destruct H as [_ H]; (eapply onward_trans; [exact X|eapply travel_onward; eauto]).
Qed.
Lemma descend_onward : forall n s b s1, descend c n s = (b, s1) -> onward s s1.
Proof.
  intros n s [|] s1 H.
  - destruct (descend_true _ _ _ _ H) as (_ & T & _ & _ & _ & M). split; [eexists; exact T|rewrite M; auto].
  - apply descend_false in H. subst. apply onward_refl.
Qed.
Lemma traverse_onward : forall k, fore (traverse k c tree).
Proof.
  induction k as [|k IH]; intros n s o s1 H; cbn [traverse] in H.
  - injection H as _ <-. apply onward_refl.
  - destruct (descend c n s) as [ok s2] eqn:D. pose proof (descend_onward _ _ _ _ D) as X.
    destruct ok; [|injection H as _ <-; exact X].
    destruct (traverse_body c (traverse k c tree) tree n s2) as [[bo bn] bs] eqn:B. injection H as _ <-.
    eapply onward_trans; [exact X|]. eapply onward_trans; [eapply body_onward; eauto|].
    unfold ascend. eapply onward_trans; [|apply onward_dispatch]. apply onward_same; reflexivity.
Qed.

(** ** The same session with another reader *)
Lemma link_blind : forall r n k s, link_next c' r n k s = link_next c r n k s.
Proof. intros [] n k s; reflexivity. Qed.
Lemma invoke_blind : forall n k s, invoke c' n k s = invoke c n k s.
Proof.
  intros n k s. unfold invoke.
  assert (E : forall rs n s, iterate c' rs n k s = iterate c rs n k s).
  { induction rs as [|r rs IH]; intros n' s'; [reflexivity|]. cbn [iterate]. rewrite link_blind.
    destruct (link_next c r n' k s') as [[[[[|] [e|]]|p|] n2] s2]; try reflexivity. apply IH. }
  rewrite E. reflexivity.
Qed.
Notation agree := (reads_alike c rd).
Lemma agree_back : forall s s1, onward s s1 -> agree (s_trace s1) -> agree (s_trace s).
Proof.
  intros s s1 [[tr T] _] A p t (n & I & R). apply A. exists n. split; [|exact R]. rewrite T. apply in_or_app. left. exact I.
Qed.

Definition follow (f g : node -> st -> tres) : Prop := forall n s o s1,
  mu_descend (s_mutes s) = false -> f n s = (o, s1) -> agree (s_trace s1) -> g n s = (o, s1).

Lemma loop_follow : forall f g parent es i s o s1, fore f -> follow f g -> mu_descend (s_mutes s) = false ->
  travel_loop f parent i es s = (o, s1) -> agree (s_trace s1) -> travel_loop g parent i es s = (o, s1).
Proof.
  intros f g parent es. induction es as [|e es IH]; intros i s o s1 F G M H A; cbn [travel_loop] in H |- *; [exact H|].
  destruct (f (child_node parent i e) s) as [fo fs] eqn:E. pose proof (F _ _ _ _ E) as X.
  assert (GO : forall i, travel_loop f parent i es fs = (o, s1) -> g (child_node parent 0 e) s = g (child_node parent 0 e) s) by auto.
  assert (DONE : agree (s_trace fs) -> g (child_node parent i e) s = (fo, fs)) by (intro Y; apply G; assumption).
  assert (REST : travel_loop f parent (S i) es fs = (o, s1) -> g (child_node parent i e) s = (fo, fs) /\ travel_loop g parent (S i) es fs = (o, s1)).
  { intro R. pose proof (loop_onward _ _ _ _ _ _ _ F R) as Y. split.
    - apply DONE. eapply agree_back; eauto.
    - eapply IH; eauto. apply X. exact M. }
  clear GO. destruct fo as [[[|] [er|]]|p|].
  - destruct (errors_is SkipDir er) eqn:SD; [destruct (REST H) as [-> ->]; rewrite SD; reflexivity|].
    destruct (errors_is SkipAll er) eqn:SA; [destruct (REST H) as [-> ->]; rewrite SD, SA; reflexivity|].
    injection H as <- <-. rewrite (DONE A), SD, SA. reflexivity.
  - destruct (REST H) as [-> ->]. reflexivity.
  - destruct (errors_is SkipDir er) eqn:SD; injection H as <- <-; rewrite (DONE A), SD; reflexivity.
  - destruct (REST H) as [-> ->]. reflexivity.
  - injection H as <- <-. rewrite (DONE A). reflexivity.
  - injection H as <- <-. rewrite (DONE A). reflexivity.
Qed.

Lemma travel_follow : forall f g parent es s o s1, fore f -> follow f g -> mu_descend (s_mutes s) = false ->
  travel c f parent es s = (o, s1) -> agree (s_trace s1) -> travel c' g parent es s = (o, s1).
Proof.
  intros f g parent es s o s1 F G M H A. unfold travel in *.
  destruct (travel_loop f parent 0 es s) as [lo ls] eqn:L.
  assert (Q : agree (s_trace ls) -> travel_loop g parent 0 es s = (lo, ls)) by (intro Y; eapply loop_follow; eauto).
  destruct lo as [r|p|].
  - injection H as <- <-. rewrite (Q A). reflexivity.
  - cbv zeta in H. injection H as <- <-. rewrite Q; [reflexivity|]. eapply agree_back; [|exact A]. apply onward_emit.
  - injection H as <- <-. rewrite (Q A). reflexivity.
Qed.

Lemma inspect_follow : forall n s, mu_descend (s_mutes s) = false -> In (EvDescend n) (s_trace s) ->
  agree (s_trace s) -> inspect c' n = inspect c n.
Proof.
  intros n s M I A. unfold inspect, read_contents. cbn [c_sub c_read c_sort c_files_first with_read].
  destruct (c_sub c) eqn:SUB.
  - destruct (n_isdir n) eqn:D; [|reflexivity]. rewrite (A (n_path n) (n_src n)); [reflexivity|]. exists n. auto 9.
  - rewrite (A (n_path n) (n_src n)); [reflexivity|]. exists n. unfold directories_sub. rewrite SUB. auto 9.
  - rewrite (A (n_path n) (n_src n)); [reflexivity|]. exists n. unfold directories_sub. rewrite SUB. auto 9.
  - destruct (n_isdir n) eqn:D; [|reflexivity]. rewrite (A (n_path n) (n_src n)); [reflexivity|]. exists n. auto 9.
Qed.

Lemma body_follow : forall f g n s o n1 s1, fore f -> follow f g -> mu_descend (s_mutes s) = false ->
  In (EvDescend n) (s_trace s) -> traverse_body c f tree n s = (o, n1, s1) -> agree (s_trace s1) ->
  traverse_body c' g tree n s = (o, n1, s1).
Proof.
  intros f g n s o n1 s1 F G M I H A. pose proof (body_onward _ _ _ _ _ _ F H) as X.
  pose proof (agree_back _ _ X A) as A0. unfold traverse_body in *. rewrite (inspect_follow _ _ M I A0).
  destruct (inspect c n) as [[cargo es] err]. cbv zeta in H |- *.
  change (extend c' tree n cargo s) with (extend c tree n cargo s). set (m := extend c tree n cargo s) in *.
  change (c_sub c') with (c_sub c). change (c_ask c') with (c_ask c).
  rewrite invoke_blind.
  assert (TR : forall k s0, onward s s0 -> with_node k (travel c f k es s0) = (o, n1, s1) ->
    with_node k (travel c' g k es s0) = (o, n1, s1)).
  { intros k s0 Y W. apply with_node_inv in W. destruct W as [-> W].
    rewrite (travel_follow f g k es s0 o s1 F G (proj2 Y M) W A). reflexivity. }
  destruct (c_sub c).
  - destruct (n_isdir m); [|exact H].
    destruct (c_ask c m cargo err) as [skip e]. destruct skip, err; try exact H.
    apply TR; [apply onward_refl|exact H].
  - destruct (invoke c m cargo s) as [[[[e|]|p|] n2] s2] eqn:IV; try exact H.
    pose proof (invoke_onward _ _ _ _ _ _ _ IV) as Y.
    destruct (c_ask c n2 cargo err) as [skip e]. destruct skip; try exact H; apply TR; assumption.
  - destruct (invoke c m cargo s) as [[[[e|]|p|] n2] s2] eqn:IV; try exact H.
    pose proof (invoke_onward _ _ _ _ _ _ _ IV) as Y.
    destruct (c_ask c n2 cargo err) as [skip e]. destruct skip; try exact H; apply TR; assumption.
  - destruct (invoke c m cargo s) as [[[[e|]|p|] n2] s2] eqn:IV; try exact H.
    pose proof (invoke_onward _ _ _ _ _ _ _ IV) as Y.
    destruct (c_ask c n2 cargo err) as [skip e]. destruct skip; try exact H; apply TR; assumption.
Qed.

Lemma traverse_follow : forall k, follow (traverse k c tree) (traverse k c' tree).
Proof.
  induction k as [|k IH]; intros n s o s1 M H A; cbn [traverse] in *; [exact H|].
  change (descend c' n s) with (descend c n s).
  destruct (descend c n s) as [ok s2] eqn:D. destruct ok; [|exact H].
  destruct (descend_true _ _ _ _ D) as (_ & T & _ & _ & _ & M2). rewrite M in T.
  destruct (traverse_body c (traverse k c tree) tree n s2) as [[bo bn] bs] eqn:B. injection H as <- <-.
  rewrite (body_follow _ (traverse k c' tree) n s2 bo bn bs (traverse_onward k) IH); [reflexivity| | |exact B|].
  - rewrite M2. exact M.
  - rewrite T. apply in_or_app. right. left. reflexivity.
  - eapply agree_back; [|exact A]. unfold ascend. eapply onward_trans; [|apply onward_dispatch]. apply onward_same; reflexivity.
Qed.
End Lazy.

Theorem read_where_entered : forall c rd sampling t o s, session c sampling t = (o, s) ->
  reads_alike c rd (s_trace s) -> session (with_read rd c) sampling t = (o, s).
Proof.
  intros c rd sampling t o s H A. unfold session in *. cbv zeta in *.
  change (start_st (with_read rd c) sampling) with (start_st c sampling). change (c_tree (with_read rd c)) with (c_tree c).
  set (s0 := dispatch (mu_begin (s_mutes (start_st c sampling))) (EvBegin (c_tree c)) (start_st c sampling)) in *.
  assert (M : mu_descend (s_mutes s0) = false) by reflexivity.
  unfold navigate, top in *. change (c_stat (with_read rd c)) with (c_stat c). change (c_fault (with_read rd c)) with (c_fault c).
  change (c_tree (with_read rd c)) with (c_tree c).
  destruct (c_stat c t); [exact H|].
  destruct (traverse (S (height t)) c (c_tree c) (new_node (c_tree c) t None None []) s0) as [to ts] eqn:T.
  assert (Q : reads_alike c rd (s_trace ts) -> traverse (S (height t)) (with_read rd c) (c_tree c) (new_node (c_tree c) t None None []) s0 = (to, ts)).
  { intro Y. eapply traverse_follow; eauto. }
  rewrite Q.
  - exact H.
  - destruct to as [[b e]|p|].
    + injection H as _ <-. eapply agree_back; [|exact A]. apply onward_dispatch.
    + injection H as _ <-. exact A.
    + injection H as _ <-. exact A.
Qed.

(** ** Nothing is entered beyond the depth limit *)
Section Limit.
Variable c : cfg.
Variable tree : string.
Definition limited (tr : list event) : Prop :=
  forall n, In (EvDescend n) tr -> within (c_depth c) 0 (place_of n) = true.
Definition level (n : node) : Z := Z.of_nat (length (n_pos n)).
Definition inside (s s1 : st) : Prop := s_depth s1 = s_depth s /\ (limited (s_trace s) -> limited (s_trace s1)).

Lemma limited_app : forall a b, limited a -> (forall n, ~ In (EvDescend n) b) -> limited (a ++ b).
Proof. intros a b A B n I. apply in_app_or in I. destruct I as [I|I]; [auto|]. exfalso. exact (B n I). Qed.

Lemma run_inside : forall n s o s1, run c tree n s o s1 -> s_depth s = level n -> inside s s1.
Proof.
  apply (kernel_inv c tree inside (fun n s => s_depth s = level n) (fun n s => s_depth s = (level n + 1)%Z)
    (fun n es s => s_depth s = (level n + 1)%Z)).
  - intro s. split; auto.
  - intros a b d [X A] [Y B]. split; [congruence|auto].
  - intros n es s s' P [D _]. congruence.
  - intros n s s1 E D. destruct (descend_true _ _ _ _ D) as (X & _). lia.
  - intros n n1 s s1 s2 E D _ [X A].
    destruct (descend_true _ _ _ _ D) as (DD & T & _ & _ & _ & _).
    destruct (ascend_fields n1 s2) as (D2 & T2 & _).
    split; [lia|]. intro L. rewrite T2. apply limited_app.
    + apply A. rewrite T. intros m I. apply in_app_or in I. destruct I as [I|I]; [auto|].
      destruct (mu_descend (s_mutes s)); [destruct I|]. destruct I as [I|[]]. injection I as <-.
      unfold descend, per_descend in D. destruct ((0 <? c_depth c)%N && (int_of_uint (c_depth c) <? s_depth s)%Z) eqn:Q; [discriminate|].
      unfold within. cbn [place_of pl_pos]. apply andb_false_iff in Q. apply orb_true_iff. destruct Q as [Q|Q].
      * left. apply N.ltb_ge in Q. apply N.eqb_eq. lia.
      * right. apply Z.ltb_ge in Q. apply Z.leb_le. unfold level in E. lia.
    + intros m I. destruct (mu_ascend (s_mutes s2)); [destruct I|]. destruct I as [I|[]]. discriminate I.
  - intros n s o n1 s1 P _ I. destruct (invoke_step _ _ _ _ _ _ _ I) as (D & S & tr & T & F).
    assert (LV : level n1 = level n).
    { destruct S as [cs ->]. unfold level, ext_of, extend. destruct (split_path (n_path n)). reflexivity. }
    split; [|intros _; rewrite LV; congruence]. split; [exact D|]. intro L. rewrite T. apply limited_app; [exact L|].
    intros m J. apply in_app_or in J. destruct J as [J|J]; [|destruct J as [J|[]]; discriminate J].
    rewrite Forall_forall in F. exact (F _ J).
  - intros n s P _ _. unfold level, ext_of, extend. destruct (split_path (n_path n)). exact P.
  - intros n es s i e P _. unfold level, child_node, new_node in *. cbn [n_pos] in *. rewrite app_length. cbn [length]. lia.
  - intros n es s _. split; [reflexivity|]. intro L. apply limited_app; [exact L|].
    intros m [I|[]]. discriminate I.
Qed.
End Limit.

Theorem session_limited : forall c sampling t o s, hooks_ok c -> session c sampling t = (o, s) ->
  limited c (s_trace s).
Proof.
  intros c sampling t o s HK H. unfold session, navigate in H. cbv zeta in H.
  set (s0 := dispatch (mu_begin (s_mutes (start_st c sampling))) (EvBegin (c_tree c)) (start_st c sampling)) in *.
  assert (L0 : limited c (s_trace s0)) by (intros n [I|[]]; discriminate I).
  destruct (top c (c_tree c) t s0) as [to ts] eqn:TP.
  assert (LT : limited c (s_trace ts)).
  { destruct (c_stat c t) as [e|] eqn:ST.
    - unfold top in TP. rewrite ST in TP. injection TP as _ <-. exact L0.
    - destruct (top_adequate _ _ _ _ _ _ HK ST TP) as (ro & R & _).
      apply (proj2 (run_inside c (c_tree c) _ _ _ _ R eq_refl)). exact L0. }
  destruct to as [e|p|]; injection H as _ <-; [|exact LT|exact LT].
  destruct (mu_end (s_mutes ts)); cbn; [exact LT|]. apply limited_app; [exact LT|].
  intros n [I|[]]. discriminate I.
Qed.
