(** Repeated navigations of one navigator. *)
From Verif Require Import Base Paths Level Lo Kernel Session Spec SpecResume Simulate Again SpecAgain.
Local Open Scope list_scope.

Lemma session_drive : forall c sampling t, session c sampling t = drive c t (start_st c sampling).
Proof. reflexivity. Qed.

(** The same with another panic handler and another callback. *)
Definition patched (c : cfg) rc cl : cfg :=
  mkCfg (c_sub c) (c_depth c) (c_files_first c) (c_keep_sep c) (c_read c) (c_sort c) (c_subpath c)
    (c_stat c) (c_fault c) (c_ask c) rc (c_tree c) (c_scheme c) (c_hib c) (c_fast c) cl.
Section Later.
Variable c : cfg.
Variable h : list event.
Variable d : metrics.
Variable rc : list event -> panicv -> saved -> string + error.
Variable cl : list event -> node -> cbres.
Local Notation c' := (patched c rc cl).
Hypothesis HC : forall tr n, c_client c (h ++ map (raised d) tr) n = cl tr n.
Hypothesis HR : forall tr p sv, c_rescue c (h ++ map (raised d) tr) p
  (with_metrics (plus_metrics (sv_metrics sv) (mkMetrics (m_files d) 0 (m_dirs d) 0 (m_child d) 0)) sv) = rc tr p sv.
Definition later_st (s : st) : st :=
  mkSt (s_depth s) (plus_metrics (s_metrics s) d) (s_hib s) (s_items s) (s_mutes s) (h ++ map (raised d) (s_trace s)).
Let L := later_st.
Let lift3 {A B} (x : A * B * st) : A * B * st := (fst x, L (snd x)).
Let lift {A} (x : A * st) : A * st := (fst x, L (snd x)).

Lemma l_emit : forall e s, raised d e = e -> emit e (L s) = L (emit e s).
Proof. intros e s H. unfold emit, L, later_st. cbn. rewrite map_app. cbn. rewrite H, app_assoc. reflexivity. Qed.
Lemma l_dispatch : forall b e s, raised d e = e -> dispatch b e (L s) = L (dispatch b e s).
Proof. intros [|] e s H; [reflexivity|apply l_emit; exact H]. Qed.
Lemma l_tick : forall k n s, tick_by k n (L s) = L (tick_by k n s).
Proof.
  intros k n s. unfold tick_by, set_metrics, L, later_st. cbn. f_equal.
  destruct k; unfold times, plus_metrics; cbn; f_equal; lia.
Qed.
Lemma l_depth : forall z s, set_depth z (L s) = L (set_depth z s).
Proof. reflexivity. Qed.
Lemma l_hib : forall z s, set_hib z (L s) = L (set_hib z s).
Proof. reflexivity. Qed.

Lemma anchor_l : forall n s, anchor_next c n (L s) = lift3 (anchor_next c' n s).
Proof.
  intros n s. unfold anchor_next, lift3. rewrite l_tick. set (s1 := tick_by _ 1 s).
  assert (E : c_client c' (s_trace s1) n = c_client c (s_trace (L s1)) n) by (symmetry; apply HC). rewrite E.
  rewrite l_emit by reflexivity. destruct (c_client c (s_trace (L s1)) n); reflexivity.
Qed.
Lemma hib_l : forall n s, hib_next c n (L s) = lift3 (hib_next c' n s).
Proof.
  intros n s. unfold hib_next, lift3. change (c_hib c') with (c_hib c). change (s_hib (L s)) with (s_hib s).
  change (s_mutes (L s)) with (s_mutes s). destruct (c_hib c) as [hh|]; [|reflexivity].
  rewrite !l_dispatch by reflexivity. rewrite !l_hib.
  destruct (s_hib s); [destruct (hb_wake hh n) as [[|]|]|destruct (hb_sleep hh n) as [[|]|]|]; try reflexivity;
    [destruct (hb_incl_wake hh)|destruct (hb_incl_sleep hh)]; reflexivity.
Qed.
Lemma primary_l : forall p n k s, primary_next p n k (L s) = lift3 (primary_next p n k s).
Proof.
  intros [f|m] n k s; cbn [primary_next]; unfold match_next, sampler_next, lift3.
  - rewrite l_tick. destruct (f n) as [[|]|]; reflexivity.
  - destruct (scope_is_tree (n_scope n)); [|reflexivity]. destruct k as [[fs ds]|]; [|reflexivity]. rewrite l_tick. reflexivity.
Qed.
Lemma child_l : forall m n k s, nanny_scheme_next c m n k (L s) = lift3 (nanny_scheme_next c' m n k s).
Proof.
  intros m n [[fs ds]|] s; unfold nanny_scheme_next, lift3; [|reflexivity]. change (c_sort c') with (c_sort c).
  destruct (m (c_sort c fs)); [|reflexivity]. rewrite !l_tick. reflexivity.
Qed.
Lemma filter_l : forall n k s, filter_next c n k (L s) = lift3 (filter_next c' n k s).
Proof.
  intros n k s. unfold filter_next. change (c_scheme c') with (c_scheme c).
  destruct (c_scheme c) as [[[p|] [m|]]|]; cbn [sc_primary sc_child]; try reflexivity.
  - rewrite primary_l. destruct (primary_next p n k s) as [[[[[|] e]|q|] n1] s1]; cbn [fst snd]; try reflexivity.
    unfold lift3 at 1. cbn [fst snd]. rewrite child_l.
    destruct (nanny_scheme_next c' m n1 k s1) as [[[[b e2]|q|] n2] s2]; reflexivity.
  - apply primary_l.
  - apply child_l.
Qed.
Lemma fast_l : forall n s, fast_next c n (L s) = lift3 (fast_next c' n s).
Proof.
  intros n s. unfold fast_next, lift3. change (c_fast c') with (c_fast c). destruct (c_fast c) as [f|]; [|reflexivity].
  destruct (fast_match f n) as [[|]|p|]; reflexivity.
Qed.
Lemma link_l : forall r n k s, link_next c r n k (L s) = lift3 (link_next c' r n k s).
Proof.
  intros r n k s. destruct r; cbn [link_next]; try reflexivity; try apply anchor_l; try apply filter_l; try apply hib_l; try apply fast_l.
  unfold nanny_next, lift3. destruct k as [[fs ds]|]; [|reflexivity]. change (c_sort c') with (c_sort c). rewrite l_tick. reflexivity.
Qed.
Lemma iterate_l : forall rs n k s, iterate c rs n k (L s) = lift3 (iterate c' rs n k s).
Proof.
  induction rs as [|r rs IH]; intros n k s; cbn [iterate]; [reflexivity|]. rewrite link_l.
  destruct (link_next c' r n k s) as [[[[[|] [e|]]|p|] n1] s1]; unfold lift3 at 1; cbn [fst snd]; try reflexivity. apply IH.
Qed.
Lemma invoke_l : forall n k s, invoke c n k (L s) = lift3 (invoke c' n k s).
Proof.
  intros n k s. unfold invoke. change (s_items (L s)) with (s_items s). rewrite iterate_l.
  destruct (iterate c' (s_items s) n k s) as [[o n1] s1]. unfold lift3 at 1. cbn [fst snd]. rewrite l_emit by reflexivity. reflexivity.
Qed.

Section Trav.
Variables trav trav' : node -> st -> tres.
Hypothesis TR : forall n s, trav n (L s) = lift (trav' n s).
Lemma loop_l : forall parent es i s, travel_loop trav parent i es (L s) = lift (travel_loop trav' parent i es s).
Proof.
  intros parent. induction es as [|e es IH]; intros i s; cbn [travel_loop]; [reflexivity|]. rewrite TR.
  destruct (trav' (child_node parent i e) s) as [[[[|] [er|]]|p|] s1]; unfold lift at 1; cbn [fst snd]; try reflexivity; try apply IH;
    destruct (errors_is SkipDir er); try reflexivity; try apply IH; destruct (errors_is SkipAll er); try reflexivity; apply IH.
Qed.
Lemma travel_l : forall parent es s, travel c trav parent es (L s) = lift (travel c' trav' parent es s).
Proof.
  intros parent es s. unfold travel. rewrite loop_l.
  destruct (travel_loop trav' parent 0 es s) as [[r|p|] s1]; unfold lift at 1; cbn [fst snd]; try reflexivity.
  change (saved_of c' parent s1) with (saved_of c parent s1). set (sv := saved_of c parent s1).
  set (sv' := saved_of c parent (L s1)).
  assert (E0 : sv' = with_metrics (plus_metrics (sv_metrics sv) (mkMetrics (m_files d) 0 (m_dirs d) 0 (m_child d) 0)) sv) by reflexivity.
  assert (E : emit (EvRescue sv') (L s1) = L (emit (EvRescue sv) s1)).
  { unfold emit, L, later_st. cbn [s_depth s_metrics s_hib s_items s_mutes s_trace]. rewrite map_app, app_assoc. cbn [map raised]. rewrite E0. reflexivity. }
  rewrite E. assert (E2 : c_rescue c' (s_trace s1) p sv = c_rescue c (s_trace (L s1)) p sv') by (rewrite E0; symmetry; apply HR).
  rewrite E2.
  destruct (c_rescue c (s_trace (L s1)) p sv'); reflexivity.
Qed.
Lemma body_l : forall tree n s, traverse_body c trav tree n (L s) = lift3 (traverse_body c' trav' tree n s).
Proof.
  intros tree n0 s. unfold traverse_body.
  change (inspect c' n0) with (inspect c n0). destruct (inspect c n0) as [[k es] err].
  change (extend c tree n0 k (L s)) with (extend c tree n0 k s). change (extend c' tree n0 k s) with (extend c tree n0 k s).
  set (n := extend c tree n0 k s). change (c_sub c') with (c_sub c). change (c_ask c') with (c_ask c).
  rewrite invoke_l, travel_l.
  destruct (c_sub c).
  - destruct (n_isdir n).
    + destruct (c_ask c n k err) as [[| |] e], err; try reflexivity.
    + destruct (invoke c' n k s) as [[[e|p|] n1] s1]; reflexivity.
  - destruct (invoke c' n k s) as [[[[e|]|p|] n1] s1]; unfold lift3; cbn [fst snd]; try reflexivity.
    destruct (c_ask c n1 k err) as [[| |] e]; try reflexivity; unfold with_node; rewrite travel_l; reflexivity.
  - destruct (invoke c' n k s) as [[[[e|]|p|] n1] s1]; unfold lift3; cbn [fst snd]; try reflexivity.
    destruct (c_ask c n1 k err) as [[| |] e]; try reflexivity; unfold with_node; rewrite travel_l; reflexivity.
  - destruct (invoke c' n k s) as [[[[e|]|p|] n1] s1]; unfold lift3; cbn [fst snd]; try reflexivity.
    destruct (c_ask c n1 k err) as [[| |] e]; try reflexivity; unfold with_node; rewrite travel_l; reflexivity.
Qed.
End Trav.
Lemma traverse_l : forall tree f n s, traverse f c tree n (L s) = lift (traverse f c' tree n s).
Proof.
  intros tree. induction f as [|f IH]; intros n s; cbn [traverse]; [reflexivity|].
  unfold descend. change (c_depth c') with (c_depth c). change (s_depth (L s)) with (s_depth s). change (s_mutes (L s)) with (s_mutes s).
  destruct (per_descend (c_depth c) (s_depth s)) as [[|] z]; [|reflexivity].
  rewrite l_depth, l_dispatch by reflexivity. rewrite (body_l _ _ IH tree).
  destruct (traverse_body c' (traverse f c' tree) tree n _) as [[o nn] s2]. unfold lift3 at 1. cbn [fst snd]. unfold ascend.
  change (s_depth (L s2)) with (s_depth s2). change (s_mutes (L s2)) with (s_mutes s2).
  rewrite l_depth, l_dispatch by reflexivity. reflexivity.
Qed.
Lemma top_l : forall tree t s, top c tree t (L s) = lift (top c' tree t s).
Proof.
  intros tree t s. unfold top. change (c_stat c') with (c_stat c). change (c_fault c') with (c_fault c).
  destruct (c_stat c t); [reflexivity|]. rewrite traverse_l.
  destruct (traverse _ c' tree _ s) as [[[b e]|p|] s1]; reflexivity.
Qed.
Lemma drive_l : forall t s, drive c t (L s) = lift (drive c' t s).
Proof.
  intros t s. unfold drive, navigate. change (s_mutes (L s)) with (s_mutes s). change (c_tree c') with (c_tree c).
  rewrite l_dispatch by reflexivity. rewrite top_l.
  destruct (top c' (c_tree c) t _) as [[e|p|] s2]; unfold lift at 1; cbn [fst snd]; try reflexivity.
  unfold lift. cbn [fst snd]. f_equal. change (s_mutes (L s2)) with (s_mutes s2). destruct (mu_end (s_mutes s2)); [reflexivity|].
  cbn [dispatch]. unfold emit, L, later_st. cbn. rewrite map_app, app_assoc. reflexivity.
Qed.
End Later.

(** ** What a navigation leaves as it was *)
Definition settled (s s1 : st) : Prop :=
  s_items s1 = s_items s /\ s_mutes s1 = s_mutes s /\ s_hib s1 = s_hib s /\ s_depth s1 = s_depth s.
Lemma settled_refl : forall s, settled s s.
Proof. intros s. repeat split. Qed.
Lemma settled_trans : forall a b e, settled a b -> settled b e -> settled a e.
Proof. intros a b e (A1 & A2 & A3 & A4) (B1 & B2 & B3 & B4). repeat split; congruence. Qed.
Lemma settled_dispatch : forall b e s, settled s (dispatch b e s).
Proof. intros [|] e s; repeat split. Qed.

Section Settled.
Variable c : cfg.
Hypothesis H1 : c_hib c = None.
Hypothesis H2 : c_fast c = None.
Lemma primary_settled : forall p n k s o n1 s1, primary_next p n k s = (o, n1, s1) -> settled s s1.
Proof.
  intros [f|m] n k s o n1 s1 H; cbn [primary_next] in H; unfold match_next, sampler_next in H.
  - destruct (f n) as [[|]|]; inversion H; subst; repeat split.
  - destruct (scope_is_tree (n_scope n)); [destruct k as [[fs ds]|]|]; inversion H; subst; repeat split.
Qed.
Lemma child_settled : forall m n k s o n1 s1, nanny_scheme_next c m n k s = (o, n1, s1) -> settled s s1.
Proof.
  intros m n k s o n1 s1 H. unfold nanny_scheme_next in H. destruct k as [[fs ds]|]; [|inversion H; subst; repeat split].
  destruct (m (c_sort c fs)); inversion H; subst; repeat split.
Qed.
Lemma link_settled : forall r n k s o n1 s1, link_next c r n k s = (o, n1, s1) -> settled s s1.
Proof.
  intros r n k s o n1 s1 H. destruct r; cbn [link_next] in H.
  - inversion H; subst; repeat split.
  - unfold anchor_next in H. destruct (c_client c _ n); inversion H; subst; repeat split.
  - unfold filter_next in H. destruct (c_scheme c) as [[[p|] [m|]]|]; cbn [sc_primary sc_child] in H.
    + destruct (primary_next p n k s) as [[[[[|] e]|q|] n2] s2] eqn:P; apply primary_settled in P; try (inversion H; subst; exact P).
      destruct (nanny_scheme_next c m n2 k s2) as [[[[b e2]|q|] n3] s3] eqn:C; apply child_settled in C;
        inversion H; subst; exact (settled_trans _ _ _ P C).
    + exact (primary_settled _ _ _ _ _ _ _ H).
    + exact (child_settled _ _ _ _ _ _ _ H).
    + inversion H; subst; repeat split.
    + inversion H; subst; repeat split.
  - unfold hib_next in H. rewrite H1 in H. inversion H; subst; repeat split.
  - inversion H; subst; repeat split.
  - unfold nanny_next in H. destruct k as [[fs ds]|]; inversion H; subst; repeat split.
  - unfold fast_next in H. rewrite H2 in H. inversion H; subst; repeat split.
Qed.
Lemma iterate_settled : forall rs n k s o n1 s1, iterate c rs n k s = (o, n1, s1) -> settled s s1.
Proof.
  induction rs as [|r rs IH]; intros n k s o n1 s1 H; cbn [iterate] in H.
  - inversion H; subst. apply settled_refl.
  - destruct (link_next c r n k s) as [[[[[|] [e|]]|p|] n2] s2] eqn:E; apply link_settled in E; try (inversion H; subst; exact E).
    exact (settled_trans _ _ _ E (IH _ _ _ _ _ _ H)).
Qed.
Lemma invoke_settled : forall n k s o n1 s1, invoke c n k s = (o, n1, s1) -> settled s s1.
Proof.
  intros n k s o n1 s1 H. unfold invoke in H. destruct (iterate c (s_items s) n k s) as [[o2 n2] s2] eqn:I.
  apply iterate_settled in I. inversion H; subst. destruct I as (A & B & C & D). repeat split; assumption.
Qed.
Lemma traverse_settled : forall tree f n s o s1, traverse f c tree n s = (o, s1) -> settled s s1.
Proof.
  intros tree. induction f as [|f IH]; cbn [traverse]; intros n s o s1 H; [inversion H; subst; apply settled_refl|].
  unfold descend in H. destruct (per_descend (c_depth c) (s_depth s)) as [ok z] eqn:P.
  destruct ok; [|inversion H; subst; apply settled_refl].
  destruct (traverse_body c (traverse f c tree) tree n _) as [[bo bn] bs] eqn:B.
  apply (keep_body c tree settled) in B; [|exact settled_refl|exact settled_trans|intros; repeat split|exact invoke_settled|exact IH].
  inversion H; subst. clear H.
  assert (Z : z = (s_depth s + 1)%Z).
  { unfold per_descend in P. destruct ((0 <? c_depth c)%N && _); inversion P. reflexivity. }
  destruct B as (B1 & B2 & B3 & B4). subst z. unfold ascend.
  destruct (mu_descend (s_mutes s)), (mu_ascend (s_mutes bs)); cbn in *; unfold settled; cbn; repeat split; try assumption;
    rewrite B4; unfold per_ascend; lia.
Qed.
Lemma drive_settled : forall t s o s1, drive c t s = (o, s1) -> settled s s1.
Proof.
  intros t s o s1 H. unfold drive, navigate, top in H.
  pose proof (settled_dispatch (mu_begin (s_mutes s)) (EvBegin (c_tree c)) s) as D.
  destruct (c_stat c t).
  - inversion H; subst. exact (settled_trans _ _ _ D (settled_dispatch _ _ _)).
  - destruct (traverse _ c _ _ _) as [[[b e]|p|] s2] eqn:T; apply traverse_settled in T; inversion H; subst;
      pose proof (settled_trans _ _ _ D T) as X; try exact X. exact (settled_trans _ _ _ X (settled_dispatch _ _ _)).
Qed.
Lemma navigations_settled : forall ts s os s1, navigations c ts s = (os, s1) -> settled s s1.
Proof.
  induction ts as [|t ts IH]; intros s os s1 H; cbn [navigations] in H; [inversion H; subst; apply settled_refl|].
  destruct (drive c t s) as [o s2] eqn:D. destruct (navigations c ts s2) as [os2 s3] eqn:N. inversion H; subst.
  exact (settled_trans _ _ _ (drive_settled _ _ _ _ D) (IH _ _ _ N)).
Qed.
End Settled.

(** ** Again *)
Lemma settled_later : forall c sampling s, settled (start_st c sampling) s ->
  s = later_st (s_trace s) (s_metrics s) (start_st c sampling).
Proof.
  intros c sampling s (A1 & A2 & A3 & A4). unfold later_st. cbn [map start_st init_st s_trace s_metrics]. rewrite app_nil_r.
  rewrite <- A1, <- A2, <- A3, <- A4. destruct s as [z m hb it mu tr]. destruct m. reflexivity.
Qed.

Theorem navigated_again : forall c sampling ts t os s, c_hib c = None -> c_fast c = None ->
  navigations c ts (start_st c sampling) = (os, s) ->
  forall o s1 o1 s2, drive c t s = (o, s1) ->
  session (later (s_trace s) (s_metrics s) c) sampling t = (o1, s2) ->
  o = o1 /\ s_trace s1 = s_trace s ++ map (raised (s_metrics s)) (s_trace s2) /\
  s_metrics s1 = plus_metrics (s_metrics s2) (s_metrics s).
Proof.
  intros c sampling ts t os s H1 H2 N o s1 o1 s2 D S. apply (navigations_settled c H1 H2) in N.
  rewrite session_drive in S.
  change (start_st (later (s_trace s) (s_metrics s) c) sampling) with (start_st c sampling) in S.
  rewrite (settled_later _ _ _ N) in D.
  rewrite (drive_l c (s_trace s) (s_metrics s) _ _ (fun _ _ => eq_refl) (fun _ _ _ => eq_refl)) in D.
  unfold later in S. unfold patched in D. rewrite S in D. inversion D; subst. repeat split.
Qed.

(** The client does not depend on the history: every navigation is the first
    one, but for the counters. *)
Theorem again_the_same : forall c sampling ts t os s, c_hib c = None -> c_fast c = None -> forgetful c ->
  navigations c ts (start_st c sampling) = (os, s) ->
  forall o s1 o1 s2, drive c t s = (o, s1) -> session c sampling t = (o1, s2) ->
  o = o1 /\ s_trace s1 = s_trace s ++ map (raised (s_metrics s)) (s_trace s2) /\
  s_metrics s1 = plus_metrics (s_metrics s2) (s_metrics s).
Proof.
  intros c sampling ts t os s H1 H2 [F1 F2] N o s1 o1 s2 D S. apply (navigations_settled c H1 H2) in N.
  rewrite session_drive in S. rewrite (settled_later _ _ _ N) in D.
  rewrite (drive_l c (s_trace s) (s_metrics s) (c_rescue c) (c_client c)) in D by (intros; auto).
  assert (E : patched c (c_rescue c) (c_client c) = c) by (destruct c; reflexivity).
  rewrite E, S in D. inversion D; subst. repeat split.
Qed.

Fixpoint copies {A} (k : nat) (x : A) : list A := match k with O => [] | S j => x :: copies j x end.
Lemma navigations_app : forall c ts us s, navigations c (ts ++ us) s =
  let '(os, s1) := navigations c ts s in let '(ps, s2) := navigations c us s1 in (os ++ ps, s2).
Proof.
  induction ts as [|t ts IH]; intros us s; cbn [navigations app].
  - destruct (navigations c us s); reflexivity.
  - destruct (drive c t s) as [o s1]. rewrite IH. destruct (navigations c ts s1) as [os s2].
    destruct (navigations c us s2); reflexivity.
Qed.
Lemma copies_snoc : forall A k (x : A), copies (S k) x = copies k x ++ [x].
Proof. induction k as [|k IH]; intros x; [reflexivity|]. cbn [copies app]. f_equal. apply IH. Qed.
Lemma count_plus : forall k a b, count k (plus_metrics a b) = count k a + count k b.
Proof. intros [] a b; reflexivity. Qed.

Lemma raised_calls : forall d tr, calls (map (raised d) tr) = calls tr.
Proof. induction tr as [|[] tr IH]; cbn [map raised calls]; rewrite ?IH; reflexivity. Qed.

Theorem counters_accumulate : forall c sampling t o1 s1, c_hib c = None -> c_fast c = None -> forgetful c ->
  session c sampling t = (o1, s1) ->
  forall k os s, navigations c (copies k t) (start_st c sampling) = (os, s) ->
  os = copies k o1 /\ (forall m, count m (s_metrics s) = k * count m (s_metrics s1)) /\
  calls (s_trace s) = concat (copies k (calls (s_trace s1))).
Proof.
  intros c sampling t o1 s1 H1 H2 F S. induction k as [|k IH]; intros os s N.
  - inversion N; subst. repeat split. intros []; reflexivity.
  - rewrite copies_snoc, navigations_app in N. destruct (navigations c (copies k t) (start_st c sampling)) as [os1 s2] eqn:N1.
    cbn [navigations] in N. destruct (drive c t s2) as [o s3] eqn:D. inversion N; subst.
    destruct (again_the_same _ _ _ _ _ _ H1 H2 F N1 _ _ _ _ D S) as (-> & T & M).
    destruct (IH _ _ eq_refl) as (E1 & E2 & E3). split; [|split].
    + rewrite E1. symmetry. apply copies_snoc.
    + intros m. rewrite M, count_plus, E2. lia.
    + rewrite T. rewrite copies_snoc, concat_app. cbn [concat]. rewrite app_nil_r, <- E3.
      rewrite <- (raised_calls (s_metrics s2) (s_trace s1)).
      set (x := map (raised (s_metrics s2)) (s_trace s1)). generalize (s_trace s2). clear.
      induction l as [|[] l IH]; cbn [app calls]; rewrite ?IH; reflexivity.
Qed.

(** ** Asleep for good *)
Definition retired (s : st) : Prop := s_hib s = HibRetired.
Definition honest (s : st) : Prop := In EvSleep (s_trace s) -> retired s.
Definition guarded (s : st) : Prop := exists r, s_items s = RoleHibernate :: r.
Definition dozes (s s1 : st) : Prop :=
  s_items s1 = s_items s /\ (honest s -> honest s1) /\
  (retired s -> guarded s -> retired s1 /\ calls (s_trace s1) = calls (s_trace s) /\ s_metrics s1 = s_metrics s).
Lemma dozes_refl : forall s, dozes s s.
Proof. intros s. unfold dozes. auto. Qed.
Lemma dozes_trans : forall a b e, dozes a b -> dozes b e -> dozes a e.
Proof.
  intros a b e (A1 & A2 & A3) (B1 & B2 & B3). split; [congruence|]. split; [auto|]. intros R [r G].
  destruct (A3 R (ex_intro _ r G)) as (X1 & X2 & X3). destruct B3 as (Y1 & Y2 & Y3); [exact X1|exists r; congruence|].
  split; [exact Y1|]. split; congruence.
Qed.
Lemma calls_snoc : forall tr e, calls [e] = [] -> calls (tr ++ [e]) = calls tr.
Proof. intros tr e H. induction tr as [|[] tr IH]; cbn [app calls]; rewrite ?IH; auto. Qed.
Lemma dozes_emit : forall e s, e <> EvSleep -> calls [e] = [] -> dozes s (emit e s).
Proof.
  intros e s N E. split; [reflexivity|]. split.
  - intros H I. unfold emit in I. cbn [s_trace] in I. apply in_app_or in I as [I|[->|[]]]; [exact (H I)|contradiction].
  - intros R _. split; [exact R|]. split; [apply calls_snoc; exact E|reflexivity].
Qed.
Lemma dozes_dispatch : forall b e s, e <> EvSleep -> calls [e] = [] -> dozes s (dispatch b e s).
Proof. intros [|] e s N E; [apply dozes_refl|apply dozes_emit; assumption]. Qed.

Section Asleep.
Variable c : cfg.
Hypothesis H2 : c_fast c = None.
(** The links beside hibernation neither sleep nor wake. *)
Definition awake_kept (s s1 : st) : Prop :=
  s_items s1 = s_items s /\ s_hib s1 = s_hib s /\ (In EvSleep (s_trace s1) -> In EvSleep (s_trace s)).
Lemma awake_trans : forall a b e, awake_kept a b -> awake_kept b e -> awake_kept a e.
Proof. intros a b e (A1 & A2 & A3) (B1 & B2 & B3). split; [congruence|]. split; [congruence|auto]. Qed.
Lemma awake_tick : forall k j s, awake_kept s (tick_by k j s).
Proof. intros. repeat split. auto. Qed.
Lemma primary_awake : forall p n k s o n1 s1, primary_next p n k s = (o, n1, s1) -> awake_kept s s1.
Proof.
  intros [f|m] n k s o n1 s1 H; cbn [primary_next] in H; unfold match_next, sampler_next in H.
  - destruct (f n) as [[|]|]; inversion H; subst; repeat split; auto.
  - destruct (scope_is_tree (n_scope n)); [destruct k as [[fs ds]|]|]; inversion H; subst; repeat split; auto.
Qed.
Lemma child_awake : forall m n k s o n1 s1, nanny_scheme_next c m n k s = (o, n1, s1) -> awake_kept s s1.
Proof.
  intros m n k s o n1 s1 H. unfold nanny_scheme_next in H. destruct k as [[fs ds]|]; [|inversion H; subst; repeat split; auto].
  destruct (m (c_sort c fs)); inversion H; subst; repeat split; auto.
Qed.
Lemma link_awake : forall r n k s o n1 s1, r <> RoleHibernate -> link_next c r n k s = (o, n1, s1) -> awake_kept s s1.
Proof.
  intros r n k s o n1 s1 NH H. destruct r; cbn [link_next] in H.
  - inversion H; subst; repeat split; auto.
  - unfold anchor_next in H. destruct (c_client c _ n); inversion H; subst; repeat split;
      cbn; rewrite in_app_iff; intros [I|[I|[]]]; auto; discriminate.
  - unfold filter_next in H. destruct (c_scheme c) as [[[p|] [m|]]|]; cbn [sc_primary sc_child] in H.
    + destruct (primary_next p n k s) as [[[[[|] e]|q|] n2] s2] eqn:P; apply primary_awake in P; try (inversion H; subst; exact P).
      destruct (nanny_scheme_next c m n2 k s2) as [[[[b e2]|q|] n3] s3] eqn:C; apply child_awake in C;
        inversion H; subst; exact (awake_trans _ _ _ P C).
    + exact (primary_awake _ _ _ _ _ _ _ H).
    + exact (child_awake _ _ _ _ _ _ _ H).
    + inversion H; subst; repeat split; auto.
    + inversion H; subst; repeat split; auto.
  - contradiction.
  - inversion H; subst; repeat split; auto.
  - unfold nanny_next in H. destruct k as [[fs ds]|]; inversion H; subst; repeat split; auto.
  - unfold fast_next in H. rewrite H2 in H. inversion H; subst; repeat split; auto.
Qed.
Lemma link_honest : forall r n k s o n1 s1, link_next c r n k s = (o, n1, s1) ->
  s_items s1 = s_items s /\ (honest s -> honest s1) /\ (retired s -> retired s1).
Proof.
  intros r n k s o n1 s1 H. destruct (role_eqb r RoleHibernate) eqn:E.
  - assert (r = RoleHibernate) by (destruct r; try discriminate; reflexivity). subst r. cbn [link_next] in H. unfold hib_next, retired, honest in *.
    assert (U : forall e, In EvSleep (s_trace s ++ [e]) -> e <> EvSleep -> In EvSleep (s_trace s))
      by (intros e I N; apply in_app_or in I as [I|[I|[]]]; [exact I|congruence]).
    destruct (c_hib c) as [hh|]; [|inversion H; subst; auto].
    destruct (s_hib s) eqn:HS.
    + destruct (hb_wake hh n) as [[|]|]; [|inversion H; subst; rewrite HS; auto..].
      destruct (hb_incl_wake hh), (mu_wake (s_mutes s)); inversion H; subst; cbn; repeat split; try discriminate; intros X I; unfold retired in X;
        try (rewrite (X I) in HS; discriminate); (rewrite (X (U _ I ltac:(discriminate))) in HS; discriminate).
    + destruct (hb_sleep hh n) as [[|]|]; [|inversion H; subst; rewrite HS; auto..].
      destruct (hb_incl_sleep hh), (mu_sleep (s_mutes s)); inversion H; subst; cbn; repeat split; auto.
    + inversion H; subst. rewrite HS. auto.
  - assert (NH : r <> RoleHibernate) by (intros ->; discriminate).
    destruct (link_awake _ _ _ _ _ _ _ NH H) as (A1 & A2 & A3). unfold honest, retired. rewrite A2. auto.
Qed.
Lemma iterate_honest : forall rs n k s o n1 s1, iterate c rs n k s = (o, n1, s1) ->
  s_items s1 = s_items s /\ (honest s -> honest s1) /\ (retired s -> retired s1).
Proof.
  induction rs as [|r rs IH]; intros n k s o n1 s1 H; cbn [iterate] in H; [inversion H; subst; auto|].
  destruct (link_next c r n k s) as [[[[[|] [e|]]|p|] n2] s2] eqn:E; apply link_honest in E; try (inversion H; subst; exact E).
  destruct E as (A1 & A2 & A3), (IH _ _ _ _ _ _ H) as (B1 & B2 & B3). split; [congruence|]. auto.
Qed.
Lemma invoke_dozes : forall n k s o n1 s1, invoke c n k s = (o, n1, s1) -> dozes s s1.
Proof.
  intros n k s o n1 s1 H. unfold invoke in H. destruct (iterate c (s_items s) n k s) as [[o2 n2] s2] eqn:I.
  inversion H; subst. pose proof I as I2. apply iterate_honest in I2 as (A1 & A2 & A3).
  apply dozes_trans with (b := s2); [|apply dozes_emit; [discriminate|reflexivity]].
  split; [exact A1|]. split; [exact A2|]. intros R [r G]. unfold retired in R.
  rewrite G in I. cbn [iterate link_next] in I. unfold hib_next in I.
  destruct (c_hib c); [rewrite R in I|]; inversion I; subst; auto.
Qed.
Lemma traverse_dozes : forall tree f n s o s1, traverse f c tree n s = (o, s1) -> dozes s s1.
Proof.
  intros tree. apply keep_traverse; [exact dozes_refl|exact dozes_trans| | | |exact invoke_dozes].
  - intros n s ok s1 H. unfold descend in H. destruct (per_descend (c_depth c) (s_depth s)) as [[|] z]; inversion H; subst; [|apply dozes_refl].
    apply (dozes_dispatch _ (EvDescend n) (set_depth z s)); [discriminate|reflexivity].
  - intros n s. unfold ascend. apply (dozes_dispatch _ (EvAscend n) (set_depth (per_ascend (s_depth s)) s)); [discriminate|reflexivity].
  - intros n s. apply dozes_emit; [discriminate|reflexivity].
Qed.
Lemma drive_dozes : forall t s o s1, drive c t s = (o, s1) -> dozes s s1.
Proof.
  intros t s o s1 H. unfold drive, navigate, top in H.
  pose proof (dozes_dispatch (mu_begin (s_mutes s)) (EvBegin (c_tree c)) s ltac:(discriminate) eq_refl) as D.
  destruct (c_stat c t).
  - inversion H; subst. eapply dozes_trans; [exact D|]. apply dozes_dispatch; [discriminate|reflexivity].
  - destruct (traverse _ c _ _ _) as [[[b e]|p|] s2] eqn:T; apply traverse_dozes in T; inversion H; subst;
      pose proof (dozes_trans _ _ _ D T) as X; try exact X.
    eapply dozes_trans; [exact X|]. apply dozes_dispatch; [discriminate|reflexivity].
Qed.
Lemma navigations_dozes : forall ts s os s1, navigations c ts s = (os, s1) -> dozes s s1.
Proof.
  induction ts as [|t ts IH]; intros s os s1 H; cbn [navigations] in H; [inversion H; subst; apply dozes_refl|].
  destruct (drive c t s) as [o s2] eqn:D. destruct (navigations c ts s2) as [os2 s3] eqn:N. inversion H; subst.
  exact (dozes_trans _ _ _ (drive_dozes _ _ _ _ D) (IH _ _ _ N)).
Qed.
End Asleep.

Lemma hib_first : forall c sampling hh, c_hib c = Some hh -> guarded (start_st c sampling).
Proof.
  intros c sampling hh H. unfold guarded, start_st, init_st, session_items, active_roles. cbn [s_items]. rewrite H.
  destruct (c_sub c), (c_scheme c), sampling; vm_compute; eexists; reflexivity.
Qed.

Theorem asleep_for_good : forall c sampling hh ts os s, c_hib c = Some hh -> c_fast c = None ->
  navigations c ts (start_st c sampling) = (os, s) -> In EvSleep (s_trace s) ->
  forall us ps s1, navigations c us s = (ps, s1) ->
  calls (s_trace s1) = calls (s_trace s) /\ s_metrics s1 = s_metrics s.
Proof.
  intros c sampling hh ts os s H1 H2 N I us ps s1 M.
  apply (navigations_dozes c H2) in N as (A1 & A2 & A3). apply (navigations_dozes c H2) in M as (B1 & B2 & B3).
  assert (R : retired s) by (apply A2; [intros []|exact I]).
  destruct (hib_first c sampling hh H1) as [r G]. destruct B3 as (_ & X & Y); [exact R|exists r; congruence|]. auto.
Qed.
