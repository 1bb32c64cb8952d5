(** The metrics of a resumed session: what was saved and what it adds. *)
From Verif Require Import Base Paths Level Lo Kernel Session Spec KernelFacts JournalFacts SessionFacts Simulate Resume SpecResume HandlerFacts.
Local Open Scope list_scope.

Section Shift.
Variable c : cfg.
Variable d : metrics.
Hypothesis B : blind_to_metrics c.
Hypothesis K : forall tr p sv tr' p' sv', c_rescue c tr p sv = c_rescue c tr' p' sv'.

(** The saved metrics are the mediator's three only. *)
Definition three (m : metrics) : metrics := mkMetrics (m_files m) 0 (m_dirs m) 0 (m_child m) 0.
Definition she (e : event) : event :=
  match e with
  | EvRescue sv => EvRescue (with_metrics (plus_metrics (sv_metrics sv) (three d)) sv)
  | EvEnd m => EvEnd (plus_metrics m d)
  | e => e
  end.
Definition sh (s : st) : st :=
  mkSt (s_depth s) (plus_metrics (s_metrics s) d) (s_hib s) (s_items s) (s_mutes s) (map she (s_trace s)).

Lemma she_calls : forall tr, calls (map she tr) = calls tr.
Proof. induction tr as [|[] tr IH]; cbn [map she calls]; rewrite ?IH; reflexivity. Qed.
Lemma sh_emit : forall e s, she e = e -> emit e (sh s) = sh (emit e s).
Proof. intros e s H. unfold emit, sh. cbn. rewrite map_app. cbn. rewrite H. reflexivity. Qed.
Lemma sh_dispatch : forall b e s, she e = e -> dispatch b e (sh s) = sh (dispatch b e s).
Proof. intros [|] e s H; [reflexivity|apply sh_emit; exact H]. Qed.
Lemma times_plus : forall k n m, times k n (plus_metrics m d) = plus_metrics (times k n m) d.
Proof. intros [] n m; unfold times, plus_metrics; cbn; f_equal; lia. Qed.
Lemma sh_tick : forall k n s, tick_by k n (sh s) = sh (tick_by k n s).
Proof. intros k n s. unfold tick_by, set_metrics, sh. cbn. rewrite times_plus. reflexivity. Qed.
Lemma sh_depth : forall z s, set_depth z (sh s) = sh (set_depth z s).
Proof. reflexivity. Qed.
Lemma sh_hib : forall z s, set_hib z (sh s) = sh (set_hib z s).
Proof. reflexivity. Qed.

Definition lift3 {A B} (x : A * B * st) : A * B * st := (fst x, sh (snd x)).
Definition lift {A} (x : A * st) : A * st := (fst x, sh (snd x)).

Lemma anchor_sh : forall n s, anchor_next c n (sh s) = lift3 (anchor_next c n s).
Proof.
  intros n s. unfold anchor_next, lift3. rewrite sh_tick.
  set (s1 := tick_by _ 1 s).
  assert (E : c_client c (s_trace (sh s1)) n = c_client c (s_trace s1) n).
  { apply (B). cbn. apply she_calls. }
  rewrite E. rewrite sh_emit by reflexivity. destruct (c_client c (s_trace s1) n); reflexivity.
Qed.
Lemma hib_sh : forall n s, hib_next c n (sh s) = lift3 (hib_next c n s).
Proof.
  intros n s. unfold hib_next, lift3. cbn [sh s_hib s_mutes]. fold (sh s). destruct (c_hib c) as [h|]; [|reflexivity].
  rewrite !sh_dispatch by reflexivity. rewrite !sh_hib.
  destruct (s_hib s); [destruct (hb_wake h n) as [[|]|]|destruct (hb_sleep h n) as [[|]|]|]; try reflexivity;
    [destruct (hb_incl_wake h)|destruct (hb_incl_sleep h)]; reflexivity.
Qed.
Lemma primary_sh : forall p n k s, primary_next p n k (sh s) = lift3 (primary_next p n k s).
Proof.
  intros [f|m] n k s; cbn [primary_next]; unfold match_next, sampler_next, lift3.
  - rewrite sh_tick. destruct (f n) as [[|]|]; reflexivity.
  - destruct (scope_is_tree (n_scope n)); [|reflexivity]. destruct k as [[fs ds]|]; [|reflexivity]. rewrite sh_tick. reflexivity.
Qed.
Lemma nanny_sh : forall m n k s, nanny_scheme_next c m n k (sh s) = lift3 (nanny_scheme_next c m n k s).
Proof.
  intros m n [[fs ds]|] s; unfold nanny_scheme_next, lift3; [|reflexivity]. destruct (m (c_sort c fs)); [|reflexivity].
  rewrite !sh_tick. reflexivity.
Qed.
Lemma filter_sh : forall n k s, filter_next c n k (sh s) = lift3 (filter_next c n k s).
Proof.
  intros n k s. unfold filter_next. destruct (c_scheme c) as [[[p|] [m|]]|]; cbn [sc_primary sc_child]; try reflexivity.
  - rewrite primary_sh. destruct (primary_next p n k s) as [[[[[|] e]|q|] n1] s1]; cbn [lift3 fst snd]; try reflexivity.
    rewrite nanny_sh. destruct (nanny_scheme_next c m n1 k s1) as [[[[b e2]|q|] n2] s2]; reflexivity.
  - apply primary_sh.
  - apply nanny_sh.
Qed.
Lemma link_sh : forall r n k s, link_next c r n k (sh s) = lift3 (link_next c r n k s).
Proof.
  intros r n k s. destruct r; cbn [link_next].
  - reflexivity.
  - apply anchor_sh.
  - apply filter_sh.
  - apply hib_sh.
  - reflexivity.
  - unfold nanny_next. destruct k as [[fs ds]|]; [|reflexivity]. rewrite sh_tick. reflexivity.
  - unfold fast_next. destruct (c_fast c) as [f|]; [|reflexivity]. destruct (fast_match f n) as [[|]|p|]; reflexivity.
Qed.
Lemma iterate_sh : forall rs n k s, iterate c rs n k (sh s) = lift3 (iterate c rs n k s).
Proof.
  induction rs as [|r rs IH]; intros n k s; cbn [iterate]; [reflexivity|]. rewrite link_sh.
  destruct (link_next c r n k s) as [[[[[|] [e|]]|p|] n1] s1]; cbn [lift3 fst snd]; try reflexivity. apply IH.
Qed.
Lemma invoke_sh : forall n k s, invoke c n k (sh s) = lift3 (invoke c n k s).
Proof.
  intros n k s. unfold invoke. cbn [sh s_items]. fold (sh s). rewrite iterate_sh.
  destruct (iterate c (s_items s) n k s) as [[o n1] s1]. cbn [lift3 fst snd]. rewrite sh_emit by reflexivity. reflexivity.
Qed.

Lemma loop_sh : forall trav, (forall n s, trav n (sh s) = lift (trav n s)) -> forall parent es i s,
  travel_loop trav parent i es (sh s) = lift (travel_loop trav parent i es s).
Proof.
  intros trav TR parent. induction es as [|e es IH]; intros i s; cbn [travel_loop]; [reflexivity|]. rewrite TR.
  destruct (trav (child_node parent i e) s) as [[[[|] [er|]]|p|] s1]; cbn [lift fst snd]; try reflexivity; try apply IH;
    destruct (errors_is SkipDir er); try reflexivity; try apply IH; destruct (errors_is SkipAll er); try reflexivity; apply IH.
Qed.
Lemma travel_sh : forall trav, (forall n s, trav n (sh s) = lift (trav n s)) -> forall parent es s,
  travel c trav parent es (sh s) = lift (travel c trav parent es s).
Proof.
  intros trav TR parent es s. unfold travel. rewrite (loop_sh trav TR).
  destruct (travel_loop trav parent 0 es s) as [[r|p|] s1]; cbn [lift fst snd]; try reflexivity.
  set (sv := saved_of c parent s1). set (sv' := saved_of c parent (sh s1)).
  assert (E : emit (EvRescue sv') (sh s1) = sh (emit (EvRescue sv) s1)).
  { unfold emit, sh. cbn. rewrite map_app. cbn [map she]. unfold sv, sv', saved_of, with_metrics, three, plus_metrics. cbn. reflexivity. }
  rewrite E. rewrite (K (s_trace (sh s1)) p sv' (s_trace s1) p sv). reflexivity.
Qed.
Lemma body_sh : forall trav tree, (forall n s, trav n (sh s) = lift (trav n s)) -> forall n s,
  traverse_body c trav tree n (sh s) = lift3 (traverse_body c trav tree n s).
Proof.
  intros trav tree TR n0 s. unfold traverse_body. destruct (inspect c n0) as [[k es] err].
  change (extend c tree n0 k (sh s)) with (extend c tree n0 k s). set (n := extend c tree n0 k s).
  rewrite invoke_sh, (travel_sh trav TR).
  destruct (c_sub c).
  - destruct (n_isdir n).
    + destruct (c_ask c n k err) as [[| |] e], err; try reflexivity.
    + destruct (invoke c n k s) as [[[e|p|] n1] s1]; reflexivity.
  - destruct (invoke c n k s) as [[[[e|]|p|] n1] s1]; cbn [lift3 fst snd]; try reflexivity.
    destruct (c_ask c n1 k err) as [[| |] e]; try reflexivity; unfold with_node; rewrite (travel_sh trav TR); reflexivity.
  - destruct (invoke c n k s) as [[[[e|]|p|] n1] s1]; cbn [lift3 fst snd]; try reflexivity.
    destruct (c_ask c n1 k err) as [[| |] e]; try reflexivity; unfold with_node; rewrite (travel_sh trav TR); reflexivity.
  - destruct (invoke c n k s) as [[[[e|]|p|] n1] s1]; cbn [lift3 fst snd]; try reflexivity.
    destruct (c_ask c n1 k err) as [[| |] e]; try reflexivity; unfold with_node; rewrite (travel_sh trav TR); reflexivity.
Qed.
Lemma traverse_sh : forall tree f n s, traverse f c tree n (sh s) = lift (traverse f c tree n s).
Proof.
  intros tree. induction f as [|f IH]; intros n s; cbn [traverse]; [reflexivity|].
  unfold descend. cbn [sh s_depth s_mutes]. fold (sh s). destruct (per_descend (c_depth c) (s_depth s)) as [[|] z]; [|reflexivity].
  rewrite sh_depth, sh_dispatch by reflexivity. rewrite (body_sh _ tree IH).
  destruct (traverse_body c (traverse f c tree) tree n _) as [[o nn] s2]. cbn [lift3 lift fst snd]. unfold ascend. cbn [sh s_depth s_mutes]. fold (sh s2).
  rewrite sh_depth, sh_dispatch by reflexivity. reflexivity.
Qed.
Lemma top_sh : forall tree t s, top c tree t (sh s) = lift (top c tree t s).
Proof.
  intros tree t s. unfold top. destruct (c_stat c t); [reflexivity|]. rewrite traverse_sh.
  destruct (traverse _ c tree _ s) as [[[b e]|p|] s1]; reflexivity.
Qed.
Lemma seed_sh : forall pc dk p es s, seed c pc dk p es (sh s) = lift (seed c pc dk p es s).
Proof.
  intros pc dk p. induction es as [|e es IH]; intros s; cbn [seed]; [reflexivity|]. rewrite top_sh.
  destruct (top c _ _ s) as [[[er|]|q|] s1]; cbn [lift fst snd]; try reflexivity. apply IH.
Qed.
Lemma crown_sh : forall pc dk tree f p own s, crown f c pc dk tree p own (sh s) = lift3 (crown f c pc dk tree p own s).
Proof.
  intros pc dk tree. induction f as [|f IH]; intros p own s; cbn [crown]; [reflexivity|].
  destruct (String.eqb p tree); [reflexivity|]. destruct (pc_split pc p) as [pa b]. destruct (following c dk pa b own) as [es [e|]]; [reflexivity|].
  rewrite seed_sh. destruct (seed c pc dk pa es s) as [[[er|]|q|] s1]; cbn [lift fst snd]; try reflexivity. apply IH.
Qed.
End Shift.

(** The metrics of the saved state which the resumed session has, too *)
Lemma bridge_sh : forall c sv s, s_trace s = [EvBegin (c_tree c)] -> s_metrics s = metrics0 ->
  bridge c sv s = sh (merged c (sv_metrics sv) metrics0) (bridge c (with_metrics metrics0 sv) s).
Proof.
  intros c sv s T M. unfold bridge, sh, set_metrics, set_depth. cbn. rewrite T, M. cbn. f_equal.
  unfold merged. cbn [registered]. destruct (c_scheme c); cbn; unfold plus_metrics; cbn; f_equal; lia.
Qed.

Lemma spawn_adds_same : forall c sampling pc dk sv o ok s o0 ok0 s0,
  blind_to_metrics c -> (forall tr p sv tr' p' sv', c_rescue c tr p sv = c_rescue c tr' p' sv') ->
  spawn_session c sampling pc dk sv = (o, ok, s) ->
  spawn_session c sampling pc dk (with_metrics metrics0 sv) = (o0, ok0, s0) ->
  o = o0 /\ ok = ok0 /\ calls (s_trace s) = calls (s_trace s0) /\
  forall k, count k (s_metrics s) =
    (if registered c k then count k (sv_metrics sv) else 0) + count k (s_metrics s0).
Proof.
  intros c sampling pc dk sv o ok s o0 ok0 s0 B K H H0. unfold spawn_session in H, H0.
  set (i := dispatch _ _ _) in H, H0. rewrite (bridge_sh c sv i) in H by reflexivity.
  set (d := merged c (sv_metrics sv) metrics0) in H. rewrite (crown_sh c d B K) in H.
  cbn [with_metrics sv_tree sv_path] in H0.
  destruct (crown _ c pc dk (sv_tree sv) (sv_path sv) true (bridge c (with_metrics metrics0 sv) i)) as [[x y] s1]. cbn [lift3 fst snd] in H.
  assert (ED : forall k, count k d = if registered c k then count k (sv_metrics sv) else 0).
  { intro k. unfold d, merged. cbn [registered]. destruct (c_scheme c) eqn:SC; destruct k; cbn [registered]; rewrite ?SC; cbn; lia. }
  assert (EM : forall m k, count k (plus_metrics m d) = (if registered c k then count k (sv_metrics sv) else 0) + count k m).
  { intros m k. rewrite <- ED. destruct k; cbn; lia. }
  destruct x as [e|p|]; inversion H; inversion H0; subst; repeat (split; [reflexivity|]).
  - split.
    + change (mu_end (s_mutes (sh d s1))) with (mu_end (s_mutes s1)). destruct (mu_end (s_mutes s1)); unfold dispatch; [apply she_calls|].
      unfold emit, sh. cbn [s_trace]. rewrite !calls_app, she_calls. reflexivity.
    + intro k. cbn [sh s_mutes]. unfold dispatch. destruct (mu_end (s_mutes s1)); cbn [emit s_metrics sh]; apply EM.
  - split; [apply she_calls|intro k; apply EM].
  - split; [apply she_calls|intro k; apply EM].
Qed.

Theorem spawn_adds : forall c sampling pc dk sv o ok s o0 ok0 s0,
  blind_to_metrics c ->
  spawn_session c sampling pc dk sv = (o, ok, s) ->
  spawn_session c sampling pc dk (with_metrics metrics0 sv) = (o0, ok0, s0) ->
  alike o o0 /\ ok = ok0 /\ calls (s_trace s) = calls (s_trace s0) /\
  forall k, count k (s_metrics s) =
    (if registered c k then count k (sv_metrics sv) else 0) + count k (s_metrics s0).
Proof.
  intros c sampling pc dk sv o ok s o0 ok0 s0 B H H0.
  set (rc := fun (_ : list event) (_ : panicv) (_ : saved) => inl ""%string : string + error).
  destruct (spawn_session (with_rescue rc c) sampling pc dk sv) as [[o' ok'] s'] eqn:E.
  destruct (spawn_session (with_rescue rc c) sampling pc dk (with_metrics metrics0 sv)) as [[o0' ok0'] s0'] eqn:E0.
  destruct (spawn_handler _ _ _ _ _ _ _ _ _ _ _ _ H E) as (A1 & A2 & A3).
  destruct (spawn_handler _ _ _ _ _ _ _ _ _ _ _ _ H0 E0) as (B1 & B2 & B3).
  destruct (spawn_adds_same (with_rescue rc c) sampling pc dk sv o' ok' s' o0' ok0' s0' B (fun _ _ _ _ _ _ => eq_refl) E E0) as (C1 & C2 & C3 & C4).
  subst. split; [|split; [reflexivity|split; [exact C3|exact C4]]].
  apply alike_sym in B1. eapply alike_trans; eassumption.
Qed.
