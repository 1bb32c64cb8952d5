(** Filters: a filtered session against the unfiltered one. *)
From Verif Require Import Base Paths Level Lo Collections Kernel Session Spec KernelRel KernelFacts
  KernelInv WalkFacts StandsFacts JournalFacts SessionFacts WalkCor PathFacts WalkProps Simulate.

Section Filtered.
Variable c : cfg.
Variable f : node -> bool.
Variable g : list (node * cbres) -> node -> cbres.
Variable sampling : bool.
Variable sch : scheme.
Variable track : bool.
(** What the scheme does: it answers [f]; a rejected node is counted. *)
Definition asks_f : Prop := forall n k s, node_cargo n k ->
  exists s1, filter_next (with_features (Some sch) None (on_calls g) c) n k s = (Ret (f n, None), n, s1) /\
    s_depth s1 = s_depth s /\ s_mutes s1 = s_mutes s /\ s_items s1 = s_items s /\ s_trace s1 = s_trace s /\
    (track = true -> s_metrics s1 = if f n then s_metrics s else
       times (if n_isdir n then DirectoriesFilteredOut else FilesFilteredOut) 1 (s_metrics s)).
Hypothesis sch_asks : asks_f.
Variable phi : node -> node.
Hypothesis phi_path : forall n, n_path (phi n) = n_path n.
Hypothesis phi_src : forall n, n_src (phi n) = n_src n.
Hypothesis phi_isdir : forall n, n_isdir (phi n) = n_isdir n.
Hypothesis phi_child : forall p i e, child_node (phi p) i e = phi (child_node p i e).
Hypothesis phi_extend : forall n k s1 s2, s_depth s1 = s_depth s2 ->
  extend c (c_tree c) (phi n) k s1 = phi (extend c (c_tree c) n k s2).
Hypothesis phi_ask : forall n k e, c_ask c (phi n) k e = c_ask c n k e.
Hypothesis phi_nanny : has_nanny (with_scheme None c) = true -> forall n cs, phi (with_children cs n) = phi n.
Hypothesis phi_root : forall p t q e pos, phi (new_node p t q e pos) = new_node p t (option_map phi q) e pos.
Notation raises := (fun p => exists h n, g h n = CPanic p).

Definition phix (x : node * cbres) : node * cbres := (phi (fst x), snd x).
Variable cl2 : list event -> node -> cbres.
Hypothesis cl2_eq : forall tr n,
  cl2 tr n = if f (phi n) then g (filter (fun x => f (fst x)) (map phix (calls tr))) (phi n) else CNil.
Notation c1 := (with_features (Some sch) None (on_calls g) c).
Notation c2 := (with_features None None cl2 c).

Definition FR (s1 s2 : st) : Prop :=
  s_depth s1 = s_depth s2 /\ s_mutes s1 = mutes_none /\ s_mutes s2 = mutes_none /\
  s_items s1 = chain c1 sampling false /\ s_items s2 = chain c2 sampling false /\
  calls (s_trace s1) = filter (fun x => f (fst x)) (map phix (calls (s_trace s2))) /\
  (track = true -> m_files (s_metrics s1) + m_files_out (s_metrics s1) = m_files (s_metrics s2) /\
  m_dirs (s_metrics s1) + m_dirs_out (s_metrics s1) = m_dirs (s_metrics s2)).

Lemma FR_emit : forall e1 e2 s1 s2, calls [e1] = [] -> calls [e2] = [] -> FR s1 s2 -> FR (emit e1 s1) (emit e2 s2).
Proof.
  intros e1 e2 s1 s2 E1 E2 (A & B & C & D & E & F & GH).
  unfold FR. cbn [emit s_depth s_mutes s_items s_trace s_metrics]. rewrite !calls_app, E1, E2, !app_nil_r. auto 10.
Qed.
Lemma FR_depth : forall d s1 s2, FR s1 s2 -> FR (set_depth d s1) (set_depth d s2).
Proof. intros d s1 s2 (A & B & C & D & E & F & GH). unfold FR. cbn [set_depth s_depth s_mutes s_items s_trace s_metrics]. auto 10. Qed.

Lemma FR_nanny : forall j s1 s2, FR s1 s2 -> FR s1 (tick_by ChildFilesFound j s2).
Proof. intros j s1 s2 (A & B & C & D & E & F & GH). unfold FR. cbn. auto 10. Qed.

Lemma FR_invoke : forall n k s1 s2 o1 m1 s1' o2 m2 s2', FR s1 s2 ->
  (has_nanny (with_scheme None c) = true -> k <> None) -> node_cargo (phi n) k ->
  invoke c1 (phi n) k s1 = (o1, m1, s1') -> invoke c2 n k s2 = (o2, m2, s2') ->
  o1 = o2 /\ m1 = phi m2 /\ FR s1' s2' /\ (forall p, o2 = Pan p -> exists h n, g h n = CPanic p).
Proof.
  intros n k s1 s2 o1 m1 s1' o2 m2 s2' HR HN NCG I1 I2. unfold invoke in I1, I2.
  assert (HI := HR). destruct HI as (_ & _ & _ & I1e & I2e & _). rewrite I1e in I1. rewrite I2e in I2. clear I1e I2e.
  destruct (sch_asks (phi n) k s1 NCG) as (v1 & FN1 & V1 & V2 & V3 & V4 & V5).
  assert (X1 : iterate c1 (chain c1 sampling false) (phi n) k s1 =
               if f (phi n) then (call_out c1 (phi n) v1, phi n, after_call c1 (phi n) v1)
               else (Ret None, phi n, v1)).
  { unfold chain. cbn [has c_hib c_scheme with_features role_if app].
    assert (NN : has_nanny c1 = false) by (unfold has_nanny; cbn; apply andb_false_r). rewrite NN. cbn [role_if app].
    cbn [iterate link_next]. rewrite FN1. destruct (f (phi n)); [|reflexivity].
    apply (iterate_tail c1 sampling). }
  assert (X2 : exists m2 u2, iterate c2 (chain c2 sampling false) n k s2 =
               (call_out c2 m2 u2, m2, after_call c2 m2 u2) /\ phi m2 = phi n /\ FR s1 u2 /\ n_isdir m2 = n_isdir n).
  { unfold chain. cbn [has c_hib c_scheme with_features role_if app].
    change (has_nanny c2) with (has_nanny (with_scheme None c)).
    destruct (has_nanny (with_scheme None c)) eqn:HNN; cbn [role_if app].
    - destruct k as [[fs ds]|]; [|exfalso; apply HN; reflexivity].
      cbn [iterate link_next nanny_next]. eexists _, _. rewrite (iterate_tail c2 sampling).
      split; [reflexivity|]. split; [apply phi_nanny; reflexivity|]. split; [apply FR_nanny; exact HR|reflexivity].
    - exists n, s2. rewrite (iterate_tail c2 sampling). auto. }
  rewrite X1 in I1. clear X1. destruct X2 as (w2 & u2 & X2 & PW & HU & DW). rewrite X2 in I2. clear X2 HR.
  destruct HU as (A & B & C & D & E & F & GH).
  inversion I2; subst o2 m2 s2'. clear I2.
  assert (CL2 : c_client c2 (s_trace u2) w2 =
     if f (phi n) then g (calls (s_trace s1)) (phi n) else CNil).
  { cbn. rewrite cl2_eq, F, PW. reflexivity. }
  assert (CL1 : c_client c1 (s_trace v1) (phi n) = g (calls (s_trace s1)) (phi n)) by (rewrite V4; reflexivity).
  unfold call_out, after_call in *. rewrite CL2. rewrite CL1 in I1. rewrite phi_isdir in I1.
  assert (AC1 : forall r d, calls (s_trace (emit (EvCall (phi n) r) (tick_by d 1 v1))) = calls (s_trace s1) ++ [(phi n, r)]).
  { intros r d. cbn [emit s_trace tick_by set_metrics]. rewrite V4, calls_app. reflexivity. }
  assert (AC2 : forall r d, calls (s_trace (emit (EvCall w2 r) (tick_by d 1 u2))) = calls (s_trace u2) ++ [(w2, r)]).
  { intros r d. cbn [emit s_trace tick_by set_metrics]. rewrite calls_app. reflexivity. }
  destruct (f (phi n)) eqn:FN; inversion I1; subst o1 m1 s1'; clear I1.
  - split; [reflexivity|]. split; [symmetry; exact PW|]. split; [|intros p E0; destruct (g (calls (s_trace s1)) (phi n)) eqn:EG; inversion E0; subst; eauto].
    apply FR_emit; try reflexivity. rewrite DW.
    assert (EX : forall r, filter (fun x => f (fst x)) (map phix [(w2, r)]) = [(phi n, r)])
      by (intro r; cbn; unfold phix; cbn; rewrite PW, FN; reflexivity).
    unfold FR. rewrite AC1, AC2, map_app, filter_app, <- F, EX.
    cbn [emit s_depth s_mutes s_items tick_by set_metrics s_metrics].
    repeat (split; [solve [auto | congruence]|]). intro TR. destruct (GH TR) as [G H]. rewrite (V5 TR).
    destruct (n_isdir n); cbn; split; lia.
  - split; [reflexivity|]. split; [symmetry; exact PW|]. split; [|discriminate].
    apply FR_emit; try reflexivity. rewrite DW.
    assert (EX : forall r, filter (fun x => f (fst x)) (map phix [(w2, r)]) = [])
      by (intro r; cbn; unfold phix; cbn; rewrite PW, FN; reflexivity).
    unfold FR. rewrite AC2, map_app, filter_app, EX, app_nil_r.
    cbn [emit s_depth s_mutes s_items tick_by set_metrics s_metrics].
    repeat (split; [solve [auto | congruence]|]). intro TR. destruct (GH TR) as [G H]. rewrite (V5 TR), phi_isdir.
    destruct (n_isdir n); cbn; split; lia.
Qed.

Lemma has_nanny_sub : has_nanny (with_scheme None c) = true -> c_sub c = SubDirectories \/ c_sub c = SubDirectoriesWithFiles.
Proof. unfold has_nanny. cbn. destruct (c_sub c); cbn; try discriminate. auto. Qed.

Theorem filtered_session : forall t o1 s1 o2 s2,
  session c1 sampling t = (o1, s1) -> session c2 sampling t = (o2, s2) ->
  agree raises o1 o2 /\ calls (s_trace s1) = filter (fun x => f (fst x)) (map phix (calls (s_trace s2))) /\
  (track = true -> m_files (s_metrics s1) + m_files_out (s_metrics s1) = m_files (s_metrics s2) /\
  m_dirs (s_metrics s1) + m_dirs_out (s_metrics s1) = m_dirs (s_metrics s2)).
Proof.
  intros t o1 s1 o2 s2 H1 H2. unfold session, navigate, top in H1, H2.
  set (u1 := dispatch _ _ (start_st c1 sampling)) in H1.
  set (u2 := dispatch _ _ (start_st c2 sampling)) in H2.
  assert (R0 : FR u1 u2).
  { unfold u1, u2, start_st. rewrite !session_items_chain. repeat split. }
  clearbody u1 u2.
  assert (END : forall (o1' o2' : outcome (option error)) v1 v2, agree raises o1' o2' -> FR v1 v2 ->
     (match o1' with Ret e => (Ret e, dispatch (mu_end (s_mutes v1)) (EvEnd (s_metrics v1)) v1) | x => (x, v1) end) = (o1, s1) ->
     (match o2' with Ret e => (Ret e, dispatch (mu_end (s_mutes v2)) (EvEnd (s_metrics v2)) v2) | x => (x, v2) end) = (o2, s2) ->
     agree raises o1 o2 /\ calls (s_trace s1) = filter (fun x => f (fst x)) (map phix (calls (s_trace s2))) /\
  (track = true -> m_files (s_metrics s1) + m_files_out (s_metrics s1) = m_files (s_metrics s2) /\
  m_dirs (s_metrics s1) + m_dirs_out (s_metrics s1) = m_dirs (s_metrics s2))).
  { intros o1' o2' v1 v2 AG RV E1 E2. assert (RE := RV). destruct RE as (A & B & C & D & E & F & GH).
    destruct (end_agree _ _ _ _ _ _ _ _ _ AG E1 E2) as (AO & [[-> ->]|[-> ->]]); (split; [exact AO|]);
      rewrite ?B, ?C; cbn [dispatch mu_end mutes_none emit s_trace s_metrics];
      rewrite ?calls_app; cbn; rewrite ?app_nil_r; auto. }
  change (c_stat c1) with (c_stat c) in H1. change (c_stat c2) with (c_stat c) in H2.
  change (c_fault c1) with (c_fault c) in H1. change (c_fault c2) with (c_fault c) in H2.
  change (c_tree c1) with (c_tree c) in H1. change (c_tree c2) with (c_tree c) in H2.
  destruct (c_stat c t) as [er|].
  - eapply (END (Ret (c_fault c er)) (Ret (c_fault c er)) u1 u2 (or_introl eq_refl) R0); assumption.
  - destruct (traverse (S (height t)) c1 (c_tree c) (new_node (c_tree c) t None None []) u1) as [t1 v1] eqn:T1.
    destruct (traverse (S (height t)) c2 (c_tree c) (new_node (c_tree c) t None None []) u2) as [t2 v2] eqn:T2.
    assert (LK : same_res raises t1 t2 /\ FR v1 v2).
    { assert (T1' : traverse (S (height t)) c1 (c_tree c) (phi (new_node (c_tree c) t None None [])) u1 = (t1, v1))
        by (rewrite phi_root; exact T1).
      assert (K : together FR (fun _ _ => False) (fun p => exists h n, g h n = CPanic p) t1 t2 v1 v2);
        [|destruct K as [(A & B & _)|[]]; auto].
      refine (lockstep_links c (c_rescue c) (c_rescue c) (Some sch) None None None (c_fast c) (c_fast c) (on_calls g) cl2 (c_tree c) (fun n m => n = phi m)
        _ _ _ _ _ _ FR (fun _ _ => False) (fun p => exists h n, g h n = CPanic p) _ _ _ _ _ _ _ _ _ _ _ _ _ _ _ _ eq_refl R0 T1' T2);
        try (intros n m ->; auto; fail).
      - intros p q i e ->. apply phi_child.
      - intros n m k a b -> E. apply phi_extend. exact E.
      - intros n m k e ->. apply phi_ask.
      - intros a b RAB. apply RAB.
      - intros n m a b d -> RAB. assert (X := RAB). destruct X as (_ & M1 & M2 & _). rewrite M1, M2. cbn [mu_descend mutes_none dispatch].
        apply FR_emit; try reflexivity. apply FR_depth. exact RAB.
      - intros n m a b d -> RAB. assert (X := RAB). destruct X as (_ & M1 & M2 & _). rewrite M1, M2. cbn [mu_ascend mutes_none dispatch].
        apply FR_emit; try reflexivity. apply FR_depth. exact RAB.
      - intros n m a b _ RAB. apply FR_emit; try reflexivity. exact RAB.
      - intros n m k a b x1 m1 a' x2 m2 b' -> RAB KO I1 I2. left.
        destruct (FR_invoke _ _ _ _ _ _ _ _ _ _ RAB (fun X => proj1 KO (has_nanny_sub X)) (proj1 (proj2 KO)) I1 I2) as (P1 & P2 & P3 & P4). auto.
      - intros a b [].
      - intros a b []. }
    destruct LK as [SR RV].
    eapply (END (fate t1) (fate t2) v1 v2 (same_agree _ _ _ SR) RV).
    + destruct t1 as [[b e]|p|]; exact H1.
    + destruct t2 as [[b e]|p|]; exact H2.
Qed.
End Filtered.

(** The node filter scheme. *)
Lemma node_filter_asks : forall c f g, asks_f c f g (mkScheme (Some (PrimaryNode (fun n => inl (f n)))) None) true.
Proof.
  intros c f g n k s _. unfold filter_next. cbn [c_scheme with_features sc_primary sc_child primary_next].
  unfold match_next. destruct (f n) eqn:E; eexists; (split; [reflexivity|]); repeat split.
Qed.
(** The sampler scheme. *)
Definition sampler_passes (m : list fsnode -> list fsnode) (n : node) : bool :=
  negb (scope_is_tree (n_scope n)) || match m [n_src n] with [] => false | _ => true end.
Lemma sampler_asks : forall c m g, asks_f c (sampler_passes m) g (mkScheme (Some (PrimarySampler m)) None) false.
Proof.
  intros c m g n k s NC. unfold filter_next. cbn [c_scheme with_features sc_primary sc_child primary_next].
  unfold sampler_next, sampler_passes. destruct (scope_is_tree (n_scope n)) eqn:E; cbn [negb orb].
  - destruct k as [[fs ds]|].
    + eexists. split; [reflexivity|]. repeat split. discriminate.
    + rewrite (NC eq_refl) in E. discriminate.
  - eexists. split; [reflexivity|]. repeat split.
Qed.

(** ** Without children *)
Lemma map_id_pair : forall (l : list (node * cbres)), map (phix (fun n => n)) l = l.
Proof. induction l as [|[n r] l IH]; cbn; [reflexivity|]. rewrite IH. reflexivity. Qed.

Lemma filtered_calls : forall c f g cl2 sampling t o1 s1 o2 s2,
  c_sub c <> SubDirectoriesWithFiles -> (forall tr n, cl2 tr n = ignoring f g tr n) ->
  session (with_features (node_filter f) None (on_calls g) c) sampling t = (o1, s1) ->
  session (with_features None None cl2 c) sampling t = (o2, s2) ->
  agree (fun p => exists h n, g h n = CPanic p) o1 o2 /\ calls (s_trace s1) = filter (fun x => f (fst x)) (calls (s_trace s2)) /\
  m_files (s_metrics s1) + m_files_out (s_metrics s1) = m_files (s_metrics s2) /\
  m_dirs (s_metrics s1) + m_dirs_out (s_metrics s1) = m_dirs (s_metrics s2).
Proof.
  intros c f g cl2 sampling t o1 s1 o2 s2 ND CE H1 H2.
  destruct (filtered_session c f g sampling _ true (node_filter_asks c f g) (fun n => n)) with (cl2 := cl2) (10 := H1) (11 := H2)
    as (A & B & CD); auto.
  - unfold extend. intros n k a b E. rewrite E. destruct (split_path (n_path n)). reflexivity.
  - unfold has_nanny. cbn. intro E. exfalso. apply ND. destruct (c_sub c); try discriminate. reflexivity.
  - intros p u [q|] e pos; reflexivity.
  - intros tr n. rewrite map_id_pair. apply CE.
  - rewrite map_id_pair in B. destruct (CD eq_refl). auto.
Qed.

(** ** Children left aside *)
Lemma strip_fields : forall n, n_path (strip n) = n_path n /\ n_src (strip n) = n_src n /\
  n_isdir (strip n) = n_isdir n /\ strip (strip n) = strip n /\ n_pos (strip n) = n_pos n /\
  (forall cs, strip (with_children cs n) = strip n).
Proof.
  fix IH 1. intros [a b c d e p f g h i j k l]. cbn. repeat split.
  destruct p as [p|]; [|reflexivity]. destruct (IH p) as (_ & _ & _ & E & _). rewrite E. reflexivity.
Qed.
Lemma strip_extension : forall n d l nm dp sc sp,
  strip (with_extension d l nm dp sc sp n) = with_extension d l nm dp sc sp (strip n).
Proof. intros [a b c d e p f g h i j k l]. reflexivity. Qed.

Lemma filtered_calls_children : forall c f g cl2 sampling t o1 s1 o2 s2,
  hook_blind c -> (forall tr n, cl2 tr n = ignoring_stripped f g tr n) -> default_skip c ->
  session (with_features (node_filter f) None (on_calls g) c) sampling t = (o1, s1) ->
  session (with_features None None cl2 c) sampling t = (o2, s2) ->
  agree (fun p => exists h n, g h n = CPanic p) o1 o2 /\ calls (s_trace s1) = filter (fun x => f (fst x)) (map stripped (calls (s_trace s2))) /\
  m_files (s_metrics s1) + m_files_out (s_metrics s1) = m_files (s_metrics s2) /\
  m_dirs (s_metrics s1) + m_dirs_out (s_metrics s1) = m_dirs (s_metrics s2).
Proof.
  intros c f g cl2 sampling t o1 s1 o2 s2 BL CE DS H1 H2.
  destruct (filtered_session c f g sampling _ true (node_filter_asks c f g) strip) with (cl2 := cl2) (10 := H1) (11 := H2)
    as (A & B & CD); auto; try (intro n; apply strip_fields).
  - intros p i e. unfold child_node, new_node. destruct (strip_fields p) as (P & _ & _ & _ & Q & _). rewrite P, Q. reflexivity.
  - intros n k a b E. unfold extend. destruct (strip_fields n) as (P & S & DD & _). rewrite P, DD, E.
    destruct (split_path (n_path n)) as [x y]. rewrite strip_extension.
    match goal with |- context [c_subpath c ?a ?b (with_extension ?q ?w ?r ?u ?v ?z (strip n))] =>
      rewrite <- (strip_extension n q w r u v z) end.
    rewrite BL. reflexivity.
  - intros n k e. rewrite !DS. reflexivity.
Qed.

Lemma never_raises : forall o1 o2,
  agree (fun p => exists (h : list (node * cbres)) (n : node), (fun _ _ => CNil) h n = CPanic p) o1 o2 -> o1 = o2.
Proof. intros o1 o2. apply agree_none. intros p (h & n & E). discriminate. Qed.

Definition cnil : list event -> node -> cbres := fun _ _ => CNil.
Lemma if_same : forall (b : bool) (A : Type) (x : A), (if b then x else x) = x.
Proof. intros [|]; reflexivity. Qed.
Lemma map_fst_filter : forall (f : node -> bool) (l : list (node * cbres)),
  map fst (filter (fun x => f (fst x)) l) = filter f (map fst l).
Proof. intros f l. induction l as [|x l IH]; [reflexivity|]. cbn. destruct (f (fst x)); cbn; rewrite IH; reflexivity. Qed.

Lemma filtered_nil : forall c f sampling t o1 s1 o2 s2, c_sub c <> SubDirectoriesWithFiles ->
  session (with_features (node_filter f) None cnil c) sampling t = (o1, s1) ->
  session (with_features None None cnil c) sampling t = (o2, s2) ->
  o1 = o2 /\ visited s1 = filter f (visited s2) /\
  m_files (s_metrics s1) + m_files_out (s_metrics s1) = m_files (s_metrics s2) /\
  m_dirs (s_metrics s1) + m_dirs_out (s_metrics s1) = m_dirs (s_metrics s2).
Proof.
  intros c f sampling t o1 s1 o2 s2 ND H1 H2.
  destruct (filtered_calls c f (fun _ _ => CNil) cnil sampling t o1 s1 o2 s2 ND) as (A & B & C & D); auto.
  - intros tr n. unfold ignoring. rewrite if_same. reflexivity.
  - split; [exact (never_raises _ _ A)|]. unfold visited. rewrite B, map_fst_filter. auto.
Qed.

Lemma filtered_nil_children : forall c f sampling t o1 s1 o2 s2, hook_blind c -> default_skip c ->
  session (with_features (node_filter f) None cnil c) sampling t = (o1, s1) ->
  session (with_features None None cnil c) sampling t = (o2, s2) ->
  o1 = o2 /\ visited s1 = filter f (map strip (visited s2)) /\
  m_files (s_metrics s1) + m_files_out (s_metrics s1) = m_files (s_metrics s2) /\
  m_dirs (s_metrics s1) + m_dirs_out (s_metrics s1) = m_dirs (s_metrics s2).
Proof.
  intros c f sampling t o1 s1 o2 s2 BL DS H1 H2.
  destruct (filtered_calls_children c f (fun _ _ => CNil) cnil sampling t o1 s1 o2 s2 BL) as (A & B & C & D); auto.
  - intros tr n. unfold ignoring_stripped. rewrite if_same. reflexivity.
  - split; [exact (never_raises _ _ A)|]. unfold visited. rewrite B, map_fst_filter, !map_map. auto.
Qed.

(** The sampler scheme: only the root may be left out. *)
Lemma sampler_calls : forall c m g cl2 sampling t o1 s1 o2 s2,
  c_sub c <> SubDirectoriesWithFiles -> (forall tr n, cl2 tr n = ignoring (sampler_passes m) g tr n) ->
  session (with_features (Some (mkScheme (Some (PrimarySampler m)) None)) None (on_calls g) c) sampling t = (o1, s1) ->
  session (with_features None None cl2 c) sampling t = (o2, s2) ->
  agree (fun p => exists h n, g h n = CPanic p) o1 o2 /\ calls (s_trace s1) = filter (fun x => sampler_passes m (fst x)) (calls (s_trace s2)).
Proof.
  intros c m g cl2 sampling t o1 s1 o2 s2 ND CE H1 H2.
  destruct (filtered_session c (sampler_passes m) g sampling _ false (sampler_asks c m g) (fun n => n)) with (cl2 := cl2) (10 := H1) (11 := H2)
    as (A & B & CD); auto.
  - unfold extend. intros n k a b E. rewrite E. destruct (split_path (n_path n)). reflexivity.
  - unfold has_nanny. cbn. intro E. exfalso. apply ND. destruct (c_sub c); try discriminate. reflexivity.
  - intros p u [q|] e pos; reflexivity.
  - intros tr n. rewrite map_id_pair. apply CE.
  - rewrite map_id_pair in B. auto.
Qed.

Lemma sampler_nil : forall c m sampling t o1 s1 o2 s2, c_sub c <> SubDirectoriesWithFiles ->
  session (with_features (Some (mkScheme (Some (PrimarySampler m)) None)) None cnil c) sampling t = (o1, s1) ->
  session (with_features None None cnil c) sampling t = (o2, s2) ->
  o1 = o2 /\ visited s1 = filter (sampler_passes m) (visited s2).
Proof.
  intros c m sampling t o1 s1 o2 s2 ND H1 H2.
  destruct (sampler_calls c m (fun _ _ => CNil) cnil sampling t o1 s1 o2 s2 ND) as (A & B); auto.
  - intros tr n. unfold ignoring. rewrite if_same. reflexivity.
  - split; [exact (never_raises _ _ A)|]. unfold visited. rewrite B, map_fst_filter. auto.
Qed.

Lemma sampler_nil_children : forall c m sampling t o1 s1 o2 s2, hook_blind c -> default_skip c ->
  session (with_features (Some (mkScheme (Some (PrimarySampler m)) None)) None cnil c) sampling t = (o1, s1) ->
  session (with_features None None cnil c) sampling t = (o2, s2) ->
  o1 = o2 /\ visited s1 = filter (sampler_passes m) (map strip (visited s2)).
Proof.
  intros c m sampling t o1 s1 o2 s2 BL DS H1 H2.
  destruct (filtered_session c (sampler_passes m) (fun _ _ => CNil) sampling _ false (sampler_asks c m _) strip) with (cl2 := cnil) (10 := H1) (11 := H2)
    as (A & B & CD); auto; try (intro n; apply strip_fields).
  - intros p i e. unfold child_node, new_node. destruct (strip_fields p) as (P & _ & _ & _ & Q & _). rewrite P, Q. reflexivity.
  - intros n k a b E. unfold extend. destruct (strip_fields n) as (P & S & DD & _). rewrite P, DD, E.
    destruct (split_path (n_path n)) as [x y]. rewrite strip_extension.
    match goal with |- context [c_subpath c ?a ?b (with_extension ?q ?w ?r ?u ?v ?z (strip n))] =>
      rewrite <- (strip_extension n q w r u v z) end.
    rewrite BL. reflexivity.
  - intros n k e. rewrite !DS. reflexivity.
  - intros tr n. rewrite if_same. reflexivity.
  - split; [exact (never_raises _ _ A)|]. unfold visited. rewrite B, map_fst_filter, !map_map. reflexivity.
Qed.
