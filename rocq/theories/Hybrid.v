(** A child filter, with or without a node filter: the session against the
    unfiltered one. *)
From Verif Require Import Base Paths Level Lo Collections Kernel Session Spec KernelRel KernelFacts
  KernelInv WalkFacts StandsFacts JournalFacts SessionFacts WalkCor PathFacts WalkProps Simulate Feature.

Section Hybrid.
Variable c : cfg.
Variable fp : option (node -> bool).
Variable m : list fsnode -> list fsnode.
Variable sampling : bool.
Definition passes (n : node) : bool := match fp with None => true | Some f => f n end.
Definition hybrid_scheme : scheme :=
  mkScheme (option_map (fun f => PrimaryNode (fun n => inl (f n))) fp) (Some (fun l => inl (m l))).
Hypothesis SUB : c_sub c = SubDirectories \/ c_sub c = SubDirectoriesWithFiles.
Hypothesis BL : hook_blind c.
Hypothesis DS : default_skip c.
Hypothesis PB : forall n, passes (strip n) = passes n.
Notation c1 := (with_features (Some hybrid_scheme) None cnil c).
Notation c2 := (with_features None None cnil c).

Definition HR (s1 s2 : st) : Prop :=
  s_depth s1 = s_depth s2 /\ s_mutes s1 = mutes_none /\ s_mutes s2 = mutes_none /\
  s_items s1 = chain c1 sampling false /\ s_items s2 = chain c2 sampling false /\
  map strip (visited s1) = filter passes (map strip (visited s2)) /\
  m_files (s_metrics s1) + m_files_out (s_metrics s1) = m_files (s_metrics s2) /\
  m_dirs (s_metrics s1) + m_dirs_out (s_metrics s1) = m_dirs (s_metrics s2).

Lemma HR_emit : forall e1 e2 s1 s2, calls [e1] = [] -> calls [e2] = [] -> HR s1 s2 -> HR (emit e1 s1) (emit e2 s2).
Proof.
  intros e1 e2 s1 s2 E1 E2 (A & B & C & D & E & F & GH).
  unfold HR, visited in *. cbn [emit s_depth s_mutes s_items s_trace s_metrics]. rewrite !calls_app, E1, E2, !app_nil_r. auto 10.
Qed.
Lemma HR_depth : forall d s1 s2, HR s1 s2 -> HR (set_depth d s1) (set_depth d s2).
Proof. intros d s1 s2 (A & B & C & D & E & F & GH). unfold HR, visited in *. cbn [set_depth s_depth s_mutes s_items s_trace s_metrics]. auto 10. Qed.

(** the other session *)
Lemma plain_chain : forall n fs ds s, iterate c2 (chain c2 sampling false) n (Some (fs, ds)) s =
  (if has_nanny c2
   then (Ret None, with_children (c_sort c fs) n,
         after_call c2 (with_children (c_sort c fs) n) (tick_by ChildFilesFound (length (c_sort c fs)) s))
   else (Ret None, n, after_call c2 n s)).
Proof.
  intros n fs ds s. unfold chain. cbn [has c_hib c_scheme with_features role_if app].
  destruct (has_nanny c2); cbn [role_if app].
  - cbn [iterate link_next nanny_next]. rewrite (iterate_tail c2 sampling). reflexivity.
  - rewrite (iterate_tail c2 sampling). reflexivity.
Qed.
Lemma hybrid_chain : forall n fs ds s, iterate c1 (chain c1 sampling false) n (Some (fs, ds)) s =
  (if passes n
   then (let n1 := with_children (m (c_sort c fs)) n in
         (Ret None, n1, after_call c1 n1 (tick_by ChildFilesFilteredOut (length (c_sort c fs) - length (m (c_sort c fs)))
                       (tick_by ChildFilesFound (length (m (c_sort c fs))) s))))
   else (Ret None, n, tick_by (if n_isdir n then DirectoriesFilteredOut else FilesFilteredOut) 1 s)).
Proof.
  intros n fs ds s. unfold chain. cbn [has c_hib c_scheme with_features role_if app].
  assert (NN : has_nanny c1 = false) by (unfold has_nanny; cbn; apply andb_false_r). rewrite NN. cbn [role_if app].
  assert (FN : filter_next c1 n (Some (fs, ds)) s =
    if passes n then (Ret (true, None), with_children (m (c_sort c fs)) n,
         tick_by ChildFilesFilteredOut (length (c_sort c fs) - length (m (c_sort c fs))) (tick_by ChildFilesFound (length (m (c_sort c fs))) s))
    else (Ret (false, None), n, tick_by (if n_isdir n then DirectoriesFilteredOut else FilesFilteredOut) 1 s)).
  { unfold filter_next, hybrid_scheme, passes. cbn [c_scheme with_features sc_primary sc_child].
    destruct fp as [f|]; cbn [option_map]; [|reflexivity].
    cbn [primary_next]. unfold match_next. destruct (f n); reflexivity. }
  cbn [iterate link_next]. rewrite FN. destruct (passes n); [|reflexivity]. rewrite (iterate_tail c1 sampling). reflexivity.
Qed.

Lemma HR_call : forall n1 n2 s1 s2, HR s1 s2 -> strip n1 = strip n2 -> passes n1 = true ->
  HR (after_call c1 n1 s1) (after_call c2 n2 s2).
Proof.
  intros n1 n2 s1 s2 (A & B & C & D & E & F & G & H) SN PN. unfold after_call.
  assert (ID : n_isdir n1 = n_isdir n2).
  { destruct (strip_fields n1) as (_ & _ & <- & _). destruct (strip_fields n2) as (_ & _ & <- & _). rewrite SN. reflexivity. }
  unfold HR, visited in *. cbn [emit s_depth s_mutes s_items s_trace s_metrics tick_by set_metrics].
  rewrite !calls_app, !map_app. cbn [calls map fst]. rewrite filter_app, <- F. cbn [filter].
  rewrite <- SN, PB, PN. rewrite ID.
  do 5 (split; [assumption|]). split; [rewrite ?SN; reflexivity|]. destruct (n_isdir n2); cbn; split; lia.
Qed.
Lemma HR_tick1 : forall k j s1 s2, (k = ChildFilesFound \/ k = ChildFilesFilteredOut) -> HR s1 s2 -> HR (tick_by k j s1) s2.
Proof. intros k j s1 s2 [-> | ->] (A & B & C & D & E & F & G & H); unfold HR; cbn; auto 10. Qed.
Lemma HR_tick2 : forall k j s1 s2, (k = ChildFilesFound \/ k = ChildFilesFilteredOut) -> HR s1 s2 -> HR s1 (tick_by k j s2).
Proof. intros k j s1 s2 [-> | ->] (A & B & C & D & E & F & G & H); unfold HR; cbn; auto 10. Qed.
Lemma HR_rejected : forall n1 n2 s1 s2, HR s1 s2 -> strip n1 = strip n2 -> passes n1 = false ->
  HR (tick_by (if n_isdir n1 then DirectoriesFilteredOut else FilesFilteredOut) 1 s1) (after_call c2 n2 s2).
Proof.
  intros n1 n2 s1 s2 (A & B & C & D & E & F & G & H) SN PN. unfold after_call.
  assert (ID : n_isdir n1 = n_isdir n2).
  { destruct (strip_fields n1) as (_ & _ & <- & _). destruct (strip_fields n2) as (_ & _ & <- & _). rewrite SN. reflexivity. }
  unfold HR, visited in *. cbn [emit s_depth s_mutes s_items s_trace s_metrics tick_by set_metrics].
  rewrite !calls_app, !map_app. cbn [calls map fst]. rewrite filter_app, <- F. cbn [filter].
  rewrite <- SN, PB, PN, ID, app_nil_r.
  do 5 (split; [assumption|]). split; [rewrite ?SN; reflexivity|]. destruct (n_isdir n2); cbn; split; lia.
Qed.

Lemma HR_invoke : forall n1 n2 k s1 s2 o1 m1 s1' o2 m2 s2', HR s1 s2 -> strip n1 = strip n2 -> k <> None ->
  invoke c1 n1 k s1 = (o1, m1, s1') -> invoke c2 n2 k s2 = (o2, m2, s2') ->
  o1 = o2 /\ strip m1 = strip m2 /\ HR s1' s2' /\ (forall p, o2 = Pan p -> False).
Proof.
  intros n1 n2 k s1 s2 o1 m1 s1' o2 m2 s2' HH SN NK I1 I2. unfold invoke in I1, I2.
  assert (HI := HH). destruct HI as (_ & _ & _ & I1e & I2e & _). rewrite I1e in I1. rewrite I2e in I2. clear I1e I2e.
  destruct k as [[fs ds]|]; [|contradiction].
  rewrite hybrid_chain in I1. rewrite plain_chain in I2.
  destruct (strip_fields n1) as (_ & _ & _ & _ & _ & W1). destruct (strip_fields n2) as (_ & _ & _ & _ & _ & W2).
  assert (PW : forall cs n, passes (with_children cs n) = passes n).
  { intros cs n. rewrite <- (PB (with_children cs n)), <- (PB n). destruct (strip_fields n) as (_ & _ & _ & _ & _ & W). rewrite W. reflexivity. }
  destruct (passes n1) eqn:P; destruct (has_nanny c2); cbv zeta in I1; inversion I1; inversion I2; subst; clear I1 I2;
    (split; [reflexivity|]); (split; [rewrite ?W1, ?W2; exact SN|]); (split; [apply HR_emit; try reflexivity|discriminate]).
  all: try (apply HR_rejected; [try (apply HR_tick2; auto); exact HH|rewrite ?W2; exact SN|exact P]).
  all: apply HR_call; [do 2 (apply HR_tick1; [auto|]); try (apply HR_tick2; auto); exact HH|rewrite W1, ?W2; exact SN|rewrite PW; exact P].
Qed.

Theorem hybrid_session : forall t o1 s1 o2 s2,
  session c1 sampling t = (o1, s1) -> session c2 sampling t = (o2, s2) ->
  o1 = o2 /\ map strip (visited s1) = filter passes (map strip (visited s2)) /\
  m_files (s_metrics s1) + m_files_out (s_metrics s1) = m_files (s_metrics s2) /\
  m_dirs (s_metrics s1) + m_dirs_out (s_metrics s1) = m_dirs (s_metrics s2).
Proof.
  intros t o1 s1 o2 s2 H1 H2. unfold session, navigate, top in H1, H2.
  set (u1 := dispatch _ _ (start_st c1 sampling)) in H1.
  set (u2 := dispatch _ _ (start_st c2 sampling)) in H2.
  assert (R0 : HR u1 u2).
  { unfold u1, u2, start_st. rewrite !session_items_chain. repeat split. }
  clearbody u1 u2.
  assert (END : forall (o1' o2' : outcome (option error)) v1 v2, o1' = o2' -> HR v1 v2 ->
     (match o1' with Ret e => (Ret e, dispatch (mu_end (s_mutes v1)) (EvEnd (s_metrics v1)) v1) | x => (x, v1) end) = (o1, s1) ->
     (match o2' with Ret e => (Ret e, dispatch (mu_end (s_mutes v2)) (EvEnd (s_metrics v2)) v2) | x => (x, v2) end) = (o2, s2) ->
     o1 = o2 /\ map strip (visited s1) = filter passes (map strip (visited s2)) /\
     m_files (s_metrics s1) + m_files_out (s_metrics s1) = m_files (s_metrics s2) /\
     m_dirs (s_metrics s1) + m_dirs_out (s_metrics s1) = m_dirs (s_metrics s2)).
  { intros o1' o2' v1 v2 -> RV E1 E2. assert (RE := RV). destruct RE as (A & B & C & D & E & F & GH).
    rewrite B in E1. rewrite C in E2. cbn in E1, E2. unfold visited in *.
    destruct o2'; inversion E1; inversion E2; subst; cbn [emit s_trace s_metrics];
      rewrite ?calls_app; cbn; rewrite ?app_nil_r; auto. }
  change (c_stat c1) with (c_stat c) in H1. change (c_stat c2) with (c_stat c) in H2.
  change (c_fault c1) with (c_fault c) in H1. change (c_fault c2) with (c_fault c) in H2.
  change (c_tree c1) with (c_tree c) in H1. change (c_tree c2) with (c_tree c) in H2.
  destruct (c_stat c t) as [er|].
  - eapply (END (Ret (c_fault c er)) (Ret (c_fault c er)) u1 u2 eq_refl R0); assumption.
  - destruct (traverse (S (height t)) c1 (c_tree c) (new_node (c_tree c) t None None []) u1) as [t1 v1] eqn:T1.
    destruct (traverse (S (height t)) c2 (c_tree c) (new_node (c_tree c) t None None []) u2) as [t2 v2] eqn:T2.
    assert (LK : t1 = t2 /\ HR v1 v2).
    { assert (K : together HR (fun _ _ => False) (fun p => False) t1 t2 v1 v2);
        [|destruct K as [(A & B & _)|[]]; split; [exact (same_none _ _ _ (fun p X => X) A)|exact B]].
      refine (lockstep_links c (c_rescue c) (c_rescue c) (Some hybrid_scheme) None None None (c_fast c) (c_fast c) cnil cnil (c_tree c) (fun a b => strip a = strip b)
        _ _ _ _ _ _ HR (fun _ _ => False) (fun p => False) _ _ _ _ _ _ _ _ _ _ _ _ _ _ _ _ eq_refl R0 T1 T2).
      - intros a b E. destruct (strip_fields a) as (<- & _). destruct (strip_fields b) as (<- & _). rewrite E. reflexivity.
      - intros a b E. destruct (strip_fields a) as (_ & <- & _). destruct (strip_fields b) as (_ & <- & _). rewrite E. reflexivity.
      - intros a b E. destruct (strip_fields a) as (_ & _ & <- & _). destruct (strip_fields b) as (_ & _ & <- & _). rewrite E. reflexivity.
      - intros p q i e E. destruct (strip_fields p) as (P1 & _ & _ & _ & P2 & _). destruct (strip_fields q) as (Q1 & _ & _ & _ & Q2 & _).
        unfold child_node, new_node. rewrite <- P1, <- P2, <- Q1, <- Q2. cbn [strip]. rewrite E. reflexivity.
      - intros n n' k a b E ED. unfold extend.
        destruct (strip_fields n) as (P1 & _ & P2 & _). destruct (strip_fields n') as (Q1 & _ & Q2 & _).
        rewrite <- P1, <- Q1, <- P2, <- Q2, ED, E. destruct (split_path (n_path (strip n'))) as [x y].
        rewrite !strip_extension, E.
        assert (SP : forall d l nm dp sc, c_subpath c (c_tree c) (c_keep_sep c) (with_extension d l nm dp sc ""%string n) =
          c_subpath c (c_tree c) (c_keep_sep c) (with_extension d l nm dp sc ""%string n')).
        { intros d l nm dp sc. rewrite <- (BL _ _ (with_extension d l nm dp sc ""%string n)), <- (BL _ _ (with_extension d l nm dp sc ""%string n')).
          rewrite !strip_extension, E. reflexivity. }
        rewrite SP. reflexivity.
      - intros a b k e E. rewrite !DS. reflexivity.
      - intros a b RAB. apply RAB.
      - intros n n' a b d E RAB. assert (X := RAB). destruct X as (_ & M1 & M2 & _). rewrite M1, M2. cbn [mu_descend mutes_none dispatch].
        apply HR_emit; try reflexivity. apply HR_depth. exact RAB.
      - intros n n' a b d E RAB. assert (X := RAB). destruct X as (_ & M1 & M2 & _). rewrite M1, M2. cbn [mu_ascend mutes_none dispatch].
        apply HR_emit; try reflexivity. apply HR_depth. exact RAB.
      - intros n n' a b _ RAB. apply HR_emit; try reflexivity. exact RAB.
      - intros n n' k a b x1 m1 a' x2 m2 b' E RAB KO I1 I2. left.
        destruct (HR_invoke _ _ _ _ _ _ _ _ _ _ _ RAB E (proj1 KO SUB) I1 I2) as (P1 & P2 & P3 & P4). auto.
      - intros a b [].
      - intros a b []. }
    destruct LK as [-> RV].
    eapply (END (match t2 with Ret (_, e) => Ret e | Pan p => Pan p | Stuck => Stuck end) _ v1 v2 eq_refl RV).
    + destruct t2 as [[b e]|p|]; exact H1.
    + destruct t2 as [[b e]|p|]; exact H2.
Qed.
End Hybrid.
