(** Resumed sessions with a node filter against the same without: proofs. *)
From Verif Require Import Base Paths Level Lo Collections Kernel Session Spec KernelRel KernelFacts
  KernelInv WalkFacts StandsFacts JournalFacts SessionFacts WalkCor PathFacts WalkProps Simulate Feature Cases Resume SpecResume SpawnFacts FastFacts FastProps FastRelayFacts.
Local Open Scope list_scope.

Section Selected.
Variable c : cfg.
Variable f : node -> bool.
Variable g : list (node * cbres) -> node -> cbres.
Variable sampling : bool.
Hypothesis ND : c_sub c <> SubDirectoriesWithFiles.
Variable asking : node -> asked bool.
Hypothesis AK : forall n, asking n = inl (f n).
Notation sch := (mkScheme (Some (PrimaryNode asking)) None).
Variable cl2 : list event -> node -> cbres.
Hypothesis cl2_eq : forall tr n, cl2 tr n = ignoring f g tr n.
Notation c1 := (with_features (Some sch) None (on_calls g) c).
Notation c2 := (with_features None None cl2 c).
Notation raises := (fun p => exists h n, g h n = CPanic p).
Notation same := (fun n : node => n).
Notation FRs := (Feature.FR c f g sampling sch false same cl2).

Lemma untracked : asks_f c f g sch false.
Proof.
  intros n k s _. unfold filter_next. cbn [c_scheme with_features sc_primary sc_child primary_next].
  unfold match_next. rewrite AK. destruct (f n) eqn:E; eexists; (split; [reflexivity|]); repeat split; discriminate.
Qed.
Lemma same_client : forall tr n,
  cl2 tr n = if f n then g (filter (fun x => f (fst x)) (map (phix same) (calls tr))) n else CNil.
Proof. intros tr n. rewrite map_id_pair. apply cl2_eq. Qed.
Lemma no_nanny : has_nanny (with_scheme None c) = true -> False.
Proof. unfold has_nanny. cbn. intro E. apply ND. destruct (c_sub c); try discriminate. reflexivity. Qed.

Lemma selected_top : forall root t u1 u2 o1 s1 o2 s2, FRs u1 u2 ->
  top c1 root t u1 = (o1, s1) -> top c2 root t u2 = (o2, s2) -> agree raises o1 o2 /\ FRs s1 s2.
Proof.
  intros root t u1 u2 o1 s1 o2 s2 R0 H1 H2. unfold top in H1, H2.
  change (c_stat c1) with (c_stat c) in H1. change (c_stat c2) with (c_stat c) in H2.
  change (c_fault c1) with (c_fault c) in H1. change (c_fault c2) with (c_fault c) in H2.
  destruct (c_stat c t) as [er|].
  - inversion H1; inversion H2; subst. split; [left; reflexivity|exact R0].
  - destruct (traverse (S (height t)) c1 root (new_node root t None None []) u1) as [t1 v1] eqn:T1.
    destruct (traverse (S (height t)) c2 root (new_node root t None None []) u2) as [t2 v2] eqn:T2.
    assert (LK : same_res raises t1 t2 /\ FRs v1 v2).
    { assert (K : together FRs (fun _ _ => False) raises t1 t2 v1 v2); [|destruct K as [(A & B & _)|[]]; auto].
      refine (lockstep_links c (c_rescue c) (c_rescue c) (Some sch) None None None (c_fast c) (c_fast c) (on_calls g) cl2 root (fun n m => n = m)
        _ _ _ _ _ _ FRs (fun _ _ => False) raises _ _ _ _ _ _ _ _ _ _ _ _ _ _ _ _ eq_refl R0 T1 T2);
        try (intros n m ->; reflexivity).
      - intros p q i e ->. reflexivity.
      - intros n m k a b -> E. unfold extend. rewrite E. destruct (split_path (n_path m)). reflexivity.
      - intros n m k e ->. reflexivity.
      - intros a b RAB. apply RAB.
      - intros n m a b d -> RAB. assert (X := RAB). destruct X as (_ & M1 & M2 & _). rewrite M1, M2. cbn [mu_descend mutes_none dispatch].
        apply Feature.FR_emit; try reflexivity. apply Feature.FR_depth. exact RAB.
      - intros n m a b d -> RAB. assert (X := RAB). destruct X as (_ & M1 & M2 & _). rewrite M1, M2. cbn [mu_ascend mutes_none dispatch].
        apply Feature.FR_emit; try reflexivity. apply Feature.FR_depth. exact RAB.
      - intros n m a b _ RAB. apply Feature.FR_emit; try reflexivity. exact RAB.
      - intros n m k a b x1 m1 a' x2 m2 b' -> RAB KO I1 I2. left.
        destruct (Feature.FR_invoke c f g sampling sch false untracked same (fun _ => eq_refl) (fun E => False_ind _ (no_nanny E)) cl2 same_client
          _ _ _ _ _ _ _ _ _ _ RAB (fun X => False_ind _ (no_nanny X)) (proj1 (proj2 KO)) I1 I2) as (P1 & P2 & P3 & P4). auto.
      - intros a b [].
      - intros a b []. }
    destruct LK as [SR RV].
    destruct t1 as [[b1 e1]|p1|], t2 as [[b2 e2]|p2|]; inversion H1; inversion H2; subst;
      (split; [exact (same_agree _ _ _ SR)|exact RV]).
Qed.

Lemma selected_seed : forall pc dk parent es u1 u2 o1 s1 o2 s2, FRs u1 u2 ->
  seed c1 pc dk parent es u1 = (o1, s1) -> seed c2 pc dk parent es u2 = (o2, s2) -> agree raises o1 o2 /\ FRs s1 s2.
Proof.
  intros pc dk parent. induction es as [|e es IH]; cbn [seed]; intros u1 u2 o1 s1 o2 s2 R0 H1 H2.
  - inversion H1; inversion H2; subst. split; [left; reflexivity|exact R0].
  - destruct (top c1 _ _ u1) as [x1 v1] eqn:T1. destruct (top c2 _ _ u2) as [x2 v2] eqn:T2.
    destruct (selected_top _ _ _ _ _ _ _ _ R0 T1 T2) as [AG RV].
    assert (SH := agree_alike _ _ _ AG). destruct SH as [E|(e1 & e2 & E1 & E2 & _)].
    + subst x2. destruct x1 as [[er|]|p|]; try (inversion H1; inversion H2; subst; split; [exact AG|exact RV]).
      eapply IH; eassumption.
    + subst x1 x2. inversion H1; inversion H2; subst. split; [exact AG|exact RV].
Qed.

Lemma selected_crown : forall pc dk tree fuel current incl u1 u2 o1 ok1 s1 o2 ok2 s2, FRs u1 u2 ->
  crown fuel c1 pc dk tree current incl u1 = (o1, ok1, s1) -> crown fuel c2 pc dk tree current incl u2 = (o2, ok2, s2) ->
  agree raises o1 o2 /\ ok1 = ok2 /\ FRs s1 s2.
Proof.
  intros pc dk tree. induction fuel as [|k IH]; cbn [crown]; intros current incl u1 u2 o1 ok1 s1 o2 ok2 s2 R0 H1 H2.
  - inversion H1; inversion H2; subst. split; [left; reflexivity|]. split; [reflexivity|exact R0].
  - destruct (String.eqb current tree).
    + inversion H1; inversion H2; subst. split; [left; reflexivity|]. split; [reflexivity|exact R0].
    + destruct (pc_split pc current) as [parent child].
      change (following c1 dk parent child incl) with (following c dk parent child incl) in H1.
      change (following c2 dk parent child incl) with (following c dk parent child incl) in H2.
      destruct (following c dk parent child incl) as [sib [er|]].
      * inversion H1; inversion H2; subst. split; [left; reflexivity|]. split; [reflexivity|exact R0].
      * destruct (seed c1 _ _ _ _ u1) as [x1 v1] eqn:T1. destruct (seed c2 _ _ _ _ u2) as [x2 v2] eqn:T2.
        destruct (selected_seed _ _ _ _ _ _ _ _ _ _ R0 T1 T2) as [AG RV].
        assert (SH := agree_alike _ _ _ AG). destruct SH as [E|(e1 & e2 & E1 & E2 & _)].
        -- subst x2. destruct x1 as [[er|]|p|]; try (inversion H1; inversion H2; subst; split; [exact AG|split; [reflexivity|exact RV]]).
           eapply IH; eassumption.
        -- subst x1 x2. inversion H1; inversion H2; subst. split; [exact AG|split; [reflexivity|exact RV]].
Qed.

Theorem asked_spawn : forall pc dk sv o1 ok1 s1 o2 ok2 s2,
  spawn_session c1 sampling pc dk sv = (o1, ok1, s1) -> spawn_session c2 sampling pc dk sv = (o2, ok2, s2) ->
  agree raises o1 o2 /\ ok1 = ok2 /\ calls (s_trace s1) = filter (fun x => f (fst x)) (calls (s_trace s2)).
Proof.
  intros pc dk sv o1 ok1 s1 o2 ok2 s2 H1 H2. unfold spawn_session in H1, H2.
  set (u1 := bridge c1 _ _) in H1. set (u2 := bridge c2 _ _) in H2.
  assert (R0 : FRs u1 u2).
  { unfold u1, u2, bridge, init_st. rewrite !session_items_chain. repeat split; try reflexivity. all: discriminate. }
  clearbody u1 u2.
  destruct (crown _ c1 pc dk (sv_tree sv) (sv_path sv) true u1) as [[x1 k1] v1] eqn:T1.
  destruct (crown _ c2 pc dk (sv_tree sv) (sv_path sv) true u2) as [[x2 k2] v2] eqn:T2.
  destruct (selected_crown _ _ _ _ _ _ _ _ _ _ _ _ _ _ R0 T1 T2) as (AG & EK & RV).
  destruct RV as (_ & M1 & M2 & _ & _ & F & _). rewrite map_id_pair in F.
  rewrite M1 in H1. rewrite M2 in H2. cbn [mutes_none mu_end dispatch] in H1, H2.
  assert (SH := agree_alike _ _ _ AG). destruct SH as [E|(e1 & e2 & E1 & E2 & _)].
  - subst x2. destruct x1 as [er|p|]; inversion H1; inversion H2; subst; (split; [exact AG|]); (split; [reflexivity|]);
      cbn [emit s_trace]; rewrite ?calls_app; cbn; rewrite ?app_nil_r; exact F.
  - subst x1 x2. inversion H1; inversion H2; subst. split; [exact AG|]. split; [reflexivity|].
    cbn [emit s_trace]. rewrite !calls_app. cbn. rewrite !app_nil_r. exact F.
Qed.

Theorem asked_session : forall t o1 s1 o2 s2, session c1 sampling t = (o1, s1) -> session c2 sampling t = (o2, s2) ->
  calls (s_trace s1) = filter (fun x => f (fst x)) (calls (s_trace s2)).
Proof.
  intros t o1 s1 o2 s2 H1 H2.
  destruct (filtered_session c f g sampling sch false untracked same) with (cl2 := cl2) (t := t) (o1 := o1) (s1 := s1) (o2 := o2) (s2 := s2)
    as (_ & A & _); try assumption; try reflexivity.
  - unfold extend. intros n k a b E. rewrite E. destruct (split_path (n_path n)). reflexivity.
  - intro E. destruct (no_nanny E).
  - intros p u [k|] e pos; reflexivity.
  - exact same_client.
  - rewrite A, map_id_pair. reflexivity.
Qed.
End Selected.

Lemma selected_spawn : forall c f g sampling, c_sub c <> SubDirectoriesWithFiles ->
  forall cl2, (forall tr n, cl2 tr n = ignoring f g tr n) ->
  forall pc dk sv o1 ok1 s1 o2 ok2 s2,
  spawn_session (with_features (node_filter f) None (on_calls g) c) sampling pc dk sv = (o1, ok1, s1) ->
  spawn_session (with_features None None cl2 c) sampling pc dk sv = (o2, ok2, s2) ->
  agree (fun p => exists h n, g h n = CPanic p) o1 o2 /\ ok1 = ok2 /\ calls (s_trace s1) = filter (fun x => f (fst x)) (calls (s_trace s2)).
Proof. intros c f g sampling ND cl2 E. exact (asked_spawn c f g sampling ND (fun n => inl (f n)) (fun _ => eq_refl) cl2 E). Qed.

(** ** Fastward *)
Lemma first_of_filter : forall A (m f : A -> bool) l x r, from_first m l = x :: r -> f x = true ->
  from_first m (filter f l) = filter f (x :: r).
Proof.
  induction l as [|y l IH]; intros x r H F; [discriminate|]. cbn in H. destruct (m y) eqn:M.
  - inversion H; subst. cbn. rewrite F. cbn. rewrite M. reflexivity.
  - cbn [filter]. destruct (f y); [|apply IH; assumption]. change (from_first m (y :: filter f l)) with (if m y then y :: filter f l else from_first m (filter f l)).
    rewrite M. apply IH; assumption.
Qed.
Lemma first_of_filter_out : forall A (m f : A -> bool) l x r, from_first m l = x :: r -> f x = false ->
  from_first m (filter f l) = from_first m (filter f r).
Proof.
  induction l as [|y l IH]; intros x r H F; [discriminate|]. cbn in H. destruct (m y) eqn:M.
  - inversion H; subst. cbn. rewrite F. reflexivity.
  - cbn [filter]. destruct (f y); [|eapply IH; eassumption]. change (from_first m (y :: filter f l)) with (if m y then y :: filter f l else from_first m (filter f l)).
    rewrite M. eapply IH; eassumption.
Qed.
Lemma none_first : forall A (m f : A -> bool) l, (forall y, In y l -> m y = false) -> from_first m (filter f l) = [].
Proof.
  induction l as [|y l IH]; intro H; [reflexivity|]. cbn [filter]. destruct (f y); [|apply IH; intros z Hz; apply H; right; exact Hz].
  change (from_first m (y :: filter f l)) with (if m y then y :: filter f l else from_first m (filter f l)).
  rewrite (H y (or_introl eq_refl)). apply IH. intros z Hz. apply H. right. exact Hz.
Qed.

Theorem selected_fastward : forall c f sampling pc dk sv o1 s1 o2 s2,
  c_sub c <> SubDirectoriesWithFiles -> c_tree c = sv_tree sv ->
  let d := pc_dir pc (sv_path sv) in
  let b := pc_base pc (sv_path sv) in
  d <> "."%string -> b <> ""%string -> b <> snd (split_path (sv_tree sv)) ->
  fastward_session true (with_features (node_filter f) None cnil c) sampling pc dk sv = (o1, s1) ->
  fastward_session true (with_features None None cnil c) sampling pc dk sv = (o2, s2) ->
  alike o1 o2 /\
  (visited s2 = [] -> visited s1 = []) /\
  (forall x rest, visited s2 = x :: rest ->
    node_is d b x = true /\
    (f x = true -> visited s1 = filter f (visited s2)) /\
    (f x = false -> (forall y, In y rest -> node_is d b y = false) -> visited s1 = [])).
Proof.
  intros c f sampling pc dk sv o1 s1 o2 s2 ND CT d b NE NB NT H1 H2.
  set (m := node_is d b). set (g0 := fun (_ : list (node * cbres)) (_ : node) => CNil).
  set (c1 := with_features (node_filter f) None cnil c) in *. set (c2 := with_features None None cnil c) in *.
  assert (O1 : filter_ok c1).
  { split; [|discriminate]. intros sc E. inversion E; subst sc. cbn. split; [intro X; exfalso; apply X; reflexivity|].
    split; [discriminate|]. split; [|discriminate]. intros f0 F n. inversion F; subst. exists (f n). reflexivity. }
  assert (O2 : filter_ok c2) by (split; discriminate).
  destruct (session (with_client (waking m g0) c1) sampling (dk (sv_tree sv))) as [p1 u1] eqn:U1.
  destruct (session (with_client (waking m g0) c2) sampling (dk (sv_tree sv))) as [p2 u2] eqn:U2.
  destruct (fastward_locked c1 sampling pc dk sv g0 o1 s1 p1 u1 O1 CT NE NB NT ltac:(reflexivity) H1 U1) as (A1 & B1 & _).
  destruct (fastward_locked c2 sampling pc dk sv g0 o2 s2 p2 u2 O2 CT NE NB NT ltac:(reflexivity) H2 U2) as (A2 & B2 & _).
  assert (K : agree (fun p => exists h n, g0 h n = CPanic p) p1 p2 /\
    calls (s_trace u1) = filter (fun x => f (fst x)) (calls (s_trace u2))).
  { set (G := fun (l : list (node * cbres)) (k : node) =>
      match from_first (fun x => m (fst x)) l with [] => if m k then CNil else CNil | _ :: _ => CNil end).
    assert (GN : forall l k, G l k = CNil) by (intros l k; unfold G; destruct (from_first _ l); [destruct (m k)|]; reflexivity).
    change (with_client (waking m g0) c1) with (with_features (node_filter f) None (on_calls G) c) in U1.
    change (with_client (waking m g0) c2) with (with_features None None (waking m g0) c) in U2.
    destruct (filtered_calls c f G (waking m g0) sampling (dk (sv_tree sv)) p1 u1 p2 u2 ND) as (A & B & _); auto.
    - intros tr n. unfold ignoring, g0. rewrite waking_nil, GN, if_same. reflexivity.
    - split; [|exact B]. destruct A as [A|((p & h & n & E) & _)]; [left; exact A|]. rewrite GN in E. discriminate. }
  destruct K as [KO KC]. apply agree_none in KO; [|intros p (h & n & E); discriminate]. subst p2.
  assert (V2 : visited s2 = from_first m (map fst (calls (s_trace u2)))) by (unfold visited; rewrite B2, from_first_map; reflexivity).
  assert (V1 : visited s1 = from_first m (filter f (map fst (calls (s_trace u2)))))
    by (unfold visited; rewrite B1, KC, <- map_fst_filter, from_first_map; reflexivity).
  split; [exact (alike_trans _ _ _ A1 (alike_sym _ _ A2))|]. rewrite V1, V2. set (V := map fst (calls (s_trace u2))). split.
  - intro E. apply none_first. intros y Hy. apply from_first_nil in E. rewrite forallb_forall in E. specialize (E y Hy).
    apply negb_true_iff in E. exact E.
  - intros x rest E. split; [|split].
    + destruct (first_split _ _ _ _ _ E) as (front & _ & M & _). exact M.
    + intro F. rewrite (first_of_filter _ m f _ _ _ E F), E. reflexivity.
    + intros F N. rewrite (first_of_filter_out _ m f _ _ _ E F). apply none_first. exact N.
Qed.
