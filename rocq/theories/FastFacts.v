(** Facts about fastward resumes: a fastward session against the ordinary session
    whose callback does nothing before the saved path is met. *)
From Verif Require Import Base Paths Level Lo Collections Kernel Session Spec KernelRel KernelFacts
  KernelInv WalkFacts StandsFacts JournalFacts SessionFacts WalkCor PathFacts WalkProps Simulate Feature
  Cases Resume SpecResume.
Local Open Scope list_scope.

(** ** Lists *)
Lemma from_first_app : forall A (f : A -> bool) a b,
  from_first f (a ++ b) = match from_first f a with [] => from_first f b | l => l ++ b end.
Proof.
  induction a as [|x a IH]; intro b; [reflexivity|]. cbn [from_first app].
  destruct (f x); [reflexivity|]. apply IH.
Qed.
Lemma from_first_nil : forall A (f : A -> bool) l, from_first f l = [] <-> forallb (fun x => negb (f x)) l = true.
Proof.
  induction l as [|x l IH]; cbn; [split; reflexivity|]. destruct (f x); cbn; [split; discriminate|exact IH].
Qed.
Lemma from_first_map : forall A B (h : A -> B) (f : B -> bool) l,
  from_first f (map h l) = map h (from_first (fun x => f (h x)) l).
Proof. induction l as [|x l IH]; [reflexivity|]. cbn. destruct (f (h x)); [reflexivity|exact IH]. Qed.
Lemma from_first_calls : forall m tr,
  from_first (fun x => m (fst x)) (calls tr) = calls (from_first (calls_node m) tr).
Proof.
  induction tr as [|e tr IH]; [reflexivity|].
  destruct e; cbn [calls from_first calls_node fst]; try exact IH. destruct (m n); [reflexivity|exact IH].
Qed.
Lemma seen_app : forall a b, seen (a ++ b) = seen a ++ seen b.
Proof. intros. apply filter_app. Qed.
Lemma without_app : forall f a b, without f (a ++ b) = without f a ++ without f b.
Proof. intros. apply filter_app. Qed.
Lemma calls_seen : forall tr, calls (seen tr) = calls tr.
Proof. induction tr as [|e tr IH]; [reflexivity|]. destruct e; cbn; fold (seen tr); rewrite ?IH; reflexivity. Qed.
Lemma calls_without : forall f tr, (forall n r, f (EvCall n r) = false) -> calls (without f tr) = calls tr.
Proof.
  intros f tr H. induction tr as [|e tr IH]; [reflexivity|]. cbn [without filter].
  destruct e; cbn [calls]; try (destruct (f _); cbn [negb calls]; exact IH).
  rewrite H. cbn [negb calls]. f_equal. exact IH.
Qed.

(** ** The mutes of a fastward session *)
Definition asleep : mutes := mute_all mutes_none.
Definition awake : mutes := unmute_all asleep.

Section Fast.
Variable c : cfg.
Variable sampling : bool.
Variable fc : fastcfg.
Variable g : list (node * cbres) -> node -> cbres.
Variable tree : string.
Hypothesis FOK : filter_ok c.
Hypothesis NE : fw_name fc <> ""%string.
Hypothesis NT : fw_name fc <> snd (split_path tree).
Hypothesis ND : fw_parent fc <> "."%string.

Variable cl : list event -> node -> cbres.
Hypothesis cl_eq : forall tr n, cl tr n = g (calls tr) n.

Notation m := (node_is (fw_parent fc) (fw_name fc)).
Notation c1 := (with_links (c_rescue c) (c_scheme c) (c_hib c) (Some fc) cl c).
Notation c2 := (with_links (c_rescue c) (c_scheme c) (c_hib c) (c_fast c) (waking m g) c).

Definition woken (s : st) : list event := from_first (calls_node m) (s_trace s).
Definition FR (s1 s2 : st) : Prop :=
  s_depth s1 = s_depth s2 /\ s_hib s1 = s_hib s2 /\
  s_mutes s2 = mutes_none /\ s_items s2 = chain c sampling false /\
  (m_files_out (s_metrics s1) = m_files_out (s_metrics s2) /\ m_dirs_out (s_metrics s1) = m_dirs_out (s_metrics s2) /\
   m_child (s_metrics s1) = m_child (s_metrics s2) /\ m_child_out (s_metrics s1) = m_child_out (s_metrics s2)) /\
  seen (s_trace s1) = without is_wake (seen (woken s2)) /\
  s_items s1 = chain c sampling (match woken s2 with [] => true | _ => false end) /\
  s_mutes s1 = match woken s2 with [] => asleep | _ => awake end.

Definition NR (n k : node) : Prop := n = k /\
  (n_parent n = None -> n_path n = tree /\ (n_name n = ""%string \/ n_name n = snd (split_path tree))).

Lemma FR_calls : forall s1 s2, FR s1 s2 -> calls (s_trace s1) = calls (woken s2).
Proof.
  intros s1 s2 (_ & _ & _ & _ & _ & S & _). rewrite <- (calls_seen (s_trace s1)), S, calls_without by reflexivity.
  apply calls_seen.
Qed.
Lemma waking_now : forall s1 s2 n, FR s1 s2 ->
  c_client c2 (s_trace s2) n =
  match woken s2 with [] => if m n then g [] n else CNil | _ => g (calls (s_trace s1)) n end.
Proof.
  intros s1 s2 n HR. cbn [c_client with_links]. unfold waking. rewrite from_first_calls. fold (woken s2).
  rewrite (FR_calls _ _ HR). destruct (woken s2) as [|e w] eqn:W; [reflexivity|].
  destruct (calls (e :: w)) as [|x l] eqn:C; [|reflexivity]. exfalso.
  assert (CE : calls_node m e = true).
  { revert W. unfold woken. induction (s_trace s2) as [|y l IH]; cbn [from_first]; [discriminate|].
    destruct (calls_node m y) eqn:Y; [|exact IH]. intro E. inversion E; subst. exact Y. }
  destruct e; cbn in CE; try discriminate.
Qed.

Lemma woken_emit : forall e s, woken (emit e s) =
  match woken s with [] => if calls_node m e then [e] else [] | l => l ++ [e] end.
Proof. intros e s. unfold woken. cbn [emit s_trace]. rewrite from_first_app. reflexivity. Qed.

Lemma FR_depth : forall d s1 s2, FR s1 s2 -> FR (set_depth d s1) (set_depth d s2).
Proof. intros d s1 s2 (A & B & C & D & E & F & G & H). unfold FR. cbn [set_depth s_depth s_hib s_mutes s_items s_trace s_metrics]. auto 12. Qed.
Lemma FR_hib : forall h s1 s2, FR s1 s2 -> FR (set_hib h s1) (set_hib h s2).
Proof. intros d s1 s2 (A & B & C & D & E & F & G & H). unfold FR. cbn [set_hib s_depth s_hib s_mutes s_items s_trace s_metrics]. auto 12. Qed.
Lemma FR_tick : forall k j s1 s2, FR s1 s2 -> FR (tick_by k j s1) (tick_by k j s2).
Proof.
  intros k j s1 s2 (A & B & C & D & (E1 & E2 & E3 & E4) & F & G & H). unfold FR.
  cbn [tick_by set_metrics s_depth s_hib s_mutes s_items s_trace s_metrics].
  change (woken (set_metrics (times k j (s_metrics s2)) s2)) with (woken s2).
  repeat (split; [solve [auto]|]). split; [|auto]. destruct k; cbn; repeat split; congruence.
Qed.
Lemma FR_ghost : forall e1 e2 s1 s2, seen [e1] = [] -> seen [e2] = [] -> FR s1 s2 -> FR (emit e1 s1) (emit e2 s2).
Proof.
  intros e1 e2 s1 s2 S1 S2 (A & B & C & D & E & F & G & H).
  assert (NC : calls_node m e2 = false) by (destruct e2; try reflexivity; discriminate).
  unfold FR. rewrite woken_emit, NC. cbn [emit s_depth s_hib s_mutes s_items s_trace s_metrics].
  rewrite seen_app, S1, app_nil_r, F. repeat (split; [solve [auto]|]).
  destruct (woken s2) as [|x l]; [auto|]. split; [|auto].
  change (seen ((x :: l) ++ [e2])) with (seen ((x :: l) ++ [e2])). rewrite seen_app, S2, app_nil_r. reflexivity.
Qed.
(** A notification which is muted before the saved path is met. *)
Lemma FR_notice : forall (mu : mutes -> bool) e s1 s2, FR s1 s2 -> calls [e] = [] ->
  mu mutes_none = false -> mu asleep = true -> mu awake = is_wake e -> is_end_notice e = false ->
  FR (dispatch (mu (s_mutes s1)) e s1) (dispatch (mu (s_mutes s2)) e s2).
Proof.
  intros mu e s1 s2 HR CE M0 MA MW NEN. assert (X := HR). destruct X as (A & B & C & D & E & F & G & H).
  assert (NC : calls_node m e = false) by (destruct e; try reflexivity; discriminate).
  rewrite C, M0. cbn [dispatch]. unfold FR. rewrite woken_emit, NC.
  cbn [emit s_depth s_hib s_mutes s_items s_trace s_metrics].
  destruct (woken s2) as [|x l] eqn:W.
  - rewrite H, MA. cbn [dispatch]. rewrite F, H, G. auto 12.
  - rewrite H, MW.
    rewrite seen_app, without_app, <- F. destruct (is_wake e) eqn:WE; cbn [dispatch].
    + destruct e; try discriminate. cbn. rewrite app_nil_r, H. auto 12.
    + cbn [emit s_depth s_hib s_mutes s_items s_trace s_metrics]. rewrite seen_app.
      repeat (split; [solve [auto]|]). split; [|auto].
      f_equal. unfold seen, without. destruct e; try discriminate; reflexivity.
Qed.

(** *** The links before the fastward link *)
Definition pre : list role :=
  role_if (has (c_hib c)) RoleHibernate ++ role_if (has_nanny c) RoleNanny ++
  role_if (has (c_scheme c)) RoleClientFilter ++ role_if sampling RoleSampler.
Lemma chain_pre : forall b, chain c sampling b = pre ++ role_if b RoleFastward ++ [RoleAnchor].
Proof. intro b. unfold chain, pre. rewrite <- !app_assoc. reflexivity. Qed.

Definition KOK (n : node) (k : contents) : Prop :=
  (c_sub c = SubDirectories \/ c_sub c = SubDirectoriesWithFiles -> k <> None) /\ node_cargo n k.

Definition same_node (n n1 : node) : Prop := exists cs, n1 = with_children cs n \/ n1 = n.

Definition locked (n : node) (x1 x2 : linkres) : Prop :=
  exists o n1 s1 s2, x1 = (o, n1, s1) /\ x2 = (o, n1, s2) /\ FR s1 s2 /\
    (exists b e, o = Ret (b, e)) /\ (n1 = n \/ exists cs, n1 = with_children cs n).

Lemma locked_ret : forall n b e n1 s1 s2, FR s1 s2 -> (n1 = n \/ exists cs, n1 = with_children cs n) ->
  locked n (Ret (b, e), n1, s1) (Ret (b, e), n1, s2).
Proof. intros. unfold locked. eexists _, _, _, _. split; [reflexivity|]. split; [reflexivity|]. eauto. Qed.

Lemma primary_locked : forall p n k s1 s2, FR s1 s2 -> KOK n k ->
  (forall f, p = PrimaryNode f -> forall n, answers (f n)) ->
  locked n (primary_next p n k s1) (primary_next p n k s2).
Proof.
  intros p n k s1 s2 HR [_ NC] A. destruct p as [f|mm]; cbn [primary_next].
  - unfold match_next. destruct (A f eq_refl n) as [b ->]. destruct b; apply locked_ret; auto. apply FR_tick; exact HR.
  - unfold sampler_next. destruct (scope_is_tree (n_scope n)) eqn:E; [|apply locked_ret; auto].
    destruct k as [[fs ds]|]; [apply locked_ret; auto; apply FR_tick; exact HR|].
    rewrite (NC eq_refl) in E. discriminate.
Qed.
Lemma nanny_locked : forall mm n k s1 s2, FR s1 s2 -> k <> None -> (forall l, answers (mm l)) ->
  locked n (nanny_scheme_next c1 mm n k s1) (nanny_scheme_next c2 mm n k s2).
Proof.
  intros mm n k s1 s2 HR KN A. unfold nanny_scheme_next. change (c_sort c1) with (c_sort c). change (c_sort c2) with (c_sort c).
  destruct k as [[fs ds]|]; [|contradiction]. destruct (A (c_sort c fs)) as [l ->].
  apply locked_ret; eauto. apply FR_tick, FR_tick. exact HR.
Qed.

Lemma link_locked : forall r n k s1 s2, In r pre -> FR s1 s2 -> KOK n k ->
  locked n (link_next c1 r n k s1) (link_next c2 r n k s2).
Proof.
  intros r n k s1 s2 HI HR HK. unfold pre in HI.
  apply in_app_or in HI. destruct HI as [HI|HI].
  { assert (HB : exists h, c_hib c = Some h) by (destruct (c_hib c) as [h|]; [eauto|destruct HI]).
    destruct HB as [h HB]. rewrite HB in HI. cbn [has role_if] in HI. destruct HI as [<- |[]].
    cbn [link_next]. unfold hib_next. cbn [c_hib with_links]. rewrite HB.
    assert (HH := HR). destruct HH as (_ & HH & _). rewrite HH.
    destruct (proj2 FOK h HB n) as [[wb W] [sb S]]. rewrite W, S.
    destruct (s_hib s2).
    - destruct wb; [|apply locked_ret; auto]. destruct (hb_incl_wake h); (apply locked_ret; [|auto]);
        apply FR_hib; apply (FR_notice mu_wake); auto.
    - destruct sb; [|apply locked_ret; auto]. destruct (hb_incl_sleep h); (apply locked_ret; [|auto]);
        apply FR_hib; apply (FR_notice mu_sleep); auto.
    - apply locked_ret; auto. }
  apply in_app_or in HI. destruct HI as [HI|HI].
  { destruct (has_nanny c) eqn:HN; cbn [role_if] in HI; [|destruct HI]. destruct HI as [<- |[]].
    cbn [link_next]. unfold nanny_next. unfold has_nanny in HN. destruct (c_sub c) eqn:SU; try discriminate.
    destruct HK as [K _]. destruct k as [[fs ds]|]; [|exfalso; apply K; auto].
    apply locked_ret; eauto. apply (FR_tick ChildFilesFound _ _ _ HR). }
  apply in_app_or in HI. destruct HI as [HI|HI].
  { assert (SC : exists sc, c_scheme c = Some sc) by (destruct (c_scheme c) as [sc|]; [eauto|destruct HI]).
    destruct SC as [sc SC]. rewrite SC in HI. cbn [has role_if] in HI. destruct HI as [<- |[]].
    cbn [link_next]. unfold filter_next.
    assert (NL := nanny_locked). set (d1 := c1) in *. set (d2 := c2) in *.
    assert (S1 : c_scheme d1 = Some sc) by exact SC. assert (S2 : c_scheme d2 = Some sc) by exact SC.
    rewrite S1, S2. clearbody d1 d2.
    destruct (proj1 FOK sc SC) as (Hc & Hp & Hf & Hm).
    destruct sc as [[p|] [mm|]]; cbn [sc_primary sc_child] in *.
    - destruct (primary_locked p n k s1 s2 HR HK) as (o & n1 & u1 & u2 & -> & -> & RU & (b & e & ->) & N1).
      { intros f E. apply Hf. rewrite E. reflexivity. }
      destruct b; [|apply locked_ret; assumption].
      assert (KN : k <> None) by (apply HK; apply Hc; discriminate).
      destruct (NL mm n1 k u1 u2 RU KN (Hm mm eq_refl)) as (o & n2 & v1 & v2 & X1 & X2 & RV & (b & e2 & ->) & N2).
      rewrite X1, X2. apply locked_ret; [exact RV|].
      destruct N1 as [-> |[cs ->]]; destruct N2 as [-> |[cs2 ->]]; auto; right; eexists; reflexivity.
    - apply primary_locked; auto. intros f E. apply Hf. rewrite E. reflexivity.
    - apply NL; auto. apply HK, Hc. discriminate.
    - exfalso. apply Hp; reflexivity. }
  destruct sampling; cbn [role_if] in HI; [|destruct HI]. destruct HI as [<- |[]].
  apply locked_ret; auto.
Qed.

(** *** The fastward link and the client *)
Lemma chain_unwound : filter (fun r => negb (role_eqb r RoleFastward)) (chain c sampling true) = chain c sampling false.
Proof. unfold chain. destruct (has (c_hib c)), (has_nanny c), (has (c_scheme c)), sampling; reflexivity. Qed.

Lemma fast_match_is : forall n, NR n n -> fast_match fc n = Ret (m n).
Proof.
  intros n [_ HP]. unfold fast_match, node_is. destruct (String.eqb (n_name n) (fw_name fc)) eqn:E; [|reflexivity].
  destruct (n_parent n) as [p|].
  - apply String.eqb_neq in ND. rewrite ND, orb_false_r. reflexivity.
  - exfalso. apply String.eqb_eq in E. destruct (HP eq_refl) as [_ [X|X]]; congruence.
Qed.

Definition locked_out (n : node) (x1 x2 : outcome (option error) * node * st) : Prop :=
  exists o s1 s2 n1, x1 = (o, n1, s1) /\ x2 = (o, n1, s2) /\ FR s1 s2 /\
    (n1 = n \/ exists cs, n1 = with_children cs n) /\ (forall p, o = Pan p -> exists h k, g h k = CPanic p).

Lemma anchor_locked : forall n k s1 s2, FR s1 s2 -> woken s2 <> [] ->
  locked_out n (iterate c1 [RoleAnchor] n k s1) (iterate c2 [RoleAnchor] n k s2).
Proof.
  intros n k s1 s2 HR WN. rewrite (iterate_anchor c1), (iterate_anchor c2).
  unfold call_out, after_call. rewrite (waking_now _ _ n HR). cbn [c_client with_links]. rewrite !cl_eq.
  destruct (woken s2) as [|x l] eqn:W; [contradiction|].
  set (r := g (calls (s_trace s1)) n).
  exists (match r with CNil => Ret None | CErr e => Ret (Some e) | CPanic p => Pan p end). eexists _, _, n.
  split; [reflexivity|]. split; [reflexivity|]. split; [|split; [auto|]].
  - assert (HT := FR_tick (if n_isdir n then DirectoriesInvoked else FilesInvoked) 1 _ _ HR).
    set (u1 := tick_by _ 1 s1) in *. set (u2 := tick_by _ 1 s2) in *.
    assert (WU : woken u2 = x :: l) by exact W. clearbody u1 u2.
    destruct HT as (A & B & C & D & E & F & G & H). rewrite WU in *. unfold FR. rewrite woken_emit, WU.
    cbn [emit s_depth s_hib s_mutes s_items s_trace s_metrics].
    rewrite !seen_app, without_app, <- F. auto 12.
  - intros p E. exists (calls (s_trace s1)), n. fold r. destruct r; inversion E. reflexivity.
Qed.

Lemma last_locked : forall n k s1 s2, FR s1 s2 -> NR n n ->
  locked_out n
    (iterate c1 (role_if (match woken s2 with [] => true | _ => false end) RoleFastward ++ [RoleAnchor]) n k s1)
    (iterate c2 [RoleAnchor] n k s2).
Proof.
  intros n k s1 s2 HR HN. destruct (woken s2) as [|x l] eqn:W;
    [|cbn [role_if app]; apply anchor_locked; [exact HR|congruence]].
  cbn [role_if app]. rewrite (iterate_anchor c2).
  assert (I1 : iterate c1 [RoleFastward; RoleAnchor] n k s1 =
     if m n then iterate c1 [RoleAnchor] n k (set_mutes (unmute_all (s_mutes s1))
             (set_items (filter (fun r => negb (role_eqb r RoleFastward)) (s_items s1)) s1))
     else (Ret None, n, s1)).
  { change (iterate c1 [RoleFastward; RoleAnchor] n k s1) with
      (match fast_next c1 n s1 with
       | (Ret (next, err), n1, s1) =>
          match next, err with true, None => iterate c1 [RoleAnchor] n1 k s1 | _, _ => (Ret err, n1, s1) end
       | (Pan p, n1, s1) => (Pan p, n1, s1) | (Stuck, n1, s1) => (Stuck, n1, s1) end).
    unfold fast_next. change (c_fast c1) with (Some fc). cbv iota beta.
    rewrite (fast_match_is n HN). destruct (m n); reflexivity. }
  rewrite I1. clear I1. unfold call_out, after_call.
  rewrite (waking_now _ _ n HR), W.
  set (d := if n_isdir n then DirectoriesInvoked else FilesInvoked).
  assert (X := FR_tick d 1 _ _ HR). assert (CA := FR_calls _ _ HR).
  destruct X as (A & B & C & D & E & F & G & H).
  change (woken (tick_by d 1 s2)) with (woken s2) in *. rewrite W in *.
  destruct (m n) eqn:M.
  - rewrite (iterate_anchor c1). unfold call_out, after_call.
    cbn [set_mutes set_items s_trace c_client with_links]. rewrite !cl_eq. rewrite CA. cbn [calls].
    set (r := g [] n).
    exists (match r with CNil => Ret None | CErr e => Ret (Some e) | CPanic p => Pan p end). eexists _, _, n.
    split; [reflexivity|]. split; [reflexivity|]. split; [|split; [auto|]].
    + fold d. unfold FR. rewrite woken_emit. change (woken (tick_by d 1 s2)) with (woken s2). rewrite W. cbn [calls_node]. rewrite M.
      cbn [tick_by set_metrics set_mutes set_items emit s_depth s_hib s_mutes s_items s_trace s_metrics] in *.
      rewrite seen_app, F, G, H. split; [exact A|]. split; [exact B|]. split; [exact C|]. split; [exact D|].
      split; [exact E|]. split; [reflexivity|]. split; [apply chain_unwound|reflexivity].
    + intros p Ep. exists [], n. fold r. destruct r; inversion Ep. reflexivity.
  - exists (Ret None). eexists _, _, n. split; [reflexivity|]. split; [reflexivity|]. split; [|split; [auto|discriminate]].
    unfold FR. rewrite woken_emit. fold d. change (woken (tick_by d 1 s2)) with (woken s2). rewrite W. cbn [calls_node]. rewrite M.
    cbn [tick_by set_metrics emit s_depth s_hib s_mutes s_items s_trace s_metrics] in *.
    split; [exact A|]. split; [exact B|]. split; [exact C|]. split; [exact D|]. split; [|auto].
    unfold d in *. destruct HR as (_ & _ & _ & _ & E0 & _). destruct (n_isdir n); exact E0.
Qed.

Lemma NR_with : forall n cs, NR n n -> NR (with_children cs n) (with_children cs n).
Proof. intros n cs [_ H]. split; [reflexivity|exact H]. Qed.
Lemma KOK_with : forall n cs k, KOK n k -> KOK (with_children cs n) k.
Proof. intros n cs k H. exact H. Qed.

Definition asleep_yet (s : st) : bool := match woken s with [] => true | _ => false end.
Lemma FR_phase : forall s1 s2 s1' s2', FR s1 s2 -> FR s1' s2' -> s_mutes s1' = s_mutes s1 ->
  asleep_yet s2' = asleep_yet s2.
Proof.
  intros s1 s2 s1' s2' (_ & _ & _ & _ & _ & _ & _ & H) (_ & _ & _ & _ & _ & _ & _ & H') E. unfold asleep_yet.
  destruct (woken s2), (woken s2'); try reflexivity; exfalso; rewrite H, H' in E; discriminate E.
Qed.

Lemma iterate_locked : forall rs, (forall r, In r rs -> In r pre) -> forall n k s1 s2, FR s1 s2 -> NR n n -> KOK n k ->
  locked_out n (iterate c1 (rs ++ role_if (asleep_yet s2) RoleFastward ++ [RoleAnchor]) n k s1)
    (iterate c2 (rs ++ [RoleAnchor]) n k s2).
Proof.
  induction rs as [|r rs IH]; intros HP n k s1 s2 HR HN HK.
  - cbn [app]. unfold asleep_yet. apply last_locked; assumption.
  - cbn [app iterate].
    destruct (link_locked r n k s1 s2 (HP r (or_introl eq_refl)) HR HK)
      as (o & n1 & u1 & u2 & X1 & X2 & RU & (b & e & ->) & N1).
    assert (PH : asleep_yet u2 = asleep_yet s2).
    { apply (FR_phase _ _ _ _ HR RU). apply link_static in X1; [apply X1|].
      intro X. subst r. pose proof (HP _ (or_introl eq_refl)) as Y. unfold pre in Y.
      destruct (has (c_hib c)), (has_nanny c), (has (c_scheme c)), sampling; cbn in Y; intuition discriminate. }
    rewrite X1, X2. rewrite <- PH.
    assert (STOP : locked_out n (Ret e, n1, u1) (Ret e, n1, u2)).
    { eexists _, _, _, n1. split; [reflexivity|]. split; [reflexivity|]. split; [exact RU|]. split; [exact N1|discriminate]. }
    destruct b; [|exact STOP]. destruct e; [exact STOP|].
    destruct N1 as [-> |[cs ->]].
    + apply IH; auto. intros x Hx. apply HP. right. exact Hx.
    + destruct (IH (fun x Hx => HP x (or_intror Hx)) (with_children cs n) k u1 u2 RU (NR_with n cs HN) (KOK_with n cs k HK))
        as (o & v1 & v2 & n2 & Y1 & Y2 & RV & N2 & PO).
      eexists o, v1, v2, n2. split; [exact Y1|]. split; [exact Y2|]. split; [exact RV|]. split; [|exact PO].
      right. destruct N2 as [-> |[cs2 ->]]; eexists; reflexivity.
Qed.

Lemma invoke_locked : forall n k s1 s2 o1 m1 s1' o2 m2 s2', FR s1 s2 -> NR n n -> KOK n k ->
  invoke c1 n k s1 = (o1, m1, s1') -> invoke c2 n k s2 = (o2, m2, s2') ->
  o1 = o2 /\ NR m1 m2 /\ FR s1' s2' /\ (forall p, o2 = Pan p -> exists h n, g h n = CPanic p).
Proof.
  intros n k s1 s2 o1 m1 s1' o2 m2 s2' HR HN HK I1 I2. unfold invoke in I1, I2.
  assert (X := HR). destruct X as (_ & _ & _ & D & _ & _ & G & _). rewrite D in I2. rewrite G in I1.
  fold (asleep_yet s2) in I1. rewrite chain_pre in I1, I2. cbn [role_if app] in I2.
  destruct (iterate_locked pre (fun r H => H) n k s1 s2 HR HN HK) as (o & v1 & v2 & n2 & Y1 & Y2 & RV & N2 & PO).
  rewrite Y1 in I1. rewrite Y2 in I2. inversion I1; inversion I2; subst.
  split; [reflexivity|]. split; [|split; [|exact PO]].
  - destruct N2 as [-> |[cs ->]]; [exact HN|apply NR_with; exact HN].
  - apply FR_ghost; [reflexivity|reflexivity|exact RV].
Qed.

Lemma NR_extends : forall n k s, NR n n -> NR (extend c tree n k s) (extend c tree n k s).
Proof.
  intros n k s [_ H]. split; [reflexivity|]. unfold extend. destruct (split_path (n_path n)) as [a b] eqn:SP. cbn.
  intro E. destruct (H E) as [P _]. split; [exact P|]. right. rewrite <- P, SP. reflexivity.
Qed.

Lemma top_locked : forall t s1 s2 o1 s1' o2 s2', FR s1 s2 ->
  top c1 tree t s1 = (o1, s1') -> top c2 tree t s2 = (o2, s2') -> alike o1 o2 /\ FR s1' s2'.
Proof.
  intros t s1 s2 o1 s1' o2 s2' R0 H1 H2. unfold top in H1, H2.
  change (c_stat c1) with (c_stat c) in H1. change (c_stat c2) with (c_stat c) in H2.
  change (c_fault c1) with (c_fault c) in H1. change (c_fault c2) with (c_fault c) in H2.
  destruct (c_stat c t) as [er|]; [inversion H1; inversion H2; subst; auto using alike_refl|].
  destruct (traverse (S (height t)) c1 tree (new_node tree t None None []) s1) as [t1 v1] eqn:T1.
  destruct (traverse (S (height t)) c2 tree (new_node tree t None None []) s2) as [t2 v2] eqn:T2.
  assert (LK : same_res (fun p => exists h n, g h n = CPanic p) t1 t2 /\ FR v1 v2).
  { assert (K : together FR (fun _ _ => False) (fun p => exists h n, g h n = CPanic p) t1 t2 v1 v2);
      [|destruct K as [(A & B & _)|[]]; auto].
    assert (N0 : NR (new_node tree t None None []) (new_node tree t None None [])).
    { split; [reflexivity|]. intros _. split; [reflexivity|]. left. reflexivity. }
    refine (lockstep_links c (c_rescue c) (c_rescue c) (c_scheme c) (c_scheme c) (c_hib c) (c_hib c) (Some fc) (c_fast c) cl (waking m g) tree NR
        _ _ _ _ _ _ FR (fun _ _ => False) (fun p => exists h n, g h n = CPanic p) _ _ _ _ _ _ _ _ _ _ _ _ _ _ _ _ N0 R0 T1 T2);
      try (intros n k [-> _]; reflexivity).
    - intros p q i e [-> _]. split; [reflexivity|]. discriminate.
    - intros n k kk a b HN E. assert (X := HN). destruct X as [-> _].
      assert (EX : extend c tree k kk a = extend c tree k kk b) by (unfold extend; rewrite E; reflexivity).
      rewrite EX. apply NR_extends. exact HN.
    - intros n k kk e [-> _]. reflexivity.
    - intros n k a b d [-> _] RAB. exact (FR_notice mu_descend (EvDescend k) _ _ (FR_depth d a b RAB) eq_refl eq_refl eq_refl eq_refl eq_refl).
    - intros n k a b d [-> _] RAB. exact (FR_notice mu_ascend (EvAscend k) _ _ (FR_depth d a b RAB) eq_refl eq_refl eq_refl eq_refl eq_refl).
    - intros n k a b _ RAB. apply FR_ghost; try reflexivity. exact RAB.
    - intros n k kk a b x1 m1 a' x2 m2 b' HN RAB (K1 & K2 & K3) I1 I2. left.
      assert (X := HN). destruct X as [-> _]. eapply invoke_locked; eauto. split; assumption.
    - intros a b [].
    - intros a b []. }
  destruct LK as [SR RV]. apply same_agree, agree_alike in SR.
  assert (E1 : (fate t1, v1) = (o1, s1')) by (destruct t1 as [[b e]|p|]; exact H1).
  assert (E2 : (fate t2, v2) = (o2, s2')) by (destruct t2 as [[b e]|p|]; exact H2).
  inversion E1; inversion E2; subst. auto.
Qed.

Lemma FR_start : FR
  (dispatch (mu_begin asleep) (EvBegin (c_tree c)) (set_mutes asleep (init_st (chain c sampling true) (start_hib c))))
  (dispatch (mu_begin mutes_none) (EvBegin (c_tree c)) (init_st (chain c sampling false) (start_hib c))).
Proof. unfold FR. repeat split. Qed.
End Fast.

(** ** A traversal notifies neither Begin nor End *)
Definition inner_event (e : event) : bool := match e with EvBegin _ | EvEnd _ => false | _ => true end.
Definition inner (s s1 : st) : Prop := exists tr, s_trace s1 = s_trace s ++ tr /\ forallb inner_event tr = true.
Lemma inner_refl : forall s, inner s s.
Proof. intro s. exists []. rewrite app_nil_r. auto. Qed.
Lemma inner_trans : forall a b d, inner a b -> inner b d -> inner a d.
Proof.
  intros a b d (x & X & FX) (y & Y & FY). exists (x ++ y). rewrite Y, X, app_assoc, forallb_app, FX, FY. auto.
Qed.
Lemma inner_same : forall s s1, s_trace s1 = s_trace s -> inner s s1.
Proof. intros s s1 E. exists []. rewrite app_nil_r. auto. Qed.
Lemma inner_emit : forall e s s1, inner_event e = true -> s_trace s1 = s_trace s ++ [e] -> inner s s1.
Proof. intros e s s1 E T. exists [e]. cbn. rewrite E. auto. Qed.
Lemma inner_dispatch : forall b e s, inner_event e = true -> inner s (dispatch b e s).
Proof. intros [|] e s E; [apply inner_refl|]. eapply inner_emit; [exact E|reflexivity]. Qed.
Lemma link_inner : forall c r n k s o n1 s1, link_next c r n k s = (o, n1, s1) -> inner s s1.
Proof.
  intros c r n k s o n1 s1 H. destruct r; cbn [link_next] in H.
  - inversion H; subst; apply inner_refl.
  - unfold anchor_next in H. destruct (c_client c _ n) eqn:CC; inversion H; subst;
      (eapply inner_emit; [|reflexivity]; reflexivity).
  - assert (PR : forall p n' s' o' n2 s2, primary_next p n' k s' = (o', n2, s2) -> s_trace s2 = s_trace s').
    { intros p n' s' o' n2 s2 P. destruct p as [f|m]; cbn in P.
      - unfold match_next in P. destruct (f n') as [[|]|]; inversion P; subst; reflexivity.
      - unfold sampler_next in P. destruct (scope_is_tree _); [destruct k as [[fs ds]|]|]; inversion P; subst; reflexivity. }
    assert (NN : forall m n' s' o' n2 s2, nanny_scheme_next c m n' k s' = (o', n2, s2) -> s_trace s2 = s_trace s').
    { intros m n' s' o' n2 s2 P. unfold nanny_scheme_next in P.
      destruct k as [[fs ds]|]; [destruct (m (c_sort c fs))|]; inversion P; subst; reflexivity. }
    apply inner_same. unfold filter_next in H. destruct (c_scheme c) as [[[p|] [m|]]|]; cbn in H.
    + destruct (primary_next p n k s) as [[po pn] ps] eqn:P. apply PR in P.
      destruct po as [[[|] e]|q|]; try (inversion H; subst; exact P).
      destruct (nanny_scheme_next c m pn k ps) as [[no nn] ns] eqn:N. apply NN in N.
      destruct no as [[b e2]|q|]; inversion H; subst; congruence.
    + eapply PR; eassumption.
    + eapply NN; eassumption.
    + inversion H; subst; reflexivity.
    + inversion H; subst; reflexivity.
  - unfold hib_next in H. destruct (c_hib c) as [h|]; [|inversion H; subst; apply inner_refl].
    assert (SD : forall b e x, inner_event e = true -> inner s (set_hib x (dispatch b e s))).
    { intros b e x E. apply (inner_trans _ (dispatch b e s)); [apply inner_dispatch; exact E|]. apply inner_same. reflexivity. }
    destruct (s_hib s).
    + destruct (hb_wake h n) as [[|]|]; [destruct (hb_incl_wake h)| |]; inversion H; subst; auto using inner_refl.
    + destruct (hb_sleep h n) as [[|]|]; [destruct (hb_incl_sleep h)| |]; inversion H; subst; auto using inner_refl.
    + inversion H; subst; apply inner_refl.
  - inversion H; subst; apply inner_refl.
  - unfold nanny_next in H. destruct k as [[fs ds]|]; inversion H; subst; apply inner_same; reflexivity.
  - unfold fast_next in H. destruct (c_fast c) as [f|]; [|inversion H; subst; apply inner_refl].
    destruct (fast_match f n) as [[|]|p|]; inversion H; subst; apply inner_same; reflexivity.
Qed.
Lemma traverse_inner : forall c tree f n s o s1, traverse f c tree n s = (o, s1) -> inner s s1.
Proof.
  intros c tree. apply (keep_traverse c tree inner inner_refl inner_trans).
  - intros n s ok s1 D. unfold descend in D. destruct (per_descend (c_depth c) (s_depth s)) as [[|] d]; inversion D; subst;
      [|apply inner_refl]. apply (inner_trans _ (set_depth d s)); [apply inner_same; reflexivity|].
    apply inner_dispatch. reflexivity.
  - intros n s. unfold ascend. apply (inner_trans _ (set_depth (per_ascend (s_depth s)) s)); [apply inner_same; reflexivity|].
    apply inner_dispatch. reflexivity.
  - intros n s. eapply inner_emit; [|reflexivity]. reflexivity.
  - intros n k s o n1 s1 H. unfold invoke in H.
    destruct (iterate c (s_items s) n k s) as [[io inn] is_] eqn:IT.
    assert (X : forall rs n k s o n1 s1, iterate c rs n k s = (o, n1, s1) -> inner s s1).
    { clear. induction rs as [|r rs IH]; cbn [iterate]; intros n k s o n1 s1 H.
      - inversion H; subst; apply inner_refl.
      - destruct (link_next c r n k s) as [[lo ln] ls] eqn:L. apply link_inner in L.
        destruct lo as [[[|] [er|]]|p|]; try (inversion H; subst; exact L).
        eapply inner_trans; [exact L|eapply IH; eassumption]. }
    apply X in IT. inversion H; subst. eapply inner_trans; [exact IT|]. eapply inner_emit; [|reflexivity]. reflexivity.
Qed.
Lemma top_inner : forall c tree t s o s1, top c tree t s = (o, s1) -> inner s s1.
Proof.
  intros c tree t s o s1 H. unfold top in H. destruct (c_stat c t); [inversion H; subst; apply inner_refl|].
  destruct (traverse (S (height t)) c tree (new_node tree t None None []) s) as [to ts] eqn:T.
  apply traverse_inner in T. destruct to as [[b e]|p|]; inversion H; subst; exact T.
Qed.
Lemma inner_no_end : forall tr, forallb inner_event tr = true -> filter is_end_notice tr = [].
Proof.
  induction tr as [|e tr IH]; [reflexivity|]. cbn. intro H. apply andb_true_iff in H. destruct H as [E H].
  destruct e; try discriminate; cbn; apply IH; exact H.
Qed.

(** ** The session *)
Definition returned {A} (o : outcome A) : bool := match o with Ret _ => true | _ => false end.

Theorem fastward_locked : forall c sampling pc dk sv g o1 s1 o2 s2,
  filter_ok c -> c_tree c = sv_tree sv ->
  let d := pc_dir pc (sv_path sv) in
  let b := pc_base pc (sv_path sv) in
  d <> "."%string -> b <> ""%string -> b <> snd (split_path (sv_tree sv)) ->
  (forall tr n, c_client c tr n = g (calls tr) n) ->
  fastward_session true c sampling pc dk sv = (o1, s1) ->
  session (with_client (waking (node_is d b) g) c) sampling (dk (sv_tree sv)) = (o2, s2) ->
  let met := from_first (calls_node (node_is d b)) (s_trace s2) in
  alike o1 o2 /\
  calls (s_trace s1) = from_first (fun x => node_is d b (fst x)) (calls (s_trace s2)) /\
  without is_end_notice (seen (s_trace s1)) = without is_end_notice (without is_wake (seen met)) /\
  filter is_end_notice (s_trace s1) =
    (if (match met with [] => false | _ => true end) && returned o1 then [EvEnd (s_metrics s1)] else []) /\
  m_files_out (s_metrics s1) = m_files_out (s_metrics s2) /\ m_dirs_out (s_metrics s1) = m_dirs_out (s_metrics s2) /\
  m_child (s_metrics s1) = m_child (s_metrics s2) /\ m_child_out (s_metrics s1) = m_child_out (s_metrics s2).
Proof.
  intros c sampling pc dk sv g o1 s1 o2 s2 FOK CT d b ND NE NT CQ H1 H2 met.
  set (m := node_is d b) in *.
  unfold fastward_session in H1. unfold session, navigate, start_st in H2.
  rewrite session_items_chain in H1, H2.
  set (fc := fast_of pc sv) in *.
  assert (R0 := FR_start c sampling fc).
  set (c1 := with_links (c_rescue c) (c_scheme c) (c_hib c) (Some fc) (c_client c) c) in *.
  set (c2 := with_links (c_rescue c) (c_scheme c) (c_hib c) (c_fast c) (waking m g) c) in *.
  change (set_fast (Some fc) c) with c1 in H1.
  change (with_client (waking m g) c) with c2 in H2.
  change (c_tree c1) with (c_tree c) in H1. change (c_tree c2) with (c_tree c) in H2. rewrite CT in H1, H2, R0.
  set (u1 := dispatch _ (EvBegin (sv_tree sv)) _) in H1. set (u2 := dispatch _ (EvBegin (sv_tree sv)) _) in H2.
  change (FR c sampling fc u1 u2) in R0.
  assert (G0 : filter is_end_notice (s_trace u1) = []) by reflexivity.
  clearbody u1 u2.
  destruct (top c1 (sv_tree sv) (dk (sv_tree sv)) u1) as [p1 v1] eqn:T1.
  destruct (top c2 (sv_tree sv) (dk (sv_tree sv)) u2) as [p2 v2] eqn:T2.
  destruct (top_locked c sampling fc g (sv_tree sv) FOK NE NT ND (c_client c) CQ _ _ _ _ _ _ _ R0 T1 T2) as [AO RV].
  apply top_inner in T1. destruct T1 as (x1 & X1 & I1). apply inner_no_end in I1.
  assert (GE : filter is_end_notice (s_trace v1) = []) by (rewrite X1, filter_app, G0, I1; reflexivity).
  clear X1 I1 G0 T2 R0. assert (CA := FR_calls _ _ _ _ _ RV).
  destruct RV as (_ & _ & M2 & _ & ME & SE & _ & M1). unfold woken in *.
  change (node_is (fw_parent fc) (fw_name fc)) with m in *.
  pose proof (alike_shape _ _ AO) as SH. destruct p1 as [e1|q1|], p2 as [e|p|]; try contradiction.
  - inversion H1; inversion H2; subst o1 s1 o2 s2. clear H1 H2. unfold met. clear met. rewrite M2.
    cbn [mutes_none mu_end dispatch].
    rewrite from_first_calls. cbn [emit s_trace s_metrics].
    rewrite from_first_app. destruct (from_first (calls_node m) (s_trace v2)) as [|y l] eqn:W.
    + rewrite M1. cbn [asleep mute_all mu_end dispatch from_first calls_node].
      split; [exact AO|]. split; [rewrite CA; reflexivity|]. rewrite SE, GE.
      split; [reflexivity|]. split; [reflexivity|exact ME].
    + rewrite M1. cbn [awake unmute_all mu_end dispatch emit s_trace s_metrics returned].
      split; [exact AO|]. split; [rewrite !calls_app, CA; reflexivity|].
      rewrite !seen_app, !without_app, SE, filter_app, GE. split; [reflexivity|]. split; [|exact ME]. reflexivity.
  - inversion H1; inversion H2; subst o1 s1 o2 s2. clear H1 H2. unfold met. rewrite from_first_calls.
    split; [exact AO|]. split; [exact CA|]. rewrite SE, GE. split; [reflexivity|]. split; [|exact ME].
    cbn [returned]. rewrite andb_false_r. reflexivity.
  - inversion H1; inversion H2; subst o1 s1 o2 s2. clear H1 H2. unfold met. rewrite from_first_calls.
    split; [exact AO|]. split; [exact CA|]. rewrite SE, GE. split; [reflexivity|]. split; [|exact ME].
    cbn [returned]. rewrite andb_false_r. reflexivity.
Qed.
