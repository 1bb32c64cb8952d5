(** Hibernation: the hibernating session against the plain one. *)
From Verif Require Import Base Paths Level Lo Collections Kernel Session Spec KernelRel KernelFacts
  KernelInv WalkFacts StandsFacts JournalFacts SessionFacts WalkCor PathFacts WalkProps Simulate Feature.

Section Hib.
Variable c : cfg.
Variable hb : hibcfg.
Variable sampling : bool.
Notation c1 := (with_features None (Some hb) cnil c).
Notation c2 := (with_features None None cnil c).

(** The nodes of both sessions are compared through [psi]. *)
Variable psi : node -> node.
Definition NR (n m : node) : Prop := psi n = psi m.
Hypothesis psi_path : forall n m, NR n m -> n_path n = n_path m.
Hypothesis psi_src : forall n m, NR n m -> n_src n = n_src m.
Hypothesis psi_isdir : forall n m, NR n m -> n_isdir n = n_isdir m.
Hypothesis psi_child : forall p q i e, NR p q -> NR (child_node p i e) (child_node q i e).
Hypothesis psi_extend : forall n m k s1 s2, NR n m -> s_depth s1 = s_depth s2 ->
  NR (extend c (c_tree c) n k s1) (extend c (c_tree c) m k s2).
Hypothesis psi_ask : forall n m k e, NR n m -> c_ask c n k e = c_ask c m k e.
Hypothesis psi_nanny : has_nanny (with_scheme None c) = true -> forall n cs, psi (with_children cs n) = psi n.
Hypothesis hb_answers : forall n, answers (hb_wake hb n) /\ answers (hb_sleep hb n).
Hypothesis psi_wake : forall n, hb_wake hb (psi n) = hb_wake hb n.
Hypothesis psi_sleep : forall n, hb_sleep hb (psi n) = hb_sleep hb n.

Definition cont (h : hibstate) (l : list node) : list node :=
  match h with
  | HibPending => from_wake hb (hb_wake hb) l
  | HibActive => until_sleep hb l
  | HibRetired => []
  end.
Definition seen (s : st) : list node := map psi (visited s).

Definition HC (s1 s2 : st) : Prop :=
  s_mutes s1 = mutes_none /\ s_mutes s2 = mutes_none /\
  s_items s1 = chain c1 sampling false /\ s_items s2 = chain c2 sampling false /\
  forall ext, segment hb (seen s2 ++ ext) = seen s1 ++ cont (s_hib s1) ext.
Definition HR (s1 s2 : st) : Prop := s_depth s1 = s_depth s2 /\ s_hib s1 <> HibRetired /\ HC s1 s2.
Definition HS (s1 s2 : st) : Prop := s_hib s1 = HibRetired /\ HC s1 s2.

Lemma seen_emit : forall e s, calls [e] = [] -> seen (emit e s) = seen s.
Proof. intros e s E. unfold seen, visited. cbn [emit s_trace]. rewrite calls_app, E, app_nil_r. reflexivity. Qed.
Lemma HC_emit : forall e1 e2 s1 s2, calls [e1] = [] -> calls [e2] = [] -> HC s1 s2 -> HC (emit e1 s1) (emit e2 s2).
Proof. intros e1 e2 s1 s2 E1 E2 (A & B & C & D & E). unfold HC. rewrite !seen_emit by assumption. auto. Qed.
Lemma HC_emit1 : forall e1 s1 s2, calls [e1] = [] -> HC s1 s2 -> HC (emit e1 s1) s2.
Proof. intros e1 s1 s2 E1 (A & B & C & D & E). unfold HC. rewrite seen_emit by assumption. auto. Qed.
Lemma HC_emit2 : forall e1 s1 s2, calls [e1] = [] -> HC s1 s2 -> HC s1 (emit e1 s2).
Proof. intros e1 s1 s2 E1 (A & B & C & D & E). unfold HC. rewrite seen_emit by assumption. auto. Qed.
Lemma HC_depth : forall d1 d2 s1 s2, HC s1 s2 -> HC (set_depth d1 s1) (set_depth d2 s2).
Proof. intros d1 d2 s1 s2 (A & B & C & D & E). repeat split; auto. Qed.
Lemma HC_depth1 : forall d1 s1 s2, HC s1 s2 -> HC (set_depth d1 s1) s2.
Proof. intros d1 s1 s2 (A & B & C & D & E). repeat split; auto. Qed.
Lemma HC_depth2 : forall d1 s1 s2, HC s1 s2 -> HC s1 (set_depth d1 s2).
Proof. intros d1 s1 s2 (A & B & C & D & E). repeat split; auto. Qed.

(** The plain chain. *)
Lemma plain_invoke : forall n k s, s_items s = chain c2 sampling false ->
  (has_nanny (with_scheme None c) = true -> k <> None) ->
  exists m u, invoke c2 n k s = (Ret None, m, u) /\ psi m = psi n /\
    seen u = seen s ++ [psi n] /\ s_mutes u = s_mutes s /\ s_items u = s_items s /\ s_depth u = s_depth s.
Proof.
  intros n k s I HN.
  assert (EI : invoke c2 n k s = let '(o, n1, s1) := iterate c2 (chain c2 sampling false) n k s in
     (o, n1, emit (EvOffer n1 (res_of o)) s1)) by (unfold invoke; rewrite I; reflexivity).
  rewrite EI. clear EI. unfold chain.
  cbn [has c_hib c_scheme with_features role_if app].
  change (has_nanny c2) with (has_nanny (with_scheme None c)).
  assert (TAIL : forall m s', psi m = psi n -> seen s' = seen s -> s_mutes s' = s_mutes s -> s_items s' = s_items s ->
    s_depth s' = s_depth s -> exists m0 u,
    (let '(o, n1, s1) := iterate c2 (role_if sampling RoleSampler ++ [RoleAnchor]) m k s' in
     (o, n1, emit (EvOffer n1 (res_of o)) s1)) = (Ret None, m0, u) /\ psi m0 = psi n /\
    seen u = seen s ++ [psi n] /\ s_mutes u = s_mutes s /\ s_items u = s_items s /\ s_depth u = s_depth s).
  { intros m s' E1 E2 E3 E4 E5. rewrite (iterate_tail c2 sampling). unfold call_out, after_call.
    cbn [c_client with_features cnil]. eexists _, _. split; [reflexivity|].
    split; [exact E1|]. rewrite seen_emit by reflexivity.
    unfold seen, visited. cbn [emit s_trace tick_by set_metrics s_mutes s_items s_depth].
    rewrite calls_app, !map_app. cbn [calls map fst].
    unfold seen, visited in E2. rewrite E2, E1. auto. }
  destruct (has_nanny (with_scheme None c)) eqn:HNN; cbn [role_if app].
  - destruct k as [[fs ds]|]; [|exfalso; apply HN; reflexivity].
    cbn [iterate link_next nanny_next]. apply TAIL; try reflexivity. apply psi_nanny; reflexivity.
  - apply TAIL; reflexivity.
Qed.

(** The hibernating chain. *)
Lemma hib_invoke : forall n k s, s_items s = chain c1 sampling false -> s_mutes s = mutes_none ->
  (has_nanny (with_scheme None c) = true -> k <> None) ->
  exists m u, invoke c1 n k s =
    ((match s_hib s with HibRetired => Ret (Some (Err SkipAll)) | _ => Ret None end), m, u) /\
    psi m = psi n /\ s_mutes u = s_mutes s /\ s_items u = s_items s /\ s_depth u = s_depth s /\
    (forall ext, seen s ++ cont (s_hib s) (psi n :: ext) = seen u ++ cont (s_hib u) ext) /\
    (s_hib s = HibRetired -> s_hib u = HibRetired /\ seen u = seen s).
Proof.
  intros n k s I M HN.
  assert (EI : invoke c1 n k s = let '(o, n1, s1) := iterate c1 (chain c1 sampling false) n k s in
     (o, n1, emit (EvOffer n1 (res_of o)) s1)) by (unfold invoke; rewrite I; reflexivity).
  rewrite EI. clear EI. unfold chain.
  cbn [has c_hib c_scheme with_features role_if app].
  change (has_nanny c1) with (has_nanny (with_scheme None c)).
  set (rest := role_if (has_nanny (with_scheme None c)) RoleNanny ++ role_if sampling RoleSampler ++ [RoleAnchor]).
  assert (REST : forall s', s_mutes s' = s_mutes s -> s_items s' = s_items s -> s_depth s' = s_depth s -> seen s' = seen s ->
    exists m0 u, iterate c1 rest n k s' = (Ret None, m0, u) /\ psi m0 = psi n /\ s_mutes u = s_mutes s /\
      s_items u = s_items s /\ s_depth u = s_depth s /\ s_hib u = s_hib s' /\ seen u = seen s ++ [psi n]).
  { intros s' E1 E2 E3 E4. unfold rest.
    assert (TAIL : forall m s'', psi m = psi n -> seen s'' = seen s -> s_mutes s'' = s_mutes s -> s_items s'' = s_items s ->
      s_depth s'' = s_depth s -> s_hib s'' = s_hib s' -> exists m0 u,
      iterate c1 (role_if sampling RoleSampler ++ [RoleAnchor]) m k s'' = (Ret None, m0, u) /\ psi m0 = psi n /\ s_mutes u = s_mutes s /\
      s_items u = s_items s /\ s_depth u = s_depth s /\ s_hib u = s_hib s' /\ seen u = seen s ++ [psi n]).
    { intros m s'' F1 F2 F3 F4 F5 F6. rewrite (iterate_tail c1 sampling). unfold call_out, after_call.
      cbn [c_client with_features cnil]. eexists _, _. split; [reflexivity|]. split; [exact F1|].
      unfold seen, visited. cbn [emit s_trace tick_by set_metrics s_mutes s_items s_depth s_hib].
      rewrite calls_app, !map_app. cbn [calls map fst]. unfold seen, visited in F2. rewrite F2, F1. auto. }
    destruct (has_nanny (with_scheme None c)) eqn:HNN; cbn [role_if app].
    - destruct k as [[fs ds]|]; [|exfalso; apply HN; reflexivity].
      cbn [iterate link_next nanny_next].
      apply TAIL; try assumption; try reflexivity. apply psi_nanny; reflexivity.
    - apply TAIL; try assumption; reflexivity. }
  cbn [iterate link_next]. unfold hib_next. cbn [c_hib with_features]. rewrite M. cbn [mu_wake mu_sleep mutes_none dispatch].
  destruct (s_hib s) eqn:ST.
  - destruct (proj1 (hb_answers n)) as [wb W]. rewrite W. destruct wb.
    + destruct (hb_incl_wake hb) eqn:IW.
      * destruct (REST (set_hib HibActive (emit EvWake s))) as (m0 & u & -> & A1 & A2 & A3 & A4 & A5 & A6); try reflexivity.
        { apply (seen_emit EvWake s). reflexivity. }
        eexists _, _. split; [reflexivity|].
        cbn [emit s_mutes s_items s_depth s_hib]. rewrite <- M. repeat split; auto; try discriminate.
        intro ext. rewrite seen_emit by reflexivity. cbn in A5. rewrite A5, A6. cbn [cont from_wake].
        rewrite psi_wake, W; cbn [yes]; rewrite IW. rewrite <- app_assoc. reflexivity.
      * eexists _, _. split; [reflexivity|]. cbn [emit s_mutes s_items s_depth s_hib set_hib].
        repeat split; auto; try discriminate.
        intro ext. rewrite seen_emit by reflexivity.
        change (seen (set_hib HibActive (emit EvWake s))) with (seen (emit EvWake s)).
        rewrite seen_emit by reflexivity. cbn [cont from_wake]. rewrite psi_wake, W; cbn [yes]; rewrite IW. reflexivity.
    + eexists _, _. split; [reflexivity|]. cbn [emit s_mutes s_items s_depth s_hib set_hib].
      repeat split; auto; try discriminate.
      intro ext. rewrite seen_emit by reflexivity. rewrite ST. cbn [cont from_wake]. rewrite psi_wake, W. reflexivity.
  - assert (HSL : forall m, match hb_sleep_at hb with Some f => yes (f m) | None => false end = yes (hb_sleep hb m)).
    { intro m. unfold hb_sleep. destruct (hb_sleep_at hb); reflexivity. }
    destruct (proj2 (hb_answers n)) as [wb W]. rewrite W. destruct wb.
    + destruct (hb_incl_sleep hb) eqn:IW.
      * destruct (REST (set_hib HibRetired (emit EvSleep s))) as (m0 & u & -> & A1 & A2 & A3 & A4 & A5 & A6); try reflexivity.
        { apply (seen_emit EvSleep s). reflexivity. }
        eexists _, _. split; [reflexivity|].
        cbn [emit s_mutes s_items s_depth s_hib]. rewrite <- M. repeat split; auto; try discriminate.
        intro ext. rewrite seen_emit by reflexivity. cbn in A5. rewrite A5, A6. cbn [cont until_sleep].
        rewrite HSL, psi_sleep, W; cbn [yes]; rewrite IW. rewrite app_nil_r. reflexivity.
      * eexists _, _. split; [reflexivity|]. cbn [emit s_mutes s_items s_depth s_hib set_hib].
        repeat split; auto; try discriminate.
        intro ext. rewrite seen_emit by reflexivity.
        change (seen (set_hib HibRetired (emit EvSleep s))) with (seen (emit EvSleep s)).
        rewrite seen_emit by reflexivity. cbn [cont until_sleep]. rewrite HSL, psi_sleep, W; cbn [yes]; rewrite IW. reflexivity.
    + destruct (REST s) as (m0 & u & -> & A1 & A2 & A3 & A4 & A5 & A6); try reflexivity.
      eexists _, _. split; [reflexivity|].
      cbn [emit s_mutes s_items s_depth s_hib]. rewrite <- M. repeat split; auto; try discriminate.
      intro ext. rewrite seen_emit by reflexivity. rewrite A5, A6, ST. cbn [cont until_sleep].
      rewrite HSL, psi_sleep, W. rewrite <- app_assoc. reflexivity.
  - eexists _, _. split; [reflexivity|]. cbn [emit s_mutes s_items s_depth s_hib set_hib].
    repeat split; auto.
    + intro ext. rewrite seen_emit by reflexivity. rewrite ST. reflexivity.
    + apply seen_emit. reflexivity.
Qed.

Lemma nanny_sub : has_nanny (with_scheme None c) = true -> c_sub c = SubDirectories \/ c_sub c = SubDirectoriesWithFiles.
Proof. unfold has_nanny. cbn. destruct (c_sub c); cbn; try discriminate. auto. Qed.

(** The plain chain keeps links and mutes and only extends the trace. *)
Lemma plain_any : forall n k o m s s', s_items s = chain c2 sampling false ->
  invoke c2 n k s = (o, m, s') -> s_items s' = s_items s /\ s_mutes s' = s_mutes s /\ exists l, seen s' = seen s ++ l.
Proof.
  intros n k o m s s' I E. unfold invoke in E. rewrite I in E.
  destruct (iterate c2 (chain c2 sampling false) n k s) as [[io im] is_] eqn:IT.
  destruct (iterate_static _ _ _ _ _ _ _ _ (chain_no_fast c2 sampling) IT) as [A B].
  inversion E; subst. cbn [emit s_items s_mutes]. split; [exact A|]. split; [exact B|].
  rewrite seen_emit by reflexivity. clear E A B I.
  unfold chain in IT. cbn [has c_hib c_scheme with_features role_if app] in IT.
  change (has_nanny c2) with (has_nanny (with_scheme None c)) in IT.
  assert (TAIL : forall n' u, iterate c2 (role_if sampling RoleSampler ++ [RoleAnchor]) n' k u = (o, m, is_) ->
    exists l, seen is_ = seen u ++ l).
  { intros n' u H. rewrite (iterate_tail c2 sampling) in H. inversion H; subst. eexists.
    unfold after_call, seen, visited. cbn [emit s_trace tick_by set_metrics].
    rewrite calls_app, !map_app. reflexivity. }
  destruct (has_nanny (with_scheme None c)); cbn [role_if app] in IT; [|eapply TAIL; exact IT].
  cbn [iterate link_next nanny_next] in IT. destruct k as [[fs ds]|].
  - destruct (TAIL _ _ IT) as [l E]. exists l. exact E.
  - inversion IT; subst. exists []. rewrite app_nil_r. reflexivity.
Qed.

Theorem hib_session : forall t o1 s1 o2 s2,
  session c1 sampling t = (o1, s1) -> session c2 sampling t = (o2, s2) ->
  seen s1 = segment hb (seen s2).
Proof.
  intros t o1 s1 o2 s2 H1 H2. unfold session, navigate, top in H1, H2.
  set (u1 := dispatch _ _ (start_st c1 sampling)) in H1.
  set (u2 := dispatch _ _ (start_st c2 sampling)) in H2.
  assert (R0 : HR u1 u2).
  { unfold u1, u2, start_st. rewrite !session_items_chain. repeat split.
    - cbn. unfold hb_launch. destruct (hb_wake_at hb); discriminate.
    - cbn. unfold segment, hb_launch, cont. intro ext. destruct (hb_wake_at hb) as [w|] eqn:W; [|reflexivity].
      induction ext as [|x ext IH]; [reflexivity|]. cbn [from_wake]. unfold hb_wake at 1. rewrite W, IH. reflexivity. }
  clearbody u1 u2.
  assert (END : forall (o1' o2' : outcome (option error)) v1 v2, HC v1 v2 ->
     (match o1' with Ret e => (Ret e, dispatch (mu_end (s_mutes v1)) (EvEnd (s_metrics v1)) v1) | x => (x, v1) end) = (o1, s1) ->
     (match o2' with Ret e => (Ret e, dispatch (mu_end (s_mutes v2)) (EvEnd (s_metrics v2)) v2) | x => (x, v2) end) = (o2, s2) ->
     seen s1 = segment hb (seen s2)).
  { intros o1' o2' v1 v2 (A & B & C & D & E) E1 E2. rewrite A in E1. rewrite B in E2. cbn in E1, E2.
    specialize (E []). rewrite !app_nil_r in E.
    assert (N : cont (s_hib v1) [] = []) by (destruct (s_hib v1); reflexivity). rewrite N, app_nil_r in E.
    destruct o1', o2'; inversion E1; inversion E2; subst; rewrite ?seen_emit by reflexivity; symmetry; exact E. }
  change (c_stat c1) with (c_stat c) in H1. change (c_stat c2) with (c_stat c) in H2.
  change (c_fault c1) with (c_fault c) in H1. change (c_fault c2) with (c_fault c) in H2.
  change (c_tree c1) with (c_tree c) in H1. change (c_tree c2) with (c_tree c) in H2.
  destruct (c_stat c t) as [er|].
  - eapply (END (Ret (c_fault c er)) (Ret (c_fault c er)) u1 u2); try assumption. apply R0.
  - destruct (traverse (S (height t)) c1 (c_tree c) (new_node (c_tree c) t None None []) u1) as [t1 v1] eqn:T1.
    destruct (traverse (S (height t)) c2 (c_tree c) (new_node (c_tree c) t None None []) u2) as [t2 v2] eqn:T2.
    assert (LK : HC v1 v2).
    { assert (K : together HR HS (fun _ => False) t1 t2 v1 v2);
        [|destruct K as [(_ & (_ & _ & B) & _)|(_ & B)]; exact B].
      refine (lockstep_links c (c_rescue c) (c_rescue c) None None (Some hb) None (c_fast c) (c_fast c) cnil cnil (c_tree c) NR psi_path psi_src psi_isdir psi_child
        psi_extend psi_ask HR HS (fun _ => False) _ _ _ _ _ _ _ _ _ _ _ _ _ _ _ _ eq_refl R0 T1 T2);
        change (with_links (c_rescue c) None (Some hb) (c_fast c) cnil c) with c1;
        change (with_links (c_rescue c) None None (c_fast c) cnil c) with c2.
      - intros a b RAB. apply RAB.
      - intros n m a b d NN (D0 & ST & RAB). assert (X := RAB). destruct X as (M1 & M2 & _). rewrite M1, M2.
        cbn [mu_descend mutes_none dispatch]. split; [reflexivity|]. split; [exact ST|].
        apply HC_emit; try reflexivity. apply HC_depth. exact RAB.
      - intros n m a b d NN (D0 & ST & RAB). assert (X := RAB). destruct X as (M1 & M2 & _). rewrite M1, M2.
        cbn [mu_ascend mutes_none dispatch]. split; [reflexivity|]. split; [exact ST|].
        apply HC_emit; try reflexivity. apply HC_depth. exact RAB.
      - intros n m a b _ (D0 & ST & RAB). split; [exact D0|]. split; [exact ST|]. apply HC_emit; try reflexivity. exact RAB.
      - intros n m k a b x1 m1 a' x2 m2 b' NN (D0 & ST & (M1 & M2 & I1 & I2 & SG)) KO E1 E2.
        destruct (hib_invoke n k a I1 M1 (fun X => proj1 KO (nanny_sub X))) as (w1 & z1 & F1 & P1 & Q1 & Q2 & Q3 & Q4 & Q5).
        destruct (plain_invoke m k b I2 (fun X => proj1 KO (nanny_sub X))) as (w2 & z2 & F2 & P2 & Y1 & Y2 & Y3 & Y4).
        rewrite F1 in E1. rewrite F2 in E2. inversion E1; inversion E2; subst x1 m1 a' x2 m2 b'. clear E1 E2.
        assert (HCZ : HC z1 z2).
        { split; [congruence|]. split; [congruence|]. split; [congruence|]. split; [congruence|].
          intro ext. rewrite Y1, <- app_assoc, SG. cbn [app]. unfold NR in NN. rewrite <- NN. apply Q4. }
        destruct (s_hib z1) eqn:HZ.
        + left. split; [|split; [unfold NR in *; congruence|split; [|discriminate]]].
          * destruct (s_hib a); try reflexivity. exfalso. apply ST. reflexivity.
          * split; [congruence|]. split; [rewrite HZ; discriminate|exact HCZ].
        + left. split; [|split; [unfold NR in *; congruence|split; [|discriminate]]].
          * destruct (s_hib a); try reflexivity. exfalso. apply ST. reflexivity.
          * split; [congruence|]. split; [rewrite HZ; discriminate|exact HCZ].
        + right. split; assumption.
      - intros a b (ST & RAB). assert (X := RAB). destruct X as (M1 & M2 & I1 & I2 & SG).
        split; [|split; [|split]].
        + intros n ok a' E. unfold descend in E. destruct (per_descend (c_depth c1) (s_depth a)) as [ok' d].
          rewrite M1 in E. cbn [mu_descend mutes_none dispatch] in E.
          destruct ok'; inversion E; subst; (split; [exact ST|]); [|exact RAB].
          apply HC_emit1; [reflexivity|]. apply HC_depth1. exact RAB.
        + intro n. unfold ascend. rewrite M1. split; [exact ST|]. apply HC_emit1; [reflexivity|]. apply HC_depth1. exact RAB.
        + intro n. split; [exact ST|]. apply HC_emit1; [reflexivity|exact RAB].
        + intros n k o m a' E.
          assert (IT : invoke c1 n k a = (Ret (Some (Err SkipAll)), n, emit (EvOffer n (CErr (Err SkipAll))) a)).
          { unfold invoke. rewrite I1. unfold chain. cbn [has c_hib with_features role_if app iterate link_next].
            unfold hib_next. cbn [c_hib with_features]. rewrite ST. reflexivity. }
          rewrite IT in E. inversion E; subst. split; [exact ST|]. apply HC_emit1; [reflexivity|exact RAB].
      - intros a b (ST & RAB). assert (X := RAB). destruct X as (M1 & M2 & I1 & I2 & SG).
        split; [|split; [|split]].
        + intros n ok b' E. unfold descend in E. destruct (per_descend (c_depth c2) (s_depth b)) as [ok' d].
          rewrite M2 in E. cbn [mu_descend mutes_none dispatch] in E.
          destruct ok'; inversion E; subst; (split; [exact ST|]); [|exact RAB].
          apply HC_emit2; [reflexivity|]. apply HC_depth2. exact RAB.
        + intro n. unfold ascend. rewrite M2. split; [exact ST|]. apply HC_emit2; [reflexivity|]. apply HC_depth2. exact RAB.
        + intro n. split; [exact ST|]. apply HC_emit2; [reflexivity|exact RAB].
        + intros n k o m b' E. split; [exact ST|]. destruct (plain_any _ _ _ _ _ _ I2 E) as (A1 & A2 & l & A3).
          split; [exact M1|]. split; [congruence|]. split; [exact I1|]. split; [congruence|].
          intro ext. rewrite A3, <- app_assoc, SG, ST. reflexivity. }
    eapply (END (match t1 with Ret (_, e) => Ret e | Pan p => Pan p | Stuck => Stuck end)
                (match t2 with Ret (_, e) => Ret e | Pan p => Pan p | Stuck => Stuck end) v1 v2 LK).
    + destruct t1 as [[b e]|p|]; exact H1.
    + destruct t2 as [[b e]|p|]; exact H2.
Qed.
End Hib.

Lemma map_id_eq : forall (l : list node), map (fun n => n) l = l.
Proof. induction l as [|x l IH]; cbn; congruence. Qed.

Lemma hib_segment : forall c hb sampling t o1 s1 o2 s2, conditions_answer hb -> c_sub c <> SubDirectoriesWithFiles ->
  session (with_features None (Some hb) cnil c) sampling t = (o1, s1) ->
  session (with_features None None cnil c) sampling t = (o2, s2) ->
  visited s1 = segment hb (visited s2).
Proof.
  intros c hb sampling t o1 s1 o2 s2 CA ND H1 H2.
  assert (E : seen (fun n => n) s1 = segment hb (seen (fun n => n) s2)).
  { apply (hib_session c hb sampling (fun n => n)) with (t := t) (o1 := o1) (o2 := o2); unfold NR; auto; try congruence.
    - unfold extend. intros n m k a b -> D. rewrite D. destruct (split_path (n_path m)). reflexivity.
    - unfold has_nanny. cbn. intro E. exfalso. apply ND. destruct (c_sub c); try discriminate. reflexivity. }
  unfold seen in E. rewrite !map_id_eq in E. exact E.
Qed.

Lemma strip_eq_fields : forall n m, strip n = strip m ->
  n_path n = n_path m /\ n_src n = n_src m /\ n_isdir n = n_isdir m /\ n_pos n = n_pos m.
Proof.
  intros n m E. destruct (strip_fields n) as (A1 & A2 & A3 & _ & A5 & _).
  destruct (strip_fields m) as (B1 & B2 & B3 & _ & B5 & _). rewrite E in *.
  repeat split; congruence.
Qed.

Lemma hib_segment_children : forall c hb sampling t o1 s1 o2 s2, conditions_answer hb -> hook_blind c -> default_skip c ->
  (forall n, hb_wake hb (strip n) = hb_wake hb n) -> (forall n, hb_sleep hb (strip n) = hb_sleep hb n) ->
  session (with_features None (Some hb) cnil c) sampling t = (o1, s1) ->
  session (with_features None None cnil c) sampling t = (o2, s2) ->
  map strip (visited s1) = segment hb (map strip (visited s2)).
Proof.
  intros c hb sampling t o1 s1 o2 s2 CA BL DS W S H1 H2.
  apply (hib_session c hb sampling strip) with (t := t) (o1 := o1) (o2 := o2); unfold NR; auto;
    try (intros n m E; apply strip_eq_fields in E; tauto).
  - intros p q i e E. unfold child_node, new_node. cbn. apply strip_eq_fields in E as F. destruct F as (F1 & F2 & F3 & F4).
    rewrite F1, F4, E. reflexivity.
  - intros n m k a b E D. apply strip_eq_fields in E as F. destruct F as (F1 & F2 & F3 & F4).
    unfold extend. rewrite F1, F3, D. destruct (split_path (n_path m)) as [x y].
    rewrite !strip_extension, E.
    set (q := per_depth (s_depth b)).
    match goal with |- context [c_subpath c ?a ?b (with_extension ?q ?w ?r ?u ?v ?z n)] =>
      rewrite <- (BL a b (with_extension q w r u v z n)), <- (BL a b (with_extension q w r u v z m)) end.
    rewrite !strip_extension, E. reflexivity.
  - intros n m k e _. rewrite !DS. reflexivity.
  - intros _ n cs. apply strip_fields.
Qed.
