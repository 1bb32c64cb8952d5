(** A resume with an undefined strategy: the ordinary session without any
    notification. *)
From Verif Require Import Base Paths Level Lo Collections Kernel Session Spec KernelRel KernelFacts
  KernelInv WalkFacts StandsFacts JournalFacts SessionFacts WalkCor PathFacts WalkProps Simulate Feature
  Cases Resume SpecResume FastFacts.
Local Open Scope list_scope.

Lemma notices_app : forall a b, notices (a ++ b) = notices a ++ notices b.
Proof. intros. apply filter_app. Qed.

Section Muted.
Variable c : cfg.
Variable sampling : bool.
Variable fc : fastcfg.
Variable g : list (node * cbres) -> node -> cbres.
Variable tree : string.
Hypothesis FOK : filter_ok c.
Variable cl : list event -> node -> cbres.
Hypothesis cl_eq : forall tr n, cl tr n = g (calls tr) n.

Notation c1 := (with_links (c_rescue c) (c_scheme c) (c_hib c) (Some fc) cl c).
Notation c2 := (with_links (c_rescue c) (c_scheme c) (c_hib c) (c_fast c) cl c).

Definition MR (s1 s2 : st) : Prop :=
  s_depth s1 = s_depth s2 /\ s_hib s1 = s_hib s2 /\ s_mutes s1 = asleep /\
  s_items s1 = chain c sampling false /\ s_items s2 = chain c sampling false /\
  s_metrics s1 = s_metrics s2 /\ calls (s_trace s1) = calls (s_trace s2) /\ notices (s_trace s1) = [].

Lemma MR_depth : forall d s1 s2, MR s1 s2 -> MR (set_depth d s1) (set_depth d s2).
Proof. intros d s1 s2 H. unfold MR in *. cbn [set_depth s_depth s_hib s_mutes s_items s_trace s_metrics]. intuition. Qed.
Lemma MR_hib : forall h s1 s2, MR s1 s2 -> MR (set_hib h s1) (set_hib h s2).
Proof. intros d s1 s2 H. unfold MR in *. cbn [set_hib s_depth s_hib s_mutes s_items s_trace s_metrics]. intuition. Qed.
Lemma MR_tick : forall k j s1 s2, MR s1 s2 -> MR (tick_by k j s1) (tick_by k j s2).
Proof.
  intros k j s1 s2 (A & B & C & D & E & F & G & H). unfold MR.
  cbn [tick_by set_metrics s_depth s_hib s_mutes s_items s_trace s_metrics]. rewrite F. auto 12.
Qed.
Lemma MR_ghost : forall e1 e2 s1 s2, calls [e1] = calls [e2] -> notices [e1] = [] -> MR s1 s2 -> MR (emit e1 s1) (emit e2 s2).
Proof.
  intros e1 e2 s1 s2 S1 S2 (A & B & C & D & E & F & G & H). unfold MR.
  cbn [emit s_depth s_hib s_mutes s_items s_trace s_metrics]. rewrite !calls_app, G, S1, notices_app, H, S2. auto 12.
Qed.
Lemma MR_notice : forall (mu : mutes -> bool) e b s1 s2, MR s1 s2 -> calls [e] = [] -> mu asleep = true ->
  MR (dispatch (mu (s_mutes s1)) e s1) (dispatch b e s2).
Proof.
  intros mu e b s1 s2 (A & B & C & D & E & F & G & H) CE MA. rewrite C, MA. cbn [dispatch].
  destruct b; cbn [dispatch]; unfold MR; [auto 12|].
  cbn [emit s_depth s_hib s_mutes s_items s_trace s_metrics]. rewrite calls_app, CE, app_nil_r. auto 12.
Qed.

Definition mlocked (n : node) (x1 x2 : linkres) : Prop :=
  exists o n1 s1 s2, x1 = (o, n1, s1) /\ x2 = (o, n1, s2) /\ MR s1 s2 /\
    (forall p, o = Pan p -> exists h k, g h k = CPanic p).
Lemma mlocked_ret : forall n b e n1 s1 s2, MR s1 s2 -> mlocked n (Ret (b, e), n1, s1) (Ret (b, e), n1, s2).
Proof. intros. unfold mlocked. eexists _, _, _, _. split; [reflexivity|]. split; [reflexivity|]. split; [assumption|discriminate]. Qed.

Lemma mprimary : forall p n k s1 s2, MR s1 s2 -> KOK c n k ->
  (forall f, p = PrimaryNode f -> forall n, answers (f n)) ->
  mlocked n (primary_next p n k s1) (primary_next p n k s2) /\
  (forall b e n1 s1', primary_next p n k s1 = (Ret (b, e), n1, s1') -> n1 = n).
Proof.
  intros p n k s1 s2 HR [_ NC] A. destruct p as [f|mm]; cbn [primary_next].
  - unfold match_next. destruct (A f eq_refl n) as [b ->].
    split; [|destruct b; intros ? ? ? ? X; inversion X; reflexivity].
    destruct b; apply mlocked_ret; auto. apply MR_tick; exact HR.
  - unfold sampler_next. destruct (scope_is_tree (n_scope n)) eqn:E.
    2:{ split; [apply mlocked_ret; auto|intros ? ? ? ? X; inversion X; reflexivity]. }
    destruct k as [[fs ds]|].
    + split; [apply mlocked_ret; apply MR_tick; exact HR|intros ? ? ? ? X; inversion X; reflexivity].
    + rewrite (NC eq_refl) in E. discriminate.
Qed.
Lemma mnanny : forall mm n k s1 s2, MR s1 s2 -> k <> None -> (forall l, answers (mm l)) ->
  mlocked n (nanny_scheme_next c1 mm n k s1) (nanny_scheme_next c2 mm n k s2).
Proof.
  intros mm n k s1 s2 HR KN A. unfold nanny_scheme_next. change (c_sort c1) with (c_sort c). change (c_sort c2) with (c_sort c).
  destruct k as [[fs ds]|]; [|contradiction]. destruct (A (c_sort c fs)) as [l ->].
  apply mlocked_ret. apply MR_tick, MR_tick. exact HR.
Qed.

Lemma mlink : forall r n k s1 s2, In r (chain c sampling false) -> MR s1 s2 -> KOK c n k ->
  mlocked n (link_next c1 r n k s1) (link_next c2 r n k s2).
Proof.
  intros r n k s1 s2 HI HR HK. rewrite chain_pre in HI. cbn [role_if app] in HI. unfold pre in HI.
  apply in_app_or in HI. destruct HI as [HI|[<- |[]]].
  2:{ cbn [link_next]. unfold anchor_next. cbn [c_client with_links]. rewrite !cl_eq.
    cbn [tick_by set_metrics s_trace].
    assert (HT := MR_tick (if n_isdir n then DirectoriesInvoked else FilesInvoked) 1 _ _ HR).
    assert (CE : calls (s_trace s1) = calls (s_trace s2)) by apply HR. rewrite CE.
    destruct (g (calls (s_trace s2)) n) as [|e|p] eqn:GE.
    - apply mlocked_ret. apply MR_ghost; [reflexivity|reflexivity|exact HT].
    - apply mlocked_ret. apply MR_ghost; [reflexivity|reflexivity|exact HT].
    - eexists _, _, _, _. split; [reflexivity|]. split; [reflexivity|]. split; [apply MR_ghost; [reflexivity|reflexivity|exact HT]|].
      intros q Q. inversion Q; subst. eauto. }
  apply in_app_or in HI. destruct HI as [HI|HI].
  { assert (HB : exists h, c_hib c = Some h) by (destruct (c_hib c) as [h|]; [eauto|destruct HI]).
    destruct HB as [h HB]. rewrite HB in HI. cbn [has role_if] in HI. destruct HI as [<- |[]].
    cbn [link_next]. unfold hib_next. cbn [c_hib with_links]. rewrite HB.
    assert (HH := HR). destruct HH as (_ & HH & _). rewrite HH.
    destruct (proj2 FOK h HB n) as [[wb W] [sb S]]. rewrite W, S.
    destruct (s_hib s2).
    - destruct wb; [|apply mlocked_ret; auto]. destruct (hb_incl_wake h); apply mlocked_ret;
        apply MR_hib; apply (MR_notice mu_wake); auto.
    - destruct sb; [|apply mlocked_ret; auto]. destruct (hb_incl_sleep h); apply mlocked_ret;
        apply MR_hib; apply (MR_notice mu_sleep); auto.
    - apply mlocked_ret; auto. }
  apply in_app_or in HI. destruct HI as [HI|HI].
  { destruct (has_nanny c) eqn:HN; cbn [role_if] in HI; [|destruct HI]. destruct HI as [<- |[]].
    cbn [link_next]. unfold nanny_next. unfold has_nanny in HN. destruct (c_sub c) eqn:SU; try discriminate.
    destruct HK as [K _]. destruct k as [[fs ds]|]; [|exfalso; apply K; auto].
    apply mlocked_ret. apply (MR_tick ChildFilesFound _ _ _ HR). }
  apply in_app_or in HI. destruct HI as [HI|HI].
  { assert (SC : exists sc, c_scheme c = Some sc) by (destruct (c_scheme c) as [sc|]; [eauto|destruct HI]).
    destruct SC as [sc SC]. rewrite SC in HI. cbn [has role_if] in HI. destruct HI as [<- |[]].
    cbn [link_next]. unfold filter_next.
    assert (NL := mnanny). set (d1 := c1) in *. set (d2 := c2) in *.
    assert (S1 : c_scheme d1 = Some sc) by exact SC. assert (S2 : c_scheme d2 = Some sc) by exact SC.
    rewrite S1, S2. clearbody d1 d2.
    destruct (proj1 FOK sc SC) as (Hc & Hp & Hf & Hm).
    destruct sc as [[p|] [mm|]]; cbn [sc_primary sc_child] in *.
    - destruct (mprimary p n k s1 s2 HR HK) as ((o & n1 & u1 & u2 & X1 & X2 & RU & PO) & NN).
      { intros f E. apply Hf. rewrite E. reflexivity. }
      rewrite X1, X2. destruct o as [[b e]|q|].
      + destruct b; [|apply mlocked_ret; assumption].
        assert (KN : k <> None) by (apply HK; apply Hc; discriminate).
        destruct (NL mm n1 k u1 u2 RU KN (Hm mm eq_refl)) as (o & n2 & v1 & v2 & Y1 & Y2 & RV & PV).
        rewrite Y1, Y2. destruct o as [[b2 e2]|q|]; [apply mlocked_ret; exact RV| |];
          (eexists _, _, _, _; split; [reflexivity|]; split; [reflexivity|]; split; assumption).
      + eexists _, _, _, _; split; [reflexivity|]; split; [reflexivity|]; split; assumption.
      + eexists _, _, _, _; split; [reflexivity|]; split; [reflexivity|]; split; assumption.
    - apply mprimary; auto. intros f E. apply Hf. rewrite E. reflexivity.
    - apply NL; auto. apply HK, Hc. discriminate.
    - exfalso. apply Hp; reflexivity. }
  destruct sampling; cbn [role_if] in HI; [|destruct HI]. destruct HI as [<- |[]].
  apply mlocked_ret; auto.
Qed.

Lemma node_kept : forall cc r n k s b e n1 s1, link_next cc r n k s = (Ret (b, e), n1, s1) ->
  n1 = n \/ exists cs, n1 = with_children cs n.
Proof.
  intros cc r n k s b e n1 s1 H.
  assert (PR : forall p n' s' b' e' n2 s2, primary_next p n' k s' = (Ret (b', e'), n2, s2) -> n2 = n').
  { intros p n' s' b' e' n2 s2 P. destruct p as [f|m]; cbn in P.
    - unfold match_next in P. destruct (f n') as [[|]|]; inversion P; reflexivity.
    - unfold sampler_next in P. destruct (scope_is_tree _); [destruct k as [[fs ds]|]|]; inversion P; reflexivity. }
  assert (NN : forall m n' s' b' e' n2 s2, nanny_scheme_next cc m n' k s' = (Ret (b', e'), n2, s2) ->
            n2 = n' \/ exists cs, n2 = with_children cs n').
  { intros m n' s' b' e' n2 s2 P. unfold nanny_scheme_next in P.
    destruct k as [[fs ds]|]; [destruct (m (c_sort cc fs))|]; inversion P; eauto. }
  destruct r; cbn [link_next] in H.
  - inversion H; auto.
  - unfold anchor_next in H. destruct (c_client cc _ n); inversion H; auto.
  - unfold filter_next in H. destruct (c_scheme cc) as [[[p|] [m|]]|]; cbn in H.
    + destruct (primary_next p n k s) as [[po pn] ps] eqn:P.
      destruct po as [[[|] e']|q|]; try (inversion H; subst; left; eapply PR; exact P); try discriminate.
      apply PR in P. subst pn.
      destruct (nanny_scheme_next cc m n k ps) as [[no nn] ns] eqn:N.
      destruct no as [[b2 e2]|q|]; try discriminate. inversion H; subst. eapply NN; exact N.
    + left. eapply PR. exact H.
    + eapply NN. exact H.
    + inversion H; auto.
    + inversion H; auto.
  - unfold hib_next in H. destruct (c_hib cc) as [h|]; [|inversion H; auto].
    destruct (s_hib s); [destruct (hb_wake h n) as [[|]|]; [destruct (hb_incl_wake h)| |]
      |destruct (hb_sleep h n) as [[|]|]; [destruct (hb_incl_sleep h)| |]|]; inversion H; auto.
  - inversion H; auto.
  - unfold nanny_next in H. destruct k as [[fs ds]|]; inversion H; eauto.
  - unfold fast_next in H. destruct (c_fast cc) as [f|]; [|inversion H; auto].
    destruct (fast_match f n) as [[|]|p|]; inversion H; auto.
Qed.

Lemma miterate : forall rs, (forall r, In r rs -> In r (chain c sampling false)) -> forall n k s1 s2, MR s1 s2 -> KOK c n k ->
  exists o s1' s2' n1, iterate c1 rs n k s1 = (o, n1, s1') /\ iterate c2 rs n k s2 = (o, n1, s2') /\ MR s1' s2' /\
    (forall p, o = Pan p -> exists h k, g h k = CPanic p).
Proof.
  induction rs as [|r rs IH]; intros HP n k s1 s2 HR HK.
  - cbn [iterate]. eexists _, _, _, _. split; [reflexivity|]. split; [reflexivity|]. split; [exact HR|discriminate].
  - cbn [iterate].
    destruct (mlink r n k s1 s2 (HP r (or_introl eq_refl)) HR HK) as (o & n1 & u1 & u2 & X1 & X2 & RU & PO).
    rewrite X1, X2. destruct o as [[b e]|q|].
    + assert (N1 := node_kept _ _ _ _ _ _ _ _ _ X1).
      destruct b; [destruct e|]; try (eexists _, _, _, _; split; [reflexivity|]; split; [reflexivity|]; split; [exact RU|discriminate]).
      apply IH; [intros x Hx; apply HP; right; exact Hx|exact RU|].
      destruct N1 as [-> |[cs ->]]; [exact HK|]. exact HK.
    + eexists _, _, _, _; split; [reflexivity|]; split; [reflexivity|]; split; [exact RU|]. intros p E. apply PO. congruence.
    + eexists _, _, _, _; split; [reflexivity|]; split; [reflexivity|]; split; [exact RU|discriminate].
Qed.

Lemma minvoke : forall n k s1 s2 o1 m1 s1' o2 m2 s2', MR s1 s2 -> KOK c n k ->
  invoke c1 n k s1 = (o1, m1, s1') -> invoke c2 n k s2 = (o2, m2, s2') ->
  o1 = o2 /\ m1 = m2 /\ MR s1' s2' /\ (forall p, o2 = Pan p -> exists h n, g h n = CPanic p).
Proof.
  intros n k s1 s2 o1 m1 s1' o2 m2 s2' HR HK I1 I2. unfold invoke in I1, I2.
  assert (X := HR). destruct X as (_ & _ & _ & D1 & D2 & _). rewrite D1 in I1. rewrite D2 in I2.
  destruct (miterate _ (fun r H => H) n k s1 s2 HR HK) as (o & v1 & v2 & n2 & Y1 & Y2 & RV & PO).
  rewrite Y1 in I1. rewrite Y2 in I2. inversion I1; inversion I2; subst.
  split; [reflexivity|]. split; [reflexivity|]. split; [|exact PO].
  apply MR_ghost; [reflexivity|reflexivity|exact RV].
Qed.

Lemma mtop : forall t s1 s2 o1 s1' o2 s2', MR s1 s2 ->
  top c1 tree t s1 = (o1, s1') -> top c2 tree t s2 = (o2, s2') -> alike o1 o2 /\ MR s1' s2'.
Proof.
  intros t s1 s2 o1 s1' o2 s2' R0 H1 H2. unfold top in H1, H2.
  change (c_stat c1) with (c_stat c) in H1. change (c_stat c2) with (c_stat c) in H2.
  change (c_fault c1) with (c_fault c) in H1. change (c_fault c2) with (c_fault c) in H2.
  destruct (c_stat c t) as [er|]; [inversion H1; inversion H2; subst; auto using alike_refl|].
  destruct (traverse (S (height t)) c1 tree (new_node tree t None None []) s1) as [t1 v1] eqn:T1.
  destruct (traverse (S (height t)) c2 tree (new_node tree t None None []) s2) as [t2 v2] eqn:T2.
  assert (LK : same_res (fun p => exists h n, g h n = CPanic p) t1 t2 /\ MR v1 v2).
  { assert (K : together MR (fun _ _ => False) (fun p => exists h n, g h n = CPanic p) t1 t2 v1 v2);
      [|destruct K as [(A & B & _)|[]]; auto].
    refine (lockstep_links c (c_rescue c) (c_rescue c) (c_scheme c) (c_scheme c) (c_hib c) (c_hib c) (Some fc) (c_fast c) cl cl tree (@eq node)
        _ _ _ _ _ _ MR (fun _ _ => False) (fun p => exists h n, g h n = CPanic p) _ _ _ _ _ _ _ _ _ _ _ _ _ _ _ _ eq_refl R0 T1 T2);
      try (intros n k ->; reflexivity).
    - intros p q i e ->. reflexivity.
    - intros n k kk a b -> E. unfold extend. rewrite E. reflexivity.
    - intros n k kk e ->. reflexivity.
    - intros a b X. apply X.
    - intros n k a b d -> RAB. exact (MR_notice mu_descend (EvDescend k) (mu_descend (s_mutes b)) _ _ (MR_depth d a b RAB) eq_refl eq_refl).
    - intros n k a b d -> RAB. exact (MR_notice mu_ascend (EvAscend k) (mu_ascend (s_mutes b)) _ _ (MR_depth d a b RAB) eq_refl eq_refl).
    - intros n k a b _ RAB. apply MR_ghost; try reflexivity. exact RAB.
    - intros n k kk a b x1 m1 a' x2 m2 b' -> RAB (K1 & K2 & K3) I1 I2. left.
      eapply minvoke; eauto. split; assumption.
    - intros a b [].
    - intros a b []. }
  destruct LK as [SR RV]. apply same_agree, agree_alike in SR.
  assert (E1 : (fate t1, v1) = (o1, s1')) by (destruct t1 as [[b e]|p|]; exact H1).
  assert (E2 : (fate t2, v2) = (o2, s2')) by (destruct t2 as [[b e]|p|]; exact H2).
  inversion E1; inversion E2; subst. auto.
Qed.
End Muted.

Theorem undefined_locked : forall c sampling pc dk sv g o1 s1 o2 s2,
  filter_ok c -> c_tree c = sv_tree sv ->
  (forall tr n, c_client c tr n = g (calls tr) n) ->
  fastward_session false c sampling pc dk sv = (o1, s1) ->
  session c sampling (dk (sv_tree sv)) = (o2, s2) ->
  alike o1 o2 /\ calls (s_trace s1) = calls (s_trace s2) /\ s_metrics s1 = s_metrics s2 /\ notices (s_trace s1) = [].
Proof.
  intros c sampling pc dk sv g o1 s1 o2 s2 FOK CT CQ H1 H2.
  unfold fastward_session in H1. unfold session, navigate, start_st in H2.
  rewrite session_items_chain in H1, H2.
  set (fc := fast_of pc sv) in *.
  set (c1 := with_links (c_rescue c) (c_scheme c) (c_hib c) (Some fc) (c_client c) c) in *.
  change (set_fast (Some fc) c) with c1 in H1.
  assert (E2 : c = with_links (c_rescue c) (c_scheme c) (c_hib c) (c_fast c) (c_client c) c) by (destruct c; reflexivity).
  change (c_tree c1) with (c_tree c) in H1. rewrite CT in H1, H2.
  set (u1 := dispatch _ (EvBegin (sv_tree sv)) _) in H1. set (u2 := dispatch _ (EvBegin (sv_tree sv)) _) in H2.
  assert (R0 : MR c sampling u1 u2) by (unfold MR; repeat split). clearbody u1 u2.
  destruct (top c1 (sv_tree sv) (dk (sv_tree sv)) u1) as [t1 v1] eqn:T1.
  destruct (top c (sv_tree sv) (dk (sv_tree sv)) u2) as [t2 v2] eqn:T2.
  rewrite E2 in T2.
  destruct (mtop c sampling fc g (sv_tree sv) FOK (c_client c) CQ (dk (sv_tree sv)) u1 u2 _ _ _ _ R0 T1 T2) as [AO RV].
  destruct RV as (A & B & C & D & E & F & G & H).
  pose proof (alike_shape _ _ AO) as SH. destruct t1 as [e1|q1|], t2 as [e|p|]; try contradiction.
  - rewrite C in H1. cbn [asleep mute_all mu_end dispatch] in H1. inversion H1; inversion H2; subst.
    split; [exact AO|]. destruct (mu_end (s_mutes v2)); cbn [dispatch emit s_trace s_metrics];
      rewrite ?calls_app, ?app_nil_r; auto.
  - inversion H1; inversion H2; subst. auto.
  - inversion H1; inversion H2; subst. auto.
Qed.

(** ** The saved path is the tree itself *)
Theorem fastward_root : forall c sampling pc dk sv,
  plain c -> c_sub c = SubUniversal \/ c_sub c = SubDirectories -> c_depth c = 0%N -> root_ok c (dk (sv_tree sv)) ->
  pc_base pc (sv_path sv) = snd (split_path (sv_tree sv)) ->
  exists s, fastward_session true c sampling pc dk sv = (Pan nil_deref, s) /\ calls (s_trace s) = [] /\ notices (s_trace s) = [].
Proof.
  intros c sampling pc dk sv [PS PH] SU DZ RO EB. unfold fastward_session.
  rewrite session_items_chain. set (fc := fast_of pc sv). set (c1 := set_fast (Some fc) c).
  set (u := dispatch _ (EvBegin _) _).
  assert (IU : s_items u = role_if sampling RoleSampler ++ [RoleFastward; RoleAnchor]).
  { unfold u. cbn [dispatch set_mutes mute_all mu_begin s_items init_st s_mutes]. unfold chain.
    change (c_hib c1) with (c_hib c). change (c_scheme c1) with (c_scheme c). change (has_nanny c1) with (has_nanny c).
    unfold has_nanny. rewrite PH, PS. destruct SU as [-> | ->]; reflexivity. }
  assert (MU : s_mutes u = asleep) by reflexivity.
  assert (TU : s_trace u = []) by reflexivity. clearbody u.
  unfold top. change (c_stat c1) with (c_stat c). unfold root_ok in RO. rewrite RO.
  cbn [traverse]. unfold descend. change (c_depth c1) with (c_depth c). rewrite DZ.
  unfold per_descend. cbn [N.ltb N.compare andb]. rewrite MU. cbn [asleep mute_all mu_descend dispatch].
  set (n0 := new_node (sv_tree sv) (dk (sv_tree sv)) None None []).
  unfold traverse_body. destruct (inspect c1 n0) as [[k es] er].
  set (v := set_depth _ u).
  assert (INV : exists n1 s1, invoke c1 (extend c1 (sv_tree sv) n0 k v) k v = (Pan nil_deref, n1, s1) /\
            calls (s_trace s1) = [] /\ notices (s_trace s1) = [] /\ s_mutes s1 = asleep).
  { unfold invoke. change (s_items v) with (s_items u). rewrite IU.
    set (n := extend c1 (sv_tree sv) n0 k v).
    assert (NM : n_name n = snd (split_path (sv_tree sv))).
    { unfold n, extend. cbn [n_path n0 new_node]. destruct (split_path (sv_tree sv)) as [a b]. reflexivity. }
    assert (NP : n_parent n = None).
    { unfold n, extend. cbn [n_path n0 new_node]. destruct (split_path (sv_tree sv)) as [a b]. reflexivity. }
    assert (FM : fast_match fc n = Pan nil_deref).
    { unfold fast_match, fc, fast_of. cbn [fw_name fw_parent]. rewrite NM, EB, String.eqb_refl, NP. reflexivity. }
    assert (FN : iterate c1 [RoleFastward; RoleAnchor] n k v = (Pan nil_deref, n, v)).
    { change (iterate c1 [RoleFastward; RoleAnchor] n k v) with
      (match fast_next c1 n v with
       | (Ret (next, err), n1, s1) =>
          match next, err with true, None => iterate c1 [RoleAnchor] n1 k s1 | _, _ => (Ret err, n1, s1) end
       | (Pan p, n1, s1) => (Pan p, n1, s1) | (Stuck, n1, s1) => (Stuck, n1, s1) end).
      unfold fast_next. change (c_fast c1) with (Some fc). cbv iota beta. rewrite FM. reflexivity. }
    assert (IT : iterate c1 (role_if sampling RoleSampler ++ [RoleFastward; RoleAnchor]) n k v = (Pan nil_deref, n, v)).
    { destruct sampling; cbn [role_if app]; [|exact FN].
      change (iterate c1 [RoleSampler; RoleFastward; RoleAnchor] n k v) with (iterate c1 [RoleFastward; RoleAnchor] n k v).
      exact FN. }
    rewrite IT. eexists _, _. split; [reflexivity|]. cbn [emit s_trace s_mutes v set_depth]. rewrite TU.
    split; [reflexivity|]. split; [reflexivity|exact MU]. }
  destruct INV as (n1 & s1 & EI & C1 & N1 & M1). rewrite EI.
  change (c_sub c1) with (c_sub c).
  assert (AS : s_trace (ascend n1 s1) = s_trace s1).
  { unfold ascend. rewrite M1. reflexivity. }
  exists (ascend n1 s1). rewrite AS. split; [|auto]. destruct SU as [-> | ->]; reflexivity.
Qed.

(** Spawn resume at the tree: nothing is visited. *)
Theorem spawn_root : forall c sampling pc dk sv, sv_path sv = sv_tree sv ->
  exists s, spawn_session c sampling pc dk sv = (Ret None, true, s) /\ calls (s_trace s) = [] /\
    s_metrics s = merged c (sv_metrics sv) metrics0.
Proof.
  intros c sampling pc dk sv E. unfold spawn_session. cbn [crown]. rewrite E, String.eqb_refl.
  eexists. split; [reflexivity|]. split; reflexivity.
Qed.
