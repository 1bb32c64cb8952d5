(** Facts about traversals finished by several fastward resumes. *)
From Verif Require Import Base Paths Level Lo Kernel Session Spec KernelRel KernelFacts
  KernelInv WalkFacts StandsFacts JournalFacts SessionFacts RescueFacts FilesFacts BracketFacts WalkCor
  PathFacts WalkProps ReadFacts Simulate Feature CollectionsFacts Cases Resume SpecResume SpawnFacts FastFacts FastProps
  RecoverFacts SpawnOrder SpecInterrupt InterruptFacts SpecRelay RelayFacts.
From Coq Require Import Permutation Sorted.
Local Open Scope string_scope.
Local Open Scope list_scope.

(** ** The recorded results are what the callback answered *)
Lemma run_replies : forall c tree n s o s1, run c tree n s o s1 ->
  exists tr, s_trace s1 = s_trace s ++ tr /\
    forall a m r b, tr = a ++ EvCall m r :: b -> r = c_client c (s_trace s ++ a) m.
Proof.
  intros c tree.
  set (Rl := fun s s1 : st => exists tr, s_trace s1 = s_trace s ++ tr /\
    forall a m r b, tr = a ++ EvCall m r :: b -> r = c_client c (s_trace s ++ a) m).
  assert (R_tr : forall s s1 tr, s_trace s1 = s_trace s ++ tr -> calls tr = [] -> Rl s s1).
  { intros s s1 tr T C. exists tr. split; [exact T|]. intros a m r b E. exfalso. eapply no_call_in; eassumption. }
  assert (R_same : forall s s1, s_trace s1 = s_trace s -> Rl s s1).
  { intros s s1 T. apply (R_tr s s1 []); [rewrite app_nil_r; exact T|reflexivity]. }
  assert (R_refl : forall s, Rl s s) by (intro s; apply R_same; reflexivity).
  assert (R_trans : forall a b d, Rl a b -> Rl b d -> Rl a d).
  { intros a b d (t1 & T1 & F1) (t2 & T2 & F2). exists (t1 ++ t2). split; [rewrite T2, T1, app_assoc; reflexivity|].
    intros x m r y E. destruct (cut_app _ _ _ _ _ _ E) as [(b' & E' & _)|(a' & E' & ->)].
    - exact (F1 _ _ _ _ E').
    - rewrite (F2 _ _ _ _ E'), T1, app_assoc. reflexivity. }
  assert (R_disp : forall b e s, calls [e] = [] -> Rl s (dispatch b e s)).
  { intros [|] e s H; [apply R_refl|]. apply (R_tr _ _ [e]); auto. }
  assert (LK : forall r n k s o n1 s1, link_next c r n k s = (o, n1, s1) -> Rl s s1).
  { intros r n k s o n1 s1 H. assert (DEC : r = RoleAnchor \/ r <> RoleAnchor) by (destruct r; (left; reflexivity) || (right; discriminate)). destruct DEC as [-> |NA].
    - cbn [link_next] in H. unfold anchor_next in H.
      set (s0 := tick_by (if n_isdir n then DirectoriesInvoked else FilesInvoked) 1 s) in *.
      assert (A : Rl s (emit (EvCall n (c_client c (s_trace s0) n)) s0)).
      { exists [EvCall n (c_client c (s_trace s0) n)]. split; [reflexivity|]. intros a m r b E.
        destruct a as [|x a]; [|destruct a; discriminate]. cbn in E. inversion E; subst. rewrite app_nil_r. reflexivity. }
      destruct (c_client c (s_trace s0) n); inversion H; subst; exact A.
    - destruct (link_mute c r n k s o n1 s1 H NA) as (tr & T & C). exact (R_tr _ _ _ T C). }
  assert (IT : forall rs n k s o n1 s1, iterate c rs n k s = (o, n1, s1) -> Rl s s1).
  { induction rs as [|r rs IH]; cbn [iterate]; intros n k s o n1 s1 H.
    - inversion H; subst; apply R_refl.
    - destruct (link_next c r n k s) as [[lo ln] ls] eqn:L. apply LK in L.
      destruct lo as [[[|] [er|]]|p|]; try (inversion H; subst; exact L).
      eapply R_trans; [exact L|eapply IH; eassumption]. }
  intros n s o s1 HR.
  refine (proj1 (kernel_inv c tree Rl (fun _ _ => True) (fun _ _ => True) (fun _ _ _ => True)
            R_refl R_trans _ _ _ _ _ _ _) n s o s1 HR I); clear n s o s1 HR; auto.
  - intros n nn s s1 s2 _ E _ X.
    destruct (descend_true _ _ _ _ E) as (_ & T1 & _).
    destruct (ascend_fields nn s2) as (_ & T2 & _).
    eapply R_trans; [|eapply R_trans; [exact X|]].
    + eapply R_tr; [exact T1|]. destruct (mu_descend (s_mutes s)); reflexivity.
    + eapply R_tr; [exact T2|]. destruct (mu_ascend (s_mutes s2)); reflexivity.
  - intros n s o n1 s1 _ _ H. unfold invoke in H.
    destruct (iterate c (s_items s) _ _ s) as [[io inn] is_] eqn:II. apply IT in II.
    inversion H; subst. split; [|auto]. eapply R_trans; [exact II|].
    apply (R_tr _ _ [EvOffer n1 (res_of o)]); reflexivity.
  - intros n es s _. apply (R_tr _ _ [EvRescue (saved_of c n s)]); reflexivity.
Qed.
Lemma session_replies : forall c sampling t o s, hooks_ok c -> root_ok c t -> session c sampling t = (o, s) ->
  forall a n r b, s_trace s = a ++ EvCall n r :: b -> r = c_client c a n.
Proof.
  intros c sampling t o s HK RO H a n r b E.
  destruct (session_shape _ _ _ _ _ HK RO H) as (ro & s2 & tr & HR & _ & _ & T2 & TS & _).
  destruct (run_replies _ _ _ _ _ _ HR) as (tr' & T' & F).
  rewrite T2 in T'. cbn in T'. inversion T'; subst tr'.
  rewrite TS in E. destruct a as [|x a]; [discriminate|]. cbn in E. inversion E as [[E1 E2]]. subst x.
  destruct (cut_app _ _ _ _ _ _ E2) as [(b' & E' & _)|(a' & E' & _)].
  - rewrite (F _ _ _ _ E'). reflexivity.
  - exfalso. destruct (calls_ending o (s_metrics s)) as (Z & _). eapply no_call_in; eassumption.
Qed.

Lemma first_split : forall A (f : A -> bool) l x r, from_first f l = x :: r ->
  exists front, l = front ++ x :: r /\ f x = true /\ forallb (fun y => negb (f y)) front = true.
Proof.
  induction l as [|y l IH]; intros x r H; [discriminate|]. cbn in H. destruct (f y) eqn:E.
  - inversion H; subst. exists []. auto.
  - destruct (IH _ _ H) as (front & -> & E1 & E2). exists (y :: front). cbn. rewrite E. auto.
Qed.
Lemma first_here : forall A (f : A -> bool) l x r, forallb (fun y => negb (f y)) l = true -> f x = true ->
  from_first f (l ++ x :: r) = x :: r.
Proof.
  induction l as [|y l IH]; intros x r H E; cbn in *; [rewrite E; reflexivity|].
  destruct (f y); [discriminate|]. apply IH; assumption.
Qed.

(** Until it wakes up the waking callback answers nil. *)
Lemma asleep_nil : forall m g tr front rest,
  (forall a n r b, tr = a ++ EvCall n r :: b -> r = waking m g a n) ->
  calls tr = front ++ rest -> forallb (fun x => negb (m (fst x))) front = true -> nils front.
Proof.
  intros m g tr front rest RP EC NF. apply Forall_forall. intros [n r] HI.
  apply in_split in HI. destruct HI as (f1 & f2 & ->).
  assert (CUT : forall l x y z, calls l = x ++ (n, r) :: y -> z = x -> exists a b, l = a ++ EvCall n r :: b /\ calls a = x).
  { clear. induction l as [|e l IH]; intros x y z E _; [destruct x; discriminate|].
    assert (OTHER : calls l = x ++ (n, r) :: y -> calls [e] = [] -> exists a b, e :: l = a ++ EvCall n r :: b /\ calls a = x).
    { intros E' C. destruct (IH x y x E' eq_refl) as (a & b & -> & <-). exists (e :: a), b. split; [reflexivity|].
      change (e :: a) with ([e] ++ a). rewrite calls_app, C. reflexivity. }
    destruct e; try (apply OTHER; [exact E|reflexivity]). clear OTHER. cbn [calls] in E.
    destruct x as [|u x]; cbn in E; inversion E; subst; [exists [], l; auto|].
    destruct (IH x y x ltac:(assumption) eq_refl) as (a & b & -> & <-). eexists (EvCall _ _ :: a), b. split; reflexivity. }
  destruct (CUT tr f1 (f2 ++ rest) f1) as (a & b & ET & CA); [rewrite EC, <- app_assoc; reflexivity|reflexivity|].
  rewrite forallb_app in NF. apply andb_true_iff in NF. destruct NF as [N1 N2]. cbn in N2.
  apply andb_true_iff in N2. destruct N2 as [N2 _].
  specialize (RP _ _ _ _ ET). cbn [snd]. rewrite RP. unfold waking. rewrite CA.
  assert (Z : from_first (fun x => m (fst x)) f1 = []) by (apply from_first_nil; exact N1). rewrite Z.
  apply negb_true_iff in N2. rewrite N2. reflexivity.
Qed.

Section Fast.
Variable c : cfg.
Variable pc : pathcalc.
Variable dk : disk.
Variable P : list place.
Hypothesis HK : hooks_ok c.
Hypothesis RO : root_ok c (dk (c_tree c)).
Hypothesis DS : default_skip c.
Hypothesis PL : plain c.
Hypothesis NF : c_sub c <> SubFiles.
Hypothesis CL : clean (c_tree c) = c_tree c.
Hypothesis PN : proper_names (dk (c_tree c)).
Hypothesis UN : distinct_names c (c_tree c) (dk (c_tree c)).
Hypothesis HP : preorder (entries c) [] (c_tree c) (dk (c_tree c)) P.
Hypothesis PA : passable c pc P.
Notation A := (filter (within (c_depth c) 0) P).
Notation stds := (stands c (entries c) (c_tree c) (c_tree c) (dk (c_tree c)) 0).

Lemma stands_for : forall cl n, stands (with_client cl c) (entries (with_client cl c)) (c_tree c) (c_tree c) (dk (c_tree c)) 0 n -> stds n.
Proof.
  intros cl n SN. induction SN as [n E1 E2 E3 E4 E5 E6 AT|p i e n HPp IH NT E1 E2 E3 E4 E5 E6 AT];
    [apply stands_root|apply (stands_child c (entries c) (c_tree c) (c_tree c) (dk (c_tree c)) 0 p i e n)]; try assumption;
    (destruct AT; constructor; assumption).
Qed.

Lemma nodup_all : NoDup A.
Proof.
  destruct (preorder_characterised _ _ _ _ HP) as [_ SO]. apply sorted_nodup.
  exact (filter_sorted _ _ before pl_pos (within (c_depth c) 0) P SO).
Qed.

Definition fdue (V : list place) (sv : saved) : Prop :=
  sv_tree sv = c_tree c /\ exists dn g bef tl, stds dn /\ n_parent dn = Some g /\ sv_path sv = n_path dn /\
    A = bef ++ place_of dn :: tl /\ incl bef V /\ incl V A.

(** The conditions of fastward resumes hold. *)
Lemma way_in : forall dn g, stds dn -> n_parent dn = Some g ->
  exists b, proper b /\ n_path dn = join (n_path g) b /\ n_name dn = b /\ n_path g <> "." /\ sound_at pc (n_path g) /\
    b <> snd (split_path (c_tree c)).
Proof.
  intros dn g SDN EG. destruct PA as [NT PF]. rewrite Forall_forall in PF.
  destruct (preorder_characterised _ _ _ _ HP) as [RP _].
  assert (SD0 := SDN). inversion SD0 as [n' E1 E2 E3 E4|q i e n' HPq NTH E1 E2 E3 E4]; subst n'; [congruence|].
  assert (q = g) by congruence. subst q. exists (fname e).
  destruct (stands_paths c (c_tree c) (c_tree c) (dk (c_tree c)) 0 HK CL PN g HPq) as (_ & PP & _).
  destruct (stands_paths c (c_tree c) (c_tree c) (dk (c_tree c)) 0 HK CL PN dn SDN) as (_ & _ & SPX).
  destruct (SPX g EG) as [_ NM].
  assert (IK : In e (fkids (n_src g))) by (eapply entries_in_kids; [exact HK|eapply nth_error_In; exact NTH]).
  split; [inversion PP as [u Y]; subst u; apply Y; exact IK|]. split; [exact E1|]. split; [rewrite NM, E2; reflexivity|].
  split; [|split].
  - inversion HPq as [n' X1 X2 X3|q j x n' HQ NQ X1 X2 X3]; subst n'; [congruence|]. rewrite X1.
    destruct (stands_paths c (c_tree c) (c_tree c) (dk (c_tree c)) 0 HK CL PN q HQ) as (CQ & PQ & _).
    apply join_not_dot; [exact CQ|]. inversion PQ as [u Y]; subst u. apply Y. eapply entries_in_kids; [exact HK|]. eapply nth_error_In. exact NQ.
  - assert (IG : In (place_of g) P) by (apply RP; eapply stands_reachable; exact HPq).
    apply (proj1 (PF _ IG)). cbn. intro Z. rewrite Z in IK. contradiction.
  - assert (ID : In (place_of dn) P) by (apply RP; eapply stands_reachable; exact SDN).
    rewrite <- E2. apply (proj2 (PF _ ID)). cbn. rewrite E4. intro X. apply app_eq_nil in X. destruct X. discriminate.
Qed.

(** What a session calls which is stopped by a panic, all else answered nil. *)
Lemma session_front : forall cl sampling o s pre n p, session (with_client cl c) sampling (dk (c_tree c)) = (o, s) ->
  calls (s_trace s) = pre ++ [(n, CPanic p)] -> nils pre ->
  exists rest, A = map place_of (visited s) ++ rest.
Proof.
  intros cl sampling o s pre n p H EC FN.
  destruct (session_walk (with_client cl c) _ _ _ _ P HK RO DS NF HP H) as (ro & _ & _ & [[rest [E _]] _] & _).
  rewrite <- (plain_calls_offers (with_client cl c) _ _ _ _ HK RO PL H) in E.
  exists rest. unfold visited. rewrite map_map, <- E. symmetry. apply filter_true. intro x.
  rewrite EC. rewrite below_skip_app, nil_no_skip by exact FN. cbn. rewrite andb_false_r. reflexivity.
Qed.

Lemma fast_front : forall f sampling V sv o s pre n p, fdue V sv ->
  fastward_session true (with_client (fun tr => f (calls tr)) c) sampling pc dk sv = (o, s) ->
  calls (s_trace s) = pre ++ [(n, CPanic p)] -> nils pre ->
  exists bef dn tl rest, A = bef ++ place_of dn :: tl /\ sv_path sv = n_path dn /\
    place_of dn :: tl = map place_of (visited s) ++ rest /\ incl bef V /\
    stds n /\
    (forall d g, n_parent n = Some d -> n_parent d = Some g -> stds d /\
       exists old after, A = old ++ place_of d :: after /\ incl old (V ++ map place_of (visited s))).
Proof.
  intros f sampling V sv o s pre n p (ST & dn & gn & bef & tl & SDN & EG & SP & EA & I1 & I2) H EC FN.
  destruct (way_in dn gn SDN EG) as (b & PB & EJ & NM & ND & [CG SA] & NB).
  destruct (SA b PB) as (_ & _ & PD & PBS). rewrite <- EJ, <- SP in PD, PBS.
  set (cf := with_client (fun tr => f (calls tr)) c) in *.
  set (wk := waking (node_is (n_path gn) b) f).
  destruct (session_total (with_client wk c) sampling (dk (c_tree c))) as (o2 & s2 & H2).
  destruct (fastward_locked cf sampling pc dk sv f o s o2 s2) as (_ & B & _).
  - apply plain_filter_ok. exact PL.
  - symmetry. exact ST.
  - rewrite PD. exact ND.
  - rewrite PBS. apply PB.
  - rewrite PBS, ST. exact NB.
  - reflexivity.
  - exact H.
  - rewrite PD, PBS, ST. exact H2.
  - rewrite PD, PBS in B.
    pose proof (visited_stands (with_client wk c) sampling _ o2 s2 HK RO H2) as VS. rewrite Forall_forall in VS.
    assert (VS' : forall x, In x (visited s2) -> stds x) by (intros x Hx; apply (stands_for wk); apply VS; exact Hx).
    assert (NE : exists x r, calls (s_trace s) = x :: r) by (rewrite EC; destruct pre; cbn; eauto).
    destruct NE as (x & r & EX). rewrite EX in B. symmetry in B.
    destruct (first_split _ _ _ _ _ B) as (front & EF & EM & NM'). rewrite <- EX, EC in EF.
    assert (FF : nils front).
    { eapply (asleep_nil (node_is (n_path gn) b) f (s_trace s2)); [|rewrite EF; reflexivity|exact NM'].
      exact (session_replies (with_client wk c) sampling _ _ _ HK RO H2). }
    assert (FP : nils (front ++ pre)) by (apply Forall_app; split; assumption).
    assert (EF' : calls (s_trace s2) = (front ++ pre) ++ [(n, CPanic p)]) by (rewrite EF, app_assoc; reflexivity).
    destruct (session_front wk sampling o2 s2 (front ++ pre) n p H2 EF' FP) as [rest ER].
    assert (VV : map place_of (visited s2) = at_places front ++ map place_of (visited s)).
    { unfold visited. rewrite EF', EC. fold (at_places ((front ++ pre) ++ [(n, CPanic p)])). fold (at_places (pre ++ [(n, CPanic p)])).
      rewrite !at_places_app, app_assoc. reflexivity. }
    assert (SX : stds (fst x)).
    { apply VS'. unfold visited. rewrite EF, map_app. apply in_or_app. right. rewrite <- EC, EX. left. reflexivity. }
    assert (PX : place_of (fst x) = place_of dn).
    { apply (stands_path_inj c (c_tree c) (c_tree c) _ 0 HK CL PN UN); [exact SX|exact SDN|].
      rewrite (node_is_path c (c_tree c) (dk (c_tree c)) 0 (n_path gn) b HK CL PN CG PB NB _ SX) in EM.
      apply String.eqb_eq in EM. congruence. }
    assert (HX : map place_of (visited s) = place_of dn :: map place_of (map fst r)).
    { unfold visited. rewrite EX. cbn [map]. rewrite PX. reflexivity. }
    assert (CUT : bef = at_places front /\ tl = map place_of (map fst r) ++ rest).
    { apply (split_unique _ (place_of dn)); [rewrite <- EA; exact nodup_all|]. rewrite <- EA, ER, VV, HX, <- app_assoc. reflexivity. }
    destruct CUT as [CB CT].
    assert (SN : stds n).
    { apply VS'. unfold visited. rewrite EF', map_app. apply in_or_app. right. left. reflexivity. }
    exists bef, dn, tl, rest. split; [exact EA|]. split; [exact SP|]. split; [rewrite HX, CT; reflexivity|]. split; [exact I1|].
    split; [exact SN|].
    intros d g ED EGD.
    assert (SD : stds d).
    { inversion SN as [n' E1 E2 E3 E4|q i e n' HPq NT E1 E2 E3 E4]; subst n'; [congruence|]. assert (q = d) by congruence. subst q. exact HPq. }
    split; [exact SD|].
    assert (NP : n_pos n <> []).
    { inversion SN as [n' E1 E2 E3 E4|q i e n' HPq NT E1 E2 E3 E4]; subst n'; [congruence|].
      rewrite E4. intro X. apply app_eq_nil in X. destruct X. discriminate. }
    destruct (crash_prefix (with_client wk c) sampling _ o2 s2 (front ++ pre) n p P HK RO DS PL NF HP H2 EF' FP NP)
      as (sv1 & dn' & old & m & mid & af & _ & EN' & _ & _ & _ & _ & _ & EV & EMM & EFF & _).
    assert (dn' = d) by congruence. subst dn'.
    change (c_depth (with_client wk c)) with (c_depth c) in EFF.
    exists (map place_of old), (map place_of mid ++ af). split.
    + rewrite EFF, EV, map_app, <- app_assoc. cbn [map app]. rewrite EMM. reflexivity.
    + intros z Hz. assert (Z : In z (map place_of (visited s2))) by (rewrite EV, map_app; apply in_or_app; left; exact Hz).
      rewrite VV, <- CB in Z. apply in_app_or in Z. apply in_or_app. destruct Z as [Z|Z]; [left; apply I1; exact Z|right; exact Z].
Qed.

Lemma fdue_prime : forall cl sampling o s n dn g sv,
  session (with_client cl c) sampling (dk (c_tree c)) = (o, s) -> panicked_at s n ->
  n_parent n = Some dn -> n_parent dn = Some g -> rescues (s_trace s) = [sv] -> fdue (map place_of (visited s)) sv.
Proof.
  intros cl sampling o s n dn g sv H (pre & p & EC & FN) EN ED RS.
  pose proof (visited_stands (with_client cl c) sampling _ _ _ HK RO H) as VS. rewrite Forall_forall in VS.
    assert (SN : stds n).
    { apply (stands_for cl). apply VS. unfold visited. rewrite EC, map_app. apply in_or_app. right. left. reflexivity. }
    assert (NP : n_pos n <> []).
    { inversion SN as [n' E1 E2 E3 E4|q i e n' HPq NT E1 E2 E3 E4]; subst n'; [congruence|].
      rewrite E4. intro X. apply app_eq_nil in X. destruct X. discriminate. }
    assert (SD : stds dn).
    { inversion SN as [n' E1 E2 E3 E4|q i e n' HPq NT E1 E2 E3 E4]; subst n'; [congruence|].
      assert (q = dn) by congruence. subst q. exact HPq. }
    destruct (crash_prefix (with_client cl c) sampling _ o s pre n p P HK RO DS PL NF HP H EC FN NP)
      as (sv1 & dn' & old & m & mid & af & RS' & EN' & ST & _ & SP & _ & _ & EV & EM & EF & _).
    assert (dn' = dn) by congruence. subst dn'. assert (sv1 = sv) by congruence. subst sv1.
    change (c_depth (with_client cl c)) with (c_depth c) in EF.
    split; [exact ST|]. exists dn, g, (map place_of old), (map place_of mid ++ af).
    split; [exact SD|]. split; [exact ED|]. split; [exact SP|].
    split; [rewrite EF, EV, map_app, <- app_assoc; cbn [map app]; rewrite EM; reflexivity|]. split.
    + rewrite EV, map_app. apply incl_appl. apply incl_refl.
    + rewrite EF. apply incl_appl. apply incl_refl.
Qed.
Lemma fdue_again : forall V sv f sampling o s n dn g sv', fdue V sv ->
  fastward_session true (with_client (fun tr => f (calls tr)) c) sampling pc dk sv = (o, s) -> panicked_at s n ->
  n_parent n = Some dn -> n_parent dn = Some g -> rescues (s_trace s) = [sv'] -> fdue (V ++ map place_of (visited s)) sv'.
Proof.
  intros V sv f sampling o s n dn g sv' IH H (pre & p & EC & FN) EN ED RS.
  destruct (fast_front f sampling V sv o s pre n p IH H EC FN) as (bef & dn0 & tl & rest & EA & SP & ER & I1 & SN & X).
    destruct (X dn g EN ED) as (SD & old & after & EO & IO).
    destruct (fastward_interrupted true (with_client (fun tr => f (calls tr)) c) sampling pc dk sv o s n p dn HK H)
      as (pre1 & sv1 & b1 & a1 & _ & _ & _ & RS1 & _ & RC);
      [rewrite EC; apply in_or_app; right; left; reflexivity|exact EN|].
    assert (sv1 = sv') by congruence. subst sv1. destruct RC as (ST & _ & SP' & _).
    split; [exact ST|]. exists dn, g, old, after. do 5 (split; [assumption|]).
    destruct IH as (_ & _ & _ & _ & _ & _ & _ & _ & _ & _ & I2). apply incl_app; [exact I2|].
    rewrite EA. apply incl_appr. rewrite ER. apply incl_appl. apply incl_refl.
Qed.
Lemma fdue_retry : forall V sv f sampling o s n, fdue V sv ->
  fastward_session true (with_client (fun tr => f (calls tr)) c) sampling pc dk sv = (o, s) -> panicked_at s n ->
  fdue (V ++ map place_of (visited s)) sv.
Proof.
  intros V sv f sampling o s n IH H (pre & p & EC & FN).
  destruct (fast_front f sampling V sv o s pre n p IH H EC FN) as (bef & dn0 & tl & rest & EA & SP & ER & I1 & SN & X).
    destruct IH as (ST & dn & g & bef' & tl' & SD & EG & SP' & EA' & J1 & J2).
    split; [exact ST|]. exists dn, g, bef', tl'. do 4 (split; [assumption|]). split; [apply incl_appl; exact J1|].
    apply incl_app; [exact J2|]. rewrite EA. apply incl_appr. rewrite ER. apply incl_appl. apply incl_refl.
Qed.
Lemma fdue_stored : forall V sv sv', fdue V sv -> same_point sv sv' -> fdue V sv'.
Proof. intros V sv sv' (ST & dn & g & bef & tl & SD & EG & SP & EA & I1 & I2) (E1 & E2 & _). split; [congruence|]. exists dn, g, bef, tl. rewrite E2. auto 7. Qed.
Lemma fast_relay_due : forall V sv, fast_relay c pc dk V sv -> fdue V sv.
Proof.
  intros V sv H. induction H; [eapply fdue_prime|eapply fdue_again|eapply fdue_retry|eapply fdue_stored]; eassumption.
Qed.

Lemma fdue_finished : forall V sv sampling, fdue V sv ->
  exists s bef, fastward_session true (with_client client_nil c) sampling pc dk sv = (Ret None, s) /\
    A = bef ++ map place_of (visited s) /\ (forall q, In q (V ++ map place_of (visited s)) <-> In q A).
Proof.
  intros V sv sampling HR.
  destruct HR as (ST & dn & gn & bef & tl & SDN & EG & SP & EA & I1 & I2).
  destruct (way_in dn gn SDN EG) as (b & PB & EJ & NM & ND & SAT & NB).
  set (c2 := with_client client_nil c).
  assert (TV : travelled c2 = entries c).
  { unfold travelled. change (c_sub c2) with (c_sub c). destruct (c_sub c); try reflexivity. congruence. }
  destruct (fastward_nil c2 sampling pc dk sv (n_path gn) b P) as (s & F2 & V2).
  - exact HK.
  - rewrite ST. exact RO.
  - exact DS.
  - exact PL.
  - intros tr mm. reflexivity.
  - symmetry. exact ST.
  - rewrite ST. exact CL.
  - rewrite ST. exact PN.
  - rewrite SP. exact EJ.
  - exact SAT.
  - exact PB.
  - exact ND.
  - rewrite ST. exact NB.
  - rewrite TV, ST. exact HP.
  - assert (CA : called_at c2 0 P = A).
    { unfold called_at. change (c_sub c2) with (c_sub c). change (c_depth c2) with (c_depth c).
      assert (FT : filter (fun _ : place => true) A = A) by (apply filter_true; reflexivity).
      destruct (c_sub c); try exact FT. congruence. }
    assert (EV : map place_of (visited s) = place_of dn :: tl).
    { rewrite V2, CA, EA. apply first_here; [|cbn [place_of pl_path]; rewrite SP; apply String.eqb_refl].
      apply forallb_forall. intros q Hq. apply negb_true_iff. apply String.eqb_neq. intro E.
      assert (IQ : In q P) by (assert (Z : In q A) by (rewrite EA; apply in_or_app; left; exact Hq); apply filter_In in Z; apply Z).
      assert (NQ : exists m, stds m /\ place_of m = q).
      { destruct (session_nil c2 false (dk (c_tree c)) P HK RO DS PL ltac:(intros tr m; reflexivity)) as (s0 & H0 & M0); [rewrite TV; exact HP|].
        pose proof (visited_stands c2 false _ _ _ HK RO H0) as VS. rewrite Forall_forall in VS.
        assert (Z : In q (map place_of (visited s0))) by (rewrite M0, CA, EA; apply in_or_app; left; exact Hq).
        apply in_map_iff in Z. destruct Z as (m & EM & IM). exists m. split; [|exact EM]. apply (stands_for client_nil). apply VS. exact IM. }
      destruct NQ as (m & SM & <-). cbn [place_of pl_path] in E.
      assert (PE : place_of m = place_of dn).
      { apply (stands_path_inj c (c_tree c) (c_tree c) _ 0 HK CL PN UN); [exact SM|exact SDN|congruence]. }
      pose proof nodup_all as NDA. rewrite EA in NDA. apply NoDup_remove_2 in NDA. apply NDA. apply in_or_app. left. rewrite <- PE. exact Hq. }
    exists s, bef. split; [exact F2|]. rewrite EV. split; [exact EA|].
    intro q. split; intro I.
    + apply in_app_or in I. destruct I as [I|I]; [apply I2; exact I|]. rewrite EA. apply in_or_app. right. exact I.
    + rewrite EA in I. apply in_app_or in I. apply in_or_app. destruct I as [I|I]; [left; apply I1; exact I|right; exact I].
Qed.
Theorem fast_relay_finished : forall V sv sampling, fast_relay c pc dk V sv ->
  exists s bef, fastward_session true (with_client client_nil c) sampling pc dk sv = (Ret None, s) /\
    A = bef ++ map place_of (visited s) /\ (forall q, In q (V ++ map place_of (visited s)) <-> In q A).
Proof. intros V sv sampling HR. exact (fdue_finished V sv sampling (fast_relay_due V sv HR)). Qed.

Theorem fast_relay_stretch : forall V sv f sampling o s n p pre, fast_relay c pc dk V sv ->
  fastward_session true (with_client (fun tr => f (calls tr)) c) sampling pc dk sv = (o, s) ->
  calls (s_trace s) = pre ++ [(n, CPanic p)] -> Forall (fun x => snd x = CNil) pre ->
  exists bef x rest, A = bef ++ map place_of (visited s) ++ rest /\ hd_error (visited s) = Some x /\ n_path x = sv_path sv.
Proof.
  intros V sv f sampling o s n p pre HR H EC FN. apply fast_relay_due in HR.
  destruct (fast_front f sampling V sv o s pre n p HR H EC FN) as (bef & dn & tl & rest & EA & SP & ER & _).
  assert (NE : visited s <> []).
  { unfold visited. rewrite EC, map_app. cbn. intro Z. apply app_eq_nil in Z. destruct Z. discriminate. }
  destruct (visited s) as [|x xs] eqn:EV; [contradiction|].
  exists bef, x, rest. rewrite EA, ER. split; [reflexivity|]. split; [reflexivity|].
  cbn in ER. inversion ER. congruence.
Qed.
End Fast.
