(** A session stopped by a panic, and the session which resumes it. *)
From Verif Require Import Base Paths Level Lo Collections Kernel Session Spec KernelRel KernelFacts
  KernelInv WalkFacts StandsFacts JournalFacts SessionFacts RescueFacts FilesFacts WalkCor PathFacts WalkProps
  ReadFacts Simulate Feature Cases Resume SpecResume SpawnFacts FastFacts FastProps.
From Coq Require Import Permutation Sorted.
Local Open Scope string_scope.
Local Open Scope list_scope.

Lemma before_asym : forall a b, before a b -> before b a -> False.
Proof.
  assert (K : forall q r i j a b (x y x' y' : list nat), q ++ i :: x = r ++ b :: x' -> q ++ j :: y = r ++ a :: y' ->
            i < j -> a < b -> False).
  { induction q as [|z q IH]; intros r i j a b x y x' y' E1 E2 L1 L2.
    - destruct r as [|w r]; cbn in *; inversion E1; inversion E2; subst; lia.
    - destruct r as [|w r]; cbn in E1, E2; injection E1 as W1 E1; injection E2 as W2 E2; [lia|].
      exact (IH r i j a b x y x' y' E1 E2 L1 L2). }
  assert (K2 : forall a b q i j (x y : list nat), above a b = true -> a = q ++ j :: y -> b = q ++ i :: x -> i < j -> False).
  { intros a b q i j x y AB EA EB L. apply above_spec in AB. destruct AB as (u & v & E). rewrite EB, EA in E.
    rewrite <- app_assoc in E. apply app_inv_head in E. inversion E. lia. }
  intros a b [H1|(q & i & j & x & y & E1 & E2 & L)] [H2|(q' & i' & j' & x' & y' & E1' & E2' & L')].
  - apply above_spec in H1, H2. destruct H1 as (x & y & E1). destruct H2 as (x' & y' & E2).
    apply (f_equal (@length nat)) in E1, E2. rewrite app_length in E1, E2. cbn in *. lia.
  - exact (K2 a b q' i' j' x' y' H1 E2' E1' L').
  - exact (K2 b a q i j x y H2 E2 E1 L).
  - rewrite E1 in E2'. rewrite E2 in E1'. exact (K q q' i j i' j' x y y' x' E2' E1' L L').
Qed.

(** Between a directory and one of its entries there is only what is below it. *)
Lemma between : forall p x i, before p x -> before x (p ++ [i]) \/ x = p ++ [i] -> above p x = true.
Proof.
  intros p x i [A|(q & a & b & u & v & E1 & E2 & L)] H; [exact A|]. exfalso.
  assert (B : before (p ++ [i]) x).
  { right. exists q, a, b, (u ++ [i]), v. rewrite E1, <- app_assoc. auto. }
  destruct H as [H|H]; [exact (before_asym _ _ B H)|]. rewrite H in B. exact (before_irrefl _ B).
Qed.

Lemma ordered : forall l1 x l2 y l3, StronglySorted before (map n_pos (l1 ++ x :: l2 ++ y :: l3)) ->
  before (n_pos x) (n_pos y).
Proof.
  intros l1 x l2 y l3 H. rewrite !map_app in H. cbn [map] in H. rewrite map_app in H. cbn [map] in H.
  exact (sorted_pairs _ _ _ _ _ _ _ H).
Qed.
Lemma sorted_front : forall (l1 l2 : list (list nat)), StronglySorted before (l1 ++ l2) -> StronglySorted before l1.
Proof.
  induction l1 as [|x l1 IH]; intros l2 H; [constructor|]. inversion H as [|a b H1 H2]; subst.
  constructor; [exact (IH l2 H1)|]. apply Forall_app in H2. apply H2.
Qed.

Lemma stands_reachable : forall c es tree root t base n, stands c es tree root t base n ->
  reachable es root t (place_of n).
Proof.
  intros c es tree root t base n H. induction H as [n E1 E2 E3 E4|p i e n HP IH NT E1 E2 E3 E4].
  - unfold place_of. rewrite E1, E2, E4. constructor.
  - unfold place_of. rewrite E4, E1, E2. exact (reach_entry _ _ _ (place_of p) i e IH NT).
Qed.

(** What the interrupted session had called: the listing up to the node of the
    panic, with the directory of this node in it. *)
Theorem crash_prefix : forall c sampling t o s pre n p P,
  hooks_ok c -> root_ok c t -> default_skip c -> plain c -> c_sub c <> SubFiles ->
  preorder (entries c) [] (c_tree c) t P ->
  session c sampling t = (o, s) -> calls (s_trace s) = pre ++ [(n, CPanic p)] ->
  Forall (fun x => snd x = CNil) pre -> n_pos n <> [] ->
  exists sv dn old m mid after,
    rescues (s_trace s) = [sv] /\ n_parent n = Some dn /\ sv_tree sv = c_tree c /\ sv_sub sv = c_sub c /\
    sv_path sv = n_path dn /\ sv_depth sv = n_depth dn /\
    stands c (entries c) (c_tree c) (c_tree c) t 0 n /\
    visited s = old ++ m :: mid /\ place_of m = place_of dn /\
    filter (within (c_depth c) 0) P = map place_of (visited s) ++ after /\
    Forall (fun x => above (n_pos dn) (n_pos x) = true) mid.
Proof.
  intros c sampling t o s pre n p P HK RO DS PL NF HP H HC FN NP.
  pose proof (plain_filter_ok _ PL) as FO.
  assert (IN : In (n, CPanic p) (calls (s_trace s))) by (rewrite HC; apply in_or_app; right; left; reflexivity).
  destruct (panic_rescued _ _ _ _ _ _ _ HK RO FO H IN NP) as (pre' & sv & er & _ & _ & RS & _ & _ & SR).
  destruct SR as (dn & ED & ST & SS & SP & _ & SD & _).
  pose proof (visited_stands c sampling t _ _ HK RO H) as VS. rewrite Forall_forall in VS.
  assert (SN : stands c (entries c) (c_tree c) (c_tree c) t 0 n).
  { apply VS. unfold visited. rewrite HC, map_app. apply in_or_app. right. left. reflexivity. }
  assert (SDN : stands c (entries c) (c_tree c) (c_tree c) t 0 dn /\ exists i, n_pos n = n_pos dn ++ [i]).
  { inversion SN as [n' E1 E2 E3 E4|q i e n' HPq NT E1 E2 E3 E4]; subst n'; [congruence|].
    assert (q = dn) by congruence. subst q. eauto. }
  destruct SDN as [SDN [i EP]].
  destruct (preorder_characterised _ _ _ _ HP) as [RP SO].
  assert (IDN : In (place_of dn) P) by (apply RP; eapply stands_reachable; exact SDN).
  destruct (session_walk _ _ _ _ _ _ HK RO DS NF HP H) as (ro & _ & _ & [[rest [E _]] _] & _).
  rewrite <- (plain_calls_offers _ _ _ _ _ HK RO PL H) in E.
  assert (EF : filter (within (c_depth c) 0) P = map place_of (visited s) ++ rest).
  { unfold visited. rewrite map_map. rewrite <- E. symmetry. apply filter_true. intro x.
    rewrite HC. rewrite below_skip_app, nil_no_skip by exact FN. cbn. rewrite andb_false_r. reflexivity. }
  assert (WN : within (c_depth c) 0 (place_of n) = true).
  { assert (X : In (place_of n) (filter (within (c_depth c) 0) P)).
    { rewrite EF. apply in_or_app. left. apply in_map. unfold visited. rewrite HC, map_app. apply in_or_app. right. left. reflexivity. }
    apply filter_In in X. apply X. }
  assert (WD : within (c_depth c) 0 (place_of dn) = true).
  { unfold within in *. apply orb_true_iff in WN. apply orb_true_iff. destruct WN as [WN|WN]; [left; exact WN|right].
    cbn [place_of pl_pos] in *. rewrite EP, app_length in WN. cbn [length] in WN.
    apply Z.leb_le in WN. apply Z.leb_le. lia. }
  assert (IF : In (place_of dn) (filter (within (c_depth c) 0) P)) by (apply filter_In; split; assumption).
  assert (IV : In (place_of dn) (map place_of (visited s))).
  { rewrite EF in IF. apply in_app_or in IF. destruct IF as [IF|IF]; [exact IF|]. exfalso.
    assert (S2 := filter_sorted _ _ before pl_pos (within (c_depth c) 0) P SO). rewrite EF in S2.
    unfold visited in S2. rewrite HC, !map_app in S2. cbn [map fst] in S2.
    apply in_split in IF. destruct IF as (r1 & r2 & ->). rewrite map_app in S2. cbn [map] in S2.
    rewrite <- !app_assoc in S2. cbn [app] in S2. apply sorted_pairs in S2.
    eapply before_asym; [exact S2|]. left. apply above_spec. cbn [place_of pl_pos]. exists i, []. exact EP. }
  apply in_map_iff in IV. destruct IV as (m & EM & IM). apply in_split in IM. destruct IM as (old & mid & EV).
  exists sv, dn, old, m, mid, rest. repeat (split; [assumption|]).
  assert (S2 := filter_sorted _ _ before pl_pos (within (c_depth c) 0) P SO).
  rewrite EF, map_app in S2. apply sorted_front in S2. rewrite map_map in S2.
  change (fun x : node => pl_pos (place_of x)) with n_pos in S2.
  apply Forall_forall. intros x Hx. destruct (in_split _ _ Hx) as (m1 & m2 & ->).
  assert (PM : n_pos m = n_pos dn) by (unfold place_of in EM; congruence).
  apply (between _ _ i).
  - rewrite <- PM. rewrite EV in S2. exact (ordered _ _ _ _ _ S2).
  - rewrite <- EP. rewrite EV in S2.
    assert (EL : exists y, visited s = y ++ [n]) by (unfold visited; rewrite HC, map_app; eexists; reflexivity).
    destruct EL as [y EL]. rewrite EL in EV.
    destruct (exists_last (l := x :: m2)) as (z & w & EZ); [discriminate|].
    assert (EW : w = n).
    { replace (old ++ m :: m1 ++ x :: m2) with ((old ++ m :: m1) ++ x :: m2) in EV by (rewrite <- app_assoc; reflexivity).
      rewrite EZ, app_assoc in EV. apply app_inj_tail in EV. symmetry. apply EV. }
    subst w. destruct z as [|z0 z]; cbn [app] in EZ; injection EZ as EZ1 EZ2.
    + right. congruence.
    + left. subst z0 m2. apply (ordered (old ++ m :: m1) x z n []). rewrite <- app_assoc. exact S2.
Qed.

(** Different entries have different paths. *)
Lemma stands_path_inj : forall c tree root t base, hooks_ok c -> clean root = root -> proper_names t ->
  distinct_names c root t ->
  forall n, stands c (entries c) tree root t base n ->
  forall m, stands c (entries c) tree root t base m -> n_path n = n_path m -> place_of n = place_of m.
Proof.
  intros c tree root t base HK CL PN ND.
  assert (LONG : forall n, stands c (entries c) tree root t base n -> n_parent n <> None ->
            n_path n <> "." /\ (root = "." \/ String.length root < String.length (n_path n))).
  { intros n SN. induction SN as [n E1 E2 E3|p i e n HPp IH NT E1 E2 E3 E4]; intro NP; [contradiction|].
    destruct (stands_paths c tree root t base HK CL PN p HPp) as (CP & PP & _).
    assert (PE : proper (fname e)).
    { inversion PP as [u X]; subst u. apply X. eapply entries_in_kids; [exact HK|]. eapply nth_error_In. exact NT. }
    rewrite E1. split; [apply join_not_dot; assumption|].
    destruct (string_dec root ".") as [ET|NT']; [left; exact ET|right].
    assert (PC : n_path p = root \/ n_path p <> "." /\ (root = "." \/ String.length root < String.length (n_path p))).
    { inversion HPp as [n' X1 X2 X3|q j x n' HQ NQ X1 X2 X3]; subst n'; [left; exact X1|right; apply IH; congruence]. }
    assert (NDt : n_path p <> ".") by (destruct PC as [X|[X _]]; [rewrite X|]; assumption).
    pose proof (length_join (n_path p) (fname e) CP PE NDt) as LJ.
    destruct PC as [X|[_ [X|X]]]; [rewrite X in LJ at 1; exact LJ|contradiction|lia]. }
  assert (NOTROOT : forall n, stands c (entries c) tree root t base n -> n_parent n <> None -> n_path n <> root).
  { intros n SN NP E. destruct (LONG n SN NP) as [A [B|B]]; [congruence|]. rewrite E in B. lia. }
  intros n SN. induction SN as [n E1 E2 E3 E4|p i e n HPp IH NT E1 E2 E3 E4]; intros m SM EP.
  - inversion SM as [m' X1 X2 X3 X4|q j x m' HQ NQ X1 X2 X3 X4]; subst m'.
    + unfold place_of. rewrite E1, E2, E4, X1, X2, X4. reflexivity.
    + exfalso. apply (NOTROOT m SM); congruence.
  - assert (SN : stands c (entries c) tree root t base n) by (apply (stands_child c (entries c) tree root t base p i e n); assumption).
    inversion SM as [m' X1 X2 X3 X4|q j x m' HQ NQ X1 X2 X3 X4]; subst m'.
    + exfalso. apply (NOTROOT n SN); congruence.
    + destruct (stands_paths c tree root t base HK CL PN p HPp) as (CP & PP & _).
      destruct (stands_paths c tree root t base HK CL PN q HQ) as (CQ & PQ & _).
      assert (PE : proper (fname e)).
      { inversion PP as [u Y]; subst u. apply Y. eapply entries_in_kids; [exact HK|]. eapply nth_error_In. exact NT. }
      assert (PX : proper (fname x)).
      { inversion PQ as [u Y]; subst u. apply Y. eapply entries_in_kids; [exact HK|]. eapply nth_error_In. exact NQ. }
      assert (EJ : join (n_path p) (fname e) = join (n_path q) (fname x)) by congruence.
      apply join_inj in EJ; try assumption. destruct EJ as [EJ EF].
      specialize (IH q HQ EJ). unfold place_of in IH. inversion IH as [[I1 I2 I3]].
      rewrite <- I2, <- I3 in NQ.
      assert (IJ : i = j).
      { pose proof (ND (place_of p) (stands_reachable _ _ _ _ _ _ _ HPp)) as NX. cbn [place_of pl_path pl_obj] in NX. rewrite NoDup_nth_error in NX. apply NX.
        - rewrite map_length. apply nth_error_Some. congruence.
        - rewrite !nth_error_map, NT, NQ. cbn. congruence. }
      rewrite <- IJ in *. rewrite NT in NQ. assert (EX : x = e) by congruence. rewrite EX in X2.
      unfold place_of. rewrite E4, X4, I1, EP, E2, X2. reflexivity.
Qed.

(** ** Fastward after a panic *)
Theorem fastward_recovers : forall c sampling pc dk o s pre n dn g p P,
  let t := dk (c_tree c) in
  hooks_ok c -> root_ok c t -> default_skip c -> plain c -> c_sub c <> SubFiles ->
  clean (c_tree c) = c_tree c -> proper_names t ->
  preorder (entries c) [] (c_tree c) t P ->
  session c sampling t = (o, s) -> calls (s_trace s) = pre ++ [(n, CPanic p)] ->
  Forall (fun x => snd x = CNil) pre ->
  n_parent n = Some dn -> n_parent dn = Some g ->
  n_name dn <> snd (split_path (c_tree c)) -> n_path g <> "." -> sound_at pc (n_path g) ->
  distinct_names c (c_tree c) t ->
  exists sv old m again new,
    rescues (s_trace s) = [sv] /\ sv_tree sv = c_tree c /\ sv_path sv = n_path dn /\
    filter (within (c_depth c) 0) P = map place_of (visited s) ++ new /\
    visited s = old ++ m :: again /\ place_of m = place_of dn /\
    Forall (fun x => above (n_pos dn) (n_pos x) = true) again /\
    forall sv', sv_tree sv' = sv_tree sv -> sv_path sv' = sv_path sv ->
    exists s2, fastward_session true (with_client client_nil c) sampling pc dk sv' = (Ret None, s2) /\
      map place_of (visited s2) = map place_of (m :: again) ++ new.
Proof.
  intros c sampling pc dk o s pre n dn g p P t HK RO DS PL NF CL PN HP H HC FN EN ED NB ND SA UN.
  pose proof (visited_stands c sampling t _ _ HK RO H) as VS. rewrite Forall_forall in VS.
  assert (SN : stands c (entries c) (c_tree c) (c_tree c) t 0 n).
  { apply VS. unfold visited. rewrite HC, map_app. apply in_or_app. right. left. reflexivity. }
  assert (NP : n_pos n <> []).
  { inversion SN as [n' E1 E2 E3 E4|q i e n' HPq NT E1 E2 E3 E4]; subst n'; [congruence|].
    rewrite E4. intro X. apply app_eq_nil in X. destruct X. discriminate. }
  destruct (crash_prefix c sampling t o s pre n p P HK RO DS PL NF HP H HC FN NP)
    as (sv & dn' & old & m & mid & af & RS & EN' & ST & SS & SP & SD & _ & EV & EM & EF & FA).
  assert (dn' = dn) by congruence. subst dn'. clear EN'.
  assert (SDN : stands c (entries c) (c_tree c) (c_tree c) t 0 dn).
  { inversion SN as [n' E1 E2 E3 E4|q i e n' HPq NT E1 E2 E3 E4]; subst n'; [congruence|].
    assert (q = dn) by congruence. subst q. exact HPq. }
  assert (X : exists b, proper b /\ n_path dn = join (n_path g) b /\ n_name dn = b).
  { inversion SDN as [n' E1 E2 E3 E4|q i e n' HPq NT E1 E2 E3 E4]; subst n'; [congruence|].
    assert (q = g) by congruence. subst q. exists (fname e).
    destruct (stands_paths c (c_tree c) (c_tree c) t 0 HK CL PN g HPq) as (_ & PP & _).
    destruct (stands_paths c (c_tree c) (c_tree c) t 0 HK CL PN dn SDN) as (_ & _ & SPX).
    destruct (SPX g ED) as [_ NM]. rewrite NM, E2. split; [|split; [exact E1|reflexivity]].
    inversion PP as [u Y]; subst u. apply Y. eapply entries_in_kids; [exact HK|]. eapply nth_error_In. exact NT. }
  destruct X as (b & PB & EJ & NM).
  set (c2 := with_client client_nil c).
  assert (TV : travelled c2 = entries c).
  { unfold travelled. change (c_sub c2) with (c_sub c). destruct (c_sub c); try reflexivity. congruence. }
  exists sv, old, m, mid, af. do 7 (split; [assumption|]). intros sv' ST' SP'. rewrite ST in ST'. rewrite SP in SP'.
  clear sv RS ST SS SP SD. rename sv' into sv. rename ST' into ST. rename SP' into SP.
  destruct (fastward_nil c2 sampling pc dk sv (n_path g) b P) as (s2 & F2 & V2).
  - exact HK.
  - rewrite ST. exact RO.
  - exact DS.
  - exact PL.
  - intros tr mm. reflexivity.
  - symmetry. exact ST.
  - rewrite ST. exact CL.
  - rewrite ST. exact PN.
  - rewrite SP. exact EJ.
  - exact SA.
  - exact PB.
  - exact ND.
  - rewrite ST, <- NM. exact NB.
  - rewrite TV, ST. exact HP.
  - assert (CA : called_at c2 0 P = filter (within (c_depth c) 0) P).
    { unfold called_at. change (c_sub c2) with (c_sub c). change (c_depth c2) with (c_depth c).
      assert (FT : filter (fun _ : place => true) (filter (within (c_depth c) 0) P) = filter (within (c_depth c) 0) P)
        by (apply filter_true; reflexivity).
      destruct (c_sub c); try exact FT. congruence. }
    rewrite CA, EF, EV in V2. exists s2. split; [exact F2|].
    rewrite V2, map_app, <- app_assoc. cbn [map app].
    assert (NO : forall x, In x old -> String.eqb (pl_path (place_of x)) (sv_path sv) = false).
    { intros x Hx. apply String.eqb_neq. intro E. cbn [place_of pl_path] in E.
      assert (PE : place_of x = place_of dn).
      { apply (stands_path_inj c (c_tree c) (c_tree c) t 0 HK CL PN UN); [|exact SDN|congruence].
        apply VS. rewrite EV. apply in_or_app. left. exact Hx. }
      destruct (preorder_characterised _ _ _ _ HP) as [_ SO].
      assert (S2 := filter_sorted _ _ before pl_pos (within (c_depth c) 0) P SO).
      rewrite EF, map_app in S2. apply sorted_front in S2. rewrite map_map in S2.
      change (fun x : node => pl_pos (place_of x)) with n_pos in S2. rewrite EV in S2.
      apply in_split in Hx. destruct Hx as (o1 & o2 & ->). rewrite <- app_assoc in S2. cbn [app] in S2.
      apply ordered in S2. assert (XM : n_pos x = n_pos m) by (unfold place_of in PE, EM; congruence).
      rewrite XM in S2. exact (before_irrefl _ S2). }
    revert NO. clear - EM SP. intro NO. induction old as [|x old IH]; cbn [map app from_first].
    + rewrite EM. cbn [place_of pl_path]. rewrite <- SP, String.eqb_refl. reflexivity.
    + rewrite NO by (left; reflexivity). apply IH. intros y Hy. apply NO. right. exact Hy.
Qed.

(** ** Files subscription: a directory is never called *)
Theorem files_fastward_silent : forall c sampling pc dk sv dn gn g o s,
  let t := dk (sv_tree sv) in
  hooks_ok c -> root_ok c t -> default_skip c -> plain c -> c_sub c = SubFiles ->
  c_tree c = sv_tree sv -> clean (sv_tree sv) = sv_tree sv -> proper_names t ->
  distinct_names c (sv_tree sv) t ->
  (forall tr n, c_client c tr n = g (calls tr) n) ->
  stands c (entries c) (sv_tree sv) (sv_tree sv) t 0 dn -> n_parent dn = Some gn -> fisdir (n_src dn) = true ->
  sv_path sv = n_path dn -> sound_at pc (n_path gn) -> n_path gn <> "." -> n_name dn <> snd (split_path (sv_tree sv)) ->
  fastward_session true c sampling pc dk sv = (o, s) ->
  visited s = [] /\ notices (s_trace s) = [].
Proof.
  intros c sampling pc dk sv dn gn g o s t HK RO DS PL SU CT CL PN NDP CQ SDN EG FD SP [CG SA] ND NB H.
  assert (X : exists b, proper b /\ n_path dn = join (n_path gn) b /\ n_name dn = b).
  { inversion SDN as [n' E1 E2 E3 E4|q i e n' HPq NT E1 E2 E3 E4]; subst n'; [congruence|].
    assert (q = gn) by congruence. subst q. exists (fname e).
    destruct (stands_paths c (sv_tree sv) (sv_tree sv) t 0 HK CL PN gn HPq) as (_ & PP & _).
    destruct (stands_paths c (sv_tree sv) (sv_tree sv) t 0 HK CL PN dn SDN) as (_ & _ & SPX).
    destruct (SPX gn EG) as [_ NM]. rewrite NM, E2. split; [|split; [exact E1|reflexivity]].
    inversion PP as [u Y]; subst u. apply Y. eapply entries_in_kids; [exact HK|]. eapply nth_error_In. exact NT. }
  destruct X as (b & PB & EJ & NM).
  destruct (SA b PB) as (_ & _ & PD & PBS). rewrite <- EJ, <- SP in PD, PBS.
  set (c2 := with_client (waking (node_is (n_path gn) b) g) c).
  destruct (session_total c2 sampling t) as (o2 & s2 & H2).
  destruct (fastward_locked c sampling pc dk sv g o s o2 s2) as (_ & B & NO & EN & _).
  - apply plain_filter_ok. exact PL.
  - exact CT.
  - rewrite PD. exact ND.
  - rewrite PBS. apply PB.
  - rewrite PBS, <- NM. exact NB.
  - exact CQ.
  - exact H.
  - rewrite PD, PBS. exact H2.
  - rewrite PD, PBS in B, NO, EN.
    assert (V : from_first (fun x => node_is (n_path gn) b (fst x)) (calls (s_trace s2)) = []).
    { apply from_first_none. intros [m r] Hm. cbn [fst].
      assert (SM : stands c2 (entries c2) (c_tree c2) (c_tree c2) t 0 m).
      { pose proof (visited_stands c2 sampling t o2 s2 HK ltac:(unfold t; exact RO) H2) as F. rewrite Forall_forall in F.
        apply F. unfold visited. apply (in_map fst) in Hm. exact Hm. }
      change (c_tree c2) with (c_tree c) in SM. rewrite CT in SM.
      rewrite (node_is_path c2 (sv_tree sv) t 0 (n_path gn) b HK CL PN CG PB ltac:(rewrite <- NM; exact NB) m SM).
      apply String.eqb_neq. intro E.
      assert (SDN2 : stands c2 (entries c2) (sv_tree sv) (sv_tree sv) t 0 dn).
      { clear - SDN. induction SDN as [n E1 E2 E3 E4 E5 E6 AT|p i e n HP IH NT E1 E2 E3 E4 E5 E6 AT];
          [apply stands_root|apply (stands_child c2 (entries c2) (sv_tree sv) (sv_tree sv) t 0 p i e n)]; try assumption;
          (destruct AT; constructor; assumption). }
      assert (PE : place_of m = place_of dn).
      { apply (stands_path_inj c2 (sv_tree sv) (sv_tree sv) t 0 HK CL PN NDP m SM dn SDN2). rewrite E. symmetry. exact EJ. }
      assert (FM : fisdir (n_src m) = false).
      { destruct (listing_files c2 HK t) as [P HP].
        destruct (session_files c2 sampling t o2 s2 P HK ltac:(unfold t; exact RO) DS SU HP H2) as (ro & _ & _ & G & _).
        apply goodf_in in G. rewrite Forall_forall in G.
        assert (PL2 : plain c2) by exact PL.
        rewrite <- (plain_calls_offers c2 sampling t o2 s2 HK RO PL2 H2) in G.
        destruct (G (m, r) Hm) as [_ Z]. exact Z. }
      inversion PE as [[P1 P2 P3]]. congruence. }
    assert (W : from_first (calls_node (node_is (n_path gn) b)) (s_trace s2) = []).
    { rewrite from_first_calls in V. revert V. clear. induction (s_trace s2) as [|e l IH]; [reflexivity|].
      cbn [from_first]. destruct (calls_node _ e) eqn:E; [|exact IH]. destruct e; cbn; try discriminate. }
    rewrite V in B. rewrite W in NO, EN. cbn in NO, EN.
    split; [unfold visited; rewrite B; reflexivity|].
    revert B NO EN. clear. unfold without, seen, notices. induction (s_trace s) as [|e l IH]; [reflexivity|].
    destruct e; cbn; try discriminate; auto.
Qed.
