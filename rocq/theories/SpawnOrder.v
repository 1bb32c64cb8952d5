(** Spawn resumes in trees whose visiting order is the byte order of the names. *)
From Verif Require Import Base Paths Level Lo Collections Kernel Session Defaults Spec KernelRel KernelFacts
  KernelInv WalkFacts StandsFacts JournalFacts SessionFacts RescueFacts FilesFacts WalkCor PathFacts WalkProps
  ReadFacts Simulate Feature Cases CasesFacts Resume SpecResume SpawnFacts FastFacts FastProps RecoverFacts.
From Coq Require Import Permutation Sorted.
Local Open Scope string_scope.
Local Open Scope list_scope.

(** ** Listings without positions *)
Lemma preorder_things : forall es,
  (forall pos p u l, preorder es pos p u l -> forall pos' l', preorder es pos' p u l' -> map thing l = map thing l') /\
  (forall pos p i ts l, preorders es pos p i ts l -> forall pos' i' l', preorders es pos' p i' ts l' -> map thing l = map thing l').
Proof.
  intro es. apply preorder_both.
  - intros pos p u l H IH pos' l' H'. inversion H' as [a b d l2 H2]; subst. cbn [map]. f_equal. eapply IH. exact H2.
  - intros pos p i pos' i' l' H'. inversion H'; subst. reflexivity.
  - intros pos p i e rest l1 l2 H1 IH1 H2 IH2 pos' i' l' H'.
    inversion H' as [|a b d x r l3 l4 H3 H4]; subst. rewrite !map_app. f_equal; [eapply IH1|eapply IH2]; eassumption.
Qed.

Lemma preorders_split : forall es pos p ts1 ts2 i L, preorders es pos p i (ts1 ++ ts2) L ->
  exists L1 L2, L = L1 ++ L2 /\ preorders es pos p i ts1 L1 /\ preorders es pos p (i + length ts1) ts2 L2.
Proof.
  intros es pos p ts1 ts2. induction ts1 as [|e ts1 IH]; intros i L H; cbn [app length] in *.
  - exists [], L. rewrite Nat.add_0_r. split; [reflexivity|]. split; [constructor|exact H].
  - inversion H as [|a b d x r l1 l2 H1 H2]; subst. destruct (IH _ _ H2) as (A & B & -> & HA & HB).
    exists (l1 ++ A), B. split; [apply app_assoc|]. split; [constructor; assumption|].
    replace (i + S (length ts1)) with (S i + length ts1) by lia. exact HB.
Qed.

Lemma preorders_listings : forall es dk d ts pos i L,
  (forall e, In e ts -> dk (join d (fname e)) = e) -> preorders es pos d i ts L ->
  forall L', listings es dk d ts L' -> map thing L = map thing L'.
Proof.
  intros es dk d ts. induction ts as [|e ts IH]; intros pos i L HD H L' HL; inversion H; inversion HL; subst; [reflexivity|].
  rewrite !map_app. f_equal.
  - rewrite (HD e (or_introl eq_refl)) in *. eapply (proj1 (preorder_things es)); eassumption.
  - eapply IH; [intros x Hx; apply HD; right; exact Hx|eassumption|eassumption].
Qed.

(** ** Order *)
Lemma ltb_irrefl : forall a, String.ltb a a = false.
Proof.
  intro a. unfold String.ltb. pose proof (String.compare_antisym a a) as X.
  destruct (String.compare a a); cbn in X; congruence.
Qed.
Lemma ltb_asym : forall a b, String.ltb a b = true -> String.ltb b a = false.
Proof.
  intros a b. unfold String.ltb. pose proof (String.compare_antisym b a) as X.
  destruct (String.compare b a), (String.compare a b); cbn in X; congruence.
Qed.

Section Order.
Variable c : cfg.
Variable dk : disk.
Hypothesis HK : hooks_ok c.
Hypothesis SS : stable_sort c.
Hypothesis SU : c_sub c = SubUniversal.

Lemma followers_filter : forall own d b, fisdir (dk d) = true ->
  followers c dk own d b =
  filter (fun e => String.ltb b (fname e) || (own && String.eqb b (fname e))) (entries_all c d (dk d)).
Proof.
  intros own d b FD. unfold followers, entries_all. rewrite FD.
  set (F := fun e => String.ltb b (fname e) || (own && String.eqb b (fname e))).
  set (R := fst (c_read c d (dk d))).
  rewrite !(filter_comm _ _ F), !SS. destruct (c_files_first c); rewrite filter_app; reflexivity.
Qed.

Lemma sorted_followers : forall own b es1 e es2, fname e = b ->
  StronglySorted (fun x y => String.ltb (fname x) (fname y) = true) (es1 ++ e :: es2) ->
  filter (fun e => String.ltb b (fname e) || (own && String.eqb b (fname e))) (es1 ++ e :: es2) =
  if own then e :: es2 else es2.
Proof.
  intros own b es1 e es2 EB S. subst b.
  assert (A : forall x, In x es1 -> String.ltb (fname x) (fname e) = true).
  { intros x Hx. apply in_split in Hx. destruct Hx as (u & v & ->). rewrite <- app_assoc in S. cbn [app] in S.
    exact (sorted_pairs _ (fun x y => String.ltb (fname x) (fname y) = true) _ _ _ _ _ S). }
  assert (B : forall x, In x es2 -> String.ltb (fname e) (fname x) = true).
  { intros x Hx. apply in_split in Hx. destruct Hx as (u & v & ->).
    exact (sorted_pairs _ (fun x y => String.ltb (fname x) (fname y) = true) _ _ _ _ _ S). }
  rewrite filter_app. cbn [filter].
  assert (E1 : filter (fun x => String.ltb (fname e) (fname x) || (own && String.eqb (fname e) (fname x))) es1 = []).
  { apply filter_nil. intros x Hx. specialize (A x Hx). rewrite (ltb_asym _ _ A). cbn [orb].
    destruct (String.eqb (fname e) (fname x)) eqn:Q; [|apply andb_false_r]. apply String.eqb_eq in Q. rewrite Q, ltb_irrefl in A. discriminate. }
  assert (E2 : filter (fun x => String.ltb (fname e) (fname x) || (own && String.eqb (fname e) (fname x))) es2 = es2).
  { clear - B. induction es2 as [|x l IH]; [reflexivity|]. cbn [filter]. rewrite (B x (or_introl eq_refl)). cbn [orb]. f_equal.
    apply IH. intros y Hy. apply B. right. exact Hy. }
  rewrite E1, E2, ltb_irrefl, String.eqb_refl. cbn [orb app]. destruct own; reflexivity.
Qed.

(** The listing of the tree around a directory on the way. *)
Lemma tree_around : forall tree p l, climb tree p l -> way_in_byte_order c dk l ->
  (forall x, In x l -> forall e, In e (entries_all c (fst x) (dk (fst x))) -> dk (join (fst x) (fname e)) = e) ->
  forall P, preorder (entries_all c) [] tree (dk tree) P ->
  exists bef pos Q R, map thing P = bef ++ map thing Q ++ map thing R /\
    preorder (entries_all c) pos p (dk p) Q /\ spawn_listing c (entries_all c) dk false l R.
Proof.
  intros tree p l HC. induction HC as [|d b l PB NE HC IH]; intros W HD P HP.
  - exists [], [], P, []. rewrite app_nil_r. split; [reflexivity|]. split; [exact HP|constructor].
  - inversion W as [|x y W1 W2]; subst. cbn [fst snd] in W1. destruct W1 as (FD & IB & SO).
    destruct (IH W2 (fun x Hx => HD x (or_intror Hx)) P HP) as (bef & pos & Q & R & EP & HQ & HR).
    apply in_map_iff in IB. destruct IB as (e & EB & IE). apply in_split in IE. destruct IE as (es1 & es2 & EE).
    inversion HQ as [a a1 a2 L HL]; subst. rewrite EE in HL.
    destruct (preorders_split _ _ _ _ _ _ _ HL) as (L1 & L2 & -> & HL1 & HL2).
    inversion HL2 as [|a3 a4 a5 a6 a7 Q' L3 HQ' HL3]; subst.
    assert (HDe := HD (d, fname e) (or_introl eq_refl)). cbn [fst] in HDe.
    assert (DE : dk (join d (fname e)) = e) by (apply HDe; rewrite EE; apply in_or_app; right; left; reflexivity).
    assert (FO : followers c dk false d (fname e) = es2).
    { rewrite followers_filter by exact FD. rewrite EE. apply (sorted_followers false). reflexivity. rewrite <- EE. exact SO. }
    assert (KI : forall p t x, In x (entries_all c p t) -> In x (fkids t)).
    { intros q u x Hx. apply (entries_in_kids c HK q u). unfold entries. rewrite SU. exact Hx. }
    destruct (listings_exist (entries_all c) KI dk d es2) as [L3' HL3'].
    assert (ET : map thing L3 = map thing L3').
    { eapply preorders_listings; [|exact HL3|exact HL3']. intros x Hx. apply HDe. rewrite EE. apply in_or_app. right. right. exact Hx. }
    exists (bef ++ thing (mkPlace pos d (dk d)) :: map thing L1), (pos ++ [0 + length es1]), Q', (L3' ++ R).
    split; [|split; [rewrite DE; exact HQ'|]].
    + rewrite EP. cbn [map]. rewrite !map_app, ET. rewrite <- !app_assoc. cbn [app]. rewrite <- !app_assoc. reflexivity.
    + constructor; [rewrite FO; exact HL3'|exact HR].
Qed.

(** The first level includes the entry on the way itself. *)
Lemma own_listing : forall d b l PS R Q pos,
  way_in_byte_order c dk ((d, b) :: l) ->
  (forall e, In e (entries_all c d (dk d)) -> dk (join d (fname e)) = e) ->
  spawn_listing c (entries_all c) dk true ((d, b) :: l) PS ->
  spawn_listing c (entries_all c) dk false ((d, b) :: l) R ->
  preorder (entries_all c) pos (join d b) (dk (join d b)) Q ->
  map thing PS = map thing Q ++ map thing R.
Proof.
  intros d b l PS R Q pos W HD HS HR HQ.
  inversion HS as [|own d' b' l' P1 P2 HP1 HP2]; subst.
  inversion HR as [|own' d'' b'' l'' R1 R2 HR1 HR2]; subst.
  inversion W as [|x y W1 W2]; subst. cbn [fst snd] in W1. destruct W1 as (FD & IB & SO).
  apply in_map_iff in IB. destruct IB as (e & EB & IE). apply in_split in IE. destruct IE as (es1 & es2 & EE).
  assert (F1 : followers c dk true d b = e :: es2).
  { rewrite followers_filter by exact FD. rewrite EE. apply (sorted_followers true); [exact EB|]. rewrite <- EE. exact SO. }
  assert (F2 : followers c dk false d b = es2).
  { rewrite followers_filter by exact FD. rewrite EE. apply (sorted_followers false); [exact EB|]. rewrite <- EE. exact SO. }
  rewrite F1 in HP1. rewrite F2 in HR1. inversion HP1 as [|e' l1 A1 A2 HA1 HA2]; subst.
  assert (DET : forall d ls X Y, listings (entries_all c) dk d ls X -> listings (entries_all c) dk d ls Y -> X = Y).
  { clear. intro d. induction ls as [|z ls IH]; intros X Y HX HY; inversion HX; inversion HY; subst; [reflexivity|].
    f_equal; [eapply preorder_fun; eassumption|apply IH; assumption]. }
  assert (DES : forall ls own X Y, spawn_listing c (entries_all c) dk own ls X -> spawn_listing c (entries_all c) dk own ls Y -> X = Y).
  { clear - DET. induction ls as [|z ls IH]; intros own X Y HX HY; inversion HX; inversion HY; subst; [reflexivity|].
    match goal with E : (_, _) = (_, _) |- _ => inversion E; subst end.
    f_equal; [eapply DET; eassumption|eapply IH; eassumption]. }
  rewrite (DET _ _ _ _ HR1 HA2) in *. rewrite (DES _ _ _ _ HR2 HP2) in *.
  assert (TQ : map thing Q = map thing A1) by (eapply (proj1 (preorder_things _)); eassumption).
  rewrite TQ, !map_app, app_assoc. reflexivity.
Qed.

(** What the spawn resume lists is the end of the listing of the tree, from the
    saved path on. *)
Theorem spawn_rest : forall tree d b l P PS,
  climb tree (join d b) ((d, b) :: l) -> way_in_byte_order c dk ((d, b) :: l) ->
  (forall x, In x ((d, b) :: l) -> forall e, In e (entries_all c (fst x) (dk (fst x))) -> dk (join (fst x) (fname e)) = e) ->
  preorder (entries_all c) [] tree (dk tree) P ->
  spawn_listing c (entries_all c) dk true ((d, b) :: l) PS ->
  exists bef rest, map thing P = bef ++ map thing PS /\ map thing PS = (join d b, dk (join d b)) :: rest.
Proof.
  intros tree d b l P PS HC W HD HP HS.
  destruct (tree_around tree (join d b) _ HC W HD P HP) as (bef & pos & Q & R & EP & HQ & HR).
  pose proof (own_listing d b l PS R Q pos W (HD (d, b) (or_introl eq_refl)) HS HR HQ) as E.
  exists bef. inversion HQ as [z1 z2 z3 z4 HZ]; subst. eexists. split; [rewrite EP, E; reflexivity|].
  rewrite E. cbn [map app]. unfold thing at 1. cbn [pl_path pl_obj]. reflexivity.
Qed.
End Order.

(** ** Spawn after a panic *)
Lemma split_unique : forall A (x : A) l1 l2 l3 l4, NoDup (l1 ++ x :: l2) -> l1 ++ x :: l2 = l3 ++ x :: l4 -> l1 = l3 /\ l2 = l4.
Proof.
  intros A x. induction l1 as [|y l1 IH]; intros l2 l3 l4 ND E; destruct l3 as [|z l3]; cbn in *; inversion E; subst.
  - split; reflexivity.
  - exfalso. inversion ND as [|? ? N1 N2]; subst. apply N1. apply in_or_app. right. left. reflexivity.
  - exfalso. inversion ND as [|? ? N1 N2]; subst. apply N1. apply in_or_app. right. left. reflexivity.
  - inversion ND as [|? ? N1 N2]; subst. destruct (IH l2 l3 l4 N2) as [-> ->]; [assumption|]. split; reflexivity.
Qed.
Lemma sorted_nodup : forall P, StronglySorted before (map pl_pos P) -> NoDup P.
Proof.
  intro P. induction P as [|p P IH]; intro S; [constructor|]. cbn in S. inversion S as [|? ? S1 F]; subst.
  constructor; [|apply IH; exact S1]. intro I. rewrite Forall_forall in F.
  apply (before_irrefl (pl_pos p)). apply F. apply in_map. exact I.
Qed.

Section Around.
Variable c : cfg.
Variable pc : pathcalc.
Variable dk : disk.
Variable t : fsnode.
Variable P : list place.
Hypothesis HK : hooks_ok c.
Hypothesis SS : stable_sort c.
Hypothesis SU : c_sub c = SubUniversal.
Hypothesis CL : clean (c_tree c) = c_tree c.
Hypothesis PN : proper_names t.
Hypothesis HP : preorder (entries_all c) [] (c_tree c) t P.
Hypothesis TD : tidy c pc dk P.
Notation stds := (stands c (entries c) (c_tree c) (c_tree c) t 0).

Lemma entries_uni : forall p u, entries c p u = entries_all c p u.
Proof. intros p u. unfold entries. rewrite SU. reflexivity. Qed.

Lemma stds_in : forall n, stds n -> In (place_of n) P.
Proof.
  intros n SN. apply stands_reachable in SN.
  destruct (preorder_characterised _ _ _ _ HP) as [RP _]. apply RP.
  clear - SN SU. induction SN as [|p i e R IH N]; [constructor|]. rewrite entries_uni in N. constructor; assumption.
Qed.
Lemma stds_longer : forall n, stds n -> n_path n = c_tree c \/
  (n_path n <> "." /\ (c_tree c = "." \/ String.length (c_tree c) < String.length (n_path n))).
Proof.
  intros n SN. induction SN as [n E1|p i e n HPp IH NT E1 E2 E3 E4]; [left; exact E1|right].
  destruct (stands_paths c (c_tree c) (c_tree c) t 0 HK CL PN p HPp) as (CP & PP & _).
  assert (PE : proper (fname e)).
  { inversion PP as [u X]; subst u. apply X. eapply entries_in_kids; [exact HK|]. eapply nth_error_In. exact NT. }
  rewrite E1. split; [apply join_not_dot; assumption|].
  destruct (string_dec (c_tree c) ".") as [ET|NT']; [left; exact ET|right].
  assert (ND : n_path p <> ".") by (destruct IH as [X|[X _]]; [rewrite X|]; assumption).
  pose proof (length_join (n_path p) (fname e) CP PE ND) as LJ.
  destruct IH as [X|[_ [X|X]]]; [rewrite X in LJ at 1; exact LJ|contradiction|lia].
Qed.

Lemma stands_around : forall n, stds n -> exists l bef Q R' R,
  climb (c_tree c) (n_path n) l /\
  P = bef ++ Q ++ R' /\ preorder (entries_all c) (n_pos n) (n_path n) (n_src n) Q /\
  map thing R' = map thing R /\ spawn_listing c (entries_all c) dk false l R /\
  way_in_byte_order c dk l /\ way_readable c dk l /\ statable c dk l /\ way_sound c pc dk l /\
  (forall x, In x l -> forall e, In e (entries_all c (fst x) (dk (fst x))) -> dk (join (fst x) (fname e)) = e) /\
  (forall g, n_parent n = Some g -> exists b l', proper b /\ n_path n = join (n_path g) b /\ l = (n_path g, b) :: l').
Proof.
  intros n SN. induction SN as [n E1 E2 E3 E4|p i e n HPp IH NT E1 E2 E3 E4].
  - exists [], [], P, [], []. rewrite app_nil_r, E1, E2, E4.
    split; [constructor|]. split; [reflexivity|]. split; [exact HP|]. split; [reflexivity|]. split; [constructor|].
    do 4 (split; [constructor|]). split; [intros x []|]. intros g X. congruence.
  - destruct IH as (l & bef & Q & R' & R & HC & EP & HQ & ET & HS & W1 & W2 & W3 & W4 & W5 & _).
    assert (SN : stds n) by (eapply stands_child; eassumption).
    destruct (stands_paths c (c_tree c) (c_tree c) t 0 HK CL PN p HPp) as (CP & PP & _).
    rewrite entries_uni in NT.
    assert (FD : fisdir (n_src p) = true).
    { unfold entries_all in NT. destruct (fisdir (n_src p)); [reflexivity|]. destruct i; discriminate. }
    assert (PE : forall x, In x (fkids (n_src p)) -> proper (fname x)).
    { inversion PP as [u X]; subst u. intros x Hx. apply X. exact Hx. }
    assert (PEe : proper (fname e)).
    { apply PE. apply (entries_in_kids c HK (n_path p)). rewrite entries_uni. eapply nth_error_In. exact NT. }
    pose proof TD as TDx. unfold tidy in TDx. rewrite Forall_forall in TDx. destruct (TDx _ (stds_in p HPp)) as (DP & _ & TP). cbn [place_of pl_path pl_obj] in DP, TP.
    destruct (TP FD) as (RD & SA & SO).
    apply nth_error_split in NT. destruct NT as (es1 & es2 & EE & LE).
    inversion HQ as [a a1 a2 L HL]; subst a a1 a2 Q. subst e. rewrite EE in HL.
    destruct (preorders_split _ _ _ _ _ _ _ HL) as (L1 & L2 & EL & HL1 & HL2).
    inversion HL2 as [|a3 a4 a5 a6 a7 Q' L3 HQ' HL3]; subst a3 a4 a5 a6 a7 L2. subst L i.
    set (d := n_path p) in *. set (e := n_src n) in *.
    assert (DK : forall x, In x (entries_all c d (n_src p)) -> dk (join d (fname x)) = x).
    { intros x Hx. apply In_nth_error in Hx. destruct Hx as [k Hk].
      assert (IP : In (mkPlace (n_pos p ++ [k]) (join d (fname x)) x) P).
      { destruct (preorder_characterised _ _ _ _ HP) as [RP _]. apply RP.
        apply (reach_entry (entries_all c) (c_tree c) t (place_of p) k x); [|exact Hk].
        apply RP. apply stds_in. exact HPp. }
      destruct (TDx _ IP) as (X & _). exact X. }
    assert (ST : forall x, In x (entries_all c d (n_src p)) -> c_stat c x = None).
    { intros x Hx. apply In_nth_error in Hx. destruct Hx as [k Hk].
      assert (IP : In (mkPlace (n_pos p ++ [k]) (join d (fname x)) x) P).
      { destruct (preorder_characterised _ _ _ _ HP) as [RP _]. apply RP.
        apply (reach_entry (entries_all c) (c_tree c) t (place_of p) k x); [|exact Hk].
        apply RP. apply stds_in. exact HPp. }
      destruct (TDx _ IP) as (_ & X & _). exact X. }
    assert (RE : forall x, In x (fst (c_read c d (n_src p))) -> In x (entries_all c d (n_src p))).
    { intros x Hx. eapply Permutation_in; [symmetry; apply (entries_perm c HK d (n_src p) FD)|exact Hx]. }
    assert (FO : followers c dk false d (fname e) = es2).
    { rewrite (followers_filter c dk SS) by (rewrite DP; exact FD). rewrite DP, EE.
      apply (sorted_followers false); [reflexivity|]. rewrite <- EE. exact SO. }
    assert (KI : forall p t x, In x (entries_all c p t) -> In x (fkids t)).
    { intros q u x Hx. apply (entries_in_kids c HK q u). rewrite entries_uni. exact Hx. }
    destruct (listings_exist (entries_all c) KI dk d es2) as [L3' HL3'].
    assert (ET3 : map thing L3 = map thing L3').
    { eapply preorders_listings; [|exact HL3|exact HL3']. intros x Hx. apply DK. rewrite EE. apply in_or_app. right. right. exact Hx. }
    exists ((d, fname e) :: l), (bef ++ mkPlace (n_pos p) d (n_src p) :: L1), Q', (L3 ++ R'), (L3' ++ R).
    split. { rewrite E1. constructor; [exact PEe| |exact HC].
      destruct (stds_longer n SN) as [X|[_ [X|X]]].
      - exfalso. rewrite E1 in X. destruct (string_dec d ".") as [D|D].
        + destruct (stds_longer p HPp) as [Y|[Y _]]; [|contradiction]. fold d in Y.
          apply (join_not_dot d (fname e)); [exact CP|exact PEe|]. rewrite X, <- Y. exact D.
        + pose proof (length_join d (fname e) CP PEe D) as LJ. rewrite X in LJ.
          destruct (stds_longer p HPp) as [Y|[_ [Y|Y]]]; fold d in Y; [rewrite Y in LJ; lia| |lia].
          apply (join_not_dot d (fname e)); [exact CP|exact PEe|]. rewrite X. exact Y.
      - intro Y. apply (join_not_dot d (fname e)); [exact CP|exact PEe|]. rewrite Y. exact X.
      - intro Y. rewrite E1, Y in X. lia. }
    split. { rewrite EP. rewrite <- !app_assoc. cbn [app]. rewrite <- !app_assoc. reflexivity. }
    split. { rewrite E4, E1. replace (length es1) with (0 + length es1) by reflexivity. exact HQ'. }
    split. { rewrite !map_app, ET3, ET. reflexivity. }
    split. { constructor; [rewrite FO; exact HL3'|exact HS]. }
    split. { constructor; [|exact W1]. cbn [fst snd]. rewrite DP. split; [exact FD|]. split; [|exact SO].
      rewrite EE. apply in_map. apply in_or_app. right. left. reflexivity. }
    split. { constructor; [|exact W2]. cbn [fst snd]. rewrite DP. exact RD. }
    split. { constructor; [|exact W3]. cbn [fst snd]. rewrite DP. intros x Hx. apply RE in Hx.
      rewrite (DK x Hx). apply ST. exact Hx. }
    split. { constructor; [|exact W4]. cbn [fst snd]. rewrite DP. split; [exact SA|]. intros x Hx. apply PE. apply (proj1 HK d (n_src p)). exact Hx. }
    split. { intros x [<-|Hx] z Hz; [cbn [fst] in *; rewrite DP in Hz; apply DK; exact Hz|apply (W5 x Hx z Hz)]. }
    intros g EG. assert (g = p) by congruence. subst g. exists (fname e), l. auto.
Qed.
End Around.

Theorem spawn_recovers : forall c sampling pc dk o s pre n dn g p P,
  let t := dk (c_tree c) in
  hooks_ok c -> root_ok c t -> default_skip c -> plain c -> c_sub c = SubUniversal -> c_depth c = 0%N ->
  stable_sort c -> clean (c_tree c) = c_tree c -> proper_names t ->
  preorder (entries_all c) [] (c_tree c) t P -> tidy c pc dk P ->
  session c sampling t = (o, s) -> calls (s_trace s) = pre ++ [(n, CPanic p)] ->
  Forall (fun x => snd x = CNil) pre ->
  n_parent n = Some dn -> n_parent dn = Some g ->
  exists sv old m again new,
    rescues (s_trace s) = [sv] /\ sv_tree sv = c_tree c /\ sv_path sv = n_path dn /\
    P = map place_of (visited s) ++ new /\
    visited s = old ++ m :: again /\ place_of m = place_of dn /\
    Forall (fun x => above (n_pos dn) (n_pos x) = true) again /\
    forall sv', sv_tree sv' = sv_tree sv -> sv_path sv' = sv_path sv ->
    exists s2, spawn_session (with_client client_nil c) sampling pc dk sv' = (Ret None, true, s2) /\
      map thing (map place_of (visited s2)) = map thing (map place_of (m :: again) ++ new).
Proof.
  intros c sampling pc dk o s pre n dn g p P t HK RO DS PL SU DZ SS CL PN HP TD H HC FN EN ED.
  pose proof (visited_stands c sampling t _ _ HK RO H) as VS. rewrite Forall_forall in VS.
  assert (SN : stands c (entries c) (c_tree c) (c_tree c) t 0 n).
  { apply VS. unfold visited. rewrite HC, map_app. apply in_or_app. right. left. reflexivity. }
  assert (NP : n_pos n <> []).
  { inversion SN as [n' E1 E2 E3 E4|q i e n' HPq NT E1 E2 E3 E4]; subst n'; [congruence|].
    rewrite E4. intro X. apply app_eq_nil in X. destruct X. discriminate. }
  assert (EU : forall q u, entries c q u = entries_all c q u) by (intros; unfold entries; rewrite SU; reflexivity).
  assert (HP' : preorder (entries c) [] (c_tree c) t P).
  { eapply (proj1 (preorder_ext (entries_all c) (entries c) ltac:(intros; symmetry; apply EU))). exact HP. }
  destruct (crash_prefix c sampling t o s pre n p P HK RO DS PL ltac:(congruence) HP' H HC FN NP)
    as (sv & dn' & old & m & mid & af & RS & EN' & ST & _ & SP & SD & _ & EV & EM & EF & FA).
  assert (dn' = dn) by congruence. subst dn'. clear EN'.
  assert (WT : filter (within (c_depth c) 0) P = P) by (apply filter_true; intro q; rewrite DZ; apply within_0).
  rewrite WT in EF.
  assert (SDN : stands c (entries c) (c_tree c) (c_tree c) t 0 dn).
  { inversion SN as [n' E1 E2 E3 E4|q i e n' HPq NT E1 E2 E3 E4]; subst n'; [congruence|].
    assert (q = dn) by congruence. subst q. exact HPq. }
  destruct (stands_around c pc dk t P HK SS SU CL PN HP TD dn SDN)
    as (l & bef & Q & R' & R & CB & EP & HQ & ET & HS & W1 & W2 & W3 & W4 & W5 & W6).
  destruct (W6 g ED) as (b & l' & PB & EJ & ->). clear W6.
  set (c2 := with_client client_nil c).
  assert (KI : forall p t x, In x (entries_all c p t) -> In x (fkids t)).
  { intros q u x Hx. apply (entries_in_kids c HK q u). rewrite EU. exact Hx. }
  destruct (spawn_listing_exists c (entries_all c) KI dk ((n_path g, b) :: l') true) as [PS HPS].
  assert (TV : forall q u, travelled c2 q u = entries_all c q u).
  { intros q u. unfold travelled. change (c_sub c2) with (c_sub c). rewrite SU. apply EU. }
  assert (SL2 : forall own ls X, spawn_listing c (entries_all c) dk own ls X -> spawn_listing c2 (travelled c2) dk own ls X).
  { assert (PX := proj1 (preorder_ext (entries_all c) (travelled c2) ltac:(intros; symmetry; apply TV))).
    intros own ls X HX. induction HX as [|own d b' ls P1 P2 H1 H2 IH]; [constructor|]. constructor; [|exact IH].
    change (followers c2 dk own d b') with (followers c dk own d b').
    induction H1 as [|e0 ls0 Q1 Q2 HQ1 HQ2 IHQ]; [constructor|]. constructor; [apply PX; exact HQ1|exact IHQ]. }
  exists sv, old, m, mid, af. do 7 (split; [assumption|]). intros sv' ST' SP'. rewrite ST in ST'. rewrite SP in SP'.
  clear sv RS ST SP SD. rename sv' into sv. rename ST' into ST. rename SP' into SP.
  destruct (spawn_nil c2 sampling pc dk HK DS PL ltac:(intros tr mm; reflexivity) sv ((n_path g, b) :: l') PS) as (s2 & F2 & V2 & _).
  - rewrite ST, SP. exact CB.
  - exact W2.
  - exact W3.
  - exact W4.
  - apply SL2. exact HPS.
  - assert (CA : called_at c2 (sv_depth sv) PS = PS).
    { unfold called_at. change (c_sub c2) with (c_sub c). change (c_depth c2) with (c_depth c). rewrite SU, DZ.
      rewrite !filter_true; [reflexivity|intro; apply within_0|reflexivity]. }
    rewrite CA in V2.
    assert (DDN : dk (n_path dn) = n_src dn).
    { rewrite EP in TD. apply Forall_app in TD. destruct TD as [_ TD']. inversion HQ as [z0 z1 z2 z3 HZ]; subst z0 z1 z2 Q.
      inversion TD' as [|x y Wa Wb]; subst x y. apply Wa. }
    assert (E2 : map thing PS = map thing Q ++ map thing R).
    { eapply (own_listing c dk SS); [exact W1|exact (W5 (n_path g, b) (or_introl eq_refl))|exact HPS|exact HS|].
      rewrite <- EJ, DDN. exact HQ. }
    inversion HQ as [a a1 a2 L HL]; subst a a1 a2 Q.
    destruct (preorder_characterised _ _ _ _ HP) as [_ SO].
    assert (ND := sorted_nodup _ SO).
    assert (EX : P = map place_of old ++ place_of dn :: map place_of mid ++ af).
    { rewrite EF, EV, map_app, <- app_assoc. cbn [map app]. rewrite EM. reflexivity. }
    assert (X : map place_of old = bef /\ map place_of mid ++ af = L ++ R').
    { apply (split_unique _ (place_of dn)).
      - rewrite <- EX. exact ND.
      - rewrite <- EX. rewrite EP at 1. reflexivity. }
    destruct X as [X1 X2].
    exists s2. split; [exact F2|].
    rewrite V2, E2, <- ET. cbn [map app]. rewrite EM. f_equal. rewrite <- !map_app. rewrite <- X2. reflexivity.
Qed.
