(** The files which the Files navigator offers, for every callback behaviour. *)
From Verif Require Import Base Paths Level Kernel Session Spec KernelRel KernelFacts WalkFacts StandsFacts
  JournalFacts SessionFacts RescueFacts.
From Coq Require Import Permutation.

Lemma later_one : forall u v b, later [u] (v :: b) = Nat.ltb u v.
Proof. reflexivity. Qed.
Lemma later_more : forall u w a v b, later (u :: w :: a) (v :: b) = Nat.eqb u v && later (w :: a) b.
Proof. reflexivity. Qed.

Lemma later_spec : forall a b, later a b = true <->
  exists q i j x, a = q ++ [i] /\ b = q ++ j :: x /\ i < j.
Proof.
  induction a as [|u a IH]; intro b.
  - split; [discriminate|]. intros (q & i & j & x & H & _). destruct q; discriminate.
  - destruct b as [|v b].
    + split; [destruct a; discriminate|]. intros (q & i & j & x & _ & H & _). destruct q; discriminate.
    + destruct a as [|w a].
      * rewrite later_one, Nat.ltb_lt. split.
        -- intro L. exists [], u, v, b. auto.
        -- intros (q & i & j & x & A & B & L). destruct q as [|y [|z q]]; try discriminate.
           cbn in A, B. inversion A; inversion B; subst. exact L.
      * rewrite later_more, andb_true_iff, Nat.eqb_eq, IH. split.
        -- intros [-> (q & i & j & x & A & B & L)]. exists (v :: q), i, j, x. rewrite A, B. auto.
        -- intros (q & i & j & x & A & B & L). destruct q as [|y q]; [discriminate|].
           cbn in A, B. inversion A; inversion B; subst. split; [reflexivity|]. eauto 8.
Qed.

Lemma later_same : forall q a b, a <> [] -> later (q ++ a) (q ++ b) = later a b.
Proof.
  induction q as [|u q IH]; intros a b NE; [reflexivity|]. cbn [app].
  destruct (q ++ a) as [|w r] eqn:E.
  - destruct q, a; try discriminate. contradiction.
  - rewrite later_more, Nat.eqb_refl. cbn [andb]. rewrite <- E. apply IH; exact NE.
Qed.

(** positions under different entries of the same directory *)
Lemma later_under : forall q i j x y, later (q ++ i :: x) (q ++ j :: y) =
  match x with [] => Nat.ltb i j | _ => Nat.eqb i j && later x y end.
Proof. intros. rewrite later_same by discriminate. reflexivity. Qed.

Section FWalk.
Variable limit : N.
Variable base : Z.

Definition afile (p : place) : bool := negb (fisdir (pl_obj p)).
Notation keptf L P := (filter (fun p => negb (cut_off L p)) (filter afile (filter (within limit base) P))).

Definition no_endf (L : list (node * cbres)) : Prop := Forall (fun x => is_end_files (snd x) = false) L.
Definition endedf (L : list (node * cbres)) : Prop :=
  exists L0 x, L = L0 ++ [x] /\ is_end_files (snd x) = true /\ no_endf L0.
Definition goodf (P : list place) (L : list (node * cbres)) (stop : bool) : Prop :=
  (exists rest, keptf L P = map (fun x => place_of (fst x)) L ++ rest /\ (stop = false -> rest = [])) /\
  (if stop then endedf L else no_endf L).

Lemma goodf_in : forall P L b, goodf P L b ->
  Forall (fun x => In (place_of (fst x)) P /\ fisdir (n_src (fst x)) = false) L.
Proof.
  intros P L b [[rest [E _]] _]. apply Forall_forall. intros x Hx.
  assert (H : In (place_of (fst x)) (keptf L P)).
  { rewrite E. apply in_or_app. left. apply (in_map (fun x => place_of (fst x))). exact Hx. }
  apply filter_In in H. destruct H as [H _]. apply filter_In in H. destruct H as [H F].
  apply filter_In in H. destruct H as [H _]. split; [exact H|].
  unfold afile in F. cbn in F. apply negb_true_iff in F. exact F.
Qed.

Lemma goodf_pos : forall (Q : list nat -> Prop) P L b,
  goodf P L b -> Forall (fun p => Q (pl_pos p)) P -> Forall (fun x => Q (n_pos (fst x))) L.
Proof.
  intros Q P L b G F. pose proof (goodf_in _ _ _ G) as H.
  eapply Forall_impl; [|exact H]. intros x [A _].
  rewrite Forall_forall in F. apply (F _ A).
Qed.

Lemma cut_off_app : forall L1 L2 p, cut_off (L1 ++ L2) p = cut_off L1 p || cut_off L2 p.
Proof. intros; unfold cut_off; apply existsb_app. Qed.
Lemma cut_off_none : forall L p,
  Forall (fun x => later (n_pos (fst x)) (pl_pos p) && is_cut (snd x) = false) L -> cut_off L p = false.
Proof. intros L p F; induction F as [|x L H F IH]; [reflexivity|]. cbn. rewrite H. exact IH. Qed.

Lemma keptf_other : forall L L' P,
  Forall (fun p => cut_off L' p = false) P -> keptf (L ++ L') P = keptf L P.
Proof.
  intros L L' P F. apply filter_ext_Forall. do 2 apply Forall_filter.
  eapply Forall_impl; [|exact F]. intros p Hp. cbn. rewrite cut_off_app, Hp, orb_false_r. reflexivity.
Qed.
Lemma keptf_other_l : forall L L' P,
  Forall (fun p => cut_off L p = false) P -> keptf (L ++ L') P = keptf L' P.
Proof.
  intros L L' P F. apply filter_ext_Forall. do 2 apply Forall_filter.
  eapply Forall_impl; [|exact F]. intros p Hp. cbn. rewrite cut_off_app, Hp. reflexivity.
Qed.

Lemma goodf_nil : goodf [] [] false.
Proof. split; [exists []; split; [reflexivity|auto]|constructor]. Qed.

(** [L1]: what happened at entry [i]; none of it cuts the later entries *)
Lemma goodf_app : forall q i e P1 P2 L1 L2 stop,
  Forall (fun p => under q i (S i) (pl_pos p)) P1 ->
  Forall (fun p => under q (S i) e (pl_pos p)) P2 ->
  Forall (fun x => is_cut (snd x) = true -> n_pos (fst x) <> q ++ [i]) L1 ->
  goodf P1 L1 false -> goodf P2 L2 stop -> goodf (P1 ++ P2) (L1 ++ L2) stop.
Proof.
  intros q i e P1 P2 L1 L2 stop F1 F2 NC G1 G2.
  pose proof (goodf_pos (under q i (S i)) _ _ _ G1 F1) as FL1.
  pose proof (goodf_pos (under q (S i) e) _ _ _ G2 F2) as FL2.
  destruct G1 as [[r1 [E1 Z1]] N1]. destruct G2 as [[r2 [E2 Z2]] N2].
  specialize (Z1 eq_refl). subst r1. rewrite app_nil_r in E1.
  split.
  - exists r2. split; [|exact Z2].
    rewrite !filter_app.
    rewrite (keptf_other L1 L2 P1).
    2:{ eapply Forall_impl; [|exact F1]. intros p (j & x & Hj & E). apply cut_off_none.
        eapply Forall_impl; [|exact FL2]. intros y (j' & x' & Hj' & E'). cbn in *.
        rewrite E, E', later_under. apply andb_false_iff. left.
        destruct x'; [apply Nat.ltb_ge; lia|].
        destruct (Nat.eqb_spec j' j); [lia|reflexivity]. }
    rewrite (keptf_other_l L1 L2 P2).
    2:{ eapply Forall_impl; [|exact F2]. intros p (j & x & Hj & E). apply cut_off_none.
        apply Forall_forall. intros y Hy. rewrite Forall_forall in FL1, NC.
        destruct (FL1 y Hy) as (j' & x' & Hj' & E'). specialize (NC y Hy).
        destruct (is_cut (snd y)) eqn:IC; [|apply andb_false_r].
        specialize (NC eq_refl). rewrite andb_true_r, E, E', later_under.
        destruct x' as [|z x'].
        - exfalso. apply NC. rewrite E'. replace j' with i by lia. reflexivity.
        - destruct (Nat.eqb_spec j' j); [lia|reflexivity]. }
    rewrite E1, E2, map_app, app_assoc. reflexivity.
  - destruct stop.
    + destruct N2 as (L0 & x & -> & Ex & N0). exists (L1 ++ L0), x.
      split; [apply app_assoc|]. split; [exact Ex|]. apply Forall_app; split; assumption.
    + apply Forall_app; split; assumption.
Qed.

Lemma goodf_more : forall P1 P2 L1, goodf P1 L1 true -> goodf (P1 ++ P2) L1 true.
Proof.
  intros P1 P2 L1 [[r [E _]] N]. split; [|exact N].
  exists (r ++ keptf L1 P2). split; [|discriminate].
  rewrite !filter_app, E, app_assoc. reflexivity.
Qed.

Lemma goodf_denied : forall pos path t P',
  within limit base (mkPlace pos path t) = false ->
  Forall (fun p => exists x, pl_pos p = pos ++ x) P' -> goodf (mkPlace pos path t :: P') [] false.
Proof.
  intros pos path t P' W F. split; [|constructor].
  exists []. split; [|auto]. cbn [map app].
  assert (E : filter (within limit base) (mkPlace pos path t :: P') = []).
  { cbn [filter]. rewrite W.
    induction F as [|p P' (x & Hx) F IH]; [reflexivity|]. cbn.
    assert (Wp : within limit base p = false).
    { unfold within in *. cbn [pl_pos] in W. apply orb_false_iff in W. destruct W as [A B].
      rewrite A. cbn. apply Z.leb_gt. apply Z.leb_gt in B. rewrite Hx, app_length. lia. }
    rewrite Wp. exact IH. }
  rewrite E. reflexivity.
Qed.

(** a directory is not itself offered *)
Lemma goodf_dir : forall pos path t P' L stop, fisdir t = true ->
  goodf P' L stop -> goodf (mkPlace pos path t :: P') L stop.
Proof.
  intros pos path t P' L stop D G. destruct G as [[r [E Z]] N]. split; [|exact N].
  exists r. split; [|exact Z].
  rewrite <- E. f_equal. cbn [filter].
  destruct (within limit base (mkPlace pos path t)); [|reflexivity].
  cbn [filter]. unfold afile at 1. cbn [pl_obj]. rewrite D. reflexivity.
Qed.

Lemma later_irrefl : forall a, later a a = false.
Proof.
  induction a as [|x a IH]; [reflexivity|]. destruct a as [|y a].
  - rewrite later_one. apply Nat.ltb_irrefl.
  - rewrite later_more, Nat.eqb_refl. exact IH.
Qed.

Lemma goodf_file : forall n r, within limit base (place_of n) = true -> fisdir (n_src n) = false ->
  goodf [place_of n] [(n, r)] (is_end_files r).
Proof.
  intros n r W D. split.
  - exists []. split; [|auto]. cbn [filter]. rewrite W. cbn [filter].
    unfold afile at 1. cbn [place_of pl_obj]. rewrite D. cbn [negb filter].
    assert (CO : cut_off [(n, r)] (place_of n) = false).
    { apply cut_off_none. constructor; [|constructor]. cbn [fst pl_pos place_of]. rewrite later_irrefl. reflexivity. }
    rewrite CO. reflexivity.
  - destruct (is_end_files r) eqn:E.
    + exists [], (n, r). split; [reflexivity|]. split; [exact E|constructor].
    + constructor; [exact E|constructor].
Qed.

(** a cut at a file: nothing is left of the later entries *)
Lemma goodf_cut : forall q i e P1 P2 L m r,
  goodf P1 L false -> L = [(m, r)] -> n_pos m = q ++ [i] -> is_cut r = true ->
  Forall (fun p => under q (S i) e (pl_pos p)) P2 -> goodf (P1 ++ P2) L false.
Proof.
  intros q i e P1 P2 L m r G -> PM IC F2. destruct G as [[r1 [E1 Z1]] N1].
  specialize (Z1 eq_refl). subst r1. split; [|exact N1].
  exists []. split; [|auto]. rewrite !filter_app, E1, app_nil_r.
  match goal with |- _ ++ ?X = _ => assert (EX : X = []) end.
  2:{ rewrite EX. apply app_nil_r. }
  apply filter_nil. intros p Hp. apply filter_In in Hp. destruct Hp as [Hp _].
  apply filter_In in Hp. destruct Hp as [Hp _].
  rewrite Forall_forall in F2. destruct (F2 p Hp) as (j & x & Hj & E).
  apply negb_false_iff. cbn. rewrite IC, PM, E.
  assert (L : later (q ++ [i]) (q ++ j :: x) = true).
  { rewrite later_under. apply Nat.ltb_lt. lia. }
  rewrite L. reflexivity.
Qed.
End FWalk.

Definition stopsf (o : outcome (bool * option error)) : bool :=
  match o with
  | Ret (_, Some e) => negb (is_skip_all_only e)
  | Ret (_, None) => false
  | _ => true
  end.

Definition failedf (e : error) (L : list (node * cbres)) : Prop :=
  (exists L0 m, L = L0 ++ [(m, CErr e)]) \/
  ((exists a, e = rescue_error a) /\ exists L0 m p, L = L0 ++ [(m, CPanic p)]).
Lemma failedf_app : forall e L L', failedf e L -> failedf e (L' ++ L).
Proof.
  intros e L L' [(L0 & m & ->)|(A & L0 & m & p & ->)].
  - left. exists (L' ++ L0), m. apply app_assoc.
  - right. split; [exact A|]. exists (L' ++ L0), m, p. apply app_assoc.
Qed.

(** Why a part of the traversal gave the outcome it gave. [n] is the node. *)
Definition run_outf (n : node) (o : outcome (bool * option error)) (L : list (node * cbres)) : Prop :=
  match o with
  | Ret (b, None) => fisdir (n_src n) = false -> Forall (fun x => snd x = CNil) L
  | Ret (b, Some e) => failedf e L /\ (b = true -> errors_is SkipDir e = false) /\
      (b = false -> fisdir (n_src n) = false \/ is_skip_all_only e = false) /\
      (fisdir (n_src n) = false -> exists m, L = [(m, CErr e)] /\ n_pos m = n_pos n)
  | Pan p => fisdir (n_src n) = false /\ exists m, L = [(m, CPanic p)] /\ n_pos m = n_pos n
  | Stuck => False
  end.
Definition loop_outf (o : outcome (bool * option error)) (L : list (node * cbres)) : Prop :=
  match o with
  | Ret (b, None) => True
  | Ret (b, Some e) => failedf e L /\ (b = true -> errors_is SkipDir e = false) /\
      (b = false -> is_skip_all_only e = false)
  | Pan p => exists L0 m, L = L0 ++ [(m, CPanic p)]
  | Stuck => False
  end.

Section FilesC.
Variable c : cfg.
Variable tree : string.
Variable base : Z.
Hypothesis Hsub : c_sub c = SubFiles.
Hypothesis Hask : forall n k e, c_ask c n k e = (SkipNoneTraversal, None).

Notation es := (entries_files c).
Notation gd := (goodf (c_depth c) base).

Lemma ents_files : forall n, n_isdir n = fisdir (n_src n) -> rerr_of c n = None -> n_isdir n = true ->
  ents_of c n = es (n_path n) (n_src n).
Proof.
  intros n H RE ID. unfold ents_of, rerr_of, inspect, entries_files, entries_all, read_contents, all_of, files_of, dirs_of in *.
  rewrite Hsub in *. rewrite <- H, ID in *.
  destruct (c_read c (n_path n) (n_src n)) as [ls err]. cbn [fst snd] in *. subst err.
  destruct (c_files_first c); reflexivity.
Qed.
Lemma rerr_files : forall n e, n_isdir n = true -> rerr_of c n = Some e -> es (n_path n) (n_src n) = [].
Proof.
  intros n e ID RE. unfold rerr_of, inspect, entries_files, read_contents in *. rewrite Hsub, ID in RE.
  destruct (c_read c (n_path n) (n_src n)) as [ls err]. cbn in *. subst err. reflexivity.
Qed.
Lemma es_file : forall p u, fisdir u = false -> es p u = [].
Proof.
  intros p u H. unfold entries_files, entries_all. rewrite H. destruct (snd (c_read c p u)); reflexivity.
Qed.

Lemma files_main :
  (forall n s o s1, run c tree n s o s1 ->
     n_isdir n = fisdir (n_src n) ->
     s_depth s = (base + Z.of_nat (length (n_pos n)))%Z ->
     forall P tr, preorder es (n_pos n) (n_path n) (n_src n) P -> grown s s1 tr ->
     gd P (offers tr) (stopsf o) /\ run_outf n o (offers tr)) /\
  (forall n s o n1 s1, body c tree n s o n1 s1 ->
     n_isdir n = fisdir (n_src n) ->
     s_depth s = (base + Z.of_nat (length (n_pos n)) + 1)%Z ->
     within (c_depth c) base (place_of n) = true ->
     forall P tr, preorder es (n_pos n) (n_path n) (n_src n) P -> grown s s1 tr ->
     gd P (offers tr) (stopsf o) /\ run_outf n o (offers tr)) /\
  (forall n ts s o s1, trav c tree n ts s o s1 ->
     s_depth s = (base + Z.of_nat (length (n_pos n)) + 1)%Z ->
     forall P tr, preorders es (n_pos n) (n_path n) 0 ts P -> grown s s1 tr ->
     gd P (offers tr) (stopsf o) /\ loop_outf o (offers tr) /\ (forall p, o <> Pan p)) /\
  (forall n i ts s o s1, loop c tree n i ts s o s1 ->
     s_depth s = (base + Z.of_nat (length (n_pos n)) + 1)%Z ->
     forall P tr, preorders es (n_pos n) (n_path n) i ts P -> grown s s1 tr ->
     gd P (offers tr) (stopsf o) /\ loop_outf o (offers tr)).
Proof.
  assert (CALL : forall n0 s o n1 s1 P tr, n_isdir n0 = fisdir (n_src n0) -> n_isdir n0 = false ->
     within (c_depth c) base (place_of n0) = true ->
     invoke c (ext_of c tree n0 s) (cargo_of c n0) s = (o, n1, s1) -> grown s s1 tr ->
     preorder es (n_pos n0) (n_path n0) (n_src n0) P ->
     offers tr = [(n1, res_of o)] /\ n_pos n1 = n_pos n0 /\ gd P (offers tr) (is_end_files (res_of o))).
  { intros n0 s o n1 s1 P tr ID D W E G HP.
    destruct (invoke_offer c _ _ _ _ _ _ _ E G) as (O & PO & PP & SR & PA & IS).
    destruct (extend_fields c tree n0 (cargo_of c n0) s) as (X1 & X2 & X3 & X4 & _).
    fold (ext_of c tree n0 s) in X1, X2, X3, X4.
    assert (EPL : place_of n0 = place_of n1) by (unfold place_of; congruence).
    assert (SF : fisdir (n_src n0) = false) by congruence.
    inversion HP as [pos path u l HL A1 A2 A3 A4]; subst.
    rewrite (es_file _ _ SF) in HL. inversion HL; subst.
    split; [exact O|]. split; [congruence|]. rewrite O.
    change (mkPlace (n_pos n0) (n_path n0) (n_src n0)) with (place_of n0). rewrite EPL.
    apply goodf_file; [rewrite <- EPL; exact W|]. rewrite SR, X2. exact SF. }
  apply kernel_mut.
  - (* denied *)
    intros n s s1 E ID D P tr HP G.
    pose proof (descend_within _ _ _ _ _ _ E D) as W.
    apply descend_false in E. subst s1. apply grown_refl_nil in G. subst tr.
    split; [|intros _; constructor]. inversion HP; subst. apply goodf_denied; [exact W|].
    eapply Forall_impl; [|apply (proj2 (preorder_pos es) _ _ _ _ _ H)].
    intros p (j & x & _ & E'). eauto.
  - (* ok *)
    intros n s s1 o nn s2 E B IH ID D P tr HP G.
    pose proof (descend_within _ _ _ _ _ _ E D) as W.
    destruct (descend_true _ _ _ _ E) as (D1 & T1 & _).
    destruct (ascend_fields nn s2) as (_ & T2 & _).
    destruct (proj1 (proj2 (kernel_grows c tree)) _ _ _ _ _ B) as [_ [t T]].
    destruct (IH ID ltac:(rewrite D1, D; reflexivity) W P t HP T) as [IG IO].
    assert (E2 : offers tr = offers t).
    { unfold grown in G. rewrite T2, T, T1 in G. rewrite <- !app_assoc in G.
      apply app_inv_head in G. subst tr. rewrite !offers_app.
      rewrite !offers_mute by (intros; discriminate). cbn. rewrite app_nil_r. reflexivity. }
    rewrite E2. split; assumption.
  - (* file call *)
    intros n0 s e n1 s1 _ DI E ID D W P tr HP G.
    destruct (CALL _ _ _ _ _ _ _ ID DI W E G HP) as (O & PN & GD).
    assert (ST : stopsf (Ret (false, e)) = is_end_files (res_of (Ret e))) by (destruct e; reflexivity).
    rewrite ST. split; [exact GD|]. destruct e as [e|]; cbn; rewrite O; [|repeat constructor].
    cbn. split; [left; exists [], n1; reflexivity|]. split; [discriminate|]. split; [left; congruence|].
    intros _. exists n1. auto.
  - (* file panic *)
    intros n0 s p n1 s1 _ DI E ID D W P tr HP G.
    destruct (CALL _ _ _ _ _ _ _ ID DI W E G HP) as (O & PN & GD).
    split; [exact GD|]. cbn. split; [congruence|]. exists n1. rewrite O. auto.
  - (* unreadable *)
    intros n0 s skip e _ DI A RE ID D W P tr HP G. rewrite Hask in A. inversion A; subst skip e.
    destruct RE as [RE|RE]; [contradiction|].
    destruct (rerr_of c n0) as [er|] eqn:REE; [|contradiction].
    apply grown_refl_nil in G. subst tr. split; [|intros _; constructor]. cbn [offers stopsf].
    inversion HP as [pos path u l HL A1 A2 A3 A4]; subst.
    rewrite (rerr_files n0 er DI REE) in HL. inversion HL; subst.
    apply goodf_dir; [congruence|apply goodf_nil].
  - (* travel *)
    intros n0 s e o s1 _ DI A RE T IH ID D W P tr HP G.
    destruct (extend_fields c tree n0 (cargo_of c n0) s) as (X1 & X2 & X3 & X4 & _).
    fold (ext_of c tree n0 s) in X1, X2, X3, X4.
    inversion HP as [pos path u l HL A1 A2 A3 A4]; subst.
    rewrite (ents_files n0 ID RE DI) in IH.
    assert (HL' : preorders es (n_pos (ext_of c tree n0 s)) (n_path (ext_of c tree n0 s)) 0 (es (n_path n0) (n_src n0)) l)
      by (rewrite X4, X1; exact HL).
    assert (D' : s_depth s = (base + Z.of_nat (length (n_pos (ext_of c tree n0 s))) + 1)%Z)
      by (rewrite X4; exact D).
    destruct (IH D' l tr HL' G) as (IG & IO & NP).
    split; [apply goodf_dir; [congruence|exact IG]|].
    destruct o as [[b [er|]]|p|]; cbn in IO |- *; auto.
    + destruct IO as (F & B1 & B). split; [exact F|]. split; [exact B1|]. split; [intro X; right; auto|]. intro X. congruence.
    + intro X. congruence.
    + exfalso. eapply NP. reflexivity.
  - (* call err etc: other subscriptions *) intros; contradiction.
  - intros; contradiction.
  - intros; contradiction.
  - intros n0 s e n1 s1 X. congruence.
  - intros; contradiction.
  - (* trav ret *)
    intros n ts s r s1 L IH D P tr HP G.
    destruct (IH D P tr HP G) as [IG IO]. split; [exact IG|]. split; [exact IO|discriminate].
  - (* trav rescue *)
    intros n ts s p s1 er L IH ER D P tr HP G.
    pose proof (proj2 (proj2 (proj2 (kernel_grows c tree))) _ _ _ _ _ _ L) as [_ [t T]].
    assert (tr = t ++ [EvRescue (saved_of c n s1)]).
    { unfold grown in G. cbn in G. rewrite T, <- app_assoc in G. apply app_inv_head in G. auto. }
    subst tr. rewrite offers_app. cbn [offers]. rewrite app_nil_r.
    destruct (IH D P t HP T) as [IG (L0 & m & IO)].
    assert (ER2 : exists a, er = rescue_error a).
    { subst er. eexists. reflexivity. }
    split; [|split; [|discriminate]].
    + assert (ST : stopsf (Ret (false, Some er)) = stopsf (Pan p)) by (destruct ER2 as [[d|r] H]; rewrite H; reflexivity).
      rewrite ST. exact IG.
    + cbn. split; [right; split; [exact ER2|]; exists L0, m, p; exact IO|]. split; [discriminate|].
      intros _. destruct ER2 as [[d|r] ->]; reflexivity.
  - (* loop nil *)
    intros n i s D P tr HP G. inversion HP; subst. apply grown_refl_nil in G. subst tr.
    split; [apply goodf_nil|exact I].
  - (* loop skipped: SkipDir *)
    intros n i e ts s er s1 R IH SK D P tr HP G.
    inversion HP as [|pos path i0 e0 rest l1 l2 H1 H2 A1 A2 A3 A4 A5]; subst.
    assert (DC : s_depth s = (base + Z.of_nat (length (n_pos (child_node n i e))))%Z).
    { cbn. rewrite app_length. cbn. lia. }
    destruct (IH eq_refl DC l1 tr H1 G) as [IG IO].
    assert (NSA : is_skip_all_only er = false) by (unfold is_skip_all_only; rewrite SK; apply andb_false_r).
    cbn [stopsf] in *. rewrite NSA in *. cbn [negb] in *.
    split; [apply goodf_more; exact IG|].
    cbn. destruct IO as [F _]. split; [exact F|]. split; [discriminate|auto].
  - (* loop failed *)
    intros n i e ts s b er s1 R IH NSK NSA D P tr HP G.
    inversion HP as [|pos path i0 e0 rest l1 l2 H1 H2 A1 A2 A3 A4 A5]; subst.
    assert (DC : s_depth s = (base + Z.of_nat (length (n_pos (child_node n i e))))%Z).
    { cbn. rewrite app_length. cbn. lia. }
    destruct (IH eq_refl DC l1 tr H1 G) as [IG IO]. cbn in IO.
    destruct IO as (F & BT & BF & SF).
    cbn [stopsf] in *. destruct (is_skip_all_only er) eqn:SA; cbn [negb] in *.
    + (* a file cut the rest of its directory *)
      assert (BF' : b = false).
      { destruct b; [|reflexivity]. specialize (NSA eq_refl). unfold is_skip_all_only in SA.
        rewrite NSA in SA. discriminate. }
      subst b. destruct (BF eq_refl) as [DF|X]; [|discriminate].
      destruct (SF DF) as (m & EO & PM). split.
      * set (K := S (list_max (map (fun p => list_max (pl_pos p)) l2)) + S i).
        apply (goodf_cut (c_depth c) base (n_pos n) i K l1 l2 _ m (CErr er) IG EO PM SA).
        apply Forall_forall. intros p Hp.
        pose proof (proj2 (preorder_pos es) _ _ _ _ _ H2) as FF.
        rewrite Forall_forall in FF. destruct (FF p Hp) as (j & x & LE & E').
        exists j, x. split; [|exact E']. split; [exact LE|].
        assert (j <= list_max (pl_pos p)).
        { assert (FM : Forall (fun k => k <= list_max (pl_pos p)) (pl_pos p))
            by (apply list_max_le; apply le_n).
          rewrite Forall_forall in FM. apply FM. rewrite E'. apply in_or_app. right. left. reflexivity. }
        assert (list_max (pl_pos p) <= list_max (map (fun p => list_max (pl_pos p)) l2)).
        { assert (FM : Forall (fun k => k <= list_max (map (fun p => list_max (pl_pos p)) l2))
                         (map (fun p => list_max (pl_pos p)) l2))
            by (apply list_max_le; apply le_n).
          rewrite Forall_forall in FM. apply FM.
          apply (in_map (fun p => list_max (pl_pos p))). exact Hp. }
        unfold K. lia.
      * cbn. split; [exact F|]. split; [auto|discriminate].
    + split; [apply goodf_more; exact IG|]. cbn. split; [exact F|auto].
  - (* loop pan *)
    intros n i e ts s p s1 R IH D P tr HP G.
    inversion HP as [|pos path i0 e0 rest l1 l2 H1 H2 A1 A2 A3 A4 A5]; subst.
    assert (DC : s_depth s = (base + Z.of_nat (length (n_pos (child_node n i e))))%Z).
    { cbn. rewrite app_length. cbn. lia. }
    destruct (IH eq_refl DC l1 tr H1 G) as [IG (_ & m & IO & _)].
    split; [apply goodf_more; exact IG|]. exists [], m. exact IO.
  - (* loop next *)
    intros n i e ts s b er s1 o s2 R IHR COND L IHL D P tr HP G.
    inversion HP as [|pos path i0 e0 rest l1 l2 H1 H2 A1 A2 A3 A4 A5]; subst.
    pose proof (proj1 (kernel_grows c tree) _ _ _ _ R) as G1.
    pose proof (proj2 (proj2 (proj2 (kernel_grows c tree))) _ _ _ _ _ _ L) as G2.
    destruct (grown_split _ _ _ _ G1 G2 G) as (t1 & t2 & -> & GT1 & GT2).
    assert (DC : s_depth s = (base + Z.of_nat (length (n_pos (child_node n i e))))%Z).
    { cbn. rewrite app_length. cbn. lia. }
    destruct (IHR eq_refl DC l1 t1 H1 GT1) as [IG1 IO1].
    assert (D1 : s_depth s1 = (base + Z.of_nat (length (n_pos n)) + 1)%Z)
      by (destruct G1 as [DD _]; rewrite DD; exact D).
    destruct (IHL D1 l2 t2 H2 GT2) as [IG2 IO2].
    rewrite offers_app.
    assert (NST : stopsf (Ret (b, er)) = false).
    { destruct er as [er|]; [|reflexivity]. cbn in IO1, COND |- *. destruct COND as [-> X].
      destruct IO1 as (_ & BT & _). rewrite (BT eq_refl) in X. cbn in X.
      unfold is_skip_all_only. rewrite X, (BT eq_refl). reflexivity. }
    rewrite NST in IG1. split.
    + set (K := S (list_max (map (fun p => list_max (pl_pos p)) l2)) + S i).
      apply (goodf_app (c_depth c) base (n_pos n) i K); [| | |exact IG1|exact IG2].
      * eapply Forall_impl; [|apply (proj1 (preorder_pos es) _ _ _ _ H1)].
        intros p (x & E'). exists i, x. split; [lia|]. rewrite E', <- app_assoc. reflexivity.
      * apply Forall_forall. intros p Hp.
        pose proof (proj2 (preorder_pos es) _ _ _ _ _ H2) as FF.
        rewrite Forall_forall in FF. destruct (FF p Hp) as (j & x & LE & E').
        exists j, x. split; [|exact E']. split; [exact LE|].
        assert (j <= list_max (pl_pos p)).
        { assert (FM : Forall (fun k => k <= list_max (pl_pos p)) (pl_pos p))
            by (apply list_max_le; apply le_n).
          rewrite Forall_forall in FM. apply FM. rewrite E'. apply in_or_app. right. left. reflexivity. }
        assert (list_max (pl_pos p) <= list_max (map (fun p => list_max (pl_pos p)) l2)).
        { assert (FM : Forall (fun k => k <= list_max (map (fun p => list_max (pl_pos p)) l2))
                         (map (fun p => list_max (pl_pos p)) l2))
            by (apply list_max_le; apply le_n).
          rewrite Forall_forall in FM. apply FM.
          apply (in_map (fun p => list_max (pl_pos p))). exact Hp. }
        unfold K. lia.
      * destruct (fisdir e) eqn:DE.
        -- (* a directory: what was offered lies strictly below it *)
           pose proof (goodf_in _ _ _ _ _ IG1) as GI. eapply Forall_impl; [|exact GI].
           intros x [IN FX] _ EP. inversion H1 as [pos path u l HL B1 B2 B3 B4]; subst.
           destruct IN as [IN|IN].
           ++ unfold place_of in IN. inversion IN as [[Q1 Q2 Q3]]. congruence.
           ++ pose proof (proj2 (preorder_pos es) _ _ _ _ _ HL) as FF.
              rewrite Forall_forall in FF. destruct (FF _ IN) as (j & y & _ & E').
              cbn [pl_pos place_of] in E'. rewrite EP in E'.
              rewrite <- (app_nil_r (n_pos n ++ [i])) in E' at 1. apply app_inv_head in E'. discriminate.
        -- cbn in IO1. destruct er as [er|].
           ++ exfalso. destruct COND as [-> X]. destruct IO1 as (_ & BT & _ & SF).
              destruct (SF DE) as (m & EO & _).
              (* a file returns progress = false *)
              inversion R as [| n' s' s1' o' nn' s2' ED BD]; subst.
              inversion BD; subst; cbn in *; try congruence; try contradiction.
           ++ eapply Forall_impl; [|exact (IO1 DE)]. intros x Hx IC. rewrite Hx in IC. discriminate.
    + destruct o as [[b2 [er2|]]|p|]; cbn in IO2 |- *; auto.
      * destruct IO2 as (F & X & Y). split; [apply failedf_app; exact F|auto].
      * destruct IO2 as (L0 & m & ->). exists (offers t1 ++ L0), m. apply app_assoc.
Qed.
End FilesC.
