(** Sessions with a skip handler. *)
From Verif Require Import Base Paths Level Kernel Session Spec KernelRel KernelFacts KernelInv WalkFacts StandsFacts
  JournalFacts SessionFacts FilesFacts WalkCor SpecSkip.
From Coq Require Import Permutation.

Lemma until_app : forall ends P1 P2, until ends (P1 ++ P2) =
  match snd (until ends P1) with
  | Some e => until ends P1
  | None => (fst (until ends P1) ++ fst (until ends P2), snd (until ends P2))
  end.
Proof.
  intros ends P1 P2. induction P1 as [|p P1 IH]; cbn [app until].
  - destruct (until ends P2); reflexivity.
  - destruct (ends p); [reflexivity|]. rewrite IH.
    destruct (until ends P1) as [v1 [e1|]]; reflexivity.
Qed.

Lemma within_below : forall limit base pos path t P',
  within limit base (mkPlace pos path t) = false ->
  Forall (fun p => exists x, pl_pos p = pos ++ x) P' -> filter (within limit base) P' = [].
Proof.
  intros limit base pos path t P' W F.
  induction F as [|p P' (x & Hx) F IH]; [reflexivity|]. cbn.
  assert (Wp : within limit base p = false).
  { unfold within in *. cbn [pl_pos] in W. apply orb_false_iff in W. destruct W as [A B].
    rewrite A. cbn. apply Z.leb_gt. apply Z.leb_gt in B. rewrite Hx, app_length. lia. }
  rewrite Wp. exact IH.
Qed.

Section Skip.
Variable c : cfg.
Variable tree : string.
Variable h : handler.
Variable base : Z.
Hypothesis HB : handled_by c h.
Hypothesis NM : no_mixed_answer c h.

Definition shown (P : list place) : list place :=
  match c_sub c with SubFiles => filter afile P | _ => P end.
Local Notation U P := (until (ends_at c h) (filter (within (c_depth c) base) P)).
Local Notation es := (entries_asked c h).
Definition allnil (L : list (node * cbres)) : Prop := Forall (fun x => snd x = CNil) L.
Definition places (L : list (node * cbres)) : list place := map (fun x => place_of (fst x)) L.

Definition run_end (n : node) (o : outcome (bool * option error)) (u : option error) : Prop :=
  match o with
  | Ret (b, e) =>
      match u with
      | Some er => e = Some er /\ (b = true -> n_pos n = [] \/ is_skip_error er = false) /\
          (b = false -> is_skip_all_only er = false)
      | None => e = None \/ (b = true /\ n_pos n <> [] /\ exists er, e = Some er /\ is_skip_error er = true)
      end
  | _ => False
  end.
Definition loop_end (o : outcome (bool * option error)) (u : option error) : Prop :=
  match o with
  | Ret (b, e) => e = u /\ forall er, e = Some er -> (b = true -> is_skip_error er = false) /\
          (b = false -> is_skip_all_only er = false)
  | _ => False
  end.

Lemma shown_app : forall a b, shown (a ++ b) = shown a ++ shown b.
Proof. intros. unfold shown. destruct (c_sub c); try reflexivity. apply filter_app. Qed.

Lemma rerr_read : forall n, n_isdir n = fisdir (n_src n) -> rerr_of c n = read_error c (n_path n) (n_src n).
Proof.
  intros n ID. unfold rerr_of, read_error, inspect, read_contents.
  destruct (c_sub c); rewrite ?ID; destruct (c_read c (n_path n) (n_src n)) as [l e];
    destruct (fisdir (n_src n)); reflexivity.
Qed.

Lemma until_one : forall p P, within (c_depth c) base p = true ->
  U (p :: P) = match ends_at c h p with
               | Some e => ([p], Some e)
               | None => (p :: fst (U P), snd (U P))
               end.
Proof.
  intros p P W. cbn [filter]. rewrite W. cbn [until]. destruct (ends_at c h p); [reflexivity|].
  destruct (U P); reflexivity.
Qed.

Lemma pre_pruned : forall pos path t P, pruned c h path t = true -> preorder es pos path t P ->
  P = [mkPlace pos path t].
Proof.
  intros pos path t P PR HP. inversion HP as [a b d l HL]; subst. f_equal.
  unfold entries_asked in HL. rewrite PR in HL. inversion HL. reflexivity.
Qed.

Lemma pre_plain : forall pos path t P, pruned c h path t = false -> preorder es pos path t P ->
  exists l, P = mkPlace pos path t :: l /\ preorders es pos path 0 (entries c path t) l.
Proof.
  intros pos path t P PR HP. inversion HP as [a b d l HL]; subst. exists l. split; [reflexivity|].
  unfold entries_asked in HL at 2. rewrite PR in HL. exact HL.
Qed.

Lemma unpruned_ends : forall n, pruned c h (n_path n) (n_src n) = false ->
  ends_at c h (place_of n) = None.
Proof. intros n H. unfold ends_at. cbn. rewrite H. reflexivity. Qed.

(** the end of the run of a node at which the handler prunes *)
Lemma pruned_end : forall n b e ans,
  pruned c h (n_path n) (n_src n) = true ->
  h (n_path n) (n_src n) (read_error c (n_path n) (n_src n)) = (ans, e) ->
  b = loses_skips c ans ->
  run_end n (Ret (b, e)) (ends_at c h (place_of n)).
Proof.
  intros n b e ans PR H B. unfold ends_at. cbn. rewrite PR, H. subst b.
  destruct e as [e|]; [|left; reflexivity].
  destruct (loses_skips c ans) eqn:LS; cbn [andb].
  - destruct (is_skip_error e) eqn:SK; cbn [andb].
    + destruct (n_pos n) as [|i q] eqn:PO.
      * split; [reflexivity|]. split; [left; reflexivity|discriminate].
      * right. split; [reflexivity|]. split; [discriminate|]. eauto.
    + split; [reflexivity|]. split; [auto|discriminate].
  - split; [reflexivity|]. split; [discriminate|]. intros _.
    unfold loses_skips in LS. destruct (c_sub c) eqn:SU; destruct ans; try discriminate.
    eapply NM; [exact SU|exact H].
Qed.

Lemma run_end_pos : forall n m o u, n_pos n = n_pos m -> run_end n o u -> run_end m o u.
Proof. intros n m o u E. unfold run_end. rewrite E. auto. Qed.

Lemma loop_run_end : forall n o u, loop_end o u -> run_end n o u.
Proof.
  intros n [[b e]|p|] u H; cbn in *; try contradiction. destruct H as [-> H].
  destruct u as [er|]; [|auto]. destruct (H er eq_refl) as [A B]. auto.
Qed.


Lemma skip_main :
  (forall n s o s1, run c tree n s o s1 ->
     n_isdir n = fisdir (n_src n) ->
     s_depth s = (base + Z.of_nat (length (n_pos n)))%Z ->
     forall P tr, preorder es (n_pos n) (n_path n) (n_src n) P -> grown s s1 tr -> allnil (offers tr) ->
     places (offers tr) = shown (fst (U P)) /\ run_end n o (snd (U P))) /\
  (forall n s o n1 s1, body c tree n s o n1 s1 ->
     n_isdir n = fisdir (n_src n) ->
     s_depth s = (base + Z.of_nat (length (n_pos n)) + 1)%Z ->
     within (c_depth c) base (place_of n) = true ->
     forall P tr, preorder es (n_pos n) (n_path n) (n_src n) P -> grown s s1 tr -> allnil (offers tr) ->
     places (offers tr) = shown (fst (U P)) /\ run_end n o (snd (U P))) /\
  (forall n ts s o s1, trav c tree n ts s o s1 ->
     s_depth s = (base + Z.of_nat (length (n_pos n)) + 1)%Z ->
     forall P tr, preorders es (n_pos n) (n_path n) 0 ts P -> grown s s1 tr -> allnil (offers tr) ->
     places (offers tr) = shown (fst (U P)) /\ loop_end o (snd (U P))) /\
  (forall n i ts s o s1, loop c tree n i ts s o s1 ->
     s_depth s = (base + Z.of_nat (length (n_pos n)) + 1)%Z ->
     forall P tr, preorders es (n_pos n) (n_path n) i ts P -> grown s s1 tr -> allnil (offers tr) ->
     places (offers tr) = shown (fst (U P)) /\ loop_end o (snd (U P))).
Proof.
  apply kernel_mut.
  - (* denied *)
    intros n s s1 E ID D P tr HP G AN.
    pose proof (descend_within _ _ _ _ _ _ E D) as W.
    apply descend_false in E. subst s1. unfold grown in G.
    assert (tr = []) by (apply (app_inv_head (s_trace s)); rewrite app_nil_r; auto). subst tr.
    assert (EU : filter (within (c_depth c) base) P = []).
    { inversion HP as [pos path t l HL A1 A2 A3 A4]; subst. cbn [filter].
      unfold place_of in W. rewrite W. eapply within_below; [exact W|].
      eapply Forall_impl; [|apply (proj2 (preorder_pos es) _ _ _ _ _ HL)].
      intros p (j & x & _ & E'). eauto. }
    rewrite EU. split; [unfold shown; destruct (c_sub c); reflexivity|]. left; reflexivity.
  - (* ok *)
    intros n s s1 o nn s2 E B IH ID D P tr HP G AN.
    pose proof (descend_within _ _ _ _ _ _ E D) as W.
    destruct (descend_true _ _ _ _ E) as (D1 & T1 & _).
    destruct (ascend_fields nn s2) as (_ & T2 & _).
    destruct (proj1 (proj2 (kernel_grows c tree)) _ _ _ _ _ B) as [_ [t T]].
    assert (E2 : offers tr = offers t).
    { unfold grown in G. rewrite T2, T, T1 in G. rewrite <- !app_assoc in G.
      apply app_inv_head in G. subst tr. rewrite !offers_app.
      rewrite !offers_mute by (intros; discriminate). cbn. rewrite app_nil_r. reflexivity. }
    rewrite E2 in *.
    apply (IH ID ltac:(rewrite D1, D; reflexivity) W P t HP T AN).
  - (* file call *)
    intros n0 s e n1 s1 SU ID0 E ID D W P tr HP G AN.
    destruct (invoke_offer _ _ _ _ _ _ _ _ E G) as (O & PO & PP & SR & PA & IS).
    destruct (extend_fields c tree n0 (cargo_of c n0) s) as (X1 & X2 & X3 & X4 & _).
    fold (ext_of c tree n0 s) in X1, X2, X3, X4.
    assert (EPL : place_of n1 = place_of n0) by (unfold place_of; congruence).
    assert (FD : fisdir (n_src n0) = false) by congruence.
    assert (NPR : pruned c h (n_path n0) (n_src n0) = false).
    { unfold pruned. rewrite SU, FD. destruct (fst _); reflexivity. }
    destruct (pre_plain _ _ _ _ NPR HP) as (l & -> & HL).
    assert (EN : entries c (n_path n0) (n_src n0) = []).
    { unfold entries, entries_all. rewrite SU, FD. reflexivity. }
    rewrite EN in HL. inversion HL; subst.
    change (mkPlace (n_pos n0) (n_path n0) (n_src n0)) with (place_of n0).
    rewrite (until_one (place_of n0) [] W). rewrite (unpruned_ends _ NPR). cbn [filter until fst snd].
    rewrite O in AN |- *. inversion AN as [|x y AH AT]; subst. cbn in AH.
    destruct e as [e|]; cbn in AH; [discriminate|].
    split; [|left; reflexivity].
    unfold shown. rewrite SU. cbn. unfold afile. cbn [pl_obj place_of]. rewrite FD. cbn. rewrite EPL. reflexivity.
  - (* file pan *)
    intros n0 s p n1 s1 SU ID0 E ID D W P tr HP G AN.
    destruct (invoke_offer _ _ _ _ _ _ _ _ E G) as (O & _).
    rewrite O in AN. inversion AN as [|x y AH AT]; subst. discriminate.
  - (* files ask *)
    intros n0 s skip e SU ID0 A CO ID D W P tr HP G AN.
    assert (tr = []) by (apply (app_inv_head (s_trace s)); rewrite app_nil_r; symmetry; exact G). subst tr.
    destruct (extend_fields c tree n0 (cargo_of c n0) s) as (X1 & X2 & X3 & X4 & _).
    fold (ext_of c tree n0 s) in X1, X2, X3, X4.
    rewrite HB, X1, X2, (rerr_read _ ID) in A. rewrite (rerr_read _ ID) in CO.
    assert (FD : fisdir (n_src n0) = true) by congruence.
    assert (PR : pruned c h (n_path n0) (n_src n0) = true).
    { unfold pruned. rewrite SU, A, FD. cbn [fst andb].
      destruct skip; [|reflexivity|reflexivity]. destruct CO as [CO|CO]; [congruence|].
      destruct (read_error c (n_path n0) (n_src n0)); [reflexivity|congruence]. }
    rewrite (pre_pruned _ _ _ _ PR HP).
    change (mkPlace (n_pos n0) (n_path n0) (n_src n0)) with (place_of n0).
    rewrite (until_one (place_of n0) [] W). cbn [filter until fst snd].
    assert (RE : run_end n0 (Ret (true, e)) (ends_at c h (place_of n0))).
    { eapply pruned_end; [exact PR|exact A|]. unfold loses_skips. rewrite SU. reflexivity. }
    assert (SH : forall r, shown [place_of n0] = [] /\ fst (match ends_at c h (place_of n0) with
               | Some e0 => ([place_of n0], Some e0) | None => ([place_of n0], r) end) = [place_of n0]).
    { intro r. split; [|destruct (ends_at c h (place_of n0)); reflexivity].
      unfold shown. rewrite SU. cbn. unfold afile. cbn [pl_obj place_of]. rewrite FD. reflexivity. }
    destruct (SH None) as [S1 S2]. rewrite S2, S1. split; [reflexivity|].
    destruct (ends_at c h (place_of n0)); exact RE.
  - (* files travel *)
    intros n0 s e o s1 SU ID0 A RN T IH ID D W P tr HP G AN.
    destruct (extend_fields c tree n0 (cargo_of c n0) s) as (X1 & X2 & X3 & X4 & _).
    fold (ext_of c tree n0 s) in X1, X2, X3, X4.
    rewrite HB, X1, X2, (rerr_read _ ID) in A. rewrite (rerr_read _ ID) in RN.
    assert (FD : fisdir (n_src n0) = true) by congruence.
    assert (NPR : pruned c h (n_path n0) (n_src n0) = false).
    { unfold pruned. rewrite SU, A, FD, RN. reflexivity. }
    destruct (pre_plain _ _ _ _ NPR HP) as (l & -> & HL).
    rewrite (ents_of_entries c n0 ID) in IH.
    rewrite <- X4 in HL. rewrite <- X1 in HL at 1.
    destruct (IH ltac:(rewrite X4; exact D) l tr HL G AN) as [IP IE].
    change (mkPlace (n_pos n0) (n_path n0) (n_src n0)) with (place_of n0).
    rewrite (until_one (place_of n0) l W). rewrite (unpruned_ends _ NPR). cbn [fst snd].
    split; [|apply loop_run_end; exact IE].
    rewrite IP. unfold shown. rewrite SU. cbn [filter]. unfold afile at 2. cbn [pl_obj place_of]. rewrite FD. reflexivity.
  - (* call err *)
    intros n0 s e n1 s1 _ E ID D W P tr HP G AN.
    destruct (invoke_offer _ _ _ _ _ _ _ _ E G) as (O & _).
    rewrite O in AN. inversion AN as [|x y AH AT]; subst. discriminate.
  - (* call pan *)
    intros n0 s p n1 s1 _ E ID D W P tr HP G AN.
    destruct (invoke_offer _ _ _ _ _ _ _ _ E G) as (O & _).
    rewrite O in AN. inversion AN as [|x y AH AT]; subst. discriminate.
  - (* ask all *)
    intros n0 s e n1 s1 SU E A ID D W P tr HP G AN.
    destruct (invoke_offer _ _ _ _ _ _ _ _ E G) as (O & PO & PP & SR & PA & IS).
    destruct (extend_fields c tree n0 (cargo_of c n0) s) as (X1 & X2 & X3 & X4 & _).
    fold (ext_of c tree n0 s) in X1, X2, X3, X4.
    assert (EPL : place_of n1 = place_of n0) by (unfold place_of; congruence).
    rewrite HB, PA, SR, X1, X2, (rerr_read _ ID) in A.
    assert (PR : pruned c h (n_path n0) (n_src n0) = true).
    { unfold pruned. rewrite A. destruct (c_sub c); try reflexivity; congruence. }
    assert (RE : run_end n0 (Ret (true, e)) (ends_at c h (place_of n0))).
    { eapply pruned_end; [exact PR|exact A|]. unfold loses_skips. destruct (c_sub c); reflexivity. }
    rewrite (pre_pruned _ _ _ _ PR HP).
    change (mkPlace (n_pos n0) (n_path n0) (n_src n0)) with (place_of n0).
    rewrite (until_one (place_of n0) [] W). cbn [filter until fst snd]. rewrite O. cbn [places map fst].
    assert (SH : forall l, shown l = l) by (intro l; unfold shown; destruct (c_sub c); congruence).
    rewrite SH, EPL. destruct (ends_at c h (place_of n0)); (split; [reflexivity|exact RE]).
  - (* ask dir *)
    intros n0 s e n1 s1 SU E A ID D W P tr HP G AN.
    destruct (invoke_offer _ _ _ _ _ _ _ _ E G) as (O & PO & PP & SR & PA & IS).
    destruct (extend_fields c tree n0 (cargo_of c n0) s) as (X1 & X2 & X3 & X4 & _).
    fold (ext_of c tree n0 s) in X1, X2, X3, X4.
    assert (EPL : place_of n1 = place_of n0) by (unfold place_of; congruence).
    rewrite HB, PA, SR, X1, X2, (rerr_read _ ID) in A.
    assert (PR : pruned c h (n_path n0) (n_src n0) = true).
    { unfold pruned. rewrite A, SU. reflexivity. }
    assert (RE : run_end n0 (Ret (false, e)) (ends_at c h (place_of n0))).
    { eapply pruned_end; [exact PR|exact A|]. unfold loses_skips. rewrite SU. reflexivity. }
    rewrite (pre_pruned _ _ _ _ PR HP).
    change (mkPlace (n_pos n0) (n_path n0) (n_src n0)) with (place_of n0).
    rewrite (until_one (place_of n0) [] W). cbn [filter until fst snd]. rewrite O. cbn [places map fst].
    assert (SH : forall l, shown l = l) by (intro l; unfold shown; rewrite SU; reflexivity).
    rewrite SH, EPL. destruct (ends_at c h (place_of n0)); (split; [reflexivity|exact RE]).
  - (* travel *)
    intros n0 s skip e n1 s1 o s2 SU E A CO T IH ID D W P tr HP G AN.
    pose proof (invoke_grows _ _ _ _ _ _ _ E) as G1.
    pose proof (proj1 (proj2 (proj2 (kernel_grows c tree))) _ _ _ _ _ T) as G2.
    destruct (grown_split _ _ _ _ G1 G2 G) as (t1 & t2 & -> & GT1 & GT2).
    destruct (invoke_offer _ _ _ _ _ _ _ _ E GT1) as (O & PO & PP & SR & PA & IS).
    destruct (extend_fields c tree n0 (cargo_of c n0) s) as (X1 & X2 & X3 & X4 & _).
    fold (ext_of c tree n0 s) in X1, X2, X3, X4.
    assert (EPL : place_of n1 = place_of n0) by (unfold place_of; congruence).
    rewrite HB, PA, SR, X1, X2, (rerr_read _ ID) in A.
    assert (NPR : pruned c h (n_path n0) (n_src n0) = false).
    { unfold pruned. rewrite A. cbn [fst]. destruct (c_sub c); try (destruct CO as [-> |[-> CO]]; congruence). }
    destruct (pre_plain _ _ _ _ NPR HP) as (l & -> & HL).
    rewrite (ents_of_entries c n0 ID) in IH.
    assert (D1 : s_depth s1 = (base + Z.of_nat (length (n_pos n1)) + 1)%Z).
    { destruct G1 as [DD _]. rewrite DD, D. rewrite PP, X4. reflexivity. }
    assert (HL' : preorders es (n_pos n1) (n_path n1) 0 (entries c (n_path n0) (n_src n0)) l).
    { rewrite PP, X4, PA, X1. exact HL. }
    rewrite offers_app, O in AN |- *. inversion AN as [|x y _ AN2]; subst.
    destruct (IH D1 l t2 HL' GT2 AN2) as [IP IE].
    change (mkPlace (n_pos n0) (n_path n0) (n_src n0)) with (place_of n0).
    rewrite (until_one (place_of n0) l W). rewrite (unpruned_ends _ NPR). cbn [fst snd].
    assert (SH : forall l, shown l = l) by (intro l0; unfold shown; destruct (c_sub c); congruence).
    rewrite SH in IP |- *. split; [|apply loop_run_end; exact IE].
    cbn [app places map fst]. fold (places (offers t2)). rewrite EPL, IP. reflexivity.
  - (* trav ret *)
    intros n ts s r s1 L IH D P tr HP G AN. exact (IH D P tr HP G AN).
  - (* trav rescue *)
    intros n ts s p s1 er L IH ER D P tr HP G AN.
    pose proof (proj2 (proj2 (proj2 (kernel_grows c tree))) _ _ _ _ _ _ L) as [_ [t T]].
    assert (tr = t ++ [EvRescue (saved_of c n s1)]).
    { unfold grown in G. cbn in G. rewrite T, <- app_assoc in G. apply app_inv_head in G. auto. }
    subst tr. rewrite offers_app in AN. cbn [offers] in AN. rewrite app_nil_r in AN.
    destruct (IH D P t HP T AN) as [_ IE]. contradiction.
  - (* loop nil *)
    intros n i s D P tr HP G AN. inversion HP; subst.
    assert (tr = []) by (apply (app_inv_head (s_trace s)); rewrite app_nil_r; auto). subst tr.
    cbn. split; [unfold shown; destruct (c_sub c); reflexivity|]. split; [reflexivity|discriminate].
  - (* loop skipped *)
    intros n i e ts s er s1 R IH SK D P tr HP G AN.
    inversion HP as [|pos path i0 e0 rest l1 l2 H1 H2 A1 A2 A3 A4 A5]; subst.
    assert (DC : s_depth s = (base + Z.of_nat (length (n_pos (child_node n i e))))%Z).
    { cbn. rewrite app_length. cbn. lia. }
    destruct (IH eq_refl DC l1 tr H1 G AN) as [IP IE].
    rewrite filter_app, until_app.
    destruct (snd (U l1)) as [u|] eqn:EU; cbn in IE.
    + destruct IE as [IE [_ IE2]]. inversion IE; subst. rewrite EU. split; [exact IP|].
      split; [reflexivity|]. intros er0 Q; inversion Q; subst. split; [discriminate|auto].
    + destruct IE as [IE|[IE _]]; discriminate.
  - (* loop failed *)
    intros n i e ts s b er s1 R IH NSK NSA D P tr HP G AN.
    inversion HP as [|pos path i0 e0 rest l1 l2 H1 H2 A1 A2 A3 A4 A5]; subst.
    assert (DC : s_depth s = (base + Z.of_nat (length (n_pos (child_node n i e))))%Z).
    { cbn. rewrite app_length. cbn. lia. }
    destruct (IH eq_refl DC l1 tr H1 G AN) as [IP IE].
    rewrite filter_app, until_app.
    destruct (snd (U l1)) as [u|] eqn:EU; cbn in IE.
    + destruct IE as [IE [IE1 IE2]]. inversion IE; subst. rewrite EU. split; [exact IP|].
      split; [reflexivity|]. intros er0 Q; inversion Q; subst. split; [|discriminate].
      intros _. unfold is_skip_error. rewrite NSK. cbn. destruct b; [apply NSA; reflexivity|].
      specialize (IE2 eq_refl). unfold is_skip_all_only in IE2. rewrite NSK, andb_true_r in IE2. exact IE2.
    + exfalso. destruct IE as [IE|(Hb & _ & er0 & IE & SK)]; [discriminate|]. inversion IE; subst.
      unfold is_skip_error in SK. rewrite NSK, (NSA eq_refl) in SK. discriminate.
  - (* loop pan *)
    intros n i e ts s p s1 R IH D P tr HP G AN.
    inversion HP as [|pos path i0 e0 rest l1 l2 H1 H2 A1 A2 A3 A4 A5]; subst.
    assert (DC : s_depth s = (base + Z.of_nat (length (n_pos (child_node n i e))))%Z).
    { cbn. rewrite app_length. cbn. lia. }
    destruct (IH eq_refl DC l1 tr H1 G AN) as [_ IE]. contradiction.
  - (* loop next *)
    intros n i e ts s b er s1 o s2 R IHR COND L IHL D P tr HP G AN.
    inversion HP as [|pos path i0 e0 rest l1 l2 H1 H2 A1 A2 A3 A4 A5]; subst.
    pose proof (proj1 (kernel_grows c tree) _ _ _ _ R) as G1.
    pose proof (proj2 (proj2 (proj2 (kernel_grows c tree))) _ _ _ _ _ _ L) as G2.
    destruct (grown_split _ _ _ _ G1 G2 G) as (t1 & t2 & -> & GT1 & GT2).
    assert (DC : s_depth s = (base + Z.of_nat (length (n_pos (child_node n i e))))%Z).
    { cbn. rewrite app_length. cbn. lia. }
    rewrite offers_app in AN |- *. apply Forall_app in AN. destruct AN as [AN1 AN2].
    destruct (IHR eq_refl DC l1 t1 H1 GT1 AN1) as [IP1 IE1].
    assert (D1 : s_depth s1 = (base + Z.of_nat (length (n_pos n)) + 1)%Z)
      by (destruct G1 as [DD _]; rewrite DD; exact D).
    destruct (IHL D1 l2 t2 H2 GT2 AN2) as [IP2 IE2].
    rewrite filter_app, until_app.
    destruct (snd (U l1)) as [u|] eqn:EU.
    + exfalso. cbn in IE1. destruct IE1 as [-> [IE1 _]]. destruct COND as [-> COND].
      destruct (IE1 eq_refl) as [X|X].
      * destruct (n_pos n); discriminate.
      * unfold is_skip_error in X. congruence.
    + cbn [fst snd]. split; [|exact IE2].
      unfold places in *. rewrite map_app, IP1, IP2, shown_app. reflexivity.
Qed.
End Skip.

(** ** Sessions *)
Lemma skip_session : forall c h sampling t P o s,
  hooks_ok c -> root_ok c t -> plain c -> nil_callback c -> handled_by c h -> no_mixed_answer c h ->
  preorder (entries_asked c h) [] (c_tree c) t P ->
  session c sampling t = (o, s) ->
  map place_of (visited s) = shown c (fst (until (ends_at c h) (filter (within (c_depth c) 0) P))) /\
  o = Ret (snd (until (ends_at c h) (filter (within (c_depth c) 0) P))).
Proof.
  intros c h sampling t P o s HK RO PL NC HB NM HP H.
  destruct (plain_nil _ _ _ _ _ HK RO PL NC H) as [CE AN].
  destruct (session_shape _ _ _ _ _ HK RO H) as (ro & s2 & tr & HR & EO & NS & T2 & TS & _).
  assert (E : offers (s_trace s) = offers tr).
  { rewrite TS. cbn [offers]. rewrite offers_app. destruct (calls_ending o (s_metrics s)) as (_ & E & _).
    rewrite E, app_nil_r. reflexivity. }
  rewrite E in AN.
  destruct (proj1 (skip_main c (c_tree c) h 0 HB NM) _ _ _ _ HR eq_refl eq_refl P tr HP) as [PL1 RE].
  { unfold grown. rewrite T2. reflexivity. }
  { exact AN. }
  split.
  - unfold visited. rewrite CE, E, map_map. exact PL1.
  - rewrite EO. destruct ro as [[b e]|p|]; cbn in RE; try contradiction. cbn [of_run]. f_equal.
    destruct (snd (until _ _)) as [u|].
    + exact (proj1 RE).
    + destruct RE as [RE|(_ & RE & _)]; [exact RE|]. cbn in RE. congruence.
Qed.

Lemma asked_listing : forall c h, hooks_ok c -> forall t, exists P, preorder (entries_asked c h) [] (c_tree c) t P.
Proof.
  intros c h HK t. apply (preorder_exists_gen _) with (k := height t); [|apply le_n].
  intros p u e HI. unfold entries_asked in HI. destruct (pruned c h p u); [contradiction|].
  eapply entries_in_kids; eassumption.
Qed.

(** ** Handlers which agree where the callback returns nil *)
Section Agree.
Variable c : cfg.
Variable sampling : bool.
Variables a b : node -> contents -> option error -> skip_traversal * option error.
Hypothesis PL : plain c.
Hypothesis AG : agree_where_nil c a b.
Local Notation c1 := (with_ask a c).
Local Notation c2 := (with_ask b c).

Lemma iterate_asks : forall rs n k s, iterate c1 rs n k s = iterate c2 rs n k s.
Proof.
  induction rs as [|r rs IH]; intros n k s; [reflexivity|]. cbn [iterate].
  change (link_next c1 r n k s) with (link_next c2 r n k s).
  destruct (link_next c2 r n k s) as [[[[[|] [e|]]|p|] n1] s1]; try reflexivity. apply IH.
Qed.

Lemma invoke_asks : forall n k s, invoke c1 n k s = invoke c2 n k s.
Proof. intros. unfold invoke. rewrite iterate_asks. reflexivity. Qed.

Lemma invoke_items : forall n k s, s_items s = chain c sampling false ->
  s_items (snd (invoke c2 n k s)) = chain c sampling false.
Proof.
  intros n k s I. unfold invoke. destruct (iterate c2 (s_items s) n k s) as [[o n1] s1] eqn:E.
  rewrite I in E. destruct (iterate_static _ _ _ _ _ _ _ _ (chain_no_fast c sampling) E) as [S _].
  cbn. rewrite S. exact I.
Qed.

Lemma invoke_nil : forall n k s n1 s1, s_items s = chain c sampling false ->
  invoke c2 n k s = (Ret None, n1, s1) -> exists tr, c_client c tr n1 = CNil.
Proof.
  intros n k s n1 s1 I H. unfold invoke in H. rewrite I in H. unfold chain in H. destruct PL as [P1 P2].
  rewrite P1, P2 in H. cbn [has role_if app] in H.
  assert (AN2 : forall m s' x, (let '(o, m1, s2) := iterate c2 [RoleAnchor] m k s' in (o, m1, emit (EvOffer m1 (res_of o)) s2)) = x ->
     x = (Ret None, n1, s1) -> exists tr, c_client c tr n1 = CNil).
  { intros m s' x X Y. subst x. cbn [iterate link_next] in Y. unfold anchor_next in Y. cbn [c_client with_ask] in Y.
    match type of Y with context [c_client c ?t m] => destruct (c_client c t m) eqn:CC end; inversion Y; subst. eauto. }
  destruct (has_nanny c); cbn [role_if app] in H.
  - destruct sampling; cbn [role_if app] in H; cbn [iterate link_next] in H; unfold nanny_next in H;
      (destruct k as [[fs ds]|]; [|discriminate]); eapply AN2; try exact H; cbn [iterate link_next]; reflexivity.
  - destruct sampling; cbn [role_if app] in H; eapply AN2; try exact H; cbn [iterate link_next]; reflexivity.
Qed.

Lemma traverse_asks : forall f tree n s, s_items s = chain c sampling false ->
  traverse f c1 tree n s = traverse f c2 tree n s /\
  s_items (snd (traverse f c2 tree n s)) = chain c sampling false.
Proof.
  induction f as [|f IH]; intros tree n s I; [split; [reflexivity|exact I]|]. cbn [traverse].
  change (descend c1 n s) with (descend c2 n s).
  destruct (descend c2 n s) as [ok s1] eqn:DE.
  assert (I1 : s_items s1 = chain c sampling false).
  { unfold descend in DE. destruct (per_descend (c_depth c2) (s_depth s)) as [d1 d2].
    destruct d1; inversion DE; subst; [|exact I]. destruct (mu_descend (s_mutes s)); exact I. }
  destruct ok; [|split; [reflexivity|exact I1]].
  assert (E : traverse_body c1 (traverse f c1 tree) tree n s1 = traverse_body c2 (traverse f c2 tree) tree n s1 /\
    s_items (snd (traverse_body c2 (traverse f c2 tree) tree n s1)) = chain c sampling false).
  { unfold traverse_body.
    change (inspect c1 n) with (inspect c2 n). destruct (inspect c2 n) as [[k es] err].
    change (extend c1 tree n k s1) with (extend c2 tree n k s1). set (n1 := extend c2 tree n k s1).
    assert (TE : forall m s, s_items s = chain c sampling false ->
      travel c1 (traverse f c1 tree) m es s = travel c2 (traverse f c2 tree) m es s /\
      s_items (snd (travel c2 (traverse f c2 tree) m es s)) = chain c sampling false).
    { intros m s0 I0. unfold travel.
      assert (X : forall i s0, s_items s0 = chain c sampling false ->
        travel_loop (traverse f c1 tree) m i es s0 = travel_loop (traverse f c2 tree) m i es s0 /\
        s_items (snd (travel_loop (traverse f c2 tree) m i es s0)) = chain c sampling false).
      { clear I0 s0. induction es as [|e es0 IHe]; intros i s0 I0; [split; [reflexivity|exact I0]|]. cbn [travel_loop].
        destruct (IH tree (child_node m i e) s0 I0) as [E1 E2]. rewrite E1.
        destruct (traverse f c2 tree (child_node m i e) s0) as [[[[|] [er|]]|p|] s2]; cbn [snd] in E2;
          try (split; [reflexivity|exact E2]); try (apply IHe; exact E2);
          destruct (errors_is SkipDir er); try (split; [reflexivity|exact E2]); try (apply IHe; exact E2).
        destruct (errors_is SkipAll er); try (split; [reflexivity|exact E2]); try (apply IHe; exact E2). }
      destruct (X 0 s0 I0) as [X1 X2]. rewrite X1.
      destruct (travel_loop (traverse f c2 tree) m 0 es s0) as [[r|pv|] s2]; cbn [snd] in X2;
        split; try reflexivity; exact X2. }
    assert (TN : forall m s, s_items s = chain c sampling false ->
      with_node m (travel c1 (traverse f c1 tree) m es s) = with_node m (travel c2 (traverse f c2 tree) m es s) /\
      s_items (snd (with_node m (travel c2 (traverse f c2 tree) m es s))) = chain c sampling false).
    { intros m s0 I0. destruct (TE m s0 I0) as [T1 T2]. unfold with_node. rewrite T1.
      destruct (travel c2 (traverse f c2 tree) m es s0) as [o s3]. split; [reflexivity|exact T2]. }
    rewrite invoke_asks. pose proof (invoke_items n1 k s1 I1) as II.
    pose proof (fun m s' => invoke_nil n1 k s1 m s' I1) as IN.
    change (c_sub c1) with (c_sub c). change (c_sub c2) with (c_sub c).
    change (c_ask c1) with a. change (c_ask c2) with b.
    destruct (c_sub c) eqn:SU.
    - destruct (n_isdir n1) eqn:DI.
      + assert (Q : a n1 k err = b n1 k err) by (apply AG; rewrite SU; exact DI).
        rewrite Q. destruct (b n1 k err) as [sk e].
        destruct sk, err; try (split; [reflexivity|exact I1]). apply TN. exact I1.
      + destruct (invoke c2 n1 k s1) as [[[e|p|] m] s2]; cbn [snd] in *; (split; [reflexivity|exact II]).
    - destruct (invoke c2 n1 k s1) as [[[[e|]|p|] m] s2]; cbn [snd] in *; try (split; [reflexivity|exact II]).
      assert (Q : a m k err = b m k err) by (apply AG; rewrite SU; eapply IN; reflexivity).
      rewrite Q. destruct (b m k err) as [sk e].
      destruct sk; try (split; [reflexivity|exact II]); apply TN; exact II.
    - destruct (invoke c2 n1 k s1) as [[[[e|]|p|] m] s2]; cbn [snd] in *; try (split; [reflexivity|exact II]).
      assert (Q : a m k err = b m k err) by (apply AG; rewrite SU; eapply IN; reflexivity).
      rewrite Q. destruct (b m k err) as [sk e].
      destruct sk; try (split; [reflexivity|exact II]); apply TN; exact II.
    - destruct (invoke c2 n1 k s1) as [[[[e|]|p|] m] s2]; cbn [snd] in *; try (split; [reflexivity|exact II]).
      assert (Q : a m k err = b m k err) by (apply AG; rewrite SU; eapply IN; reflexivity).
      rewrite Q. destruct (b m k err) as [sk e].
      destruct sk; try (split; [reflexivity|exact II]); apply TN; exact II. }
  destruct E as [E1 E2]. rewrite E1.
  destruct (traverse_body c2 (traverse f c2 tree) tree n s1) as [[o nn] s2]. cbn [snd] in E2.
  split; [reflexivity|]. cbn [snd]. unfold ascend. destruct (mu_ascend (s_mutes s2)); exact E2.
Qed.

Lemma session_agree : forall t, session c1 sampling t = session c2 sampling t.
Proof.
  intro t. unfold session, navigate, top.
  change (start_st c1 sampling) with (start_st c sampling). change (start_st c2 sampling) with (start_st c sampling).
  change (c_tree c1) with (c_tree c). change (c_tree c2) with (c_tree c).
  change (c_stat c1 t) with (c_stat c t). change (c_stat c2 t) with (c_stat c t).
  destruct (c_stat c t); [reflexivity|].
  rewrite (proj1 (traverse_asks (S (height t)) (c_tree c) (new_node (c_tree c) t None None [])
    (dispatch (mu_begin (s_mutes (start_st c sampling))) (EvBegin (c_tree c)) (start_st c sampling))
    (session_items_chain c sampling NoResume))). reflexivity.
Qed.
End Agree.
