(** Panics and rescues, invocation metrics, bracketing: facts about every
    traversal, whatever the subscription and the features. *)
From Verif Require Import Base Paths Level Lo Collections Kernel Session Spec KernelRel KernelFacts
  KernelInv WalkFacts StandsFacts JournalFacts SessionFacts.

(** ** Panics *)
Definition is_panic (r : cbres) : bool := match r with CPanic _ => true | _ => false end.
Definition calm (L : list (node * cbres)) : Prop := Forall (fun x => is_panic (snd x) = false) L.

(** What the rescue handler was given, when the traversal stopped at node [m]
    in state [s1]. *)
Definition saved_right (c : cfg) (m : node) (s1 : st) (sv : saved) : Prop :=
  exists d, n_parent m = Some d /\
    sv_tree sv = c_tree c /\ sv_sub sv = c_sub c /\
    sv_path sv = n_path d /\ sv_isdir sv = n_isdir d /\ sv_depth sv = n_depth d /\
    m_files (sv_metrics sv) = m_files (s_metrics s1) /\
    m_dirs (sv_metrics sv) = m_dirs (s_metrics s1) /\
    m_child (sv_metrics sv) = m_child (s_metrics s1) /\
    m_files_out (sv_metrics sv) = 0 /\ m_dirs_out (sv_metrics sv) = 0 /\ m_child_out (sv_metrics sv) = 0.

(** The error returned says what the rescue handler answered (it was given the
    panic [p] and the state [sv] when so much had happened). *)
Definition answered (c : cfg) (p : panicv) (sv : saved) (er : error) (s1 : st) : Prop :=
  exists tr0 rest, s_trace s1 = tr0 ++ EvRescue sv :: rest /\
    er = rescue_error (c_rescue c tr0 p sv).
Lemma answered_either : forall c p sv er s1, answered c p sv er s1 -> exists a, er = rescue_error a.
Proof. intros c p sv er s1 (tr0 & rest & _ & ->). eexists. reflexivity. Qed.
Lemma answered_grows : forall c p sv er s1 s2 tr, s_trace s2 = s_trace s1 ++ tr -> answered c p sv er s1 -> answered c p sv er s2.
Proof.
  intros c p sv er s1 s2 tr T (tr0 & rest & E & X). exists tr0, (rest ++ tr). split; [|exact X].
  rewrite T, E, <- app_assoc. reflexivity.
Qed.
Definition rescued (c : cfg) (o : outcome (bool * option error)) (L : list (node * cbres))
    (RS : list saved) (s1 : st) : Prop :=
  exists L0 m p sv b er, L = L0 ++ [(m, CPanic p)] /\ calm L0 /\ RS = [sv] /\
    saved_right c m s1 sv /\ o = Ret (b, Some er) /\ answered c p sv er s1.

Definition peaceful (o : outcome (bool * option error)) (L : list (node * cbres)) (RS : list saved) : Prop :=
  calm L /\ RS = [] /\ exists r, o = Ret r.

Section Resc.
Variable c : cfg.
Variable tree : string.

Definition run_pan (n : node) (o : outcome (bool * option error)) (L : list (node * cbres)) (RS : list saved) : Prop :=
  exists m p, o = Pan p /\ L = [(m, CPanic p)] /\ RS = [] /\ n_parent m = n_parent n /\ n_pos m = n_pos n.
Definition loop_pan_ (n : node) (o : outcome (bool * option error)) (L : list (node * cbres)) (RS : list saved) : Prop :=
  exists L0 m p, o = Pan p /\ L = L0 ++ [(m, CPanic p)] /\ calm L0 /\ RS = [] /\ n_parent m = Some n.

Lemma invoke_rescues : forall n k s o n1 s1 tr,
  invoke c n k s = (o, n1, s1) -> grown s s1 tr -> rescues tr = [] /\ offers tr = [(n1, res_of o)].
Proof.
  intros n k s o n1 s1 tr H G.
  destruct (invoke_step _ _ _ _ _ _ _ H) as (_ & S & t & T & F).
  unfold grown in G. rewrite T in G. apply app_inv_head in G. subst tr.
  rewrite rescues_app, offers_app, (chain_rescues _ _ F), (chain_offers _ _ F). auto.
Qed.

Lemma calm_app : forall a b, calm a -> calm b -> calm (a ++ b).
Proof. intros. apply Forall_app; split; assumption. Qed.

Lemma rescued_app : forall o L RS s1 L0, calm L0 -> rescued c o L RS s1 -> rescued c o (L0 ++ L) RS s1.
Proof.
  intros o L RS s1 L0 C (L1 & m & p & sv & b & er & -> & C1 & -> & SV & -> & E).
  exists (L0 ++ L1), m, p, sv, b, er. rewrite app_assoc. repeat split; auto. apply calm_app; assumption.
Qed.
Lemma peaceful_app : forall o L RS L0, calm L0 -> peaceful o L RS -> peaceful o (L0 ++ L) RS.
Proof. intros o L RS L0 C (A & B & D). split; [apply calm_app; assumption|auto]. Qed.

Lemma saved_right_metrics : forall m s1 s2 sv, s_metrics s1 = s_metrics s2 ->
  saved_right c m s1 sv -> saved_right c m s2 sv.
Proof. intros m s1 s2 sv E (d & H). exists d. rewrite <- E. exact H. Qed.

Lemma grown_refl_nil : forall s tr, grown s s tr -> tr = [].
Proof. intros s tr G. apply (app_inv_head (s_trace s)). rewrite app_nil_r. symmetry. exact G. Qed.

Lemma rescue_main :
  (forall n s o s1, run c tree n s o s1 -> forall tr, grown s s1 tr ->
     peaceful o (offers tr) (rescues tr) \/ rescued c o (offers tr) (rescues tr) s1 \/
     run_pan n o (offers tr) (rescues tr)) /\
  (forall n s o n1 s1, body c tree n s o n1 s1 -> forall tr, grown s s1 tr ->
     peaceful o (offers tr) (rescues tr) \/ rescued c o (offers tr) (rescues tr) s1 \/
     run_pan n o (offers tr) (rescues tr)) /\
  (forall n ts s o s1, trav c tree n ts s o s1 -> n_depth n = per_depth (s_depth s) ->
     forall tr, grown s s1 tr ->
     peaceful o (offers tr) (rescues tr) \/ rescued c o (offers tr) (rescues tr) s1) /\
  (forall n i ts s o s1, loop c tree n i ts s o s1 -> n_depth n = per_depth (s_depth s) ->
     forall tr, grown s s1 tr ->
     peaceful o (offers tr) (rescues tr) \/ rescued c o (offers tr) (rescues tr) s1 \/
     loop_pan_ n o (offers tr) (rescues tr)).
Proof.
  assert (EXD : forall n s, n_depth (ext_of c tree n s) = per_depth (s_depth s)).
  { intros n s. unfold ext_of, extend. destruct (split_path (n_path n)). reflexivity. }
  assert (INV : forall n0 s o n1 s1 tr,
     invoke c (ext_of c tree n0 s) (cargo_of c n0) s = (o, n1, s1) -> grown s s1 tr ->
     rescues tr = [] /\ offers tr = [(n1, res_of o)] /\ n_parent n1 = n_parent n0 /\
     n_pos n1 = n_pos n0 /\ n_depth n1 = per_depth (s_depth s1) /\ s_depth s1 = s_depth s).
  { intros n0 s o n1 s1 tr E G. destruct (invoke_rescues _ _ _ _ _ _ _ E G) as [A B].
    destruct (invoke_step _ _ _ _ _ _ _ E) as (SD & SM & _).
    destruct (same_fields _ _ SM) as (_ & _ & _ & F4 & F5 & _ & F7 & _).
    destruct (extend_fields c tree n0 (cargo_of c n0) s) as (_ & _ & _ & X4 & X5 & _).
    fold (ext_of c tree n0 s) in X4, X5. rewrite SD. repeat split; try congruence. }
  apply kernel_mut.
  - intros n s s1 E tr G. apply descend_false in E. subst. apply grown_refl_nil in G. subst.
    left. split; [constructor|]. split; [reflexivity|eauto].
  - intros n s s1 o nn s2 E B IH tr G.
    destruct (descend_true _ _ _ _ E) as (D1 & T1 & _).
    destruct (ascend_fields nn s2) as (_ & T2 & M2 & _).
    destruct (proj1 (proj2 (kernel_grows c tree)) _ _ _ _ _ B) as [_ [t T]].
    specialize (IH t T).
    assert (E2 : offers tr = offers t /\ rescues tr = rescues t).
    { unfold grown in G. rewrite T2, T, T1 in G. rewrite <- !app_assoc in G.
      apply app_inv_head in G. subst tr. rewrite !offers_app, !rescues_app.
      destruct (mu_descend (s_mutes s)), (mu_ascend (s_mutes s2)); cbn; rewrite ?app_nil_r; auto. }
    destruct E2 as [-> ->]. destruct IH as [IH|[IH|IH]]; auto.
    right. left. destruct IH as (L0 & m & p & sv & b & er & A1 & A2 & A3 & A4 & A5 & A6).
    exists L0, m, p, sv, b, er. split; [exact A1|]. split; [exact A2|]. split; [exact A3|]. split; [|split; [exact A5|]].
    + eapply saved_right_metrics; [|exact A4]. congruence.
    + eapply answered_grows; [exact T2|exact A6].
  - intros n0 s e n1 s1 SB D I tr G. destruct (INV _ _ _ _ _ _ I G) as (A & B & _).
    left. rewrite A, B. split; [repeat constructor; destruct e; reflexivity|]. split; [reflexivity|eauto].
  - intros n0 s p n1 s1 SB D I tr G. destruct (INV _ _ _ _ _ _ I G) as (A & B & C & D' & _).
    right; right. exists n1, p. rewrite A, B. auto.
  - intros n0 s skip e SB D A _ tr G. apply grown_refl_nil in G. subst.
    left. split; [constructor|]. split; [reflexivity|eauto].
  - intros n0 s e o s1 SB D A RE T IH tr G.
    destruct (IH (EXD _ _) tr G) as [H|H]; auto.
  - intros n0 s e n1 s1 SB I tr G. destruct (INV _ _ _ _ _ _ I G) as (A & B & _).
    left. rewrite A, B. split; [repeat constructor|]. split; [reflexivity|eauto].
  - intros n0 s p n1 s1 SB I tr G. destruct (INV _ _ _ _ _ _ I G) as (A & B & C & D' & _).
    right; right. exists n1, p. rewrite A, B. auto.
  - intros n0 s e n1 s1 SB I _ tr G. destruct (INV _ _ _ _ _ _ I G) as (A & B & _).
    left. rewrite A, B. split; [repeat constructor|]. split; [reflexivity|eauto].
  - intros n0 s e n1 s1 SB I _ tr G. destruct (INV _ _ _ _ _ _ I G) as (A & B & _).
    left. rewrite A, B. split; [repeat constructor|]. split; [reflexivity|eauto].
  - intros n0 s skip e n1 s1 o s2 SB I _ _ T IH tr G.
    pose proof (invoke_grows _ _ _ _ _ _ _ I) as G1.
    pose proof (proj1 (proj2 (proj2 (kernel_grows c tree))) _ _ _ _ _ T) as G2.
    destruct (grown_split _ _ _ _ G1 G2 G) as (t1 & t2 & -> & GT1 & GT2).
    destruct (INV _ _ _ _ _ _ I GT1) as (A & B & C & D & E & F).
    rewrite offers_app, rescues_app, A, B. cbn [app].
    assert (CM : calm [(n1, res_of (Ret None))]) by (repeat constructor).
    destruct (IH E t2 GT2) as [H|H].
    + left. apply (peaceful_app _ _ _ _ CM H).
    + right. left. apply (rescued_app _ _ _ _ _ CM H).
  - intros n ts s r s1 L IH D tr G.
    destruct (IH D tr G) as [H|[H|(L0 & m & p & H & _)]]; auto. discriminate.
  - intros n ts s p s1 er L IH ER D tr G.
    pose proof (proj2 (proj2 (proj2 (kernel_grows c tree))) _ _ _ _ _ _ L) as [SD [t T]].
    assert (tr = t ++ [EvRescue (saved_of c n s1)]).
    { unfold grown in G. cbn in G. rewrite T, <- app_assoc in G. apply app_inv_head in G. auto. }
    subst tr. rewrite offers_app, rescues_app. cbn [offers rescues]. rewrite app_nil_r.
    destruct (IH D t T) as [(_ & _ & r & H)|[(L0 & m & p' & sv & b & er' & _ & _ & _ & _ & H & _)|H]]; try discriminate.
    destruct H as (L0 & m & p' & H1 & H2 & H3 & H4 & H5). inversion H1; subst p'.
    right. exists L0, m, p, (saved_of c n s1), false, er.
    rewrite H2, H4. split; [reflexivity|]. split; [exact H3|]. split; [reflexivity|]. split; [|split; [reflexivity|]].
    + exists n. repeat split; auto. cbn. rewrite SD. symmetry. exact D.
    + exists (s_trace s1), []. split; [reflexivity|exact ER].
  - intros n i s D tr G. apply grown_refl_nil in G. subst.
    left. split; [constructor|]. split; [reflexivity|eauto].
  - intros n i e ts s er s1 R IH SK D tr G.
    destruct (IH tr G) as [H|[H|(m & p & H & _)]]; auto. discriminate.
  - intros n i e ts s b er s1 R IH NSK NSA D tr G.
    destruct (IH tr G) as [(A & B & _)|[H|(m & p & H & _)]]; [| |discriminate].
    + left. split; [exact A|]. split; [exact B|eauto].
    + right. left. destruct H as (L0 & m & p & sv & b' & er' & A1 & A2 & A3 & A4 & A5 & A6).
      inversion A5; subst. exists L0, m, p, sv, true, er'. repeat (split; [assumption||reflexivity|]). exact A6.
  - intros n i e ts s p s1 R IH D tr G.
    destruct (IH tr G) as [(_ & _ & r & H)|[(L0 & m & p' & sv & b & er' & _ & _ & _ & _ & H & _)|(m & p' & A1 & A2 & A3 & A4 & _)]]; try discriminate.
    right. right. exists [], m, p'. repeat split; auto. constructor.
  - intros n i e ts s b er s1 o s2 R IHR COND L IHL D tr G.
    pose proof (proj1 (kernel_grows c tree) _ _ _ _ R) as G1.
    pose proof (proj2 (proj2 (proj2 (kernel_grows c tree))) _ _ _ _ _ _ L) as G2.
    destruct (grown_split _ _ _ _ G1 G2 G) as (t1 & t2 & -> & GT1 & GT2).
    assert (D1 : n_depth n = per_depth (s_depth s1)) by (destruct G1 as [-> _]; exact D).
    rewrite offers_app, rescues_app.
    destruct (IHR t1 GT1) as [(A & B & _)|[H|(m & p & H & _)]]; [| |discriminate].
    + rewrite B. cbn [app].
      destruct (IHL D1 t2 GT2) as [H|[H|H]].
      * left. apply peaceful_app; assumption.
      * right; left. apply rescued_app; assumption.
      * right; right. destruct H as (L0 & m & p & -> & -> & CL & -> & PM).
        exists (offers t1 ++ L0), m, p. rewrite app_assoc. repeat split; auto. apply calm_app; assumption.
    + exfalso. destruct H as (L0 & m & p & sv & b' & er' & _ & _ & _ & _ & A5 & A6).
      inversion A5; subst. cbn in COND. destruct COND as [_ X]. apply answered_either in A6. destruct A6 as [[d|r] ->]; discriminate.
Qed.
End Resc.

(** ** Invocation metrics *)
Definition counted (s s1 : st) : Prop :=
  exists tr, s_trace s1 = s_trace s ++ tr /\
    m_files (s_metrics s1) = m_files (s_metrics s) + files_in (calls tr) /\
    m_dirs (s_metrics s1) = m_dirs (s_metrics s) + dirs_in (calls tr).

Lemma counted_refl : forall s, counted s s.
Proof. intro s. exists []. rewrite app_nil_r. cbn. repeat split; lia. Qed.
Lemma counted_trans : forall a b d, counted a b -> counted b d -> counted a d.
Proof.
  intros a b d (t1 & T1 & F1 & D1) (t2 & T2 & F2 & D2). exists (t1 ++ t2).
  rewrite T2, T1, app_assoc, calls_app. unfold files_in, dirs_in in *.
  rewrite !filter_app, !app_length. repeat split; lia.
Qed.
(** A step which makes no call and leaves the two metrics alone *)
Lemma counted_silent : forall s s1 tr, s_trace s1 = s_trace s ++ tr -> calls tr = [] ->
  m_files (s_metrics s1) = m_files (s_metrics s) -> m_dirs (s_metrics s1) = m_dirs (s_metrics s) -> counted s s1.
Proof. intros s s1 tr T C F D. exists tr. rewrite C. cbn. repeat split; auto; lia. Qed.
Lemma counted_same : forall s s1, s_trace s1 = s_trace s ->
  m_files (s_metrics s1) = m_files (s_metrics s) -> m_dirs (s_metrics s1) = m_dirs (s_metrics s) -> counted s s1.
Proof. intros s s1 T F D. apply (counted_silent s s1 []); auto. rewrite app_nil_r. exact T. Qed.
Lemma counted_dispatch : forall b e s, calls [e] = [] -> counted s (dispatch b e s).
Proof.
  intros [|] e s H; [apply counted_refl|]. apply (counted_silent _ _ [e]); auto.
Qed.

Lemma link_counted : forall c r n k s o n1 s1, link_next c r n k s = (o, n1, s1) -> counted s s1.
Proof.
  intros c r n k s o n1 s1 H. destruct r; cbn [link_next] in H.
  - inversion H; subst; apply counted_refl.
  - unfold anchor_next in H.
    assert (A : forall x, counted s (emit (EvCall n x) (tick_by (if n_isdir n then DirectoriesInvoked else FilesInvoked) 1 s))).
    { intro x. exists [EvCall n x]. split; [reflexivity|]. unfold files_in, dirs_in. cbn.
      destruct (n_isdir n); cbn; split; lia. }
    destruct (c_client c _ n); inversion H; subst; apply A.
  - assert (PR : forall p n' s' o' n2 s2, primary_next p n' k s' = (o', n2, s2) -> counted s' s2).
    { intros p n' s' o' n2 s2 P. destruct p as [f|m]; cbn in P.
      - unfold match_next in P. destruct (f n') as [[|]|]; inversion P; subst; [apply counted_refl| |apply counted_refl].
        destruct (n_isdir n2); apply counted_same; reflexivity.
      - unfold sampler_next in P. destruct (scope_is_tree _); [destruct k as [[fs ds]|]|];
          inversion P; subst; try apply counted_refl.
        destruct (m [n_src n2]); apply counted_same; reflexivity. }
    assert (NN : forall m n' s' o' n2 s2, nanny_scheme_next c m n' k s' = (o', n2, s2) -> counted s' s2).
    { intros m n' s' o' n2 s2 P. unfold nanny_scheme_next in P.
      destruct k as [[fs ds]|]; [destruct (m (c_sort c fs))|]; inversion P; subst; try (apply counted_same; reflexivity); apply counted_refl. }
    unfold filter_next in H. destruct (c_scheme c) as [[[p|] [m|]]|]; cbn in H.
    + destruct (primary_next p n k s) as [[po pn] ps] eqn:P. apply PR in P.
      destruct po as [[[|] e]|q|]; try (inversion H; subst; exact P).
      destruct (nanny_scheme_next c m pn k ps) as [[no nn] ns] eqn:N. apply NN in N.
      destruct no as [[b e2]|q|]; inversion H; subst; eapply counted_trans; eassumption.
    + eapply PR; eassumption.
    + eapply NN; eassumption.
    + inversion H; subst; apply counted_refl.
    + inversion H; subst; apply counted_refl.
  - unfold hib_next in H. destruct (c_hib c) as [h|]; [|inversion H; subst; apply counted_refl].
    assert (SD : forall b e x, calls [e] = [] -> counted s (set_hib x (dispatch b e s))).
    { intros b e x E. eapply counted_trans; [apply (counted_dispatch b e s E)|].
      apply counted_same; reflexivity. }
    destruct (s_hib s).
    + destruct (hb_wake h n) as [[|]|]; [destruct (hb_incl_wake h)| |]; inversion H; subst; auto using counted_refl.
    + destruct (hb_sleep h n) as [[|]|]; [destruct (hb_incl_sleep h)| |]; inversion H; subst; auto using counted_refl.
    + inversion H; subst; apply counted_refl.
  - inversion H; subst; apply counted_refl.
  - unfold nanny_next in H. destruct k as [[fs ds]|]; inversion H; subst;
      [apply counted_same; reflexivity|apply counted_refl].
  - unfold fast_next in H. destruct (c_fast c) as [f|]; [|inversion H; subst; apply counted_refl].
    destruct (fast_match f n) as [[|]|p|]; inversion H; subst; apply counted_same; reflexivity.
Qed.

Lemma iterate_counted : forall c rs n k s o n1 s1, iterate c rs n k s = (o, n1, s1) -> counted s s1.
Proof.
  induction rs as [|r rs IH]; cbn [iterate]; intros n k s o n1 s1 H.
  - inversion H; subst; apply counted_refl.
  - destruct (link_next c r n k s) as [[lo ln] ls] eqn:L. apply link_counted in L.
    destruct lo as [[[|] [er|]]|p|]; try (inversion H; subst; exact L).
    eapply counted_trans; [exact L|eapply IH; eassumption].
Qed.

Lemma run_counted : forall c tree n s o s1, run c tree n s o s1 -> counted s s1.
Proof.
  intros c tree n s o s1 HR.
  refine (proj1 (kernel_inv c tree counted (fun _ _ => True) (fun _ _ => True) (fun _ _ _ => True)
            counted_refl counted_trans _ _ _ _ _ _ _) n s o s1 HR I); clear n s o s1 HR; auto.
  - intros n nn s s1 s2 _ E _ (tr & T & F & D).
    destruct (descend_true _ _ _ _ E) as (_ & T1 & M1 & _).
    destruct (ascend_fields nn s2) as (_ & T2 & M2 & _).
    exists ((if mu_descend (s_mutes s) then [] else [EvDescend n]) ++ tr ++
            (if mu_ascend (s_mutes s2) then [] else [EvAscend nn])).
    split; [rewrite T2, T, T1, <- !app_assoc; reflexivity|].
    assert (E3 : calls ((if mu_descend (s_mutes s) then [] else [EvDescend n]) ++ tr ++
            (if mu_ascend (s_mutes s2) then [] else [EvAscend nn])) = calls tr).
    { rewrite !calls_app. destruct (mu_descend (s_mutes s)), (mu_ascend (s_mutes s2)); cbn; rewrite ?app_nil_r; reflexivity. }
    rewrite E3, M2, <- M1. split; assumption.
  - intros n s o n1 s1 _ _ H. unfold invoke in H.
    destruct (iterate c (s_items s) _ _ s) as [[io inn] is_] eqn:IT. apply iterate_counted in IT.
    inversion H; subst. split; [|auto]. eapply counted_trans; [exact IT|].
    apply (counted_silent _ _ [EvOffer n1 (res_of o)]); reflexivity.
  - intros n es s _. apply (counted_silent _ _ [EvRescue (saved_of c n s)]); reflexivity.
Qed.
