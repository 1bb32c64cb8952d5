(** Consequences for whole sessions, in the form in which the property theorems
    state them. *)
From Verif Require Import Base Paths Level Lo Collections Kernel Session Spec KernelRel KernelFacts
  KernelInv WalkFacts StandsFacts JournalFacts SessionFacts RescueFacts FilesFacts BracketFacts.
From Coq Require Import Permutation Sorting.Sorted.

(** ** Listings *)
Lemma reachable_pre : forall es path t pos p u,
  reachable es path t (mkPlace pos p u) -> forall l, preorder es [] path t l -> In (mkPlace pos p u) l.
Proof.
  intros es path t. 
  assert (SUB : (forall pos p u l, preorder es pos p u l -> forall q, In q l ->
             forall i e, nth_error (es (pl_path q) (pl_obj q)) i = Some e ->
             In (mkPlace (pl_pos q ++ [i]) (join (pl_path q) (fname e)) e) l) /\
          (forall pos p i ts l, preorders es pos p i ts l ->
             (forall q, In q l -> forall k e, nth_error (es (pl_path q) (pl_obj q)) k = Some e ->
               In (mkPlace (pl_pos q ++ [k]) (join (pl_path q) (fname e)) e) l) /\
             (forall k e, nth_error ts k = Some e -> In (mkPlace (pos ++ [i + k]) (join p (fname e)) e) l))).
  { apply preorder_both.
    - intros pos p u l H [IH1 IH2] q [<-|Hq] i e N.
      + right. cbn in *. specialize (IH2 i e N). cbn in IH2. exact IH2.
      + right. eapply IH1; eassumption.
    - intros pos p i. split; [contradiction|]. intros [|k] e H; discriminate.
    - intros pos p i e rest l1 l2 H1 IH1 H2 [IH2 IH3]. split.
      + intros q Hq k x N. apply in_app_or in Hq. apply in_or_app. destruct Hq as [Hq|Hq].
        * left. eapply IH1; eassumption.
        * right. eapply IH2; eassumption.
      + intros [|k] x N; cbn in N.
        * inversion N; subst. apply in_or_app. left. rewrite Nat.add_0_r. inversion H1; subst. left. reflexivity.
        * apply in_or_app. right. replace (i + S k) with (S i + k) by lia. apply IH3. exact N. }
  intros pos p u R. remember (mkPlace pos p u) as pl eqn:E. clear E.
  induction R as [|q i e R IH N]; intros l HL.
  - inversion HL; subst. left. reflexivity.
  - eapply (proj1 SUB); eauto.
Qed.

Lemma pre_reachable : forall es path t, 
  (forall pos p u l, preorder es pos p u l -> reachable es path t (mkPlace pos p u) ->
     forall q, In q l -> reachable es path t q) /\
  (forall pos p i ts l, preorders es pos p i ts l -> forall u, reachable es path t (mkPlace pos p u) ->
     (forall k, nth_error ts k = nth_error (es p u) (i + k)) ->
     forall q, In q l -> reachable es path t q).
Proof.
  intros es path t. apply preorder_both.
  - intros pos p u l H IH R q [<-|Hq]; [exact R|]. eapply IH; eauto.
  - contradiction.
  - intros pos p i e rest l1 l2 H1 IH1 H2 IH2 u R N q Hq. apply in_app_or in Hq. destruct Hq as [Hq|Hq].
    + apply IH1; [|exact Hq]. apply (reach_entry es path t (mkPlace pos p u) i e R).
      specialize (N 0). cbn in N. rewrite Nat.add_0_r in N. symmetry. exact N.
    + eapply IH2; [exact R| |exact Hq]. intro k. specialize (N (S k)). cbn in N. rewrite N. f_equal. lia.
Qed.

Lemma sorted_app : forall (A : Type) (Rl : A -> A -> Prop) a b,
  StronglySorted Rl a -> StronglySorted Rl b -> (forall x y, In x a -> In y b -> Rl x y) ->
  StronglySorted Rl (a ++ b).
Proof.
  intros A Rl a b HA HB H. induction HA as [|x a HA IH F]; [exact HB|]. cbn. constructor.
  - apply IH. intros u v Hu Hv. apply H; [right; exact Hu|exact Hv].
  - apply Forall_app. split; [exact F|]. apply Forall_forall. intros y Hy. apply H; [left; reflexivity|exact Hy].
Qed.

Lemma pre_sorted : forall es,
  (forall pos p u l, preorder es pos p u l -> StronglySorted before (map pl_pos l)) /\
  (forall pos p i ts l, preorders es pos p i ts l -> StronglySorted before (map pl_pos l)).
Proof.
  intro es. apply preorder_both.
  - intros pos p u l H IH. cbn. constructor; [exact IH|].
    apply Forall_map. eapply Forall_impl; [|apply (proj2 (preorder_pos es) _ _ _ _ _ H)].
    intros q (j & x & _ & E). left. rewrite E. apply above_spec. eauto.
  - intros; constructor.
  - intros pos p i e rest l1 l2 H1 IH1 H2 IH2. rewrite map_app. apply sorted_app; auto.
    intros x y Hx Hy. apply in_map_iff in Hx. destruct Hx as (u & <- & Hu).
    apply in_map_iff in Hy. destruct Hy as (v & <- & Hv). right.
    pose proof (proj1 (preorder_pos es) _ _ _ _ H1) as F1. rewrite Forall_forall in F1.
    pose proof (proj2 (preorder_pos es) _ _ _ _ _ H2) as F2. rewrite Forall_forall in F2.
    destruct (F1 _ Hu) as (w & E1). destruct (F2 _ Hv) as (j & z & L & E2).
    exists pos, i, j, w, z. rewrite E1, E2, <- app_assoc. repeat split; auto.
Qed.

Theorem preorder_characterised : forall es path t P, preorder es [] path t P ->
  (forall p, In p P <-> reachable es path t p) /\ StronglySorted before (map pl_pos P).
Proof.
  intros es path t P HP. split.
  - intros [pos p u]. split.
    + apply (proj1 (pre_reachable es path t) _ _ _ _ HP). constructor.
    + intro R. eapply reachable_pre; eassumption.
  - eapply (proj1 (pre_sorted es)); eassumption.
Qed.

(** ** Results of the callback *)
Lemma run_results_at : forall c tree (Pr : node * cbres -> Prop), (forall tr n, Pr (n, c_client c tr n)) ->
  forall n s o s1, run c tree n s o s1 ->
  exists tr, s_trace s1 = s_trace s ++ tr /\ Forall Pr (calls tr).
Proof.
  intros c tree Pr HPr.
  set (Rl := fun s s1 : st => exists tr, s_trace s1 = s_trace s ++ tr /\ Forall Pr (calls tr)).
  assert (R_refl : forall s, Rl s s).
  { intro s. exists []. rewrite app_nil_r. split; [reflexivity|constructor]. }
  assert (R_trans : forall a b d, Rl a b -> Rl b d -> Rl a d).
  { intros a b d (t1 & T1 & F1) (t2 & T2 & F2). exists (t1 ++ t2).
    rewrite T2, T1, app_assoc, calls_app. split; [reflexivity|apply Forall_app; split; assumption]. }
  assert (R_tr : forall s s1 tr, s_trace s1 = s_trace s ++ tr -> calls tr = [] -> Rl s s1).
  { intros s s1 tr T C. exists tr. rewrite C. split; [exact T|constructor]. }
  assert (R_same : forall s s1, s_trace s1 = s_trace s -> Rl s s1).
  { intros s s1 T. apply (R_tr s s1 []); [rewrite app_nil_r; exact T|reflexivity]. }
  assert (R_disp : forall b e s, calls [e] = [] -> Rl s (dispatch b e s)).
  { intros [|] e s H; [apply R_refl|]. apply (R_tr _ _ [e]); auto. }
  assert (LK : forall r n k s o n1 s1, link_next c r n k s = (o, n1, s1) -> Rl s s1).
  { intros r n k s o n1 s1 H. destruct r; cbn [link_next] in H.
    - inversion H; subst; apply R_refl.
    - unfold anchor_next in H.
      assert (A : forall x, Pr (n, x) -> Rl s (emit (EvCall n x) (tick_by (if n_isdir n then DirectoriesInvoked else FilesInvoked) 1 s))).
      { intros x Px. exists [EvCall n x]. split; [reflexivity|]. repeat constructor. exact Px. }
      pose proof (HPr (s_trace (tick_by (if n_isdir n then DirectoriesInvoked else FilesInvoked) 1 s)) n) as HP.
      destruct (c_client c _ n); inversion H; subst; apply A; exact HP.
    - assert (PR : forall p n' s' o' n2 s2, primary_next p n' k s' = (o', n2, s2) -> Rl s' s2).
      { intros p n' s' o' n2 s2 P. destruct p as [f|m]; cbn in P.
        - unfold match_next in P. destruct (f n') as [[|]|]; inversion P; subst; apply R_same; reflexivity.
        - unfold sampler_next in P. destruct (scope_is_tree _); [destruct k as [[fs ds]|]|];
            inversion P; subst; apply R_same; reflexivity. }
      assert (NN : forall m n' s' o' n2 s2, nanny_scheme_next c m n' k s' = (o', n2, s2) -> Rl s' s2).
      { intros m n' s' o' n2 s2 P. unfold nanny_scheme_next in P.
        destruct k as [[fs ds]|]; [destruct (m (c_sort c fs))|]; inversion P; subst; apply R_same; reflexivity. }
      unfold filter_next in H. destruct (c_scheme c) as [[[p|] [m|]]|]; cbn in H.
      + destruct (primary_next p n k s) as [[po pn] ps] eqn:P. apply PR in P.
        destruct po as [[[|] e]|q|]; try (inversion H; subst; exact P).
        destruct (nanny_scheme_next c m pn k ps) as [[no nn] ns] eqn:N. apply NN in N.
        destruct no as [[b e2]|q|]; inversion H; subst; eapply R_trans; eassumption.
      + eapply PR; eassumption.
      + eapply NN; eassumption.
      + inversion H; subst; apply R_refl.
      + inversion H; subst; apply R_refl.
    - unfold hib_next in H. destruct (c_hib c) as [h|]; [|inversion H; subst; apply R_refl].
      assert (SD : forall b e x, calls [e] = [] -> Rl s (set_hib x (dispatch b e s))).
      { intros b e x E. eapply R_trans; [apply (R_disp b e s E)|]. apply R_same; reflexivity. }
      destruct (s_hib s).
      + destruct (hb_wake h n) as [[|]|]; [destruct (hb_incl_wake h)| |]; inversion H; subst; auto.
      + destruct (hb_sleep h n) as [[|]|]; [destruct (hb_incl_sleep h)| |]; inversion H; subst; auto.
      + inversion H; subst; apply R_refl.
    - inversion H; subst; apply R_refl.
    - unfold nanny_next in H. destruct k as [[fs ds]|]; inversion H; subst; apply R_same; reflexivity.
    - unfold fast_next in H. destruct (c_fast c) as [f|]; [|inversion H; subst; apply R_refl].
      destruct (fast_match f n) as [[|]|p|]; inversion H; subst; apply R_same; reflexivity. }
  assert (IT : forall rs n k s o n1 s1, iterate c rs n k s = (o, n1, s1) -> Rl s s1).
  { induction rs as [|r rs IH]; cbn [iterate]; intros n k s o n1 s1 H.
    - inversion H; subst; apply R_refl.
    - destruct (link_next c r n k s) as [[lo ln] ls] eqn:L. apply LK in L.
      destruct lo as [[[|] [er|]]|p|]; try (inversion H; subst; exact L).
      eapply R_trans; [exact L|eapply IH; eassumption]. }
  intros n s o s1 HR.
  refine (proj1 (kernel_inv c tree Rl (fun _ _ => True) (fun _ _ => True) (fun _ _ _ => True)
            R_refl R_trans _ _ _ _ _ _ _) n s o s1 HR I); clear n s o s1 HR; auto.
  - intros n nn s s1 s2 _ E _ (tr & T & F).
    destruct (descend_true _ _ _ _ E) as (_ & T1 & _).
    destruct (ascend_fields nn s2) as (_ & T2 & _).
    exists ((if mu_descend (s_mutes s) then [] else [EvDescend n]) ++ tr ++
            (if mu_ascend (s_mutes s2) then [] else [EvAscend nn])).
    split; [rewrite T2, T, T1, <- !app_assoc; reflexivity|].
    rewrite !calls_app. destruct (mu_descend (s_mutes s)), (mu_ascend (s_mutes s2)); cbn; rewrite ?app_nil_r; exact F.
  - intros n s o n1 s1 _ _ H. unfold invoke in H.
    destruct (iterate c (s_items s) _ _ s) as [[io inn] is_] eqn:II. apply IT in II.
    inversion H; subst. split; [|auto]. eapply R_trans; [exact II|].
    apply (R_tr _ _ [EvOffer n1 (res_of o)]); reflexivity.
  - intros n es s _. apply (R_tr _ _ [EvRescue (saved_of c n s)]); reflexivity.
Qed.

Lemma session_results_at : forall c sampling t o s (Pr : node * cbres -> Prop),
  hooks_ok c -> root_ok c t -> (forall tr n, Pr (n, c_client c tr n)) ->
  session c sampling t = (o, s) -> Forall Pr (calls (s_trace s)).
Proof.
  intros c sampling t o s Pr HK RO HPr H.
  destruct (session_shape _ _ _ _ _ HK RO H) as (ro & s2 & tr & HR & _ & _ & T2 & TS & _).
  destruct (run_results_at _ _ _ HPr _ _ _ _ HR) as (tr' & T' & F).
  rewrite T2 in T'. cbn in T'. inversion T'; subst tr'.
  rewrite TS. cbn [calls]. rewrite calls_app.
  destruct (calls_ending o (s_metrics s)) as (-> & _). rewrite app_nil_r. exact F.
Qed.

Lemma run_results : forall c tree (Pr : cbres -> Prop), (forall tr n, Pr (c_client c tr n)) ->
  forall n s o s1, run c tree n s o s1 ->
  exists tr, s_trace s1 = s_trace s ++ tr /\ Forall (fun x => Pr (snd x)) (calls tr).
Proof. intros c tree Pr H. apply (run_results_at c tree (fun x => Pr (snd x))). exact H. Qed.
Lemma session_results : forall c sampling t o s (Pr : cbres -> Prop),
  hooks_ok c -> root_ok c t -> (forall tr n, Pr (c_client c tr n)) ->
  session c sampling t = (o, s) -> Forall (fun x => Pr (snd x)) (calls (s_trace s)).
Proof. intros c sampling t o s Pr HK RO H. apply (session_results_at c sampling t o s (fun x => Pr (snd x)) HK RO). exact H. Qed.

(** The result of every node offered but not called. *)
Lemma journal_results : forall c h J h' evs (Pr : cbres -> Prop), journal c h J h' evs ->
  Pr CNil -> (c_hib c <> None -> Pr (CErr (Err SkipAll))) ->
  Forall (fun x => Pr (snd x)) (map fst (filter e_called J)) ->
  Forall (fun x => Pr (snd x)) (map fst J).
Proof.
  intros c h J h' evs Pr H PN PS. induction H as [h|h n r sg r0 h1 J h2 evs V R CH H IH]; intro F; [constructor|].
  cbn [filter e_called snd] in F. cbn [map fst].
  destruct sg; cbn [is_called] in F.
  - constructor; [|apply IH; exact F]. cbn. rewrite R by discriminate.
    unfold verdict in V. destruct (hib_verdict c h (clear n)) as [[b r'] h''] eqn:HV.
    destruct b; inversion V; subst.
    + destruct (primary_match c (clear n)); discriminate.
    + unfold hib_verdict in HV. destruct (c_hib c) as [hb|]; [|discriminate].
      destruct h.
      * destruct (yes (hb_wake hb (clear n))); inversion HV; subst; exact PN.
      * destruct (yes (hb_sleep hb (clear n))); inversion HV; subst; exact PN.
      * inversion HV; subst. apply PS. discriminate.
  - constructor; [|apply IH; exact F]. cbn. rewrite R by discriminate.
    unfold verdict in V. destruct (hib_verdict c h (clear n)) as [[b r'] h''] eqn:HV.
    destruct b; inversion V; subst.
    exact PN.
  - inversion F; subst. constructor; [assumption|]. apply IH. assumption.
Qed.

(** ** Sessions whose offers all yield nil *)
Lemma nil_no_skip : forall L p, Forall (fun x => snd x = CNil) L -> below_skip L p = false.
Proof.
  intros L p F. induction F as [|x L H F IH]; [reflexivity|]. cbn. rewrite H. cbn. rewrite andb_false_r. exact IH.
Qed.
Lemma nil_no_cut : forall L p, Forall (fun x => snd x = CNil) L -> cut_off L p = false.
Proof.
  intros L p F. induction F as [|x L H F IH]; [reflexivity|]. cbn. rewrite H. cbn. rewrite andb_false_r. exact IH.
Qed.
Lemma filter_true : forall (A : Type) (f : A -> bool) l, (forall x, f x = true) -> filter f l = l.
Proof. intros A f l H. induction l as [|x l IH]; [reflexivity|]. cbn. rewrite H, IH. reflexivity. Qed.

Lemma last_not_nil : forall L0 m r (L : list (node * cbres)), L = L0 ++ [(m, r)] ->
  Forall (fun x => snd x = CNil) L -> r = CNil.
Proof.
  intros L0 m r L -> F. apply Forall_app in F. destruct F as [_ F]. inversion F; subst. assumption.
Qed.

Theorem walk_nil : forall c sampling t o s P,
  hooks_ok c -> root_ok c t -> default_skip c -> c_sub c <> SubFiles ->
  preorder (entries c) [] (c_tree c) t P ->
  session c sampling t = (o, s) ->
  Forall (fun x => snd x = CNil) (offers (s_trace s)) ->
  o = Ret None /\ map (fun x => place_of (fst x)) (offers (s_trace s)) = filter (within (c_depth c) 0) P.
Proof.
  intros c sampling t o s P HK RO DS NF HP H FN.
  destruct (session_walk _ _ _ _ _ _ HK RO DS NF HP H) as (ro & EO & NS & [[rest [E Z]] ST] & OUT).
  assert (SF : ro = Ret (true, None)).
  { destruct ro as [[[|] [e|]]|p|]; cbn in OUT; try contradiction; try reflexivity; exfalso.
    - destruct OUT as [(_ & _ & m & EL & _)|[(_ & _ & L0 & m & EL)|(_ & L0 & m & p & EL)]].
      + rewrite EL in FN. inversion FN; subst. discriminate.
      + pose proof (last_not_nil _ _ _ _ EL FN). discriminate.
      + pose proof (last_not_nil _ _ _ _ EL FN). discriminate.
    - destruct OUT as [(X & _)|[(X & _)|(_ & L0 & m & p & EL)]]; try discriminate.
      pose proof (last_not_nil _ _ _ _ EL FN). discriminate.
    - destruct OUT as (m & EL & _). rewrite EL in FN. inversion FN; subst. discriminate. }
  subst ro. split; [exact EO|]. rewrite (Z eq_refl), app_nil_r in E. rewrite <- E.
  apply filter_true. intro p. rewrite nil_no_skip by exact FN. reflexivity.
Qed.

Theorem session_files : forall c sampling t o s P,
  hooks_ok c -> root_ok c t -> default_skip c -> c_sub c = SubFiles ->
  preorder (entries_files c) [] (c_tree c) t P ->
  session c sampling t = (o, s) ->
  exists ro, o = of_run ro /\ ro <> Stuck /\
    goodf (c_depth c) 0 P (offers (s_trace s)) (stopsf ro) /\
    run_outf (new_node (c_tree c) t None None []) ro (offers (s_trace s)).
Proof.
  intros c sampling t o s P HK RO DS NF HP H.
  destruct (session_shape _ _ _ _ _ HK RO H) as (ro & s2 & tr & HR & EO & NS & T2 & TS & _).
  exists ro. split; [exact EO|]. split; [exact NS|].
  assert (E : offers (s_trace s) = offers tr).
  { rewrite TS. cbn [offers]. rewrite offers_app. destruct (calls_ending o (s_metrics s)) as (_ & E & _).
    rewrite E, app_nil_r. reflexivity. }
  rewrite E.
  apply (proj1 (files_main c (c_tree c) 0 NF DS) _ _ _ _ HR); try reflexivity; try exact HP.
  unfold grown. rewrite T2. reflexivity.
Qed.

Theorem walk_nil_files : forall c sampling t o s P,
  hooks_ok c -> root_ok c t -> default_skip c -> c_sub c = SubFiles ->
  preorder (entries_files c) [] (c_tree c) t P ->
  session c sampling t = (o, s) ->
  Forall (fun x => snd x = CNil) (offers (s_trace s)) ->
  o = Ret None /\
  map (fun x => place_of (fst x)) (offers (s_trace s)) = filter is_file_place (filter (within (c_depth c) 0) P).
Proof.
  intros c sampling t o s P HK RO DS NF HP H FN.
  destruct (session_files _ _ _ _ _ _ HK RO DS NF HP H) as (ro & EO & NS & [[rest [E Z]] ST] & OUT).
  assert (SF : exists b, ro = Ret (b, None)).
  { destruct ro as [[b [e|]]|p|]; cbn in OUT; try contradiction; eauto; exfalso.
    - destruct OUT as ([(L0 & m & EL)|(_ & L0 & m & p & EL)] & _);
        pose proof (last_not_nil _ _ _ _ EL FN); discriminate.
    - destruct OUT as (_ & m & EL & _). rewrite EL in FN. inversion FN; subst. discriminate. }
  destruct SF as [b ->]. split; [exact EO|]. rewrite (Z eq_refl), app_nil_r in E. rewrite <- E.
  apply filter_true. intro p. rewrite nil_no_cut by exact FN. reflexivity.
Qed.

(** All results of a plain session with a nil callback are nil. *)
Lemma plain_nil : forall c sampling t o s, hooks_ok c -> root_ok c t -> plain c -> nil_callback c ->
  session c sampling t = (o, s) ->
  calls (s_trace s) = offers (s_trace s) /\ Forall (fun x => snd x = CNil) (offers (s_trace s)).
Proof.
  intros c sampling t o s HK RO PL NC H.
  pose proof (plain_calls_offers _ _ _ _ _ HK RO PL H) as E. split; [exact E|].
  rewrite <- E. apply (session_results c sampling t o s (fun r => r = CNil) HK RO NC H).
Qed.

Theorem universal_nil : forall c sampling t P,
  hooks_ok c -> root_ok c t -> default_skip c -> plain c -> nil_callback c -> c_sub c = SubUniversal ->
  preorder (entries_all c) [] (c_tree c) t P ->
  exists s, session c sampling t = (Ret None, s) /\ map place_of (visited s) = filter (within (c_depth c) 0) P.
Proof.
  intros c sampling t P HK RO DS PL NC SU HP.
  destruct (session_total c sampling t) as (o & s & H).
  destruct (plain_nil _ _ _ _ _ HK RO PL NC H) as [E FN].
  assert (HP' : preorder (entries c) [] (c_tree c) t P).
  { eapply (proj1 (preorder_ext (entries_all c) (entries c) (entries_universal c SU))). exact HP. }
  destruct (walk_nil _ _ _ _ _ _ HK RO DS ltac:(congruence) HP' H FN) as [-> EM].
  exists s. split; [exact H|]. unfold visited. rewrite map_map, E. exact EM.
Qed.
Theorem directories_nil : forall c sampling t P,
  hooks_ok c -> root_ok c t -> default_skip c -> plain c -> nil_callback c ->
  c_sub c = SubDirectories \/ c_sub c = SubDirectoriesWithFiles ->
  preorder (entries_dirs c) [] (c_tree c) t P ->
  exists s, session c sampling t = (Ret None, s) /\ map place_of (visited s) = filter (within (c_depth c) 0) P.
Proof.
  intros c sampling t P HK RO DS PL NC SU HP.
  destruct (session_total c sampling t) as (o & s & H).
  destruct (plain_nil _ _ _ _ _ HK RO PL NC H) as [E FN].
  assert (HP' : preorder (entries c) [] (c_tree c) t P).
  { eapply (proj1 (preorder_ext (entries_dirs c) (entries c) (entries_directories c SU))). exact HP. }
  assert (NF : c_sub c <> SubFiles) by (destruct SU as [-> | ->]; discriminate).
  destruct (walk_nil _ _ _ _ _ _ HK RO DS NF HP' H FN) as [-> EM].
  exists s. split; [exact H|]. unfold visited. rewrite map_map, E. exact EM.
Qed.
Theorem files_nil : forall c sampling t P,
  hooks_ok c -> root_ok c t -> default_skip c -> plain c -> nil_callback c -> c_sub c = SubFiles ->
  preorder (entries_files c) [] (c_tree c) t P ->
  exists s, session c sampling t = (Ret None, s) /\
    map place_of (visited s) = filter is_file_place (filter (within (c_depth c) 0) P).
Proof.
  intros c sampling t P HK RO DS PL NC SU HP.
  destruct (session_total c sampling t) as (o & s & H).
  destruct (plain_nil _ _ _ _ _ HK RO PL NC H) as [E FN].
  destruct (walk_nil_files _ _ _ _ _ _ HK RO DS SU HP H FN) as [-> EM].
  exists s. split; [exact H|]. unfold visited. rewrite map_map, E. exact EM.
Qed.

(** ** Projections *)
Lemma entries_dirs_all : forall c, hooks_ok c -> forall p t, fisdir t = true ->
  entries_dirs c p t = filter fisdir (entries_all c p t).
Proof.
  intros c [_ HS] p t D. unfold entries_dirs, entries_all. rewrite D.
  assert (A : forall l, (forall x, In x l -> fisdir x = true) -> filter fisdir (c_sort c l) = c_sort c l).
  { intros l H. assert (F : forall x, In x (c_sort c l) -> fisdir x = true).
    { intros x Hx. apply H. eapply Permutation_in; [apply HS|exact Hx]. }
    clear H. induction (c_sort c l) as [|x r IH]; [reflexivity|]. cbn.
    rewrite (F x (or_introl eq_refl)), IH; [reflexivity|]. intros y Hy. apply F. right; exact Hy. }
  assert (B : forall l, (forall x, In x l -> fisdir x = false) -> filter fisdir (c_sort c l) = []).
  { intros l H. apply filter_nil. intros x Hx. apply H. eapply Permutation_in; [apply HS|exact Hx]. }
  assert (A1 : forall x, In x (filter fisdir (fst (c_read c p t))) -> fisdir x = true)
    by (intros x Hx; apply filter_In in Hx; apply Hx).
  assert (B1 : forall x, In x (filter (fun e => negb (fisdir e)) (fst (c_read c p t))) -> fisdir x = false)
    by (intros x Hx; apply filter_In in Hx; apply negb_true_iff, Hx).
  destruct (c_files_first c); rewrite filter_app, (A _ A1), (B _ B1); [reflexivity|].
  rewrite app_nil_r. reflexivity.
Qed.

Lemma entries_all_file : forall c p t, fisdir t = false -> entries_all c p t = [].
Proof. intros c p t D. unfold entries_all. rewrite D. reflexivity. Qed.

Lemma dirs_projection : forall c, hooks_ok c ->
  (forall pos path t P, preorder (entries_all c) pos path t P -> fisdir t = true ->
     forall pos' D, length pos' = length pos -> preorder (entries_dirs c) pos' path t D ->
     map spot D = map spot (filter is_dir_place P)) /\
  (forall pos path i ts P, preorders (entries_all c) pos path i ts P ->
     forall pos' j D, length pos' = length pos ->
     preorders (entries_dirs c) pos' path j (filter fisdir ts) D ->
     map spot D = map spot (filter is_dir_place P)).
Proof.
  intros c HK. apply preorder_both.
  - intros pos path t l H IH DT pos' D LE HD. inversion HD as [x1 x2 x3 l' HL]; subst.
    cbn [filter is_dir_place pl_obj]. unfold is_dir_place at 1. cbn [pl_obj]. rewrite DT. cbn [map].
    rewrite (entries_dirs_all c HK _ _ DT) in HL.
    unfold spot at 1 3. cbn [pl_pos pl_path pl_obj]. rewrite LE. f_equal. eapply IH; eassumption.
  - intros pos path i pos' j D LE HD. inversion HD; subst. reflexivity.
  - intros pos path i e rest l1 l2 H1 IH1 H2 IH2 pos' j D LE HD. cbn [filter] in HD.
    rewrite filter_app, map_app. destruct (fisdir e) eqn:DE.
    + inversion HD as [|y1 y2 y3 y4 y5 d1 d2 K1 K2]; subst. rewrite map_app. f_equal.
      * eapply IH1; try eassumption; try reflexivity. rewrite !app_length. cbn. lia.
      * eapply IH2; eassumption.
    + inversion H1 as [x1 x2 x3 l' HL]; subst. rewrite (entries_all_file c _ _ DE) in HL. inversion HL; subst.
      cbn [filter]. unfold is_dir_place at 1. cbn [pl_obj]. rewrite DE. cbn [map app].
      eapply IH2; eassumption.
Qed.

Lemma spot_within : forall limit base p q, spot p = spot q -> within limit base p = within limit base q.
Proof. intros limit base p q E. unfold spot in E. inversion E as [[A B C]]. unfold within. rewrite A. reflexivity. Qed.
Lemma filter_spot : forall (f : place -> bool), (forall p q, spot p = spot q -> f p = f q) ->
  forall A B, map spot A = map spot B -> map spot (filter f A) = map spot (filter f B).
Proof.
  intros f Hf. induction A as [|a A IH]; intros [|b B] E; try discriminate; [reflexivity|].
  cbn [map] in E. inversion E as [[E1 E2 E3 E4]].
  assert (S1 : spot a = spot b) by (unfold spot; congruence).
  cbn [filter]. rewrite (Hf a b S1). destruct (f b); cbn [map]; [f_equal; [exact S1|]|]; apply IH; exact E4.
Qed.
Lemma filter_comm : forall (A : Type) (f g : A -> bool) l, filter f (filter g l) = filter g (filter f l).
Proof.
  intros A f g l. induction l as [|x l IH]; [reflexivity|]. cbn.
  destruct (f x) eqn:F, (g x) eqn:G; cbn; rewrite ?F, ?G, IH; reflexivity.
Qed.

Definition readable_all (c : cfg) : Prop :=
  forall p t, fisdir t = true -> snd (c_read c p t) = None.

Lemma entries_files_readable : forall c, readable_all c -> forall p t,
  entries_files c p t = entries_all c p t.
Proof.
  intros c R p t. unfold entries_files. destruct (fisdir t) eqn:D.
  - rewrite (R p t D). reflexivity.
  - rewrite (entries_all_file c p t D). destruct (snd (c_read c p t)); reflexivity.
Qed.

Theorem projections : forall c sampling t,
  hooks_ok c -> root_ok c t -> default_skip c -> plain c -> nil_callback c ->
  fisdir t = true -> readable_all c ->
  exists sU sF sD,
    session (with_sub SubUniversal c) sampling t = (Ret None, sU) /\
    session (with_sub SubFiles c) sampling t = (Ret None, sF) /\
    session (with_sub SubDirectories c) sampling t = (Ret None, sD) /\
    map (fun n => spot (place_of n)) (visited sF) =
      map (fun n => spot (place_of n)) (filter (fun n => negb (fisdir (n_src n))) (visited sU)) /\
    map (fun n => spot (place_of n)) (visited sD) =
      map (fun n => spot (place_of n)) (filter (fun n => fisdir (n_src n)) (visited sU)).
Proof.
  intros c sampling t HK RO DS PL NC DT RA.
  destruct (preorder_exists (with_sub SubUniversal c) HK [] (c_tree c) t) as [P HP].
  destruct (preorder_exists (with_sub SubDirectories c) HK [] (c_tree c) t) as [D HD].
  change (preorder (entries_all c) [] (c_tree c) t P) in HP.
  change (preorder (entries_dirs c) [] (c_tree c) t D) in HD.
  destruct (universal_nil (with_sub SubUniversal c) sampling t P HK RO DS PL NC eq_refl HP) as (sU & EU & MU).
  destruct (directories_nil (with_sub SubDirectories c) sampling t D HK RO DS PL NC (or_introl eq_refl) HD) as (sD & ED & MD).
  assert (HF : preorder (entries_files (with_sub SubFiles c)) [] (c_tree c) t P).
  { eapply (proj1 (preorder_ext (entries_all c) (entries_files (with_sub SubFiles c)) _)). exact HP.
    Unshelve. intros p u. symmetry. apply (entries_files_readable (with_sub SubFiles c) RA). }
  destruct (files_nil (with_sub SubFiles c) sampling t P HK RO DS PL NC eq_refl HF) as (sF & EF & MF).
  exists sU, sF, sD. repeat (split; [assumption|]).
  change (map place_of (visited sU) = filter (within (c_depth c) 0) P) in MU.
  change (map place_of (visited sF) = filter is_file_place (filter (within (c_depth c) 0) P)) in MF.
  change (map place_of (visited sD) = filter (within (c_depth c) 0) D) in MD.
  assert (FM : forall (g : place -> bool) l, filter g (map place_of l) = map place_of (filter (fun n => g (place_of n)) l)).
  { intros g l. induction l as [|x l IH]; [reflexivity|]. cbn [map filter].
    destruct (g (place_of x)); cbn [map]; rewrite IH; reflexivity. }
  split.
  - rewrite <- !(map_map place_of spot). f_equal. rewrite MF, <- MU.
    apply (FM is_file_place).
  - rewrite <- !(map_map place_of spot). rewrite MD.
    change (filter (fun n => fisdir (n_src n)) (visited sU)) with (filter (fun n => is_dir_place (place_of n)) (visited sU)).
    rewrite <- FM, MU, filter_comm.
    apply filter_spot; [intros p q; apply spot_within|].
    eapply (proj1 (dirs_projection c HK)); try eassumption. reflexivity.
Qed.
