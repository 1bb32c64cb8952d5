(** Notifications and depths of sessions whose hooks and handlers may panic. *)
From Verif Require Import Base Paths Level Lo Collections Kernel Session Spec KernelRel KernelFacts KernelInv WalkFacts StandsFacts JournalFacts SessionFacts
  RescueFacts BracketFacts World SpecWorld WorldFacts.
Local Open Scope list_scope.

Definition slumber (e : event) : Prop := e = EvWake \/ e = EvSleep.
Definition quiet (n n1 : node) (s s1 : st) : Prop :=
  completed n n1 /\ s_depth s1 = s_depth s /\ static s s1 /\ exists tr, s_trace s1 = s_trace s ++ tr /\ Forall slumber tr.
Lemma completed_refl : forall n, completed n n.
Proof. intros. repeat split. Qed.
Lemma completed_trans : forall a b d, completed a b -> completed b d -> completed a d.
Proof. unfold completed. intuition congruence. Qed.
Lemma quiet_still : forall n n1 s s1, completed n n1 -> s_depth s1 = s_depth s -> static s s1 -> s_trace s1 = s_trace s -> quiet n n1 s s1.
Proof. intros n n1 s s1 C D S T. split; [exact C|]. split; [exact D|]. split; [exact S|]. exists []. rewrite app_nil_r. auto. Qed.
Lemma quiet_same : forall n s, quiet n n s s.
Proof. intros. apply quiet_still; try reflexivity; [apply completed_refl|apply static_refl]. Qed.
Lemma quiet_tell : forall w b e n s p s1, slumber e -> tell w b e s = (p, s1) -> quiet n n s s1.
Proof.
  intros w b e n s p s1 S H. unfold tell in H. destruct b; inversion H; subst; [apply quiet_same|].
  split; [apply completed_refl|]. split; [reflexivity|]. split; [split; reflexivity|]. exists [e]. split; [reflexivity|]. constructor; [exact S|constructor].
Qed.

Section Br.
Context (w : world) (c : cfg) (tree : string).
Lemma nanny_scheme_quiet : forall m n k s o n1 s1, w_nanny_scheme_next w m n k s = (o, n1, s1) -> quiet n n1 s s1.
Proof.
  intros m n k s o n1 s1 H. unfold w_nanny_scheme_next in H. destruct k as [[fs ds]|]; [|inversion H; subst; apply quiet_same].
  destruct (w_sort w (s_trace s) fs) as [l|]; [|inversion H; subst; apply quiet_same].
  destruct (m l); inversion H; subst; [|apply quiet_same]. apply quiet_still; try reflexivity; repeat split.
Qed.
Lemma primary_quiet : forall p n k s o n1 s1, primary_next p n k s = (o, n1, s1) -> quiet n n1 s s1.
Proof.
  intros [g|mt] n k s o n1 s1 H; cbn in H; unfold match_next, sampler_next in H.
  - destruct (g n) as [[|]|]; inversion H; subst; apply quiet_still; try reflexivity; repeat split.
  - destruct (scope_is_tree (n_scope n)); [|inversion H; subst; apply quiet_same].
    destruct k as [[fs ds]|]; inversion H; subst; apply quiet_still; try reflexivity; repeat split.
Qed.
Lemma quiet_trans : forall a b d s s1 s2, quiet a b s s1 -> quiet b d s1 s2 -> quiet a d s s2.
Proof.
  intros a b d s s1 s2 (C & D & S & tr & T & F) (C2 & D2 & S2 & tr2 & T2 & F2).
  split; [eapply completed_trans; eassumption|]. split; [congruence|]. split; [eapply static_trans; eassumption|].
  exists (tr ++ tr2). split; [rewrite T2, T, app_assoc; reflexivity|apply Forall_app; auto].
Qed.
Lemma link_quiet_w : forall r n k s o n1 s1, r <> RoleAnchor -> r <> RoleFastward ->
  w_link_next w c r n k s = (o, n1, s1) -> quiet n n1 s s1.
Proof.
  intros r n k s o n1 s1 NA NF H. destruct r; cbn [w_link_next] in H; try (inversion H; subst; apply quiet_same); try congruence.
  - unfold w_filter_next in H. destruct (c_scheme c) as [[p m]|]; [|inversion H; subst; apply quiet_same]. cbn [sc_primary sc_child] in H.
    destruct p as [p|], m as [m|].
    + destruct (primary_next p n k s) as [[po pn] ps] eqn:P. apply primary_quiet in P.
      destruct po as [[[|] e]|q|]; try (inversion H; subst; exact P).
      destruct (w_nanny_scheme_next w m pn k ps) as [[no nn] ns] eqn:N. apply nanny_scheme_quiet in N.
      destruct no as [[b e2]|q|]; inversion H; subst; eapply quiet_trans; eassumption.
    + eapply primary_quiet; exact H.
    + eapply nanny_scheme_quiet; exact H.
    + inversion H; subst; apply quiet_same.
  - unfold w_hib_next in H. destruct (c_hib c) as [h|]; [|inversion H; subst; apply quiet_same].
    destruct (s_hib s).
    + destruct (hb_wake h n) as [[|]|]; [|inversion H; subst; apply quiet_same|inversion H; subst; apply quiet_same].
      destruct (tell w (mu_wake (s_mutes s)) EvWake s) as [[p|] s2] eqn:T; apply (quiet_tell _ _ _ n) in T; try (left; reflexivity); inversion H; subst; exact T.
    + destruct (hb_sleep h n) as [[|]|]; [|inversion H; subst; apply quiet_same|inversion H; subst; apply quiet_same].
      destruct (tell w (mu_sleep (s_mutes s)) EvSleep s) as [[p|] s2] eqn:T; apply (quiet_tell _ _ _ n) in T; try (right; reflexivity); inversion H; subst; exact T.
    + inversion H; subst; apply quiet_same.
  - unfold w_nanny_next in H. destruct k as [[fs ds]|]; [|inversion H; subst; apply quiet_same].
    destruct (w_sort w (s_trace s) fs); inversion H; subst; [|apply quiet_same]. apply quiet_still; try reflexivity; repeat split.
Qed.

(** what happens at the node itself *)
Definition at_node (n n1 : node) (s s1 : st) : Prop :=
  completed n n1 /\ s_depth s1 = s_depth s /\ static s s1 /\ exists tr, s_trace s1 = s_trace s ++ tr /\ Forall (own_event n1) tr.
Lemma chain_at : forall l n k s o n1 s1, ~ In RoleAnchor l -> ~ In RoleFastward l ->
  w_iterate w c (l ++ [RoleAnchor]) n k s = (o, n1, s1) -> at_node n n1 s s1.
Proof.
  assert (QUIET : forall n tr, Forall slumber tr -> Forall (own_event n) tr).
  { intros n tr F. eapply Forall_impl; [|exact F]. intros e [-> | ->]; exact I. }
  induction l as [|r l IH]; intros n k s o n1 s1 NA NF H; cbn [app w_iterate] in H.
  - cbn [w_link_next] in H. unfold anchor_next in H.
    destruct (c_client c _ n) as [|e|p]; inversion H; subst;
      (split; [apply completed_refl|]; split; [reflexivity|]; split; [split; reflexivity|]; eexists; split; [reflexivity|repeat constructor]).
  - destruct (w_link_next w c r n k s) as [[lo ln] ls] eqn:L.
    pose proof (link_quiet_w _ _ _ _ _ _ _ (fun E => NA (or_introl E)) (fun E => NF (or_introl E)) L) as (C & D & S & tr & T & F).
    assert (LF : at_node n ln s ls) by (split; [exact C|]; split; [exact D|]; split; [exact S|]; exists tr; split; [exact T|apply QUIET, F]).
    destruct lo as [[[|] [er|]]|p|]; try (inversion H; subst; exact LF).
    destruct (IH _ _ _ _ _ _ (fun X => NA (or_intror X)) (fun X => NF (or_intror X)) H) as (C2 & D2 & S2 & tr2 & T2 & F2).
    split; [eapply completed_trans; eassumption|]. split; [congruence|]. split; [eapply static_trans; eassumption|].
    exists (tr ++ tr2). split; [rewrite T2, T, app_assoc; reflexivity|]. apply Forall_app; split; [apply QUIET, F|exact F2].
Qed.
Lemma invoke_at : forall n k s o n1 s1, open_state s -> w_invoke w c n k s = (o, n1, s1) -> at_node n n1 s s1.
Proof.
  intros n k s o n1 s1 (_ & l & E & NA & NF) H. unfold w_invoke in H.
  destruct (w_iterate w c (s_items s) n k s) as [[io inn] is_] eqn:IT. rewrite E in IT.
  destruct (chain_at _ _ _ _ _ _ _ NA NF IT) as (C & D & S & tr & T & F). inversion H; subst.
  split; [exact C|]. split; [exact D|]. split; [exact S|]. exists (tr ++ [EvOffer n1 (res_of o)]).
  split; [cbn; rewrite T, app_assoc; reflexivity|]. apply Forall_app; split; [exact F|repeat constructor].
Qed.
Lemma extend_completed : forall n k s p n1, w_extend w c tree n k s = (p, n1) -> completed n n1.
Proof.
  intros n k s p n1 H. unfold w_extend in H. destruct (split_path (n_path n)). destruct (w_subpath _ _ _ _ _); inversion H; subst; repeat split.
Qed.

Definition visit_ok (n : node) (s : st) (r : tres) : Prop :=
  fst r <> Stuck -> static s (snd r) /\ s_depth (snd r) = s_depth s /\
  exists tr, s_trace (snd r) = s_trace s ++ tr /\ (tr = [] \/ bracketed n tr).
Definition kids_ok (n : node) (i : nat) (s : st) (r : tres) : Prop :=
  fst r <> Stuck -> static s (snd r) /\ s_depth (snd r) = s_depth s /\
  exists tr, s_trace (snd r) = s_trace s ++ tr /\ bracketed_kids n i tr.
Definition visits (f : node -> st -> tres) : Prop := forall n s, open_state s -> unextended n -> visit_ok n s (f n s).

Lemma unextended_child : forall p i e, unextended (child_node p i e).
Proof. intros; repeat split. Qed.
Lemma loop_kids : forall f, visits f -> forall n es i s, open_state s -> kids_ok n i s (travel_loop f n i es s).
Proof.
  intros f V n. induction es as [|e es IH]; intros i s O NS; cbn [travel_loop] in *.
  - split; [apply static_refl|]. split; [reflexivity|]. exists []. rewrite app_nil_r. split; [reflexivity|constructor].
  - pose proof (V (child_node n i e) s O (unextended_child _ _ _)) as VO. unfold visit_ok in VO.
    destruct (f (child_node n i e) s) as [ro s1]. cbn [fst snd] in VO.
    assert (ONE : ro <> Stuck -> static s s1 /\ s_depth s1 = s_depth s /\ exists tr, s_trace s1 = s_trace s ++ tr /\ bracketed_kids n i tr).
    { intros R. destruct (VO R) as (S & D & tr & T & B). split; [exact S|]. split; [exact D|]. exists tr. split; [exact T|].
      destruct B as [-> | B]; [constructor|]. rewrite <- (app_nil_r tr).
      eapply brk_cons with (j := i) (m := child_node n i e); [apply le_n|reflexivity|reflexivity|exact B|constructor]. }
    assert (MORE : ro <> Stuck -> fst (travel_loop f n (S i) es s1) <> Stuck ->
       static s (snd (travel_loop f n (S i) es s1)) /\ s_depth (snd (travel_loop f n (S i) es s1)) = s_depth s /\
       exists tr, s_trace (snd (travel_loop f n (S i) es s1)) = s_trace s ++ tr /\ bracketed_kids n i tr).
    { intros R R2. destruct (VO R) as (SS & D & tr & T & B). destruct (IH (S i) s1 (open_static _ _ O SS) R2) as (S2 & D2 & tr2 & T2 & B2).
      split; [eapply static_trans; eassumption|]. split; [congruence|]. exists (tr ++ tr2). split; [rewrite T2, T, app_assoc; reflexivity|].
      destruct B as [-> | B]; [eapply bracketed_kids_le; [exact B2|lia]|].
      eapply brk_cons with (j := i) (m := child_node n i e); [apply le_n|reflexivity|reflexivity|exact B|exact B2]. }
    destruct ro as [[b [er|]]|p|].
    + destruct b; destruct (errors_is SkipDir er); try destruct (errors_is SkipAll er); first [apply ONE; discriminate | apply MORE; [discriminate|exact NS]].
    + destruct b; apply MORE; [discriminate|exact NS|discriminate|exact NS].
    + apply ONE; discriminate.
    + destruct (NS eq_refl).
Qed.
Definition inner_ok (n m : node) (tr : list event) : Prop :=
  completed n m /\ exists own kids resc, tr = own ++ kids ++ resc /\ Forall (own_event m) own /\
    bracketed_kids m 0 kids /\ (resc = [] \/ exists sv, resc = [EvRescue sv]).
Definition body_fine (n : node) (s : st) (r : linkres) : Prop :=
  fst (fst r) <> Stuck -> static s (snd r) /\ s_depth (snd r) = s_depth s /\
  exists tr, s_trace (snd r) = s_trace s ++ tr /\ inner_ok n (snd (fst r)) tr.
Lemma leaf_fine : forall n n1 s s1 o, at_node n n1 s s1 -> body_fine n s (o, n1, s1).
Proof.
  intros n n1 s s1 o (C & D & S & tr & T & F) _. cbn [fst snd]. split; [exact S|]. split; [exact D|]. exists tr. split; [exact T|].
  split; [exact C|]. exists tr, [], []. rewrite !app_nil_r. repeat split; auto. constructor.
Qed.
Lemma at_extended : forall n m s, completed n m -> at_node n m s s.
Proof. intros n m s C. split; [exact C|]. split; [reflexivity|]. split; [apply static_refl|]. exists []. rewrite app_nil_r. split; [reflexivity|constructor]. Qed.
Lemma travel_inner : forall f, visits f -> forall m es s, open_state s -> fst (w_travel w c f m es s) <> Stuck ->
  static s (snd (w_travel w c f m es s)) /\ s_depth (snd (w_travel w c f m es s)) = s_depth s /\
  exists kids resc, s_trace (snd (w_travel w c f m es s)) = s_trace s ++ kids ++ resc /\ bracketed_kids m 0 kids /\
    (resc = [] \/ exists sv, resc = [EvRescue sv]).
Proof.
  intros f V m es s O NS. unfold w_travel in *. pose proof (loop_kids f V m es 0 s O) as L. unfold kids_ok in L.
  destruct (travel_loop f m 0 es s) as [[r|p|] s1]; cbn [fst snd] in *.
  - destruct L as (S1 & D1 & tr & T & B); [discriminate|]. split; [exact S1|]. split; [exact D1|]. exists tr, []. rewrite app_nil_r. auto.
  - destruct L as (S1 & D1 & tr & T & B); [discriminate|].
    assert (X : static s (emit (EvRescue (saved_of c m s1)) s1) /\ s_depth (emit (EvRescue (saved_of c m s1)) s1) = s_depth s /\
      exists kids resc, s_trace (emit (EvRescue (saved_of c m s1)) s1) = s_trace s ++ kids ++ resc /\ bracketed_kids m 0 kids /\
        (resc = [] \/ exists sv, resc = [EvRescue sv])).
    { split; [exact S1|]. split; [exact D1|]. exists tr, [EvRescue (saved_of c m s1)]. cbn. rewrite T, <- app_assoc. split; [reflexivity|]. split; [exact B|right; eauto]. }
    destruct (w_rescue w (s_trace s1) p (saved_of c m s1)); exact X.
  - destruct (NS eq_refl).
Qed.
Lemma after_fine : forall f, visits f -> forall n m k es err s0 s, open_state s -> at_node n m s0 s ->
  body_fine n s0 (w_after w c f m k es err s).
Proof.
  intros f V n m k es err s0 s O A. unfold w_after. destruct (w_ask w (s_trace s) m k err) as [[skip e]|p]; [|apply leaf_fine, A].
  assert (T : body_fine n s0 (with_node m (w_travel w c f m es s))).
  { intros NS. destruct (travel_inner f V m es s O) as (S1 & D1 & kids & resc & T1 & B1 & RR); [intros Q; apply NS; exact Q|].
    destruct A as (C & D & S & tr & T & F). cbn [with_node fst snd].
    split; [eapply static_trans; eassumption|]. split; [congruence|].
    exists (tr ++ kids ++ resc). split; [rewrite T1, T, <- !app_assoc; reflexivity|].
    split; [exact C|]. exists tr, kids, resc. repeat split; auto. }
  destruct (c_sub c), skip, err; try (apply leaf_fine, A); exact T.
Qed.
Lemma body_fine_all : forall f, visits f -> forall n s, open_state s -> body_fine n s (w_body w c f tree n s).
Proof.
  intros f V n s O. unfold w_body. destruct (w_inspect w c n (s_trace s)) as [[[k es] err]|p]; [|apply leaf_fine, at_extended, completed_refl].
  destruct (w_extend w c tree n k s) as [[p|] n'] eqn:E; pose proof (extend_completed _ _ _ _ _ E) as C; [apply leaf_fine, at_extended, C|].
  destruct (w_invoke w c n' k s) as [[o n1] s1] eqn:IV. pose proof (invoke_at _ _ _ _ _ _ O IV) as (C1 & D1 & S1 & X1).
  assert (A : at_node n n1 s s1) by (split; [eapply completed_trans; eassumption|]; split; [exact D1|]; split; [exact S1|exact X1]).
  pose proof (open_static _ _ O S1) as O1.
  destruct (c_sub c).
  - destruct (n_isdir n'); [apply after_fine; [exact V|exact O|apply at_extended, C]|]. destruct o; apply leaf_fine, A.
  - destruct o as [[e|]| |]; try (apply leaf_fine, A). apply after_fine; assumption.
  - destruct o as [[e|]| |]; try (apply leaf_fine, A). apply after_fine; assumption.
  - destruct o as [[e|]| |]; try (apply leaf_fine, A). apply after_fine; assumption.
Qed.
Lemma traverse_visits : calm_descend w -> forall f, visits (w_traverse f w c tree).
Proof.
  intros CD. induction f as [|f IH]; intros n s O U; [intros X; destruct (X eq_refl)|]. cbn [w_traverse].
  destruct (per_descend (c_depth c) (s_depth s)) as [ok d] eqn:PD. pose proof (descend_up _ _ _ _ PD) as UP. destruct ok.
  2:{ intros _. split; [apply static_refl|]. split; [reflexivity|]. exists []. rewrite app_nil_r. auto. }
  unfold tell at 1. rewrite CD. replace (mu_descend (s_mutes s)) with false by (destruct O as [-> _]; reflexivity). cbv iota beta.
  set (s1 := emit (EvDescend n) (set_depth d s)).
  assert (O1 : open_state s1) by exact O.
  pose proof (body_fine_all _ IH n s1 O1) as B. destruct (w_body w c (w_traverse f w c tree) tree n s1) as [[o n1] s2].
  unfold body_fine in B. cbn [fst snd] in B.
  unfold tell. intros NS.
  assert (NO : o <> Stuck) by (intros ->; apply NS; destruct (mu_ascend (s_mutes s2)); [reflexivity|]; destruct (w_handlers _ _ _); reflexivity).
  destruct (B NO) as (S2 & D2 & tr & T & C & own & kids & resc & -> & F & K & R).
  replace (mu_ascend (s_mutes s2)) with false in * by (destruct O1 as [M _], S2 as [_ S2]; rewrite S2, M; reflexivity).
  assert (ST : snd (match w_handlers w (s_trace (set_depth (per_ascend (s_depth s2)) s2)) (EvAscend n1) with
     | Some q => (match o with Stuck => Stuck | _ => Pan q end, emit (EvAscend n1) (set_depth (per_ascend (s_depth s2)) s2))
     | None => (o, emit (EvAscend n1) (set_depth (per_ascend (s_depth s2)) s2)) end) = emit (EvAscend n1) (set_depth (per_ascend (s_depth s2)) s2)).
  { destruct (w_handlers _ _ _); reflexivity. }
  match goal with |- static _ (snd ?x) /\ _ => assert (EQ : snd x = emit (EvAscend n1) (set_depth (per_ascend (s_depth s2)) s2)) by (destruct (w_handlers _ _ _); reflexivity) end.
  rewrite EQ. split; [exact S2|]. split; [cbn; rewrite D2; apply UP; reflexivity|].
  exists ([EvDescend n] ++ own ++ kids ++ resc ++ [EvAscend n1]). split.
  - cbn. rewrite T. cbn. rewrite <- !app_assoc. reflexivity.
  - right. apply br_node; assumption.
Qed.
End Br.
Lemma open_begun : forall c sampling, open_state (emit (EvBegin (c_tree c)) (start_st c sampling)).
Proof.
  intros. split; [reflexivity|]. cbn. rewrite session_items_chain.
  exists (role_if (has (c_hib c)) RoleHibernate ++ role_if (has_nanny c) RoleNanny ++
          role_if (has (c_scheme c)) RoleClientFilter ++ role_if sampling RoleSampler).
  unfold chain, role_if. split; [rewrite <- !app_assoc; reflexivity|].
  split; intro X; destruct (has (c_hib c)), (has_nanny c), (has (c_scheme c)), sampling; cbn in X;
    repeat (destruct X as [X|X]; [discriminate|]); contradiction.
Qed.
Lemma session_brackets : forall f w c sampling t o s, calm_descend w -> w_session f w c sampling t = (o, s) -> o <> Stuck ->
  s_depth s = 0%Z /\
  exists visit fin, s_trace s = EvBegin (c_tree c) :: visit ++ fin /\
    (visit = [] \/ exists n, place_of n = mkPlace [] (c_tree c) t /\ n_parent n = None /\ bracketed n visit) /\
    (fin = [EvEnd (s_metrics s)] \/ fin = [] /\ exists p, o = Pan p).
Proof.
  intros f w c sampling t o s CD H NS. rewrite session_unfold in H.
  set (s1 := emit (EvBegin (c_tree c)) (start_st c sampling)) in *.
  assert (END : forall e s2 visit, match tell w (mu_end (s_mutes s2)) (EvEnd (s_metrics s2)) s2 with (Some q, s3) => (Pan q, s3) | (None, s3) => (Ret e, s3) end = (o, s) ->
     static s1 s2 -> s_depth s2 = 0%Z -> s_trace s2 = EvBegin (c_tree c) :: visit ->
     s_depth s = 0%Z /\ s_trace s = EvBegin (c_tree c) :: visit ++ [EvEnd (s_metrics s)]).
  { intros e s2 visit Q [_ M] D T. unfold tell in Q. replace (mu_end (s_mutes s2)) with false in Q by (rewrite M; reflexivity).
    destruct (w_handlers w (s_trace s2) (EvEnd (s_metrics s2))); inversion Q; subst; cbn; rewrite T; auto. }
  destruct (w_handlers w [] (EvBegin (c_tree c))) as [q|].
  { inversion H; subst. split; [reflexivity|]. exists [], []. split; [reflexivity|]. split; [left; reflexivity|right; eauto]. }
  unfold w_top in H. destruct (w_stat w (s_trace s1) t) as [[ie|]|q].
  - destruct (w_fault w (s_trace s1) ie) as [e|q].
    + destruct (END e s1 [] H (static_refl _) eq_refl eq_refl) as [D T]. split; [exact D|]. exists [], [EvEnd (s_metrics s)]. auto.
    + inversion H; subst. split; [reflexivity|]. exists [], []. split; [reflexivity|]. split; [left; reflexivity|right; eauto].
  - pose proof (traverse_visits w c (c_tree c) CD f (new_node (c_tree c) t None None []) s1 (open_begun _ _)) as V.
    unfold visit_ok in V. assert (U : unextended (new_node (c_tree c) t None None [])) by (repeat split). specialize (V U).
    destruct (w_traverse f w c (c_tree c) (new_node (c_tree c) t None None []) s1) as [[[b e]|q|] s2]; cbn [fst snd] in V; [| |inversion H; congruence].
    + destruct V as (S & D & tr & T & B); [discriminate|].
      destruct (END e s2 tr H S D T) as [D3 T3]. split; [exact D3|]. exists tr, [EvEnd (s_metrics s)]. split; [exact T3|].
      split; [destruct B as [B|B]; [left; exact B|right; eexists; repeat split; try exact B; reflexivity]|left; reflexivity].
    + destruct V as (S & D & tr & T & B); [discriminate|]. inversion H; subst. split; [exact D|]. exists tr, []. rewrite app_nil_r.
      split; [exact T|]. split; [destruct B as [B|B]; [left; exact B|right; eexists; repeat split; try exact B; reflexivity]|right; eauto].
  - inversion H; subst. split; [reflexivity|]. exists [], []. split; [reflexivity|]. split; [left; reflexivity|right; eauto].
Qed.

(** ** Nothing below the depth limit, in any world *)
Definition shallow (D : Z) (e : event) : Prop := forall m, about e = Some m -> (Z.of_nat (length (n_pos m)) <= D)%Z.
Definition adds (D : Z) (s s1 : st) : Prop := exists tr, s_trace s1 = s_trace s ++ tr /\ Forall (shallow D) tr.
Lemma adds_refl : forall D s, adds D s s.
Proof. intros. exists []. rewrite app_nil_r. auto. Qed.
Lemma adds_trans : forall D s s1 s2, adds D s s1 -> adds D s1 s2 -> adds D s s2.
Proof. intros D s s1 s2 (a & A & FA) (b & B & FB). exists (a ++ b). rewrite B, A, app_assoc. split; [reflexivity|apply Forall_app; auto]. Qed.
Lemma adds_one : forall D s s1 e, s_trace s1 = s_trace s ++ [e] -> shallow D e -> adds D s s1.
Proof. intros D s s1 e T S. exists [e]. split; [exact T|]. constructor; [exact S|constructor]. Qed.
Lemma adds_tell : forall D w b e s p s1, tell w b e s = (p, s1) -> shallow D e -> adds D s s1.
Proof. intros D w b e s p s1 H S. unfold tell in H. destruct b; inversion H; subst; [apply adds_refl|]. eapply adds_one; [reflexivity|exact S]. Qed.
Lemma adds_stage : forall D n n1 s s1, stage n n1 s s1 -> (Z.of_nat (length (n_pos n)) <= D)%Z -> adds D s s1.
Proof.
  intros D n n1 s s1 (_ & _ & _ & tr & T & F & _) L. exists tr. split; [exact T|]. eapply Forall_impl; [|exact F].
  intros e O m E. destruct e; inversion E; subst; cbn in O; rewrite O; exact L.
Qed.
Definition near (n : node) (s : st) : Prop := (Z.of_nat (length (n_pos n)) <= s_depth s)%Z.

Section Deep.
Context (w : world) (c : cfg) (tree : string) (LIM : (0 < c_depth c)%N).
Local Notation D := (int_of_uint (c_depth c)).
Definition keeps (f : node -> st -> tres) : Prop := climbs f /\ forall n s, near n s -> adds D s (snd (f n s)).
Lemma loop_adds : forall f, keeps f -> forall parent es i s, (Z.of_nat (S (length (n_pos parent))) <= s_depth s)%Z ->
  adds D s (snd (travel_loop f parent i es s)).
Proof.
  intros f [CL K] parent. induction es as [|e es IH]; intros i s N; cbn [travel_loop]; [apply adds_refl|].
  assert (NC : near (child_node parent i e) s).
  { unfold near. cbn. rewrite app_length. cbn. lia. }
  specialize (K _ _ NC). pose proof (CL (child_node parent i e) s) as H. unfold higher in H.
  destruct (f (child_node parent i e) s) as [o s1]. cbn [snd] in *.
  assert (M : adds D s (snd (travel_loop f parent (S i) es s1))) by (eapply adds_trans; [exact K|]; apply IH; lia).
  destruct o as [[[] [er|]]|p|]; try exact K; try exact M.
  - destruct (errors_is SkipDir er); [exact M|]. destruct (errors_is SkipAll er); [exact M|exact K].
  - destruct (errors_is SkipDir er); exact K.
Qed.
Lemma travel_adds : forall f, keeps f -> forall n es s, (Z.of_nat (S (length (n_pos n))) <= s_depth s)%Z ->
  adds D s (snd (w_travel w c f n es s)).
Proof.
  intros f K n es s N. unfold w_travel. pose proof (loop_adds f K n es 0 s N) as L.
  destruct (travel_loop f n 0 es s) as [[r|p|] s1]; try exact L.
  assert (X : adds D s (emit (EvRescue (saved_of c n s1)) s1)).
  { eapply adds_trans; [exact L|]. eapply adds_one; [reflexivity|]. intros m E. discriminate. }
  destruct (w_rescue _ _ _ _); exact X.
Qed.
Lemma body_adds : forall f, keeps f -> forall n s, (Z.of_nat (S (length (n_pos n))) <= s_depth s)%Z ->
  (Z.of_nat (length (n_pos n)) <= D)%Z -> adds D s (snd (w_body w c f tree n s)).
Proof.
  intros f K n s N L. unfold w_body. destruct (w_inspect w c n (s_trace s)) as [[[k es] err]|q]; [|apply adds_refl].
  destruct (w_extend w c tree n k s) as [[q|] n'] eqn:E; [apply adds_refl|].
  pose proof (extend_kin _ _ _ _ _ _ _ _ E) as (K1 & _).
  assert (AF : forall n0 s0, n_pos n0 = n_pos n -> s_depth s0 = s_depth s -> adds D s s0 -> adds D s (snd (w_after w c f n0 k es err s0))).
  { intros n0 s0 P0 D0 A. unfold w_after. destruct (w_ask _ _ _ _ _) as [[skip e]|]; [|exact A].
    assert (T : adds D s (snd (with_node n0 (w_travel w c f n0 es s0)))).
    { eapply adds_trans; [exact A|]. apply travel_adds; [exact K|]. rewrite P0, D0. exact N. }
    destruct (c_sub c), skip, err; try exact A; exact T. }
  destruct (w_invoke w c n' k s) as [[o n1] s1] eqn:IV. pose proof (invoke_stage _ _ _ _ _ _ _ _ IV) as ST.
  assert (A1 : adds D s s1) by (eapply adds_stage; [exact ST|rewrite K1; exact L]).
  destruct ST as ((KP & _) & SD & _). rewrite K1 in KP.
  destruct (c_sub c); [destruct (n_isdir n'); [apply AF; [exact K1|reflexivity|apply adds_refl]|destruct o; exact A1]| | |];
    (destruct o as [[e|]| |]; [exact A1|apply AF; assumption|exact A1|exact A1]).
Qed.
Lemma traverse_adds : forall f, keeps (w_traverse f w c tree).
Proof.
  intros f. split; [apply traverse_climbs|]. induction f as [|f IH]; intros n s N; [apply adds_refl|]. cbn [w_traverse].
  destruct (per_descend (c_depth c) (s_depth s)) as [ok d] eqn:PD. destruct ok; [|apply adds_refl].
  assert (DD : d = (s_depth s + 1)%Z /\ (s_depth s <= D)%Z).
  { unfold per_descend in PD. replace (0 <? c_depth c)%N with true in PD by (symmetry; apply N.ltb_lt; exact LIM). cbn in PD.
    destruct (D <? s_depth s)%Z eqn:Q; inversion PD. apply Z.ltb_ge in Q. auto. }
  destruct DD as [DD DL].
  assert (SH : (Z.of_nat (length (n_pos n)) <= D)%Z) by (unfold near in N; lia).
  destruct (tell w (mu_descend (s_mutes s)) (EvDescend n) (set_depth d s)) as [h s1] eqn:TD.
  assert (A1 : adds D s s1).
  { assert (Q : adds D (set_depth d s) s1) by (eapply adds_tell; [exact TD|]; intros m E; inversion E; subst; exact SH). exact Q. }
  assert (D1 : s_depth s1 = d) by (unfold tell in TD; destruct (mu_descend (s_mutes s)); inversion TD; reflexivity).
  destruct h as [p|]; [exact A1|].
  assert (B : adds D s1 (snd (w_body w c (w_traverse f w c tree) tree n s1))).
  { apply body_adds; [split; [apply traverse_climbs|exact IH]| |exact SH]. unfold near in N. lia. }
  pose proof (body_pos w c tree (w_traverse f w c tree) n s1) as BP.
  destruct (w_body w c (w_traverse f w c tree) tree n s1) as [[o n1] s2]. cbn [fst snd] in B, BP.
  destruct (tell w (mu_ascend (s_mutes s2)) (EvAscend n1) (set_depth (per_ascend (s_depth s2)) s2)) as [ha s3] eqn:TA.
  assert (A3 : adds D s2 s3).
  { assert (Q : adds D (set_depth (per_ascend (s_depth s2)) s2) s3) by (eapply adds_tell; [exact TA|]; intros m E; inversion E; subst; rewrite BP; exact SH). exact Q. }
  assert (ALL : adds D s s3) by (eapply adds_trans; [exact A1|]; eapply adds_trans; [exact B|exact A3]).
  destruct ha; exact ALL.
Qed.
End Deep.
Lemma session_shallow : forall f w c sampling t o s, (0 < c_depth c)%N -> w_session f w c sampling t = (o, s) ->
  Forall (shallow (int_of_uint (c_depth c))) (s_trace s).
Proof.
  intros f w c sampling t o s C H. rewrite session_unfold in H.
  set (s1 := emit (EvBegin (c_tree c)) (start_st c sampling)) in *.
  assert (G : forall s2, adds (int_of_uint (c_depth c)) s1 s2 -> Forall (shallow (int_of_uint (c_depth c))) (s_trace s2)).
  { intros s2 (tr & T & F). rewrite T. constructor; [|exact F]. intros m E. discriminate. }
  assert (END : forall e s2, adds (int_of_uint (c_depth c)) s1 s2 ->
     match tell w (mu_end (s_mutes s2)) (EvEnd (s_metrics s2)) s2 with (Some q, s3) => (Pan q, s3) | (None, s3) => (Ret e, s3) end = (o, s) ->
     Forall (shallow (int_of_uint (c_depth c))) (s_trace s)).
  { intros e s2 A Q. apply G. destruct (tell w (mu_end (s_mutes s2)) (EvEnd (s_metrics s2)) s2) as [h s3] eqn:TE.
    assert (s3 = s) by (destruct h; inversion Q; reflexivity). subst s3.
    eapply adds_trans; [exact A|]. eapply adds_tell; [exact TE|]. intros m E. discriminate. }
  destruct (w_handlers w [] (EvBegin (c_tree c))) as [q|]; [inversion H; subst; apply G, adds_refl|].
  unfold w_top in H. destruct (w_stat w (s_trace s1) t) as [[ie|]|q].
  - destruct (w_fault w (s_trace s1) ie) as [e|q]; [exact (END e s1 (adds_refl _ _) H)|inversion H; subst; apply G, adds_refl].
  - assert (A : adds (int_of_uint (c_depth c)) s1 (snd (w_traverse f w c (c_tree c) (new_node (c_tree c) t None None []) s1))).
    { apply traverse_adds; [exact C|]. unfold near. cbn. lia. }
    destruct (w_traverse f w c (c_tree c) (new_node (c_tree c) t None None []) s1) as [[[b e]|q|] s2]; cbn [snd] in A.
    + exact (END e s2 A H).
    + inversion H; subst. apply G, A.
    + inversion H; subst. apply G, A.
  - inversion H; subst. apply G, adds_refl.
Qed.
