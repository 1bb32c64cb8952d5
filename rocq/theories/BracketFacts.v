(** Descend and ascend notifications of every traversal without fastward
    resume are well bracketed. *)
From Verif Require Import Base Paths Level Lo Collections Kernel Session Spec KernelRel KernelFacts
  KernelInv WalkFacts StandsFacts JournalFacts SessionFacts RescueFacts.

Lemma place_of_fields : forall n m, n_pos n = n_pos m -> n_path n = n_path m -> n_src n = n_src m ->
  place_of n = place_of m.
Proof. intros n m A B C. unfold place_of. congruence. Qed.

Lemma bracketed_kids_le : forall n i k tr, bracketed_kids n i tr -> k <= i -> bracketed_kids n k tr.
Proof.
  intros n i k tr H L. destruct H as [|n i j m visit rest LE PO PA B K]; [constructor|].
  eapply brk_cons with (j := j); try eassumption. lia.
Qed.

Section Br.
Variable c : cfg.
Variable tree : string.

(** Nothing is muted, and the callback comes last in the chain. *)
Definition open_state (s : st) : Prop :=
  s_mutes s = mutes_none /\
  exists l, s_items s = l ++ [RoleAnchor] /\ ~ In RoleAnchor l /\ ~ In RoleFastward l.

Lemma open_static : forall s s1, open_state s -> static s s1 -> open_state s1.
Proof. intros s s1 [A (l & B & X)] [C D]. split; [congruence|]. exists l. split; [congruence|exact X]. Qed.
Lemma open_no_fast : forall s, open_state s -> ~ In RoleFastward (s_items s).
Proof.
  intros s (_ & l & E & _ & F) I. rewrite E in I. apply in_app_or in I. destruct I as [I|[I|[]]]; [auto|discriminate].
Qed.

(** Links other than the callback only wake or put to sleep. *)
Lemma link_quiet : forall r n k s o n1 s1, r <> RoleAnchor -> link_next c r n k s = (o, n1, s1) ->
  exists tr, s_trace s1 = s_trace s ++ tr /\ Forall (fun e => e = EvWake \/ e = EvSleep) tr.
Proof.
  assert (SAME : forall s s1, s_trace s1 = s_trace s ->
    exists tr, s_trace s1 = s_trace s ++ tr /\ Forall (fun e => e = EvWake \/ e = EvSleep) tr).
  { intros s s1 E. exists []. rewrite app_nil_r. split; [exact E|constructor]. }
  intros r n k s o n1 s1 NA H. destruct r; cbn [link_next] in H; try (inversion H; subst; apply SAME; reflexivity).
  - congruence.
  - unfold filter_next in H. destruct (c_scheme c) as [[p m]|]; [|inversion H; subst; apply SAME; reflexivity].
    cbn [sc_primary sc_child] in H.
    assert (PR : forall p o n1 s1, primary_next p n k s = (o, n1, s1) -> s_trace s1 = s_trace s).
    { intros [f|mt] o0 n2 s2 Q; cbn in Q; unfold match_next, sampler_next in Q.
      - destruct (f n) as [[|]|]; inversion Q; reflexivity.
      - destruct (scope_is_tree (n_scope n)); [|inversion Q; reflexivity]. destruct k as [[fs ds]|]; inversion Q; reflexivity. }
    assert (NS : forall m n s o n1 s1, nanny_scheme_next c m n k s = (o, n1, s1) -> s_trace s1 = s_trace s).
    { intros m0 n2 s2 o0 n3 s3 Q. unfold nanny_scheme_next in Q. destruct k as [[fs ds]|]; [|inversion Q; reflexivity].
      destruct (m0 (c_sort c fs)); inversion Q; reflexivity. }
    apply SAME. destruct p as [p|], m as [m|].
    + destruct (primary_next p n k s) as [[po pn] ps] eqn:P. apply PR in P.
      destruct po as [[[|] e]|q|]; try (inversion H; subst; exact P).
      destruct (nanny_scheme_next c m pn k ps) as [[no nn] ns] eqn:N. apply NS in N.
      destruct no as [[b e2]|q|]; inversion H; subst; congruence.
    + eapply PR; exact H.
    + eapply NS; exact H.
    + inversion H; reflexivity.
  - unfold hib_next in H. destruct (c_hib c) as [h|]; [|inversion H; subst; apply SAME; reflexivity].
    assert (DI : forall hs m ev s0, ev = EvWake \/ ev = EvSleep -> s_trace s0 = s_trace s ->
      exists tr, s_trace (set_hib hs (dispatch m ev s0)) = s_trace s ++ tr /\ Forall (fun e => e = EvWake \/ e = EvSleep) tr).
    { intros hs [|] ev s0 HE E; cbn.
      - apply SAME. exact E.
      - exists [ev]. rewrite E. split; [reflexivity|constructor; [exact HE|constructor]]. }
    destruct (s_hib s).
    + destruct (hb_wake h n) as [[|]|]; [destruct (hb_incl_wake h)| |]; inversion H; subst;
        first [apply DI; [auto|reflexivity]|apply SAME; reflexivity].
    + destruct (hb_sleep h n) as [[|]|]; [destruct (hb_incl_sleep h)| |]; inversion H; subst;
        first [apply DI; [auto|reflexivity]|apply SAME; reflexivity].
    + inversion H; subst; apply SAME; reflexivity.
  - unfold nanny_next in H. destruct k as [[fs ds]|]; inversion H; subst; apply SAME; reflexivity.
  - unfold fast_next in H. destruct (c_fast c) as [f|]; [|inversion H; subst; apply SAME; reflexivity].
    destruct (fast_match f n) as [[|]|p|]; inversion H; subst; apply SAME; reflexivity.
Qed.

Lemma chain_events : forall l n k s o n1 s1, ~ In RoleAnchor l ->
  iterate c (l ++ [RoleAnchor]) n k s = (o, n1, s1) ->
  exists tr, s_trace s1 = s_trace s ++ tr /\ Forall (own_event n1) tr.
Proof.
  assert (QUIET : forall n tr, Forall (fun e => e = EvWake \/ e = EvSleep) tr -> Forall (own_event n) tr).
  { intros n tr F. eapply Forall_impl; [|exact F]. intros e [-> | ->]; exact I. }
  induction l as [|r l IH]; intros n k s o n1 s1 NA H; cbn [app iterate] in H.
  - cbn [link_next] in H. unfold anchor_next in H.
    destruct (c_client c _ n) as [|e|p]; inversion H; subst;
      (eexists; split; [reflexivity|constructor; [reflexivity|constructor]]).
  - destruct (link_next c r n k s) as [[lo ln] ls] eqn:L.
    destruct (link_quiet _ _ _ _ _ _ _ (fun E => NA (or_introl E)) L) as (tr & T & F).
    assert (NA' : ~ In RoleAnchor l) by (intro X; apply NA; right; exact X).
    destruct lo as [[[|] [er|]]|p|]; try (inversion H; subst; exists tr; split; [exact T|apply QUIET; exact F]).
    destruct (IH _ _ _ _ _ _ NA' H) as (tr2 & T2 & F2). exists (tr ++ tr2).
    split; [rewrite T2, T, app_assoc; reflexivity|]. apply Forall_app; split; [apply QUIET; exact F|exact F2].
Qed.

Definition visit_of (n : node) (tr : list event) : Prop := tr = [] \/ bracketed n tr.
Definition inner_of (n m : node) (tr : list event) : Prop := completed n m /\
  exists own kids resc, tr = own ++ kids ++ resc /\ Forall (own_event m) own /\
    bracketed_kids m 0 kids /\ (resc = [] \/ exists sv, resc = [EvRescue sv]).

Lemma bracket_main :
  (forall n s o s1, run c tree n s o s1 -> open_state s -> unextended n ->
     static s s1 /\ forall tr, grown s s1 tr -> visit_of n tr) /\
  (forall n s o n1 s1, body c tree n s o n1 s1 -> open_state s ->
     static s s1 /\ forall tr, grown s s1 tr -> inner_of n n1 tr) /\
  (forall n ts s o s1, trav c tree n ts s o s1 -> open_state s ->
     static s s1 /\ forall tr, grown s s1 tr ->
       exists kids resc, tr = kids ++ resc /\ bracketed_kids n 0 kids /\
         (resc = [] \/ exists sv, resc = [EvRescue sv])) /\
  (forall n i ts s o s1, loop c tree n i ts s o s1 -> open_state s ->
     static s s1 /\ forall tr, grown s s1 tr -> bracketed_kids n i tr).
Proof.
  assert (EXT : forall n0 s, completed n0 (ext_of c tree n0 s)).
  { intros n0 s. destruct (extend_fields c tree n0 (cargo_of c n0) s) as (X1 & X2 & X3 & X4 & X5 & X6 & _).
    fold (ext_of c tree n0 s) in X1, X2, X3, X4, X5, X6.
    split; [apply place_of_fields; congruence|]. repeat split; congruence. }
  assert (INV : forall n0 s o n1 s1, open_state s ->
     invoke c (ext_of c tree n0 s) (cargo_of c n0) s = (o, n1, s1) ->
     static s s1 /\ completed n0 n1 /\ forall tr, grown s s1 tr -> Forall (own_event n1) tr).
  { intros n0 s o n1 s1 O E. pose proof (open_no_fast _ O) as OF. destruct O as (OM & l & OI & OA & _).
    destruct (invoke_step _ _ _ _ _ _ _ E) as (SD & SM & _).
    unfold invoke in E. destruct (iterate c (s_items s) _ _ s) as [[io inn] is_] eqn:IT.
    assert (ST : static s s1).
    { pose proof IT as IT2. apply iterate_static in IT2; [|exact OF]. inversion E; subst. exact IT2. }
    rewrite OI in IT. destruct (chain_events _ _ _ _ _ _ _ OA IT) as (t & T & F).
    inversion E; subst io inn s1. split; [exact ST|]. split.
    - destruct (same_fields _ _ SM) as (F1 & F2 & F3 & F4 & F5 & F6 & F7 & _).
      destruct (extend_fields c tree n0 (cargo_of c n0) s) as (X1 & X2 & X3 & X4 & X5 & X6 & X7).
      fold (ext_of c tree n0 s) in X1, X2, X3, X4, X5, X6, X7.
      split; [apply place_of_fields; congruence|]. repeat split; congruence.
    - intros tr G. unfold grown in G. cbn in G. rewrite T, <- app_assoc in G. apply app_inv_head in G. subst tr.
      apply Forall_app; split; [exact F|constructor; [reflexivity|constructor]]. }
  assert (LEAF : forall n m tr, completed n m -> Forall (own_event m) tr -> inner_of n m tr).
  { intros n m tr C F. split; [exact C|]. exists tr, [], []. rewrite !app_nil_r. repeat split; auto. constructor. }
  assert (UX : forall p i e, unextended (child_node p i e)) by (intros; repeat split).
  apply kernel_mut.
  - intros n s s1 E O U. apply descend_false in E. subst. split; [apply static_refl|].
    intros tr G. apply grown_refl_nil in G. left; exact G.
  - intros n s s1 o nn s2 E B IH O U.
    destruct (descend_true _ _ _ _ E) as (_ & T1 & _ & _ & I1 & M1).
    assert (ST1 : static s s1) by (split; assumption).
    destruct (IH (open_static _ _ O ST1)) as [ST2 IHB].
    destruct (ascend_fields nn s2) as (_ & T2 & _ & _ & I2 & M2).
    split; [eapply static_trans; [exact ST1|]; eapply static_trans; [exact ST2|]; split; assumption|].
    intros tr G. right.
    destruct (proj1 (proj2 (kernel_grows c tree)) _ _ _ _ _ B) as [_ [t T]].
    destruct (IHB t T) as (CM & own & kids & resc & -> & F & K & RR).
    unfold grown in G. rewrite T2, T, T1 in G.
    destruct O as [OM _]. assert (OM2 : s_mutes s2 = mutes_none) by (destruct ST2 as [_ X]; congruence).
    rewrite OM, OM2 in G. cbn [mutes_none mu_descend mu_ascend] in G. rewrite <- !app_assoc in G.
    apply app_inv_head in G. subst tr. apply (br_node n nn own kids resc); assumption.
  - intros n0 s e n1 s1 SB D I O. destruct (INV _ _ _ _ _ O I) as (ST & C & F).
    split; [exact ST|]. intros tr G. apply LEAF; [exact C|apply F, G].
  - intros n0 s e n1 s1 SB D I O. destruct (INV _ _ _ _ _ O I) as (ST & C & F).
    split; [exact ST|]. intros tr G. apply LEAF; [exact C|apply F, G].
  - intros n0 s skip e SB D A _ O. split; [apply static_refl|]. intros tr G.
    apply grown_refl_nil in G. subst. apply LEAF; [apply EXT|constructor].
  - intros n0 s e o s1 SB D A RE T IH O. destruct (IH O) as [ST IHT]. split; [exact ST|].
    intros tr G. destruct (IHT tr G) as (kids & resc & -> & K & RR).
    split; [apply EXT|]. exists [], kids, resc. repeat split; auto.
  - intros n0 s e n1 s1 SB I O. destruct (INV _ _ _ _ _ O I) as (ST & C & F).
    split; [exact ST|]. intros tr G. apply LEAF; [exact C|apply F, G].
  - intros n0 s e n1 s1 SB I O. destruct (INV _ _ _ _ _ O I) as (ST & C & F).
    split; [exact ST|]. intros tr G. apply LEAF; [exact C|apply F, G].
  - intros n0 s e n1 s1 SB I _ O. destruct (INV _ _ _ _ _ O I) as (ST & C & F).
    split; [exact ST|]. intros tr G. apply LEAF; [exact C|apply F, G].
  - intros n0 s e n1 s1 SB I _ O. destruct (INV _ _ _ _ _ O I) as (ST & C & F).
    split; [exact ST|]. intros tr G. apply LEAF; [exact C|apply F, G].
  - intros n0 s skip e n1 s1 o s2 SB I _ _ T IH O.
    destruct (INV _ _ _ _ _ O I) as (ST & C & F).
    destruct (IH (open_static _ _ O ST)) as [ST2 IHT].
    split; [eapply static_trans; eassumption|]. intros tr G.
    pose proof (invoke_grows _ _ _ _ _ _ _ I) as G1.
    pose proof (proj1 (proj2 (proj2 (kernel_grows c tree))) _ _ _ _ _ T) as G2.
    destruct (grown_split _ _ _ _ G1 G2 G) as (t1 & t2 & -> & GT1 & GT2).
    destruct (IHT t2 GT2) as (kids & resc & -> & K & RR).
    split; [exact C|]. exists t1, kids, resc. repeat split; auto.
  - intros n ts s r s1 L IH O. destruct (IH O) as [ST IHL]. split; [exact ST|].
    intros tr G. exists tr, []. rewrite app_nil_r. split; [reflexivity|]. split; [apply IHL; exact G|left; reflexivity].
  - intros n ts s p s1 er L IH ER O. destruct (IH O) as [ST IHL].
    split; [eapply static_trans; [exact ST|split; reflexivity]|]. intros tr G.
    pose proof (proj2 (proj2 (proj2 (kernel_grows c tree))) _ _ _ _ _ _ L) as [SD [t T]].
    assert (tr = t ++ [EvRescue (saved_of c n s1)]).
    { unfold grown in G. cbn in G. rewrite T, <- app_assoc in G. apply app_inv_head in G. auto. }
    subst tr. exists t, [EvRescue (saved_of c n s1)]. split; [reflexivity|].
    split; [apply IHL; exact T|right; eauto].
  - intros n i s O. split; [apply static_refl|]. intros tr G. apply grown_refl_nil in G. subst. constructor.
  - intros n i e ts s er s1 R IH SK O. destruct (IH O (UX _ _ _)) as [ST IHR]. split; [exact ST|].
    intros tr G. destruct (IHR tr G) as [-> | B]; [constructor|].
    rewrite <- (app_nil_r tr). eapply brk_cons with (j := i) (m := child_node n i e); [apply le_n|reflexivity|reflexivity|exact B|constructor].
  - intros n i e ts s b er s1 R IH _ _ O. destruct (IH O (UX _ _ _)) as [ST IHR]. split; [exact ST|].
    intros tr G. destruct (IHR tr G) as [-> | B]; [constructor|].
    rewrite <- (app_nil_r tr). eapply brk_cons with (j := i) (m := child_node n i e); [apply le_n|reflexivity|reflexivity|exact B|constructor].
  - intros n i e ts s p s1 R IH O. destruct (IH O (UX _ _ _)) as [ST IHR]. split; [exact ST|].
    intros tr G. destruct (IHR tr G) as [-> | B]; [constructor|].
    rewrite <- (app_nil_r tr). eapply brk_cons with (j := i) (m := child_node n i e); [apply le_n|reflexivity|reflexivity|exact B|constructor].
  - intros n i e ts s b er s1 o s2 R IHR COND L IHL O.
    destruct (IHR O (UX _ _ _)) as [ST1 H1]. destruct (IHL (open_static _ _ O ST1)) as [ST2 H2].
    split; [eapply static_trans; eassumption|]. intros tr G.
    pose proof (proj1 (kernel_grows c tree) _ _ _ _ R) as G1.
    pose proof (proj2 (proj2 (proj2 (kernel_grows c tree))) _ _ _ _ _ _ L) as G2.
    destruct (grown_split _ _ _ _ G1 G2 G) as (t1 & t2 & -> & GT1 & GT2).
    specialize (H2 t2 GT2). destruct (H1 t1 GT1) as [-> | B].
    + eapply bracketed_kids_le; [exact H2|lia].
    + eapply brk_cons with (j := i) (m := child_node n i e); [apply le_n|reflexivity|reflexivity|exact B|exact H2].
Qed.
End Br.

Theorem session_bracketed : forall c sampling t o s,
  hooks_ok c -> root_ok c t -> session c sampling t = (o, s) ->
  s_depth s = 0%Z /\
  exists visit, s_trace s = EvBegin (c_tree c) :: visit ++ ending o (s_metrics s) /\
    (visit = [] \/ exists n, place_of n = mkPlace [] (c_tree c) t /\ n_parent n = None /\ bracketed n visit).
Proof.
  intros c sampling t o s HK RO H.
  destruct (session_shape _ _ _ _ _ HK RO H) as (ro & s2 & tr & HR & EO & NS & T2 & TS & _ & _ & SD).
  split.
  - rewrite SD. destruct (proj1 (kernel_grows c (c_tree c)) _ _ _ _ HR) as [D _]. exact D.
  - exists tr. split; [exact TS|].
    assert (O : open_state (began c sampling)).
    { split; [reflexivity|]. cbn. rewrite session_items_chain.
      exists (role_if (has (c_hib c)) RoleHibernate ++ role_if (has_nanny c) RoleNanny ++
              role_if (has (c_scheme c)) RoleClientFilter ++ role_if sampling RoleSampler).
      unfold chain, role_if. split; [rewrite <- !app_assoc; reflexivity|].
      split; intro X; destruct (has (c_hib c)), (has_nanny c), (has (c_scheme c)), sampling; cbn in X;
        repeat (destruct X as [X|X]; [discriminate|]); contradiction. }
    destruct (proj1 (bracket_main c (c_tree c)) _ _ _ _ HR O) as [_ B]; [repeat split|].
    assert (G : grown (began c sampling) s2 tr) by (unfold grown; rewrite T2; reflexivity).
    destruct (B tr G) as [->|B1]; [left; reflexivity|right].
    eexists. split; [|split; [|exact B1]]; reflexivity.
Qed.
