(** A session wakes before its first callback, never after. *)
From Verif Require Import Base Paths Level Lo Kernel Session Spec KernelFacts JournalFacts SessionFacts Simulate Cases Resume SpecResume FastFacts.
Local Open Scope list_scope.

Definition is_call_event (e : event) : bool := match e with EvCall _ _ => true | _ => false end.
Definition called (tr : list event) : list event := from_first is_call_event tr.
Definition no_wake (tr : list event) : bool := forallb (fun e => negb (is_wake e)) tr.

Section Wake.
Variable c : cfg.
Variable sampling : bool.
Definition J (s : st) : Prop :=
  s_items s = chain c sampling false /\ no_wake (called (s_trace s)) = true /\
  (called (s_trace s) <> [] -> c_hib c = None \/ s_hib s <> HibPending).
Definition R (s s1 : st) : Prop := J s -> J s1.

Lemma called_emit : forall e s, is_call_event e = false -> is_wake e = false ->
  no_wake (called (s_trace s)) = true -> no_wake (called (s_trace (emit e s))) = true /\
  (called (s_trace (emit e s)) <> [] -> called (s_trace s) <> []).
Proof.
  intros e s C W H. unfold called, emit in *. cbn [s_trace] in *. rewrite from_first_app. cbn [from_first]. rewrite C.
  destruct (from_first is_call_event (s_trace s)) as [|x l]; [split; [reflexivity|intro X; exact X]|].
  split; [|discriminate]. unfold no_wake in *. rewrite forallb_app, H. cbn. rewrite W. reflexivity.
Qed.
Lemma J_emit : forall e s, is_call_event e = false -> is_wake e = false -> R s (emit e s).
Proof. intros e s C W (I & N & H). destruct (called_emit e s C W N) as [N1 C1]. split; [exact I|]. split; [exact N1|]. intro X. apply H, C1, X. Qed.
Lemma J_dispatch : forall b e s, is_call_event e = false -> is_wake e = false -> R s (dispatch b e s).
Proof. intros [|] e s C W; [intro J0; exact J0|apply J_emit; assumption]. Qed.

(** Links other than the hibernation one and the client *)
Lemma quiet_link : forall r n k s o n1 s1, r <> RoleAnchor -> r <> RoleHibernate -> r <> RoleFastward ->
  link_next c r n k s = (o, n1, s1) -> s_items s1 = s_items s /\ s_trace s1 = s_trace s /\ s_hib s1 = s_hib s.
Proof.
  intros r n k s o n1 s1 NA NH NF H. destruct r; try congruence; cbn [link_next] in H.
  - inversion H; subst; auto.
  - assert (PR : forall p n' s' o' n2 s2, primary_next p n' k s' = (o', n2, s2) -> s_items s2 = s_items s' /\ s_trace s2 = s_trace s' /\ s_hib s2 = s_hib s').
    { intros p n' s' o' n2 s2 P. destruct p as [f|m]; cbn in P; unfold match_next, sampler_next in P.
      - destruct (f n') as [[|]|]; inversion P; subst; auto.
      - destruct (scope_is_tree _); [destruct k as [[fs ds]|]|]; inversion P; subst; auto. }
    assert (NN : forall m n' s' o' n2 s2, nanny_scheme_next c m n' k s' = (o', n2, s2) -> s_items s2 = s_items s' /\ s_trace s2 = s_trace s' /\ s_hib s2 = s_hib s').
    { intros m n' s' o' n2 s2 P. unfold nanny_scheme_next in P.
      destruct k as [[fs ds]|]; [destruct (m (c_sort c fs))|]; inversion P; subst; auto. }
    unfold filter_next in H. destruct (c_scheme c) as [[[p|] [m|]]|]; cbn in H; try (inversion H; subst; auto; fail).
    + destruct (primary_next p n k s) as [[po pn] ps] eqn:P. apply PR in P. destruct P as (A & B & D).
      destruct po as [[[|] e]|q|]; try (inversion H; subst; auto; fail).
      destruct (nanny_scheme_next c m pn k ps) as [[no nn] ns] eqn:N. apply NN in N. destruct N as (A' & B' & D').
      destruct no as [[b e2]|q|]; inversion H; subst; split; [|split| |split| |split]; congruence.
    + eapply PR; eassumption.
    + eapply NN; eassumption.
  - inversion H; subst; auto.
  - unfold nanny_next in H. destruct k as [[fs ds]|]; inversion H; subst; auto.
Qed.

(** Up to the client, with hibernation not pending *)
Lemma rest_J : forall rs n k s o n1 s1, (forall r, In r rs -> r <> RoleHibernate /\ r <> RoleFastward) ->
  (c_hib c = None \/ s_hib s <> HibPending) ->
  iterate c rs n k s = (o, n1, s1) -> R s s1.
Proof.
  induction rs as [|r rs IH]; cbn [iterate]; intros n k s o n1 s1 HR HH H.
  - inversion H; subst. intro J0. exact J0.
  - destruct (link_next c r n k s) as [[lo ln] ls] eqn:L.
    destruct (HR r (or_introl eq_refl)) as [NH NF].
    assert (X : R s ls /\ s_hib ls = s_hib s).
    { destruct (role_eqb r RoleAnchor) eqn:EA.
      - assert (r = RoleAnchor) by (destruct r; try discriminate; reflexivity). subst r. cbn [link_next] in L. unfold anchor_next in L.
        assert (A : forall x k j, R s (emit (EvCall n x) (tick_by k j s)) /\ s_hib (emit (EvCall n x) (tick_by k j s)) = s_hib s).
        { intros x kk j. split; [|reflexivity]. intros (I & N & Q). split; [exact I|]. split; [|intro; exact HH].
          cbn [emit s_trace tick_by set_metrics]. unfold called in *. rewrite from_first_app. cbn [from_first is_call_event].
          destruct (from_first is_call_event (s_trace s)); [reflexivity|]. unfold no_wake in *. rewrite forallb_app, N. reflexivity. }
        destruct (c_client c _ n); inversion L; subst; apply A.
      - destruct (quiet_link r n k s lo ln ls) as (A & B & D); try assumption.
        { intro E. subst r. discriminate. }
        split; [|exact D]. intros (I & N & Q). split; [congruence|]. rewrite B, D. split; assumption. }
    destruct X as [X1 X2]. destruct lo as [[[|] [er|]]|p|]; try (inversion H; subst; exact X1).
    intro J0. apply (IH ln k ls o n1 s1); try assumption; [intros y Hy; apply HR; right; exact Hy|rewrite X2; exact HH|apply X1; exact J0].
Qed.

Lemma invoke_J : forall n k s o n1 s1, invoke c n k s = (o, n1, s1) -> R s s1.
Proof.
  intros n k s o n1 s1 H J0. unfold invoke in H.
  destruct (iterate c (s_items s) n k s) as [[io inn] is_] eqn:IT. inversion H; subst. clear H.
  apply J_emit; [reflexivity|reflexivity|].
  assert (I := proj1 J0). rewrite I in IT. unfold chain in IT.
  set (rest := role_if (has_nanny c) RoleNanny ++ role_if (has (c_scheme c)) RoleClientFilter ++ role_if sampling RoleSampler ++
     role_if false RoleFastward ++ [RoleAnchor]) in IT.
  assert (RR : forall r, In r rest -> r <> RoleHibernate /\ r <> RoleFastward).
  { unfold rest, role_if. intros r. destruct (has_nanny c), (has (c_scheme c)), sampling; cbn; intro HH;
      repeat destruct HH as [<-|HH]; try contradiction; split; discriminate. }
  destruct (c_hib c) as [h|] eqn:HB; cbn [has role_if app] in IT.
  - cbn [iterate link_next] in IT. unfold hib_next in IT. rewrite HB in IT.
    destruct J0 as (_ & N & Q). destruct (s_hib s) eqn:SH.
    + assert (CE : called (s_trace s) = []).
      { destruct (called (s_trace s)) as [|x l]; [reflexivity|]. destruct Q as [Q|Q]; [discriminate|congruence|congruence]. }
      destruct (hb_wake h n) as [[|]|].
      * assert (J1 : J (set_hib HibActive (dispatch (mu_wake (s_mutes s)) EvWake s))).
        { split; [destruct (mu_wake (s_mutes s)); exact I|].
          assert (C1 : called (s_trace (set_hib HibActive (dispatch (mu_wake (s_mutes s)) EvWake s))) = []).
          { destruct (mu_wake (s_mutes s)); [exact CE|]. cbn [dispatch set_hib emit s_trace]. unfold called in *. rewrite from_first_app, CE. reflexivity. }
          rewrite C1. split; [reflexivity|]. congruence. }
        destruct (hb_incl_wake h).
        -- cbv beta iota in IT. refine (rest_J rest _ _ _ _ _ _ RR _ IT J1). right. discriminate.
        -- inversion IT; subst. exact J1.
      * inversion IT; subst. split; [exact I|]. split; [exact N|]. rewrite CE. congruence.
      * inversion IT; subst. split; [exact I|]. split; [exact N|]. rewrite CE. congruence.
    + assert (J0 : J s) by (split; [exact I|]; split; [exact N|]; intro; right; congruence).
      destruct (hb_sleep h n) as [[|]|].
      * assert (J1 : J (set_hib HibRetired (dispatch (mu_sleep (s_mutes s)) EvSleep s))).
        { assert (JD := J_dispatch (mu_sleep (s_mutes s)) EvSleep s eq_refl eq_refl J0). destruct JD as (A & B & D).
          split; [exact A|]. split; [exact B|]. intro. right. discriminate. }
        destruct (hb_incl_sleep h).
        -- cbv beta iota in IT. refine (rest_J rest _ _ _ _ _ _ RR _ IT J1). right. discriminate.
        -- inversion IT; subst. exact J1.
      * cbv beta iota in IT. refine (rest_J rest _ _ _ _ _ _ RR _ IT J0). right. congruence.
      * inversion IT; subst. exact J0.
    + inversion IT; subst. split; [exact I|]. split; [exact N|]. intro. right. congruence.
  - apply (rest_J rest _ _ _ _ _ _ RR (or_introl HB) IT J0).
Qed.

Lemma traverse_J : forall tree f n s o s1, traverse f c tree n s = (o, s1) -> R s s1.
Proof.
  intro tree. apply (keep_traverse c tree R).
  - intros s J0. exact J0.
  - intros a b d H1 H2 J0. apply H2, H1, J0.
  - intros n s ok s1 D. unfold descend in D. destruct (per_descend (c_depth c) (s_depth s)) as [[|] d]; inversion D; subst; [|intro J0; exact J0].
    intro J0. apply J_dispatch; [reflexivity|reflexivity|exact J0].
  - intros n s J0. unfold ascend. apply J_dispatch; [reflexivity|reflexivity|exact J0].
  - intros n s. apply J_emit; reflexivity.
  - apply invoke_J.
Qed.

Theorem session_wakes_first : forall t o s, session c sampling t = (o, s) -> no_wake (called (s_trace s)) = true.
Proof.
  intros t o s H. unfold session in H. set (s0 := dispatch _ _ (start_st c sampling)) in H.
  assert (J0 : J s0). { split; [apply session_items_chain|]. split; [reflexivity|]. cbn. congruence. }
  clearbody s0. unfold navigate, top in H. destruct (c_stat c t).
  - inversion H; subst. exact (proj1 (proj2 (J_dispatch (mu_end (s_mutes s0)) (EvEnd (s_metrics s0)) s0 eq_refl eq_refl J0))).
  - destruct (traverse _ c (c_tree c) _ s0) as [to ts] eqn:T. apply traverse_J in T. specialize (T J0).
    destruct to as [[b e]|p|]; inversion H; subst; try exact (proj1 (proj2 T)).
    apply (J_dispatch (mu_end (s_mutes ts)) (EvEnd (s_metrics ts)) ts) in T; [exact (proj1 (proj2 T))|reflexivity|reflexivity].
Qed.
End Wake.

Lemma met_called : forall m tr, no_wake (called tr) = true -> no_wake (from_first (calls_node m) tr) = true.
Proof.
  intros m tr H.
  assert (X : forall l, no_wake l = true -> no_wake (from_first (calls_node m) l) = true).
  { induction l as [|x l IH]; [reflexivity|]. cbn [from_first]. intro N. destruct (calls_node m x); [exact N|].
    apply IH. unfold no_wake in *. cbn in N. apply andb_true_iff in N. apply N. }
  unfold called in H. induction tr as [|e tr IH]; [reflexivity|]. cbn [from_first] in H.
  destruct (is_call_event e) eqn:C; [apply X; exact H|].
  assert (M : calls_node m e = false) by (destruct e; try reflexivity; discriminate).
  cbn [from_first]. rewrite M. apply IH. exact H.
Qed.
Lemma without_wake : forall tr, no_wake tr = true -> without is_wake (seen tr) = seen tr.
Proof.
  induction tr as [|e tr IH]; [reflexivity|]. unfold no_wake. cbn [forallb]. intro H. apply andb_true_iff in H. destruct H as [W H].
  specialize (IH H). unfold without, seen in *. cbn [filter]. destruct e; cbn [filter negb is_wake] in *; try discriminate; rewrite ?IH; reflexivity.
Qed.

Lemma from_first_inner : forall m tr, forallb inner_event tr = true -> filter is_end_notice (from_first (calls_node m) tr) = [].
Proof.
  intros m tr H. induction tr as [|e tr IH]; [reflexivity|]. cbn [from_first].
  destruct (calls_node m e); [apply inner_no_end; exact H|]. apply IH. cbn in H. apply andb_true_iff in H. apply H.
Qed.
Lemma traverse_static : forall c tree f n s o s1, traverse f c tree n s = (o, s1) ->
  ~ In RoleFastward (s_items s) -> static s s1.
Proof.
  intros c tree.
  apply (keep_traverse c tree (fun s s1 => ~ In RoleFastward (s_items s) -> static s s1)).
  - intros s _. apply static_refl.
  - intros a b d H1 H2 N. specialize (H1 N). eapply static_trans; [exact H1|]. apply H2. rewrite (proj1 H1). exact N.
  - intros n s ok s1 D N. unfold descend in D. destruct (per_descend (c_depth c) (s_depth s)) as [[|] d]; inversion D; subst; [|apply static_refl].
    destruct (mu_descend (s_mutes s)); split; reflexivity.
  - intros n s N. unfold ascend. destruct (mu_ascend (s_mutes s)); split; reflexivity.
  - intros n s N. split; reflexivity.
  - intros n k s o n1 s1 H N. unfold invoke in H. destruct (iterate c (s_items s) n k s) as [[io inn] is_] eqn:IT.
    apply iterate_static in IT; [|exact N]. inversion H; subst. exact IT.
Qed.
Lemma session_ends : forall c sampling t o s, session c sampling t = (o, s) ->
  exists tr, forallb inner_event tr = true /\
    s_trace s = EvBegin (c_tree c) :: tr ++ (if returned o then [EvEnd (s_metrics s)] else []).
Proof.
  intros c sampling t o s H.
  assert (Q : J c sampling (dispatch (mu_begin (s_mutes (start_st c sampling))) (EvBegin (c_tree c)) (start_st c sampling))).
  { split; [apply session_items_chain|]. split; [reflexivity|]. cbn. congruence. }
  unfold session in H. set (s0 := dispatch _ _ (start_st c sampling)) in *.
  assert (T0 : s_trace s0 = [EvBegin (c_tree c)]) by reflexivity.
  assert (M0 : s_mutes s0 = mutes_none) by reflexivity.
  destruct (navigate c t s0) as [no ns] eqn:N. unfold navigate in N.
  assert (MU : s_mutes ns = mutes_none).
  { unfold top in N. destruct (c_stat c t); [inversion N; subst; exact M0|].
    destruct (traverse _ c (c_tree c) _ s0) as [to ts] eqn:T. apply traverse_static in T.
    - destruct to as [[b e]|p|]; inversion N; subst; rewrite (proj2 T); exact M0.
    - rewrite (proj1 Q). apply chain_no_fast. }
  apply top_inner in N. destruct N as (tr & T & I). rewrite T0 in T.
  exists tr. split; [exact I|]. destruct no as [e|p|]; inversion H; subst.
  - rewrite MU. cbn [mutes_none mu_end dispatch emit s_trace s_metrics returned]. rewrite T. reflexivity.
  - cbn [returned]. rewrite T, app_nil_r. reflexivity.
  - cbn [returned]. rewrite T, app_nil_r. reflexivity.
Qed.

(** Every notification from the resume point on, and no other. *)
Theorem fastward_notices : forall c sampling pc dk sv g o1 s1 o2 s2,
  filter_ok c -> c_tree c = sv_tree sv ->
  let d := pc_dir pc (sv_path sv) in
  let b := pc_base pc (sv_path sv) in
  d <> "."%string -> b <> ""%string -> b <> snd (split_path (sv_tree sv)) ->
  (forall tr n, c_client c tr n = g (calls tr) n) ->
  fastward_session true c sampling pc dk sv = (o1, s1) ->
  session (with_client (waking (node_is d b) g) c) sampling (dk (sv_tree sv)) = (o2, s2) ->
  let met := from_first (calls_node (node_is d b)) (s_trace s2) in
  alike o1 o2 /\
  without is_end_notice (seen (s_trace s1)) = without is_end_notice (seen met) /\
  length (filter is_end_notice (s_trace s1)) = length (filter is_end_notice met).
Proof.
  intros c sampling pc dk sv g o1 s1 o2 s2 FOK CT d b ND NE NT CQ H1 H2 met.
  destruct (fastward_locked c sampling pc dk sv g o1 s1 o2 s2 FOK CT ND NE NT CQ H1 H2) as (A & _ & B & C & _).
  fold d b in B, C. fold met in B, C. split; [exact A|].
  assert (NW : no_wake met = true) by (apply met_called; eapply session_wakes_first; exact H2).
  rewrite (without_wake met NW) in B. split; [exact B|]. rewrite C.
  destruct (session_ends _ _ _ _ _ H2) as (tr & I & T). unfold met at 1 2. rewrite T.
  cbn [from_first calls_node]. rewrite from_first_app. pose proof (from_first_inner (node_is d b) tr I) as FI.
  assert (RO : returned o2 = returned o1) by (pose proof (alike_shape _ _ A) as SH; destruct o1, o2; try contradiction; reflexivity).
  rewrite RO. destruct (from_first (calls_node (node_is d b)) tr) as [|x l].
  - destruct (returned o1); reflexivity.
  - cbn [app andb]. rewrite app_comm_cons, filter_app, FI. destruct (returned o1); reflexivity.
Qed.
