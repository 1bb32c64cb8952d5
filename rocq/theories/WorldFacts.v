(** Facts about sessions whose hooks and handlers may panic (World.v). *)
From Verif Require Import Base Paths Level Kernel Session Spec KernelFacts RescueFacts World SpecWorld.
From Verif Require Import KernelRel.
Local Open Scope list_scope.

(** ** Without panics and changes it is the traversal of Kernel.v *)
Lemma loop_ext : forall f g parent es i s, (forall n s, f n s = g n s) ->
  travel_loop f parent i es s = travel_loop g parent i es s.
Proof.
  intros f g parent es. induction es as [|e es IH]; intros i s E; cbn; [reflexivity|].
  rewrite E. destruct (g (child_node parent i e) s) as [[[[] [er|]]|p|] s1]; try reflexivity; auto.
  rewrite !IH by exact E. reflexivity.
Qed.
Lemma steady_iterate : forall c rs n k s, w_iterate (steady c) c rs n k s = iterate c rs n k s.
Proof.
  intros c rs. induction rs as [|r rs IH]; intros n k s; [reflexivity|].
  cbn [w_iterate iterate].
  assert (L : w_link_next (steady c) c r n k s = link_next c r n k s).
  { destruct r; try reflexivity.
    cbn. unfold w_hib_next, hib_next, tell, dispatch. destruct (c_hib c) as [h|]; [|reflexivity].
    destruct (s_hib s).
    - destruct (hb_wake h n) as [[]|]; try reflexivity. destruct (mu_wake (s_mutes s)), (hb_incl_wake h); reflexivity.
    - destruct (hb_sleep h n) as [[]|]; try reflexivity. destruct (mu_sleep (s_mutes s)), (hb_incl_sleep h); reflexivity.
    - reflexivity. }
  rewrite L. destruct (link_next c r n k s) as [[[[[] [e|]]|p|] n1] s1]; try reflexivity. apply IH.
Qed.
Lemma steady_invoke : forall c n k s, w_invoke (steady c) c n k s = invoke c n k s.
Proof. intros. unfold w_invoke, invoke. rewrite steady_iterate. reflexivity. Qed.
Lemma steady_inspect : forall c n tr, w_inspect (steady c) c n tr = inl (inspect c n).
Proof.
  intros c n tr. unfold w_inspect, inspect, read_contents. cbn.
  destruct (c_sub c), (n_isdir n); try reflexivity; destruct (c_read c (n_path n) (n_src n)) as [es err]; reflexivity.
Qed.
Lemma steady_extend : forall c tree n k s, w_extend (steady c) c tree n k s = (None, extend c tree n k s).
Proof. intros. unfold w_extend, extend. destruct (split_path (n_path n)). reflexivity. Qed.
Lemma steady_travel : forall c f n es s, w_travel (steady c) c f n es s = travel c f n es s.
Proof. intros. unfold w_travel, travel. destruct (travel_loop f n 0 es s) as [[]]; reflexivity. Qed.
Lemma travel_ext : forall c f g n es s, (forall n s, f n s = g n s) -> travel c f n es s = travel c g n es s.
Proof. intros. unfold travel. rewrite (loop_ext f g) by assumption. reflexivity. Qed.
Lemma steady_body : forall c f g tree n s, (forall n s, f n s = g n s) ->
  w_body (steady c) c f tree n s = traverse_body c g tree n s.
Proof.
  intros c f g tree n s E. unfold w_body, traverse_body, w_after. rewrite steady_inspect.
  destruct (inspect c n) as [[k es] err]. rewrite steady_extend. cbn [w_ask steady].
  destruct (c_sub c).
  - destruct (n_isdir (extend c tree n k s)).
    + destruct (c_ask c (extend c tree n k s) k err) as [[] e], err; rewrite ?steady_travel, ?(travel_ext c f g) by exact E; reflexivity.
    + rewrite steady_invoke. reflexivity.
  - rewrite steady_invoke. destruct (invoke c (extend c tree n k s) k s) as [[[[e|]|p|] n1] s1]; try reflexivity.
    destruct (c_ask c n1 k err) as [[] e], err; rewrite ?steady_travel, ?(travel_ext c f g) by exact E; reflexivity.
  - rewrite steady_invoke. destruct (invoke c (extend c tree n k s) k s) as [[[[e|]|p|] n1] s1]; try reflexivity.
    destruct (c_ask c n1 k err) as [[] e], err; rewrite ?steady_travel, ?(travel_ext c f g) by exact E; reflexivity.
  - rewrite steady_invoke. destruct (invoke c (extend c tree n k s) k s) as [[[[e|]|p|] n1] s1]; try reflexivity.
    destruct (c_ask c n1 k err) as [[] e], err; rewrite ?steady_travel, ?(travel_ext c f g) by exact E; reflexivity.
Qed.
Lemma steady_traverse : forall f c tree n s, w_traverse f (steady c) c tree n s = traverse f c tree n s.
Proof.
  induction f as [|f IH]; intros c tree n s; [reflexivity|].
  cbn [w_traverse traverse]. unfold descend. destruct (per_descend (c_depth c) (s_depth s)) as [[] d]; [|reflexivity].
  unfold tell, dispatch. cbn [s_mutes set_depth w_handlers steady].
  destruct (mu_descend (s_mutes s));
    rewrite (steady_body c _ (traverse f c tree)) by (intros; apply IH);
    match goal with |- context [traverse_body ?a ?b ?d ?e ?g] => destruct (traverse_body a b d e g) as [[o n1] s2] end;
    unfold ascend, dispatch; destruct (mu_ascend (s_mutes s2)); reflexivity.
Qed.
Lemma steady_session : forall c sampling t, w_session (S (height t)) (steady c) c sampling t = session c sampling t.
Proof.
  intros c sampling t. unfold w_session, session, navigate, w_top, top, tell, dispatch.
  cbn [start_st init_st s_mutes mutes_none mu_begin w_handlers steady w_stat w_fault s_trace].
  destruct (c_stat c t) as [ie|].
  - cbn. reflexivity.
  - rewrite steady_traverse.
    match goal with |- context [traverse ?a ?b ?d ?e ?g] => destruct (traverse a b d e g) as [[[b0 e0]|p|] s1] end; try reflexivity.
    destruct (mu_end (s_mutes s1)); reflexivity.
Qed.

(** ** What processing one node does *)
Definition loud (s : st) : Prop := mu_descend (s_mutes s) = false /\ mu_end (s_mutes s) = false.
Definition counted (s s1 : st) (tr : list event) : Prop :=
  m_files (s_metrics s1) = m_files (s_metrics s) + files_in (calls tr) /\
  m_dirs (s_metrics s1) = m_dirs (s_metrics s) + dirs_in (calls tr).
Definition kin (n n1 : node) : Prop :=
  n_pos n1 = n_pos n /\ n_parent n1 = n_parent n /\ n_path n1 = n_path n /\ n_isdir n1 = n_isdir n /\ n_depth n1 = n_depth n.
Definition stage (n n1 : node) (s s1 : st) : Prop :=
  kin n n1 /\ s_depth s1 = s_depth s /\ (loud s -> loud s1) /\
  exists tr, s_trace s1 = s_trace s ++ tr /\ Forall (own (n_pos n)) tr /\ counted s s1 tr.

Lemma kin_refl : forall n, kin n n.
Proof. repeat split. Qed.
Lemma kin_trans : forall a b c, kin a b -> kin b c -> kin a c.
Proof. unfold kin. intuition congruence. Qed.
Lemma kin_children : forall l n, kin n (with_children l n).
Proof. repeat split. Qed.
Lemma files_in_app : forall a b, files_in (a ++ b) = files_in a + files_in b.
Proof. intros. unfold files_in. rewrite filter_app, app_length. reflexivity. Qed.
Lemma dirs_in_app : forall a b, dirs_in (a ++ b) = dirs_in a + dirs_in b.
Proof. intros. unfold dirs_in. rewrite filter_app, app_length. reflexivity. Qed.
Lemma counted_nil : forall s s1, m_files (s_metrics s1) = m_files (s_metrics s) -> m_dirs (s_metrics s1) = m_dirs (s_metrics s) -> counted s s1 [].
Proof. intros s s1 A B. split; cbn; lia. Qed.
Lemma counted_app : forall s s1 s2 a b, counted s s1 a -> counted s1 s2 b -> counted s s2 (a ++ b).
Proof.
  intros s s1 s2 a b [A1 A2] [B1 B2]. split; rewrite calls_app, ?files_in_app, ?dirs_in_app; lia.
Qed.
Lemma counted_any : forall s s1 tr, calls tr = [] -> s_metrics s1 = s_metrics s -> counted s s1 tr.
Proof. intros s s1 tr C E. split; rewrite C, E; cbn; lia. Qed.
Lemma stage_refl : forall n s, stage n n s s.
Proof.
  intros. split; [apply kin_refl|]. split; [reflexivity|]. split; [auto|]. exists []. rewrite app_nil_r.
  split; [reflexivity|]. split; [constructor|]. apply counted_nil; reflexivity.
Qed.
Lemma stage_trans : forall n n1 n2 s s1 s2, stage n n1 s s1 -> stage n1 n2 s1 s2 -> stage n n2 s s2.
Proof.
  intros n n1 n2 s s1 s2 (K & D & L & tr & T & F & C) (K' & D' & L' & tr' & T' & F' & C').
  split; [eapply kin_trans; eassumption|]. split; [congruence|]. split; [auto|].
  exists (tr ++ tr'). rewrite T', T, app_assoc. split; [reflexivity|]. split.
  - apply Forall_app. split; [exact F|]. destruct K as (<- & _). exact F'.
  - eapply counted_app; eassumption.
Qed.
(** a stage in which only a counter of something else changes, or the children *)
Lemma stage_still : forall n n1 s s1, kin n n1 -> s_depth s1 = s_depth s -> s_mutes s1 = s_mutes s -> s_trace s1 = s_trace s ->
  m_files (s_metrics s1) = m_files (s_metrics s) -> m_dirs (s_metrics s1) = m_dirs (s_metrics s) -> stage n n1 s s1.
Proof.
  intros n n1 s s1 K D M T F G. split; [exact K|]. split; [exact D|]. split; [unfold loud; rewrite M; auto|].
  exists []. rewrite app_nil_r. split; [exact T|]. split; [constructor|]. apply counted_nil; assumption.
Qed.

Section Stages.
Context (w : world) (c : cfg).

Lemma anchor_stage : forall n s o n1 s1, anchor_next c n s = (o, n1, s1) -> stage n n1 s s1.
Proof.
  intros n s o n1 s1 H. unfold anchor_next in H.
  set (s0 := tick_by (if n_isdir n then DirectoriesInvoked else FilesInvoked) 1 s) in *.
  assert (E : n1 = n /\ exists r, s1 = emit (EvCall n r) s0).
  { destruct (c_client c (s_trace s0) n); inversion H; subst; eauto. }
  destruct E as (-> & r & ->). clear H.
  split; [apply kin_refl|]. split; [reflexivity|]. split; [unfold loud; cbn; auto|].
  exists [EvCall n r]. split; [reflexivity|]. split; [repeat constructor|].
  unfold counted, files_in, dirs_in, s0. cbn. destruct (n_isdir n); cbn; lia.
Qed.
Lemma tell_stage : forall b e n s p s1, (e = EvWake \/ e = EvSleep) -> tell w b e s = (p, s1) -> stage n n s s1.
Proof.
  intros b e n s p s1 E H. unfold tell in H. destruct b; inversion H; subst; [apply stage_refl|].
  split; [apply kin_refl|]. split; [reflexivity|]. split; [unfold loud; cbn; auto|].
  exists [e]. split; [reflexivity|].
  destruct E as [-> | ->]; (split; [repeat constructor|apply counted_any; reflexivity]).
Qed.
Ltac still := apply stage_still; try apply kin_children; try apply kin_refl; try reflexivity.
Lemma hib_stage : forall n s o n1 s1, w_hib_next w c n s = (o, n1, s1) -> stage n n1 s s1.
Proof.
  intros n s o n1 s1 H. unfold w_hib_next in H. destruct (c_hib c) as [h|]; [|inversion H; subst; apply stage_refl].
  destruct (s_hib s).
  - destruct (hb_wake h n) as [[]|]; try (inversion H; subst; apply stage_refl).
    destruct (tell w (mu_wake (s_mutes s)) EvWake s) as [[p|] s2] eqn:T; inversion H; subst;
      pose proof (tell_stage _ _ n1 _ _ _ (or_introl eq_refl) T) as S; [exact S|].
    eapply stage_trans; [exact S|]. still.
  - destruct (hb_sleep h n) as [[]|]; try (inversion H; subst; apply stage_refl).
    destruct (tell w (mu_sleep (s_mutes s)) EvSleep s) as [[p|] s2] eqn:T; inversion H; subst;
      pose proof (tell_stage _ _ n1 _ _ _ (or_intror eq_refl) T) as S; [exact S|].
    eapply stage_trans; [exact S|]. still.
  - inversion H; subst; apply stage_refl.
Qed.
Lemma nanny_stage : forall n k s o n1 s1, w_nanny_next w n k s = (o, n1, s1) -> stage n n1 s s1.
Proof.
  intros n k s o n1 s1 H. unfold w_nanny_next in H. destruct k as [[fs ds]|]; [|inversion H; subst; apply stage_refl].
  destruct (w_sort w (s_trace s) fs); inversion H; subst; [|apply stage_refl]. still.
Qed.
Lemma nanny_scheme_stage : forall m n k s o n1 s1, w_nanny_scheme_next w m n k s = (o, n1, s1) -> stage n n1 s s1.
Proof.
  intros m n k s o n1 s1 H. unfold w_nanny_scheme_next in H. destruct k as [[fs ds]|]; [|inversion H; subst; apply stage_refl].
  destruct (w_sort w (s_trace s) fs) as [l|]; [|inversion H; subst; apply stage_refl].
  destruct (m l); inversion H; subst; [|apply stage_refl]. still.
Qed.
Lemma primary_stage : forall p n k s o n1 s1, primary_next p n k s = (o, n1, s1) -> stage n n1 s s1.
Proof.
  intros p n k s o n1 s1 H. destruct p as [f|f]; cbn in H.
  - unfold match_next in H. destruct (f n) as [[]|]; inversion H; subst; try apply stage_refl.
    destruct (n_isdir n1); still.
  - unfold sampler_next in H. destruct (scope_is_tree (n_scope n)); [|inversion H; subst; apply stage_refl].
    destruct k as [[fs ds]|]; inversion H; subst; [|apply stage_refl].
    destruct (f [n_src n1]); still.
Qed.
Lemma filter_stage : forall n k s o n1 s1, w_filter_next w c n k s = (o, n1, s1) -> stage n n1 s s1.
Proof.
  intros n k s o n1 s1 H. unfold w_filter_next in H. destruct (c_scheme c) as [sc|]; [|inversion H; subst; apply stage_refl].
  destruct (sc_primary sc) as [p|], (sc_child sc) as [m|].
  - destruct (primary_next p n k s) as [[o' n'] s'] eqn:P. pose proof (primary_stage _ _ _ _ _ _ _ P) as S.
    destruct o' as [[[] e]|q|]; try (inversion H; subst; exact S).
    destruct (w_nanny_scheme_next w m n' k s') as [[o2 n2] s2] eqn:N. pose proof (nanny_scheme_stage _ _ _ _ _ _ _ N) as S2.
    assert (E : n1 = n2 /\ s1 = s2) by (destruct o2 as [[? ?]| |]; inversion H; auto). destruct E as [-> ->].
    eapply stage_trans; eassumption.
  - eapply primary_stage; eassumption.
  - eapply nanny_scheme_stage; eassumption.
  - inversion H; subst; apply stage_refl.
Qed.
Lemma fast_stage : forall n s o n1 s1, fast_next c n s = (o, n1, s1) -> stage n n1 s s1.
Proof.
  intros n s o n1 s1 H. unfold fast_next in H. destruct (c_fast c) as [f|]; [|inversion H; subst; apply stage_refl].
  destruct (fast_match f n) as [[]|p|]; inversion H; subst; try apply stage_refl.
  split; [apply kin_refl|]. split; [reflexivity|]. split; [unfold loud; split; reflexivity|].
  exists []. rewrite app_nil_r. split; [reflexivity|]. split; [constructor|]. apply counted_nil; reflexivity.
Qed.
Lemma link_stage : forall r n k s o n1 s1, w_link_next w c r n k s = (o, n1, s1) -> stage n n1 s s1.
Proof.
  intros r n k s o n1 s1 H. destruct r; cbn in H.
  - inversion H; subst; apply stage_refl.
  - eapply anchor_stage; eassumption.
  - eapply filter_stage; eassumption.
  - eapply hib_stage; eassumption.
  - inversion H; subst; apply stage_refl.
  - eapply nanny_stage; eassumption.
  - eapply fast_stage; eassumption.
Qed.
Lemma iterate_stage : forall rs n k s o n1 s1, w_iterate w c rs n k s = (o, n1, s1) -> stage n n1 s s1.
Proof.
  induction rs as [|r rs IH]; intros n k s o n1 s1 H; cbn in H; [inversion H; subst; apply stage_refl|].
  destruct (w_link_next w c r n k s) as [[o' n'] s'] eqn:L. pose proof (link_stage _ _ _ _ _ _ _ L) as S.
  destruct o' as [[[] [e|]]|p|]; try (inversion H; subst; exact S).
  eapply stage_trans; [exact S|]. eapply IH; exact H.
Qed.
Lemma invoke_stage : forall n k s o n1 s1, w_invoke w c n k s = (o, n1, s1) -> stage n n1 s s1.
Proof.
  intros n k s o n1 s1 H. unfold w_invoke in H. destruct (w_iterate w c (s_items s) n k s) as [[o' n'] s'] eqn:I.
  inversion H; subst. pose proof (iterate_stage _ _ _ _ _ _ _ I) as S. eapply stage_trans; [exact S|].
  split; [apply kin_refl|]. split; [reflexivity|]. split; [unfold loud; cbn; auto|].
  exists [EvOffer n1 (res_of o)]. split; [reflexivity|]. split; [repeat constructor|]. apply counted_any; reflexivity.
Qed.
(** The node is given its depth. *)
Lemma extend_kin : forall tree n k s p n1, w_extend w c tree n k s = (p, n1) ->
  n_pos n1 = n_pos n /\ n_parent n1 = n_parent n /\ n_path n1 = n_path n /\ n_isdir n1 = n_isdir n /\
  n_depth n1 = per_depth (s_depth s).
Proof.
  intros tree n k s p n1 H. unfold w_extend in H. destruct (split_path (n_path n)) as [a b].
  match type of H with match ?x with _ => _ end = _ => destruct x end; inversion H; subst; repeat split.
Qed.
End Stages.

(** ** A panic is rescued once *)
Lemma descend_up : forall m d d' ok, per_descend m d = (ok, d') -> ok = true -> per_ascend d' = d.
Proof.
  intros m d d' ok H T. unfold per_descend in H. destruct ((0 <? m)%N && (int_of_uint m <? d)%Z); inversion H; subst; [discriminate|].
  unfold per_ascend. lia.
Qed.
Section Calm.
Context (w : world) (c : cfg) (tree : string) (CR : calm_rescue w) (CA : calm_ascend w).

Definition right_saved (s0 : st) (before : list event) (d : node) (sv : saved) : Prop :=
  sv_tree sv = c_tree c /\ sv_sub sv = c_sub c /\ sv_path sv = n_path d /\ sv_isdir sv = n_isdir d /\
  (calm_descend w -> sv_depth sv = n_depth d) /\
  m_files (sv_metrics sv) = m_files (s_metrics s0) + files_in (calls before) /\
  m_dirs (sv_metrics sv) = m_dirs (s_metrics s0) + dirs_in (calls before).
Definition rescued_in (s0 : st) (tr : list event) (o : outcome (bool * option error)) : Prop :=
  exists pre m mine sv p a b rest d,
    tr = pre ++ (EvDescend m :: mine) ++ EvRescue sv :: rest /\ rescues pre = [] /\
    Forall (own (n_pos m)) mine /\ Forall is_ascend rest /\
    w_rescue w (s_trace s0 ++ pre ++ EvDescend m :: mine) p sv = inl a /\
    o = Ret (b, Some (rescue_error a)) /\ n_parent m = Some d /\
    right_saved s0 (pre ++ EvDescend m :: mine) d sv.
Definition settled (s0 : st) (tr : list event) (o : outcome (bool * option error)) : Prop :=
  rescues tr = [] \/ rescued_in s0 tr o.

Lemma rescued_shift : forall s0 s1 tr0 tr o, s_trace s1 = s_trace s0 ++ tr0 -> counted s0 s1 tr0 -> rescues tr0 = [] ->
  rescued_in s1 tr o -> rescued_in s0 (tr0 ++ tr) o.
Proof.
  intros s0 s1 tr0 tr o T [C1 C2] R (pre & m & mine & sv & p & a & b & rest & d & -> & A1 & A2 & A3 & A4 & A5 & A6 & B1 & B2 & B3 & B4 & B5 & B6 & B7).
  exists (tr0 ++ pre), m, mine, sv, p, a, b, rest, d.
  split; [rewrite <- app_assoc; reflexivity|]. split; [rewrite rescues_app, R, A1; reflexivity|].
  split; [exact A2|]. split; [exact A3|]. split; [rewrite T in A4; rewrite <- !app_assoc in *; exact A4|].
  split; [exact A5|]. split; [exact A6|]. repeat split; try assumption.
  - rewrite <- app_assoc, calls_app, files_in_app, B6. lia.
  - rewrite <- app_assoc, calls_app, dirs_in_app, B7. lia.
Qed.
Lemma rescued_more : forall s0 tr o r, Forall is_ascend r -> rescued_in s0 tr o -> rescued_in s0 (tr ++ r) o.
Proof.
  intros s0 tr o r F (pre & m & mine & sv & p & a & b & rest & d & -> & A1 & A2 & A3 & A4).
  exists pre, m, mine, sv, p, a, b, (rest ++ r), d. split; [rewrite <- !app_assoc; reflexivity|].
  split; [exact A1|]. split; [exact A2|]. split; [apply Forall_app; auto|exact A4].
Qed.
Lemma rescued_flag : forall s0 tr b er b', rescued_in s0 tr (Ret (b, Some er)) -> rescued_in s0 tr (Ret (b', Some er)).
Proof.
  intros s0 tr b er b' (pre & m & mine & sv & p & a & b0 & rest & d & A0 & A1 & A2 & A3 & A4 & A5 & A6).
  inversion A5; subst. exists pre, m, mine, sv, p, a, b', rest, d. split; [reflexivity|]. repeat (split; [assumption|]). split; [reflexivity|exact A6].
Qed.
Lemma rescued_error : forall s0 tr o, rescued_in s0 tr o ->
  exists b er, o = Ret (b, Some er) /\ errors_is SkipDir er = false /\ errors_is SkipAll er = false /\ errors_is CorePanic er = true.
Proof.
  intros s0 tr o (pre & m & mine & sv & p & a & b & rest & d & _ & _ & _ & _ & _ & -> & _).
  exists b, (rescue_error a). split; [reflexivity|]. destruct a; repeat split.
Qed.
Lemma rescues_own : forall pos tr, Forall (own pos) tr -> rescues tr = [].
Proof. intros pos tr F. induction F as [|e tr E F IH]; [reflexivity|]. destruct e; cbn in *; try exact IH; contradiction. Qed.

(** What traversing a node does *)
Definition trav_ok (n : node) (s : st) (r : tres) : Prop :=
  loud (snd r) /\ (calm_descend w -> s_depth (snd r) = s_depth s) /\
  exists tr, s_trace (snd r) = s_trace s ++ tr /\ counted s (snd r) tr /\
    match fst r with
    | Pan _ => exists mine, tr = EvDescend n :: mine /\ Forall (own (n_pos n)) mine
    | o => settled s tr o
    end.
Definition loop_ok (parent : node) (s : st) (r : tres) : Prop :=
  loud (snd r) /\ (calm_descend w -> s_depth (snd r) = s_depth s) /\
  exists tr, s_trace (snd r) = s_trace s ++ tr /\ counted s (snd r) tr /\
    match fst r with
    | Pan _ => exists pre m mine, tr = pre ++ EvDescend m :: mine /\ rescues pre = [] /\ Forall (own (n_pos m)) mine /\ n_parent m = Some parent
    | o => settled s tr o
    end.

Lemma loop_nothing : forall parent s b, loud s -> loop_ok parent s (Ret (b, None), s).
Proof.
  intros. split; [assumption|]. split; [reflexivity|]. exists []. rewrite app_nil_r. split; [reflexivity|].
  split; [apply counted_nil; reflexivity|]. left. reflexivity.
Qed.
Lemma loop_shift : forall parent s s1 tr0 r, s_trace s1 = s_trace s ++ tr0 -> counted s s1 tr0 -> rescues tr0 = [] ->
  (calm_descend w -> s_depth s1 = s_depth s) -> loop_ok parent s1 r -> loop_ok parent s r.
Proof.
  intros parent s s1 tr0 [o s2] T C R D (L & D2 & tr & T2 & C2 & X). cbn in *.
  split; [exact L|]. split; [intros Z; cbn; rewrite (D2 Z); apply D, Z|].
  exists (tr0 ++ tr). cbn. split; [rewrite T2, T, app_assoc; reflexivity|]. split; [eapply counted_app; eassumption|].
  assert (ST : settled s1 tr o -> settled s (tr0 ++ tr) o).
  { intros [Q|Q]; [left; rewrite rescues_app, R, Q; reflexivity|right; eapply rescued_shift; eassumption]. }
  destruct o as [r|p|]; auto.
  destruct X as (pre & m & mine & -> & X1 & X2 & X3). exists (tr0 ++ pre), m, mine.
  split; [rewrite <- app_assoc; reflexivity|]. split; [rewrite rescues_app, R, X1; reflexivity|auto].
Qed.
Lemma loop_settles : forall trav, (forall n s, loud s -> trav_ok n s (trav n s)) ->
  forall parent es i s, loud s -> loop_ok parent s (travel_loop trav parent i es s).
Proof.
  intros trav TR parent es. induction es as [|e es IH]; intros i s L; cbn [travel_loop]; [apply loop_nothing, L|].
  pose proof (TR (child_node parent i e) s L) as H.
  destruct (trav (child_node parent i e) s) as [o s1]. destruct H as (L1 & D1 & tr & T & C & X). cbn [fst snd] in *.
  assert (GO : settled s tr o -> (forall b er, o = Ret (b, Some er) -> errors_is SkipDir er = true \/ errors_is SkipAll er = true) ->
    loop_ok parent s (travel_loop trav parent (S i) es s1)).
  { intros [Q|Q] Y.
    - eapply loop_shift; [exact T|exact C|exact Q|exact D1|apply IH, L1].
    - destruct (rescued_error _ _ _ Q) as (b & er & -> & E1 & E2 & _). destruct (Y _ _ eq_refl); congruence. }
  destruct o as [[[] [er|]]|p|]; cbn [fst snd] in *.
  - destruct (errors_is SkipDir er) eqn:E1; [apply GO; [exact X|]; intros b' er' Y; inversion Y; subst; auto|].
    destruct (errors_is SkipAll er) eqn:E2; [apply GO; [exact X|]; intros b' er' Y; inversion Y; subst; auto|].
    split; [exact L1|]. split; [exact D1|]. exists tr. auto.
  - apply GO; [exact X|]. discriminate.
  - assert (K : forall b, loop_ok parent s (Ret (b, Some er), s1)).
    { intros b. split; [exact L1|]. split; [exact D1|]. exists tr. split; [exact T|]. split; [exact C|].
      destruct X as [X|X]; [left; exact X|right; eapply rescued_flag, X]. }
    destruct (errors_is SkipDir er); apply K.
  - apply GO; [exact X|]. discriminate.
  - split; [exact L1|]. split; [exact D1|]. exists tr. split; [exact T|]. split; [exact C|].
    destruct X as (mine & -> & F). exists [], (child_node parent i e), mine. auto.
  - split; [exact L1|]. split; [exact D1|]. exists tr. auto.
Qed.
(** The deferred recover *)
Lemma travel_settles : forall trav, (forall n s, loud s -> trav_ok n s (trav n s)) ->
  forall parent es s, loud s -> n_depth parent = per_depth (s_depth s) ->
  let r := w_travel w c trav parent es s in
  (forall p, fst r <> Pan p) /\ loud (snd r) /\ (calm_descend w -> s_depth (snd r) = s_depth s) /\
  exists tr, s_trace (snd r) = s_trace s ++ tr /\ counted s (snd r) tr /\ settled s tr (fst r).
Proof.
  intros trav TR parent es s L DP. cbv zeta. pose proof (loop_settles trav TR parent es 0 s L) as H.
  unfold w_travel. destruct (travel_loop trav parent 0 es s) as [[r|p|] s1]; destruct H as (L1 & D1 & tr & T & C & X); cbn [fst snd] in *.
  - split; [discriminate|]. split; [exact L1|]. split; [exact D1|]. exists tr. auto.
  - destruct (CR (s_trace s1) p (saved_of c parent s1)) as (a & E). rewrite E. cbn [fst snd].
    split; [discriminate|]. split; [exact L1|]. split; [exact D1|].
    exists (tr ++ [EvRescue (saved_of c parent s1)]). cbn.
    split; [rewrite T, app_assoc; reflexivity|]. destruct C as [C1 C2].
    split; [split; rewrite calls_app, ?files_in_app, ?dirs_in_app; cbn; lia|].
    destruct X as (pre & m & mine & -> & X1 & X2 & X3). right.
    exists pre, m, mine, (saved_of c parent s1), p, a, false, [], parent.
    split; [rewrite <- app_assoc; reflexivity|]. split; [exact X1|]. split; [exact X2|]. split; [constructor|].
    split; [rewrite <- T; exact E|]. split; [reflexivity|]. split; [exact X3|].
    unfold right_saved, saved_of; cbn. repeat split; try assumption. intros Z. rewrite DP, (D1 Z). reflexivity.
  - split; [discriminate|]. split; [exact L1|]. split; [exact D1|]. exists tr. auto.
Qed.

Definition body_ok (n : node) (s : st) (r : linkres) : Prop :=
  let '(o, n1, s1) := r in
  n_pos n1 = n_pos n /\ loud s1 /\ (calm_descend w -> s_depth s1 = s_depth s) /\
  exists tr, s_trace s1 = s_trace s ++ tr /\ counted s s1 tr /\
    match o with
    | Pan _ => Forall (own (n_pos n)) tr
    | o => settled s tr o
    end.
Lemma body_stage : forall n n1 s s1 o, stage n n1 s s1 -> loud s -> body_ok n s (o, n1, s1).
Proof.
  intros n n1 s s1 o ((K & _) & D & L & tr & T & F & C) LS. split; [exact K|]. split; [auto|]. split; [auto|].
  exists tr. split; [exact T|]. split; [exact C|]. pose proof (rescues_own _ _ F).
  destruct o; try (left; assumption). exact F.
Qed.
Lemma body_after : forall n n1 s s1 r, stage n n1 s s1 -> loud s -> body_ok n1 s1 r -> body_ok n s r.
Proof.
  intros n n1 s s1 [[o n2] s2] ((K & _) & D & L & tr & T & F & C) LS (K2 & L2 & D2 & tr2 & T2 & C2 & X).
  split; [congruence|]. split; [exact L2|]. split; [intros Z; rewrite (D2 Z); exact D|].
  exists (tr ++ tr2). split; [rewrite T2, T, app_assoc; reflexivity|]. split; [eapply counted_app; eassumption|].
  pose proof (rescues_own _ _ F) as R.
  assert (ST : settled s1 tr2 o -> settled s (tr ++ tr2) o).
  { intros [Q|Q]; [left; rewrite rescues_app, R, Q; reflexivity|right; eapply rescued_shift; eassumption]. }
  destruct o as [r|p|]; auto. apply Forall_app. split; [exact F|]. rewrite <- K. exact X.
Qed.
Lemma after_settles : forall trav, (forall n s, loud s -> trav_ok n s (trav n s)) ->
  forall n k es err s, loud s -> n_depth n = per_depth (s_depth s) -> body_ok n s (w_after w c trav n k es err s).
Proof.
  intros trav TR n k es err s L DP. unfold w_after.
  destruct (w_ask w (s_trace s) n k err) as [[skip e]|p]; [|apply body_stage; [apply stage_refl|exact L]].
  assert (TV : body_ok n s (with_node n (w_travel w c trav n es s))).
  { destruct (travel_settles trav TR n es s L DP) as (NP & L1 & D1 & tr & T & C & X).
    destruct (w_travel w c trav n es s) as [o s1]. cbn in *. split; [reflexivity|]. split; [exact L1|]. split; [exact D1|].
    exists tr. split; [exact T|]. split; [exact C|]. destruct o as [r|p|]; try exact X. destruct (NP p eq_refl). }
  destruct (c_sub c), skip, err; try exact TV; (apply body_stage; [apply stage_refl|exact L]).
Qed.
Lemma body_settles : forall trav, (forall n s, loud s -> trav_ok n s (trav n s)) ->
  forall n s, loud s -> body_ok n s (w_body w c trav tree n s).
Proof.
  intros trav TR n s L. unfold w_body.
  destruct (w_inspect w c n (s_trace s)) as [[[k es] err]|p]; [|apply body_stage; [apply stage_refl|exact L]].
  destruct (w_extend w c tree n k s) as [[p|] n'] eqn:E; pose proof (extend_kin _ _ _ _ _ _ _ _ E) as (K1 & K2 & K3 & K4 & K5).
  - split; [exact K1|]. split; [exact L|]. split; [reflexivity|]. exists []. rewrite app_nil_r.
    split; [reflexivity|]. split; [apply counted_nil; reflexivity|constructor].
  - assert (R : forall r, body_ok n' s r -> body_ok n s r).
    { intros [[o n1] s1]. unfold body_ok. rewrite K1. auto. }
    apply R. clear R.
    assert (IV : body_ok n' s match w_invoke w c n' k s with
              | (Ret (Some e), n1, s1) => (Ret (true, Some e), n1, s1)
              | (Ret None, n1, s1) => w_after w c trav n1 k es err s1
              | (Pan p, n1, s1) => (Pan p, n1, s1)
              | (Stuck, n1, s1) => (Stuck, n1, s1)
              end).
    { destruct (w_invoke w c n' k s) as [[o n1] s1] eqn:I. pose proof (invoke_stage _ _ _ _ _ _ _ _ I) as S.
      destruct o as [[e|]|p|]; try (apply body_stage; assumption).
      eapply body_after; [exact S|exact L|]. destruct S as ((_ & _ & _ & _ & DK) & SD & SL & _).
      apply after_settles; [exact TR|auto|]. congruence. }
    destruct (c_sub c); try exact IV.
    destruct (n_isdir n'); [apply after_settles; assumption|].
    destruct (w_invoke w c n' k s) as [[o n1] s1] eqn:I. pose proof (invoke_stage _ _ _ _ _ _ _ _ I) as S.
    destruct o; apply body_stage; assumption.
Qed.
Lemma traverse_settles : forall f n s, loud s -> trav_ok n s (w_traverse f w c tree n s).
Proof.
  induction f as [|f IH]; intros n s L.
  - cbn. split; [exact L|]. split; [reflexivity|]. exists []. rewrite app_nil_r. split; [reflexivity|].
    split; [apply counted_nil; reflexivity|left; reflexivity].
  - cbn [w_traverse]. 
    destruct (per_descend (c_depth c) (s_depth s)) as [ok d] eqn:PD. pose proof (descend_up _ _ _ _ PD) as UP. destruct ok.
    2:{ split; [exact L|]. split; [reflexivity|]. exists []. rewrite app_nil_r. split; [reflexivity|].
        split; [apply counted_nil; reflexivity|left; reflexivity]. }
    unfold tell at 1. cbn [set_depth s_mutes s_trace].
    assert (E : mu_descend (s_mutes s) = false) by apply L. rewrite E.
    destruct (w_handlers w (s_trace s) (EvDescend n)) as [p|] eqn:HD.
    + split; [exact L|]. split; [intros Z; rewrite Z in HD; discriminate|].
      exists [EvDescend n]. split; [reflexivity|]. split; [apply counted_any; reflexivity|]. exists []. auto.
    + set (s1 := emit (EvDescend n) (set_depth d s)).
      assert (L1 : loud s1) by exact L.
      pose proof (body_settles (w_traverse f w c tree) IH n s1 L1) as B.
      destruct (w_body w c (w_traverse f w c tree) tree n s1) as [[o n1] s2].
      destruct B as (K & L2 & D2 & tr & T & C & X).
      assert (FIN : exists z s3, tell w (mu_ascend (s_mutes s2)) (EvAscend n1) (set_depth (per_ascend (s_depth s2)) s2) = (None, s3) /\
                 s_trace s3 = s_trace s2 ++ z /\ (z = [] \/ z = [EvAscend n1]) /\ loud s3 /\ s_metrics s3 = s_metrics s2 /\ s_depth s3 = per_ascend (s_depth s2)).
      { unfold tell. rewrite CA. destruct (mu_ascend (s_mutes s2)).
        - exists [], (set_depth (per_ascend (s_depth s2)) s2). rewrite app_nil_r. repeat split; auto; apply L2.
        - exists [EvAscend n1], (emit (EvAscend n1) (set_depth (per_ascend (s_depth s2)) s2)). repeat split; auto; apply L2. }
      destruct FIN as (z & s3 & -> & T3 & Z & L3 & M3 & D3). cbn [fst snd].
      split; [exact L3|]. split.
      * intros Q. cbn. rewrite D3, (D2 Q). cbn. apply UP. reflexivity.
      * exists (EvDescend n :: tr ++ z). cbn. rewrite T3, T. cbn.
        split; [rewrite <- !app_assoc; reflexivity|].
        assert (CZ : counted s s3 (EvDescend n :: tr ++ z)).
        { apply (counted_app s s1 s3 [EvDescend n]); [apply counted_any; reflexivity|].
          eapply counted_app; [exact C|]. apply counted_any; [destruct Z as [-> | ->]; reflexivity|exact M3]. }
        split; [exact CZ|].
        assert (AZ : Forall is_ascend z) by (destruct Z as [-> | ->]; repeat constructor).
        assert (RZ : rescues z = []) by (destruct Z as [-> | ->]; reflexivity).
        assert (ST : settled s1 tr o -> settled s (EvDescend n :: tr ++ z) o).
        { intros [Q|Q]; [left; cbn; rewrite rescues_app, Q, RZ; reflexivity|].
          right. apply (rescued_shift s s1 [EvDescend n]); try reflexivity; [apply counted_any; reflexivity|].
          apply rescued_more; assumption. }
        destruct o as [r|p|]; auto. exists (tr ++ z). split; [reflexivity|]. apply Forall_app. split; [exact X|].
        destruct Z as [-> | ->]; repeat constructor. exact K.
Qed.
End Calm.

(** ** A panic which leaves Traverse came from the node itself *)
Section Escape.
Context (w : world) (c : cfg) (tree : string) (CR : calm_rescue w).
Lemma travel_no_pan : forall trav n es s p s1, w_travel w c trav n es s <> (Pan p, s1).
Proof.
  intros trav n es s p s1 H. unfold w_travel in H. destruct (travel_loop trav n 0 es s) as [[r|q|] s2]; try discriminate.
  destruct (CR (s_trace s2) q (saved_of c n s2)) as (a & E). rewrite E in H. discriminate.
Qed.
Lemma after_pan : forall trav n k es err s p n1 s1, w_after w c trav n k es err s = (Pan p, n1, s1) -> n1 = n /\ s1 = s.
Proof.
  intros trav n k es err s p n1 s1 H. unfold w_after in H. destruct (w_ask w (s_trace s) n k err) as [[skip e]|q]; [|inversion H; auto].
  assert (NT : with_node n (w_travel w c trav n es s) <> (Pan p, n1, s1)).
  { intros Q. destruct (w_travel w c trav n es s) as [o s'] eqn:T. cbn in Q. inversion Q; subst. exact (travel_no_pan _ _ _ _ _ _ T). }
  destruct (c_sub c), skip, err; try discriminate H; destruct (NT H).
Qed.
Lemma body_pan : forall trav n s p n1 s1, w_body w c trav tree n s = (Pan p, n1, s1) ->
  n_pos n1 = n_pos n /\ exists tr, s_trace s1 = s_trace s ++ tr /\ Forall (own (n_pos n)) tr.
Proof.
  intros trav n s p n1 s1 H. unfold w_body in H.
  destruct (w_inspect w c n (s_trace s)) as [[[k es] err]|q].
  2:{ inversion H; subst. split; [reflexivity|]. exists []. rewrite app_nil_r. auto. }
  destruct (w_extend w c tree n k s) as [[q|] n'] eqn:E; pose proof (extend_kin _ _ _ _ _ _ _ _ E) as (K1 & _).
  { inversion H; subst. split; [exact K1|]. exists []. rewrite app_nil_r. auto. }
  rewrite <- K1.
  assert (AF : forall n0 s0, stage n' n0 s s0 -> w_after w c trav n0 k es err s0 = (Pan p, n1, s1) ->
     n_pos n1 = n_pos n' /\ exists tr, s_trace s1 = s_trace s ++ tr /\ Forall (own (n_pos n')) tr).
  { intros n0 s0 ((K & _) & _ & _ & tr & T & F & _) A. apply after_pan in A. destruct A as [-> ->]. split; [exact K|]. eauto. }
  assert (IV : forall o n0 s0, w_invoke w c n' k s = (o, n0, s0) -> stage n' n0 s s0) by (intros; eapply invoke_stage; eassumption).
  assert (ST : forall n0 s0, stage n' n0 s s0 -> n_pos n0 = n_pos n' /\ exists tr, s_trace s0 = s_trace s ++ tr /\ Forall (own (n_pos n')) tr).
  { intros n0 s0 ((K & _) & _ & _ & tr & T & F & _). split; [exact K|eauto]. }
  destruct (w_invoke w c n' k s) as [[o n0] s0]. specialize (IV _ _ _ eq_refl).
  destruct (c_sub c).
  - destruct (n_isdir n'); [eapply AF; [apply stage_refl|exact H]|].
    destruct o; inversion H; subst. apply ST, IV.
  - destruct o as [[e|]| |]; [discriminate|eapply AF; [exact IV|exact H]| |discriminate]; inversion H; subst. apply ST, IV.
  - destruct o as [[e|]| |]; [discriminate|eapply AF; [exact IV|exact H]| |discriminate]; inversion H; subst. apply ST, IV.
  - destruct o as [[e|]| |]; [discriminate|eapply AF; [exact IV|exact H]| |discriminate]; inversion H; subst. apply ST, IV.
Qed.
End Escape.

(** ** Growth, counts and rescues whatever happens *)
Section Any.
Context (w : world) (c : cfg) (tree : string).
Definition any_ok (s : st) (o : outcome (bool * option error)) (s1 : st) : Prop :=
  exists tr, s_trace s1 = s_trace s ++ tr /\ counted s s1 tr /\
    (wild_rescue w -> forall r, o = Ret r -> rescues tr = []).
Lemma any_stage : forall n n1 s s1 o, stage n n1 s s1 -> any_ok s o s1.
Proof.
  intros n n1 s s1 o (_ & _ & _ & tr & T & F & C). exists tr. split; [exact T|]. split; [exact C|].
  intros _ _ _. eapply rescues_own, F.
Qed.
Lemma any_after : forall n n1 s s1 o s2, stage n n1 s s1 -> any_ok s1 o s2 -> any_ok s o s2.
Proof.
  intros n n1 s s1 o s2 (_ & _ & _ & tr & T & F & C) (tr2 & T2 & C2 & X). exists (tr ++ tr2).
  split; [rewrite T2, T, app_assoc; reflexivity|]. split; [eapply counted_app; eassumption|].
  intros W r E. rewrite rescues_app, (rescues_own _ _ F), (X W r E). reflexivity.
Qed.
Lemma any_refl : forall s o, any_ok s o s.
Proof. intros. apply (any_stage (new_node "" (File "") None None []) (new_node "" (File "") None None [])), stage_refl. Qed.
Lemma loop_any : forall trav, (forall n s, any_ok s (fst (trav n s)) (snd (trav n s))) ->
  forall parent es i s, let r := travel_loop trav parent i es s in any_ok s (fst r) (snd r).
Proof.
  intros trav TR parent es. induction es as [|e es IH]; intros i s; cbv zeta; cbn [travel_loop]; [apply any_refl|].
  pose proof (TR (child_node parent i e) s) as H. destruct (trav (child_node parent i e) s) as [o s1]. cbn [fst snd] in H.
  destruct H as (tr & T & C & X).
  assert (GO : forall r0, o = Ret r0 -> let r := travel_loop trav parent (S i) es s1 in any_ok s (fst r) (snd r)).
  { intros r0 ->. cbv zeta. destruct (IH (S i) s1) as (tr2 & T2 & C2 & X2). exists (tr ++ tr2).
    split; [rewrite T2, T, app_assoc; reflexivity|]. split; [eapply counted_app; eassumption|].
    intros W r E. rewrite rescues_app, (X W _ eq_refl), (X2 W r E). reflexivity. }
  assert (SAME : forall o', (forall r, o' = Ret r -> exists r0, o = Ret r0) -> any_ok s o' s1).
  { intros o' Q. exists tr. split; [exact T|]. split; [exact C|]. intros W r E. destruct (Q r E) as (r0 & E0). exact (X W r0 E0). }
  destruct o as [[[] [er|]]|p|]; cbn [fst snd].
  - destruct (errors_is SkipDir er); [eapply GO; reflexivity|]. destruct (errors_is SkipAll er); [eapply GO; reflexivity|]. apply SAME. eauto.
  - eapply GO; reflexivity.
  - destruct (errors_is SkipDir er); apply SAME; eauto.
  - eapply GO; reflexivity.
  - apply SAME. discriminate.
  - apply SAME. discriminate.
Qed.
Lemma travel_any : forall trav, (forall n s, any_ok s (fst (trav n s)) (snd (trav n s))) ->
  forall parent es s, let r := w_travel w c trav parent es s in any_ok s (fst r) (snd r).
Proof.
  intros trav TR parent es s. cbv zeta. pose proof (loop_any trav TR parent es 0 s) as H. cbv zeta in H.
  unfold w_travel. destruct (travel_loop trav parent 0 es s) as [[r|p|] s1]; try exact H. cbn [fst snd] in H.
  destruct H as (tr & T & C & X).
  assert (G : exists tr', s_trace (emit (EvRescue (saved_of c parent s1)) s1) = s_trace s ++ tr' /\
     counted s (emit (EvRescue (saved_of c parent s1)) s1) tr').
  { exists (tr ++ [EvRescue (saved_of c parent s1)]). cbn. split; [rewrite T, app_assoc; reflexivity|].
    eapply counted_app; [exact C|]. apply counted_any; reflexivity. }
  destruct G as (tr' & T' & C').
  destruct (w_rescue w (s_trace s1) p (saved_of c parent s1)) eqn:R; cbn [fst snd]; exists tr'; (split; [exact T'|]); (split; [exact C'|]).
  - intros W. destruct (W (s_trace s1) p (saved_of c parent s1)) as (q & Q). congruence.
  - discriminate.
Qed.
Definition body_any (s : st) (r : linkres) : Prop := any_ok s (fst (fst r)) (snd r).
Lemma after_any : forall trav, (forall n s, any_ok s (fst (trav n s)) (snd (trav n s))) ->
  forall n k es err s, body_any s (w_after w c trav n k es err s).
Proof.
  intros trav TR n k es err s. unfold w_after. destruct (w_ask w (s_trace s) n k err) as [[skip e]|q]; [|apply any_refl].
  pose proof (travel_any trav TR n es s) as H. cbv zeta in H.
  assert (TV : body_any s (with_node n (w_travel w c trav n es s))) by exact H.
  destruct (c_sub c), skip, err; try exact TV; apply any_refl.
Qed.
Lemma body_any_ok : forall trav, (forall n s, any_ok s (fst (trav n s)) (snd (trav n s))) ->
  forall n s, body_any s (w_body w c trav tree n s).
Proof.
  intros trav TR n s. unfold w_body. destruct (w_inspect w c n (s_trace s)) as [[[k es] err]|q]; [|apply any_refl].
  destruct (w_extend w c tree n k s) as [[q|] n'] eqn:E; [apply any_refl|].
  destruct (w_invoke w c n' k s) as [[o n0] s0] eqn:I. pose proof (invoke_stage _ _ _ _ _ _ _ _ I) as S.
  assert (AF : body_any s (w_after w c trav n0 k es err s0)).
  { pose proof (after_any trav TR n0 k es err s0) as H. unfold body_any in *. eapply any_after; eassumption. }
  destruct (c_sub c); [destruct (n_isdir n'); [apply after_any, TR|]|..];
    destruct o as [[e|]| |]; try exact AF; unfold body_any; cbn [fst snd]; eapply any_stage; exact S.
Qed.
Lemma any_traverse : forall f n s, let r := w_traverse f w c tree n s in any_ok s (fst r) (snd r).
Proof.
  induction f as [|f IH]; intros n s; cbv zeta in *; [apply any_refl|]. cbn [w_traverse].
  destruct (per_descend (c_depth c) (s_depth s)) as [[] d]; [|apply any_refl].
  destruct (tell w (mu_descend (s_mutes (set_depth d s))) (EvDescend n) (set_depth d s)) as [hp s1] eqn:TD.
  assert (A1 : exists z, s_trace s1 = s_trace s ++ z /\ calls z = [] /\ rescues z = [] /\ s_metrics s1 = s_metrics s).
  { unfold tell in TD. destruct (mu_descend (s_mutes (set_depth d s))); inversion TD; subst.
    - exists []. rewrite app_nil_r. auto.
    - exists [EvDescend n]. auto. }
  destruct A1 as (z & Z1 & Z2 & Z3 & Z4). cbn [s_mutes set_depth] in TD. rewrite TD.
  destruct hp as [p|].
  { exists z. cbn. split; [exact Z1|]. split; [apply counted_any; assumption|]. intros _ _ _. exact Z3. }
  pose proof (body_any_ok (w_traverse f w c tree) IH n s1) as B.
  destruct (w_body w c (w_traverse f w c tree) tree n s1) as [[o n1] s2]. destruct B as (tr & T & C & X). cbn [fst snd] in *.
  destruct (tell w (mu_ascend (s_mutes s2)) (EvAscend n1) (set_depth (per_ascend (s_depth s2)) s2)) as [ha s3] eqn:TA.
  assert (A2 : exists y, s_trace s3 = s_trace s2 ++ y /\ calls y = [] /\ rescues y = [] /\ s_metrics s3 = s_metrics s2).
  { unfold tell in TA. destruct (mu_ascend (s_mutes s2)); inversion TA; subst.
    - exists []. rewrite app_nil_r. auto.
    - exists [EvAscend n1]. auto. }
  destruct A2 as (y & Y1 & Y2 & Y3 & Y4).
  assert (ALL : forall o', (forall r, o' = Ret r -> exists r0, o = Ret r0) -> any_ok s o' s3).
  { intros o' Q. exists (z ++ tr ++ y). split; [rewrite Y1, T, Z1, <- !app_assoc; reflexivity|]. split.
    - eapply counted_app; [apply counted_any; [exact Z2|exact Z4]|]. eapply counted_app; [exact C|]. apply counted_any; assumption.
    - intros W r E. destruct (Q r E) as (r0 & E0). rewrite !rescues_app, Z3, Y3, (X W r0 E0). reflexivity. }
  destruct ha as [q|]; cbn [fst snd].
  - apply ALL. destruct o; discriminate.
  - apply ALL. eauto.
Qed.
End Any.

(** ** Nothing is swallowed: a session without a rescue met no panic *)
Definition fresh (s s1 : st) : Prop := exists tr, s_trace s1 = s_trace s ++ tr /\ rescues tr = [].
Definition grow (s s1 : st) : Prop := exists tr, s_trace s1 = s_trace s ++ tr.
Lemma fresh_split : forall s s1 s2, grow s s1 -> grow s1 s2 -> fresh s s2 -> fresh s s1 /\ fresh s1 s2.
Proof.
  intros s s1 s2 (a & A) (b & B) (t & T & R). rewrite B, A, <- app_assoc in T. apply app_inv_head in T. subst t.
  rewrite rescues_app in R. apply app_eq_nil in R. destruct R. split; eexists; eauto.
Qed.
Lemma grow_trans : forall s s1 s2, grow s s1 -> grow s1 s2 -> grow s s2.
Proof. intros s s1 s2 (a & A) (b & B). exists (a ++ b). rewrite B, A, app_assoc. reflexivity. Qed.
Lemma grow_refl : forall s, grow s s.
Proof. intros. exists []. rewrite app_nil_r. reflexivity. Qed.

Section Complete.
Context (w w' : world) (c : cfg) (tree : string) (CO : completes w w').

Lemma tell_completes : forall b e s s1, tell w b e s = (None, s1) -> tell w' b e s = (None, s1).
Proof.
  intros b e s s1 H. unfold tell in *. destruct b; [exact H|]. inversion H; subst.
  destruct CO as (_ & _ & _ & _ & _ & _ & _ & HH). rewrite H1. rewrite (HH _ _ H1). reflexivity.
Qed.
Lemma tell_grow : forall v b e s p s1, tell v b e s = (p, s1) -> grow s s1.
Proof. intros v b e s p s1 H. unfold tell in H. destruct b; inversion H; subst; [apply grow_refl|]. eexists. reflexivity. Qed.
Lemma sort_completes : forall tr l x, w_sort w tr l = inl x -> w_sort w' tr l = inl x.
Proof. intros tr l x H. destruct CO as (_ & A & _). exact (A tr l x H). Qed.
Lemma read_completes : forall tr p t x, w_read w tr p t = inl x -> w_read w' tr p t = inl x.
Proof. intros tr p t x H. destruct CO as (A & _). exact (A tr p t x H). Qed.
Lemma nanny_scheme_completes : forall m n k s x n1 s1, w_nanny_scheme_next w m n k s = (Ret x, n1, s1) ->
  w_nanny_scheme_next w' m n k s = (Ret x, n1, s1).
Proof.
  intros m n k s x n1 s1 H. unfold w_nanny_scheme_next in *. destruct k as [[fs ds]|]; [|discriminate].
  destruct (w_sort w (s_trace s) fs) as [l|] eqn:S; [|discriminate]. rewrite (sort_completes _ _ _ S). exact H.
Qed.
Lemma link_completes : forall r n k s x n1 s1, w_link_next w c r n k s = (Ret x, n1, s1) -> w_link_next w' c r n k s = (Ret x, n1, s1).
Proof.
  intros r n k s x n1 s1 H. destruct r; try exact H; cbn in *.
  - unfold w_filter_next in *. destruct (c_scheme c) as [sc|]; [|discriminate].
    destruct (sc_primary sc) as [p|], (sc_child sc) as [m|]; try exact H.
    + destruct (primary_next p n k s) as [[[[[] e]|q|] n2] s2]; try exact H.
      destruct (w_nanny_scheme_next w m n2 k s2) as [[[[b e2]|q|] n3] s3] eqn:N; try discriminate.
      rewrite (nanny_scheme_completes _ _ _ _ _ _ _ N). exact H.
    + apply nanny_scheme_completes, H.
  - unfold w_hib_next in *. destruct (c_hib c) as [h|]; [|discriminate]. destruct (s_hib s); try exact H.
    + destruct (hb_wake h n) as [[]|]; try exact H.
      destruct (tell w (mu_wake (s_mutes s)) EvWake s) as [[p|] s2] eqn:T; [discriminate|]. rewrite (tell_completes _ _ _ _ T). exact H.
    + destruct (hb_sleep h n) as [[]|]; try exact H.
      destruct (tell w (mu_sleep (s_mutes s)) EvSleep s) as [[p|] s2] eqn:T; [discriminate|]. rewrite (tell_completes _ _ _ _ T). exact H.
  - unfold w_nanny_next in *. destruct k as [[fs ds]|]; [|discriminate].
    destruct (w_sort w (s_trace s) fs) as [l|] eqn:S; [|discriminate]. rewrite (sort_completes _ _ _ S). exact H.
Qed.
Lemma iterate_completes : forall rs n k s x n1 s1, w_iterate w c rs n k s = (Ret x, n1, s1) -> w_iterate w' c rs n k s = (Ret x, n1, s1).
Proof.
  induction rs as [|r rs IH]; intros n k s x n1 s1 H; cbn in *; [exact H|].
  destruct (w_link_next w c r n k s) as [[[[b e]|q|] n2] s2] eqn:L; try discriminate.
  rewrite (link_completes _ _ _ _ _ _ _ L). destruct b, e; try exact H. apply IH, H.
Qed.
Lemma invoke_completes : forall n k s x n1 s1, w_invoke w c n k s = (Ret x, n1, s1) -> w_invoke w' c n k s = (Ret x, n1, s1).
Proof.
  intros n k s x n1 s1 H. unfold w_invoke in *. destruct (w_iterate w c (s_items s) n k s) as [[o n2] s2] eqn:I.
  inversion H; subst. rewrite (iterate_completes _ _ _ _ _ _ _ I). reflexivity.
Qed.
Lemma inspect_completes : forall n tr x, w_inspect w c n tr = inl x -> w_inspect w' c n tr = inl x.
Proof.
  intros n tr x H. unfold w_inspect in *.
  destruct (c_sub c), (n_isdir n); try exact H;
    destruct (w_read w tr (n_path n) (n_src n)) as [[es err]|] eqn:R; try discriminate; rewrite (read_completes _ _ _ _ R);
    destruct (w_sort w tr (dirs_of es)) as [ds|] eqn:S; try discriminate; rewrite (sort_completes _ _ _ S); try exact H;
    destruct (w_sort w tr (files_of es)) as [fs|] eqn:S2; try discriminate; rewrite (sort_completes _ _ _ S2); exact H.
Qed.
Lemma extend_completes : forall n k s n1, w_extend w c tree n k s = (None, n1) -> w_extend w' c tree n k s = (None, n1).
Proof.
  intros n k s n1 H. unfold w_extend in *. destruct (split_path (n_path n)) as [a b].
  destruct CO as (_ & _ & A & _).
  match type of H with match ?x with _ => _ end = _ => destruct x as [sub|q] eqn:Q end; [|discriminate].
  rewrite (A _ _ _ _ _ Q). exact H.
Qed.

Definition alike (f g : node -> st -> tres) : Prop :=
  forall n s x s1, f n s = (Ret x, s1) -> fresh s s1 -> g n s = (Ret x, s1).
Definition growing (f : node -> st -> tres) : Prop := forall n s, grow s (snd (f n s)).
Lemma loop_grows : forall f, growing f -> forall parent es i s, grow s (snd (travel_loop f parent i es s)).
Proof.
  intros f G parent es. induction es as [|e es IH]; intros i s; cbn [travel_loop]; [apply grow_refl|].
  pose proof (G (child_node parent i e) s) as H. destruct (f (child_node parent i e) s) as [o s1]. cbn [snd] in H.
  assert (GO : grow s (snd (travel_loop f parent (S i) es s1))) by (eapply grow_trans; [exact H|apply IH]).
  destruct o as [[[] [er|]]|p|]; cbn [snd]; try exact H; try exact GO.
  - destruct (errors_is SkipDir er); [exact GO|]. destruct (errors_is SkipAll er); [exact GO|exact H].
  - destruct (errors_is SkipDir er); exact H.
Qed.
Lemma loop_completes : forall f g, alike f g -> growing f -> forall parent es i s x s1,
  travel_loop f parent i es s = (Ret x, s1) -> fresh s s1 -> travel_loop g parent i es s = (Ret x, s1).
Proof.
  intros f g AL GR parent es. induction es as [|e es IH]; intros i s x s1 H FR; cbn [travel_loop] in *; [exact H|].
  pose proof (GR (child_node parent i e) s) as G1.
  destruct (f (child_node parent i e) s) as [o s2] eqn:E. cbn [snd] in G1.
  assert (GO : forall r, o = Ret r -> travel_loop f parent (S i) es s2 = (Ret x, s1) ->
     g (child_node parent i e) s = (Ret r, s2) /\ travel_loop g parent (S i) es s2 = (Ret x, s1)).
  { intros r -> T. pose proof (loop_grows f GR parent es (S i) s2) as G2. rewrite T in G2. cbn [snd] in G2.
    destruct (fresh_split _ _ _ G1 G2 FR) as [F1 F2]. split; [apply AL; assumption|apply IH; assumption]. }
  assert (SAME : forall r, o = Ret r -> s2 = s1 -> g (child_node parent i e) s = (Ret r, s2)).
  { intros r -> ->. apply AL; assumption. }
  destruct o as [[[] [er|]]|p|]; try discriminate.
  - destruct (errors_is SkipDir er) eqn:E1.
    + destruct (GO _ eq_refl H) as [-> ->]. rewrite E1. reflexivity.
    + destruct (errors_is SkipAll er) eqn:E2.
      * destruct (GO _ eq_refl H) as [-> ->]. rewrite E1, E2. reflexivity.
      * inversion H; subst. rewrite (SAME _ eq_refl eq_refl), E1, E2. reflexivity.
  - destruct (GO _ eq_refl H) as [-> ->]. reflexivity.
  - destruct (errors_is SkipDir er) eqn:E1; inversion H; subst; rewrite (SAME _ eq_refl eq_refl), E1; reflexivity.
  - destruct (GO _ eq_refl H) as [-> ->]. reflexivity.
Qed.
Lemma travel_completes : forall f g, alike f g -> growing f -> forall parent es s x s1,
  w_travel w c f parent es s = (Ret x, s1) -> fresh s s1 -> w_travel w' c g parent es s = (Ret x, s1).
Proof.
  intros f g AL GR parent es s x s1 H FR. unfold w_travel in *.
  destruct (travel_loop f parent 0 es s) as [[r|p|] s2] eqn:L; try discriminate.
  - inversion H; subst. rewrite (loop_completes f g AL GR _ _ _ _ _ _ L FR). reflexivity.
  - exfalso. pose proof (loop_grows f GR parent es 0 s) as G. rewrite L in G. cbn [snd] in G.
    destruct (w_rescue w (s_trace s2) p (saved_of c parent s2)); [|discriminate]. inversion H; subst.
    assert (G2 : grow s2 (emit (EvRescue (saved_of c parent s2)) s2)) by (eexists; reflexivity).
    destruct (fresh_split _ _ _ G G2 FR) as [_ (t & T & R)]. cbn in T. apply app_inv_head in T. subst t. discriminate.
Qed.
Lemma after_completes : forall f g, alike f g -> growing f -> forall n k es err s x n1 s1,
  w_after w c f n k es err s = (Ret x, n1, s1) -> fresh s s1 -> w_after w' c g n k es err s = (Ret x, n1, s1).
Proof.
  intros f g AL GR n k es err s x n1 s1 H FR. unfold w_after in *.
  destruct (w_ask w (s_trace s) n k err) as [[skip e]|q] eqn:A; [|discriminate].
  assert (A' : w_ask w' (s_trace s) n k err = inl (skip, e)).
  { destruct CO as (_ & _ & _ & _ & _ & Q & _). apply Q, A. }
  rewrite A'.
  assert (TV : with_node n (w_travel w c f n es s) = (Ret x, n1, s1) -> with_node n (w_travel w' c g n es s) = (Ret x, n1, s1)).
  { intros Q. destruct (w_travel w c f n es s) as [o s2] eqn:T. unfold with_node in *. cbn [fst snd] in Q. inversion Q; subst.
    rewrite (travel_completes f g AL GR _ _ _ _ _ T FR). reflexivity. }
  destruct (c_sub c), skip, err; try exact H; apply TV, H.
Qed.
Lemma body_completes : forall f g, alike f g -> growing f -> forall n s x n1 s1,
  w_body w c f tree n s = (Ret x, n1, s1) -> fresh s s1 -> w_body w' c g tree n s = (Ret x, n1, s1).
Proof.
  intros f g AL GR n s x n1 s1 H FR. unfold w_body in *.
  destruct (w_inspect w c n (s_trace s)) as [[[k es] err]|q] eqn:I; [|discriminate]. rewrite (inspect_completes _ _ _ I).
  destruct (w_extend w c tree n k s) as [[q|] n'] eqn:E; [discriminate|]. rewrite (extend_completes _ _ _ _ E).
  assert (IV : match w_invoke w c n' k s with
              | (Ret (Some e), n1, s1) => (Ret (true, Some e), n1, s1)
              | (Ret None, n1, s1) => w_after w c f n1 k es err s1
              | (Pan p, n1, s1) => (Pan p, n1, s1)
              | (Stuck, n1, s1) => (Stuck, n1, s1)
              end = (Ret x, n1, s1) ->
              match w_invoke w' c n' k s with
              | (Ret (Some e), n1, s1) => (Ret (true, Some e), n1, s1)
              | (Ret None, n1, s1) => w_after w' c g n1 k es err s1
              | (Pan p, n1, s1) => (Pan p, n1, s1)
              | (Stuck, n1, s1) => (Stuck, n1, s1)
              end = (Ret x, n1, s1)).
  { destruct (w_invoke w c n' k s) as [[[[e|]|p|] n2] s2] eqn:V; intros Q; try discriminate.
    - rewrite (invoke_completes _ _ _ _ _ _ V). exact Q.
    - rewrite (invoke_completes _ _ _ _ _ _ V). apply (after_completes f g AL GR); [exact Q|].
      destruct (invoke_stage _ _ _ _ _ _ _ _ V) as (_ & _ & _ & t & T & F & _).
      destruct FR as (t2 & T2 & R2). 
      assert (GW : grow s2 s1).
      { pose proof (after_any w c f) as GA.
        unfold w_after in Q. destruct (w_ask w (s_trace s2) n2 k err) as [[skip e]|q]; [|discriminate].
        assert (TV : with_node n2 (w_travel w c f n2 es s2) = (Ret x, n1, s1) -> grow s2 s1).
        { intros Z. unfold with_node in Z. destruct (w_travel w c f n2 es s2) as [o s3] eqn:TT. cbn [fst snd] in Z. inversion Z; subst.
          unfold w_travel in TT. pose proof (loop_grows f GR n1 es 0 s2) as GL.
          destruct (travel_loop f n1 0 es s2) as [[r|p|] s4]; try discriminate; cbn [snd] in GL.
          - inversion TT; subst. exact GL.
          - destruct (w_rescue w (s_trace s4) p (saved_of c n1 s4)); inversion TT; subst.
            eapply grow_trans; [exact GL|]. eexists. reflexivity. }
        destruct (c_sub c), skip, err; try (apply TV, Q); inversion Q; subst; apply grow_refl. }
      eapply (fresh_split s s2 s1); [exists t; exact T|exact GW|exists t2; auto]. }
  destruct (c_sub c); try (apply IV, H).
  destruct (n_isdir n'); [apply (after_completes f g AL GR); assumption|].
  destruct (w_invoke w c n' k s) as [[[e|p|] n2] s2] eqn:V; try discriminate.
  rewrite (invoke_completes _ _ _ _ _ _ V). exact H.
Qed.
Lemma traverse_grows : forall f, growing (w_traverse f w c tree).
Proof. intros f n s. destruct (any_traverse w c tree f n s) as (tr & T & _). exists tr. exact T. Qed.
Lemma traverse_completes : forall f, alike (w_traverse f w c tree) (w_traverse f w' c tree).
Proof.
  induction f as [|f IH]; intros n s x s1 H FR; [discriminate|]. cbn [w_traverse] in *.
  destruct (per_descend (c_depth c) (s_depth s)) as [[] d]; [|exact H].
  destruct (tell w (mu_descend (s_mutes s)) (EvDescend n) (set_depth d s)) as [[p|] s2] eqn:TD; [discriminate|].
  rewrite (tell_completes _ _ _ _ TD).
  pose proof (body_any_ok w c tree (w_traverse f w c tree) (any_traverse w c tree f) n s2) as BA.
  destruct (w_body w c (w_traverse f w c tree) tree n s2) as [[o n1] s3] eqn:B.
  destruct (tell w (mu_ascend (s_mutes s3)) (EvAscend n1) (set_depth (per_ascend (s_depth s3)) s3)) as [[p|] s4] eqn:TA;
    [destruct o; discriminate|]. inversion H; subst.
  assert (G1 : grow s s2) by (destruct (tell_grow _ _ _ _ _ _ TD) as (t & T); exists t; exact T).
  assert (G2 : grow s2 s3) by (destruct BA as (t & T & _); exists t; exact T).
  assert (G3 : grow s3 s1) by (destruct (tell_grow _ _ _ _ _ _ TA) as (t & T); exists t; exact T).
  destruct (fresh_split _ _ _ G1 (grow_trans _ _ _ G2 G3) FR) as [_ F23].
  destruct (fresh_split _ _ _ G2 G3 F23) as [F2 _].
  rewrite (body_completes _ _ IH (traverse_grows f) _ _ _ _ _ B F2).
  rewrite (tell_completes _ _ _ _ TA). reflexivity.
Qed.
End Complete.

(** the node which Traverse leaves with is at the same position *)
Lemma after_node : forall w c trav n k es err s, snd (fst (w_after w c trav n k es err s)) = n.
Proof.
  intros. unfold w_after. destruct (w_ask w (s_trace s) n k err) as [[skip e]|q]; [|reflexivity].
  destruct (c_sub c), skip, err; reflexivity.
Qed.
Lemma body_pos : forall w c tree trav n s, n_pos (snd (fst (w_body w c trav tree n s))) = n_pos n.
Proof.
  intros. unfold w_body. destruct (w_inspect w c n (s_trace s)) as [[[k es] err]|q]; [|reflexivity].
  destruct (w_extend w c tree n k s) as [[q|] n'] eqn:E; pose proof (extend_kin _ _ _ _ _ _ _ _ E) as (K1 & _); [exact K1|].
  rewrite <- K1. destruct (w_invoke w c n' k s) as [[o n0] s0] eqn:I. destruct (invoke_stage _ _ _ _ _ _ _ _ I) as ((K & _) & _).
  destruct (c_sub c).
  - destruct (n_isdir n'); [rewrite after_node; reflexivity|]. destruct o; exact K.
  - destruct o as [[e|]| |]; try exact K. rewrite after_node. exact K.
  - destruct o as [[e|]| |]; try exact K. rewrite after_node. exact K.
  - destruct o as [[e|]| |]; try exact K. rewrite after_node. exact K.
Qed.

(** ** Sessions *)
Lemma session_unfold : forall f w c sampling t,
  let s1 := emit (EvBegin (c_tree c)) (start_st c sampling) in
  w_session f w c sampling t =
  match w_handlers w [] (EvBegin (c_tree c)) with
  | Some p => (Pan p, s1)
  | None =>
      match w_top f w c (c_tree c) t s1 with
      | (Ret e, s2) =>
          match tell w (mu_end (s_mutes s2)) (EvEnd (s_metrics s2)) s2 with
          | (Some p, s3) => (Pan p, s3)
          | (None, s3) => (Ret e, s3)
          end
      | x => x
      end
  end.
Proof. intros. unfold w_session, tell. cbn [start_st init_st s_mutes mu_begin mutes_none s_trace]. destruct (w_handlers w [] (EvBegin (c_tree c))); reflexivity. Qed.
Lemma loud_start : forall c sampling e, loud (emit e (start_st c sampling)).
Proof. intros. split; reflexivity. Qed.

(** calm panic and Ascend handlers: how a session with a rescue went *)
Definition is_end (e : event) : Prop := match e with EvEnd _ => True | _ => False end.
Lemma session_settles : forall f w c sampling t o s, calm_rescue w -> calm_ascend w ->
  w_session f w c sampling t = (o, s) ->
  rescues (s_trace s) = [] \/
  exists before m mine sv p a rest d,
    s_trace s = before ++ EvDescend m :: mine ++ EvRescue sv :: rest ++ [EvEnd (s_metrics s)] /\
    rescues before = [] /\ Forall (own (n_pos m)) mine /\ Forall is_ascend rest /\
    w_rescue w (before ++ EvDescend m :: mine) p sv = inl a /\
    n_parent m = Some d /\
    saves w c (before ++ EvDescend m :: mine) d sv /\
    o = match w_handlers w (before ++ EvDescend m :: mine ++ EvRescue sv :: rest) (EvEnd (s_metrics s)) with
        | Some q => Pan q | None => Ret (Some (rescue_error a)) end.
Proof.
  intros f w c sampling t o s CR CA H. rewrite session_unfold in H.
  set (s1 := emit (EvBegin (c_tree c)) (start_st c sampling)) in *.
  destruct (w_handlers w [] (EvBegin (c_tree c))) as [p|] eqn:HB; [inversion H; subst; left; reflexivity|].
  unfold w_top in H. destruct (w_stat w (s_trace s1) t) as [[ie|]|p] eqn:ST.
  - destruct (w_fault w (s_trace s1) ie) as [e|p].
    + unfold tell in H. destruct (mu_end (s_mutes s1)); [inversion H; subst; left; reflexivity|].
      destruct (w_handlers w (s_trace s1) (EvEnd (s_metrics s1))); inversion H; subst; left; reflexivity.
    + inversion H; subst. left; reflexivity.
  - pose proof (traverse_settles w c (c_tree c) CR CA f (new_node (c_tree c) t None None []) s1 (loud_start _ _ _)) as (L & _ & tr & T & _ & X).
    destruct (w_traverse f w c (c_tree c) (new_node (c_tree c) t None None []) s1) as [o2 s2]. cbn [fst snd] in *.
    assert (R1 : rescues (s_trace s1) = []) by reflexivity.
    assert (NR : rescues tr = [] -> rescues (s_trace s2) = []) by (intros Q; rewrite T, rescues_app, R1, Q; reflexivity).
    destruct o2 as [[b e]|p|].
    + unfold tell in H. replace (mu_end (s_mutes s2)) with false in H by (symmetry; apply L).
      assert (S3 : s_trace s = s_trace s2 ++ [EvEnd (s_metrics s2)] /\ s_metrics s = s_metrics s2 /\
                   o = match w_handlers w (s_trace s2) (EvEnd (s_metrics s2)) with Some q => Pan q | None => Ret e end).
      { destruct (w_handlers w (s_trace s2) (EvEnd (s_metrics s2))); inversion H; subst; auto. }
      destruct S3 as (T3 & M3 & O3). rewrite T3, M3.
      destruct X as [X|X]; [left; rewrite rescues_app, (NR X); reflexivity|]. right.
      destruct X as (pre & m & mine & sv & p & a & b0 & rest & d & -> & A1 & A2 & A3 & A4 & A5 & A6 & B1 & B2 & B3 & B4 & B5 & B6 & B7).
      inversion A5; subst e.
      exists (EvBegin (c_tree c) :: pre), m, mine, sv, p, a, rest, d. rewrite T. split.
      { cbn. rewrite <- !app_assoc. cbn. rewrite <- !app_assoc. reflexivity. }
      split; [exact A1|]. split; [exact A2|]. split; [exact A3|]. split; [exact A4|]. split; [exact A6|].
      split; [repeat split; assumption|]. rewrite O3, T. cbn. rewrite <- ?app_assoc. reflexivity.
    + inversion H; subst. left. apply NR. destruct X as (mine & -> & F). cbn. eapply rescues_own, F.
    + inversion H; subst. left. destruct X as [X|X]; [apply NR; exact X|].
      destruct X as (pre & m & mine & sv & p & a & b0 & rest & d & _ & _ & _ & _ & _ & A5 & _). discriminate.
  - inversion H; subst. left; reflexivity.
Qed.

(** who is responsible for a panic which leaves the session *)
Lemma session_escape : forall f w c sampling t p s, calm_rescue w -> w_session f w c sampling t = (Pan p, s) ->
  Forall of_root (s_trace s) \/
  exists before e, s_trace s = before ++ [e] /\ w_handlers w before e = Some p /\
    ((exists n, e = EvAscend n /\ n_pos n = []) \/ e = EvEnd (s_metrics s)).
Proof.
  intros f w c sampling t p s CR H. rewrite session_unfold in H.
  set (s1 := emit (EvBegin (c_tree c)) (start_st c sampling)) in *.
  assert (F1 : Forall of_root (s_trace s1)) by (repeat constructor).
  destruct (w_handlers w [] (EvBegin (c_tree c))) as [q|] eqn:HB; [inversion H; subst; left; exact F1|].
  assert (FIN : forall e s2, match tell w (mu_end (s_mutes s2)) (EvEnd (s_metrics s2)) s2 with (Some q, s3) => (Pan q, s3) | (None, s3) => (Ret e, s3) end = (@Pan (option error) p, s) ->
     exists before e, s_trace s = before ++ [e] /\ w_handlers w before e = Some p /\ ((exists n, e = EvAscend n /\ n_pos n = []) \/ e = EvEnd (s_metrics s))).
  { intros e s2 Q. unfold tell in Q. destruct (mu_end (s_mutes s2)); [discriminate|].
    destruct (w_handlers w (s_trace s2) (EvEnd (s_metrics s2))) eqn:HE; inversion Q; subst.
    exists (s_trace s2), (EvEnd (s_metrics s2)). auto. }
  unfold w_top in H. destruct (w_stat w (s_trace s1) t) as [[ie|]|q] eqn:ST.
  - destruct (w_fault w (s_trace s1) ie) as [e|q]; [right; exact (FIN e s1 H)|]. inversion H; subst. left. exact F1.
  - destruct (w_traverse f w c (c_tree c) (new_node (c_tree c) t None None []) s1) as [[[b e]|q|] s2] eqn:W; [right; exact (FIN e s2 H)| |discriminate].
    inversion H; subst q s2. clear H.
    destruct f as [|f]; [discriminate|]. cbn [w_traverse] in W.
    destruct (per_descend (c_depth c) (s_depth s1)) as [[] d]; [|discriminate].
    set (root := new_node (c_tree c) t None None []) in *.
    destruct (tell w (mu_descend (s_mutes s1)) (EvDescend root) (set_depth d s1)) as [[q|] s2] eqn:TD.
    + inversion W; subst. unfold tell in TD. cbn [s1 emit s_mutes start_st init_st mu_descend mutes_none] in TD.
      inversion TD; subst. left. repeat constructor.
    + assert (F2 : Forall of_root (s_trace s2)).
      { unfold tell in TD. destruct (mu_descend (s_mutes s1)); inversion TD; subst; repeat constructor. }
      destruct (w_body w c (w_traverse f w c (c_tree c)) (c_tree c) root s2) as [[o n1] s3] eqn:B.
      assert (POS : n_pos n1 = []).
      { pose proof (body_pos w c (c_tree c) (w_traverse f w c (c_tree c)) root s2) as K. rewrite B in K. exact K. }
      destruct (tell w (mu_ascend (s_mutes s3)) (EvAscend n1) (set_depth (per_ascend (s_depth s3)) s3)) as [[q|] s4] eqn:TA.
      * right. unfold tell in TA. destruct (mu_ascend (s_mutes s3)); [discriminate|]. inversion TA; subst.
        destruct o; inversion W; subst; exists (s_trace s3), (EvAscend n1); (split; [reflexivity|]); (split; [assumption|]); left; eauto.
      * inversion W; subst. left. destruct (body_pan w c (c_tree c) CR _ _ _ _ _ _ B) as (_ & tr & T & F).
        assert (T4 : exists z, s_trace s = s_trace s3 ++ z /\ Forall of_root z).
        { unfold tell in TA. destruct (mu_ascend (s_mutes s3)); inversion TA; subst.
          - exists []. rewrite app_nil_r. auto.
          - exists [EvAscend n1]. split; [reflexivity|]. repeat constructor. exact POS. }
        destruct T4 as (z & -> & FZ). rewrite T. rewrite !Forall_app. repeat split; auto.
        eapply Forall_impl; [|exact F]. intros e E. destruct e; try exact E; contradiction.
  - inversion H; subst. left. exact F1.
Qed.

Lemma tell_counted : forall w b e s p s1, tell w b e s = (p, s1) -> calls [e] = [] -> counted s s1 (if b then [] else [e]) /\ s_trace s1 = s_trace s ++ (if b then [] else [e]) /\ s_metrics s1 = s_metrics s.
Proof.
  intros w b e s p s1 H C. unfold tell in H. destruct b; inversion H; subst.
  - rewrite app_nil_r. repeat split; cbn; lia.
  - split; [apply counted_any; [exact C|reflexivity]|]. split; reflexivity.
Qed.
(** everything a session emits, whatever happens *)
Lemma session_any : forall f w c sampling t o s, w_session f w c sampling t = (o, s) ->
  m_files (s_metrics s) = files_in (calls (s_trace s)) /\ m_dirs (s_metrics s) = dirs_in (calls (s_trace s)) /\
  (wild_rescue w -> forall e, o = Ret e -> rescues (s_trace s) = []).
Proof.
  intros f w c sampling t o s H. rewrite session_unfold in H.
  set (s1 := emit (EvBegin (c_tree c)) (start_st c sampling)) in *.
  assert (FIN : forall s2 tr, s_trace s2 = s_trace s1 ++ tr -> counted s1 s2 tr ->
     m_files (s_metrics s2) = files_in (calls (s_trace s2)) /\ m_dirs (s_metrics s2) = dirs_in (calls (s_trace s2))).
  { intros s2 tr T [A B]. rewrite T, A, B. split; reflexivity. }
  assert (REF : forall s2, s_trace s2 = s_trace s1 -> s_metrics s2 = s_metrics s1 ->
     m_files (s_metrics s2) = files_in (calls (s_trace s2)) /\ m_dirs (s_metrics s2) = dirs_in (calls (s_trace s2))).
  { intros s2 T M. rewrite T, M. split; reflexivity. }
  destruct (w_handlers w [] (EvBegin (c_tree c))) as [q|]; [inversion H; subst; split; [|split]; [reflexivity|reflexivity|intros; reflexivity]|].
  assert (END : forall e s2 tr, s_trace s2 = s_trace s1 ++ tr -> counted s1 s2 tr -> (wild_rescue w -> rescues tr = []) ->
     match tell w (mu_end (s_mutes s2)) (EvEnd (s_metrics s2)) s2 with (Some q, s3) => (Pan q, s3) | (None, s3) => (Ret e, s3) end = (o, s) ->
     m_files (s_metrics s) = files_in (calls (s_trace s)) /\ m_dirs (s_metrics s) = dirs_in (calls (s_trace s)) /\
     (wild_rescue w -> forall e, o = Ret e -> rescues (s_trace s) = [])).
  { intros e s2 tr T C R Q. destruct (tell w (mu_end (s_mutes s2)) (EvEnd (s_metrics s2)) s2) as [h s3] eqn:TE.
    destruct (tell_counted _ _ _ _ _ _ TE eq_refl) as (C3 & T3 & _). assert (s3 = s) by (destruct h; inversion Q; reflexivity). subst s3.
    rewrite T, <- app_assoc in T3.
    destruct (FIN s _ T3 (counted_app _ _ _ _ _ C C3)) as [A B]. split; [exact A|]. split; [exact B|].
    intros W _ _. rewrite T3, !rescues_app, (R W). destruct (mu_end (s_mutes s2)); reflexivity. }
  unfold w_top in H. destruct (w_stat w (s_trace s1) t) as [[ie|]|q].
  - destruct (w_fault w (s_trace s1) ie) as [e|q].
    + refine (END e s1 [] _ _ _ H); [rewrite app_nil_r; reflexivity|apply counted_nil; reflexivity|reflexivity].
    + inversion H; subst. split; [reflexivity|]. split; [reflexivity|]. intros; reflexivity.
  - destruct (any_traverse w c (c_tree c) f (new_node (c_tree c) t None None []) s1) as (tr & T & C & X).
    destruct (w_traverse f w c (c_tree c) (new_node (c_tree c) t None None []) s1) as [[[b e]|q|] s2]; cbn [fst snd] in *.
    + refine (END e s2 tr T C _ H). intros W. exact (X W _ eq_refl).
    + inversion H; subst. destruct (FIN _ _ T C). split; [assumption|]. split; [assumption|]. intros; discriminate.
    + inversion H; subst. destruct (FIN _ _ T C). split; [assumption|]. split; [assumption|]. intros; discriminate.
  - inversion H; subst. split; [reflexivity|]. split; [reflexivity|]. intros; reflexivity.
Qed.

Lemma session_completes : forall f w w' c sampling t e s, completes w w' ->
  w_session f w c sampling t = (Ret e, s) -> rescues (s_trace s) = [] -> w_session f w' c sampling t = (Ret e, s).
Proof.
  intros f w w' c sampling t e s CO H R. rewrite session_unfold in *.
  set (s1 := emit (EvBegin (c_tree c)) (start_st c sampling)) in *.
  pose proof CO as (_ & _ & _ & CS & CF & _ & _ & CH).
  destruct (w_handlers w [] (EvBegin (c_tree c))) as [q|] eqn:HB; [discriminate|]. rewrite (CH _ _ HB).
  unfold w_top in *. destruct (w_stat w (s_trace s1) t) as [[ie|]|q] eqn:ST; [| |discriminate]; rewrite (CS _ _ _ ST).
  - destruct (w_fault w (s_trace s1) ie) as [e0|q] eqn:FA; [|discriminate]. rewrite (CF _ _ _ FA).
    destruct (tell w (mu_end (s_mutes s1)) (EvEnd (s_metrics s1)) s1) as [[q|] s3] eqn:TE; [discriminate|].
    rewrite (tell_completes _ _ CO _ _ _ _ TE). exact H.
  - destruct (w_traverse f w c (c_tree c) (new_node (c_tree c) t None None []) s1) as [[[b e0]|q|] s2] eqn:W; [|discriminate|discriminate].
    destruct (tell w (mu_end (s_mutes s2)) (EvEnd (s_metrics s2)) s2) as [[q|] s3] eqn:TE; [discriminate|]. inversion H; subst.
    assert (FR : fresh s1 s2).
    { destruct (any_traverse w c (c_tree c) f (new_node (c_tree c) t None None []) s1) as (tr & T & _). rewrite W in T. cbn in T.
      exists tr. split; [exact T|]. destruct (tell_counted _ _ _ _ _ _ TE eq_refl) as (_ & T3 & _).
      rewrite T3, T, !rescues_app in R. apply app_eq_nil in R. destruct R as [R _]. exact R. }
    rewrite (traverse_completes _ _ _ _ CO f _ _ _ _ W FR). rewrite (tell_completes _ _ CO _ _ _ _ TE). reflexivity.
Qed.

(** ** Termination *)
Definition unstuck {A : Type} (o : outcome A) : Prop := match o with Stuck => False | _ => True end.
Definition higher (s s1 : st) : Prop := (s_depth s <= s_depth s1)%Z.
Lemma hib_unstuck : forall w c n s, unstuck (fst (fst (w_hib_next w c n s))).
Proof.
  intros. unfold w_hib_next. destruct (c_hib c); [|exact I]. destruct (s_hib s); [destruct (hb_wake _ _) as [[]|]|destruct (hb_sleep _ _) as [[]|]|]; try exact I.
  - destruct (tell _ _ _ _) as [[]]; exact I.
  - destruct (tell _ _ _ _) as [[]]; exact I.
Qed.
Lemma nanny_scheme_unstuck : forall w m n k s, unstuck (fst (fst (w_nanny_scheme_next w m n k s))).
Proof. intros. unfold w_nanny_scheme_next. destruct k as [[fs ds]|]; [|exact I]. destruct (w_sort _ _ _); [|exact I]. destruct (m _); exact I. Qed.
Lemma primary_unstuck : forall p n k s, unstuck (fst (fst (primary_next p n k s))).
Proof.
  intros. unfold primary_next, match_next, sampler_next.
  repeat match goal with |- context [match ?x with _ => _ end] => destruct x end; exact I.
Qed.
Lemma link_unstuck : forall w c r n k s, unstuck (fst (fst (w_link_next w c r n k s))).
Proof.
  intros. destruct r; cbn [w_link_next]; try exact I.
  - unfold anchor_next. repeat match goal with |- context [match ?x with _ => _ end] => destruct x end; exact I.
  - unfold w_filter_next. destruct (c_scheme c) as [sc|]; [|exact I]. destruct (sc_primary sc) as [p|], (sc_child sc) as [m|]; try exact I.
    + pose proof (primary_unstuck p n k s) as Q. destruct (primary_next p n k s) as [[[[[] e]| |] n1] s1]; try exact I; [|destruct Q].
      pose proof (nanny_scheme_unstuck w m n1 k s1) as Q2. destruct (w_nanny_scheme_next w m n1 k s1) as [[[[b e2]| |] n2] s2]; try exact I. destruct Q2.
    + apply primary_unstuck.
    + apply nanny_scheme_unstuck.
  - apply hib_unstuck.
  - unfold w_nanny_next. destruct k as [[fs ds]|]; [|exact I]. destruct (w_sort _ _ _); exact I.
  - unfold fast_next, fast_match. destruct (c_fast c) as [f|]; [|exact I]. destruct (String.eqb (n_name n) (fw_name f)); [|exact I].
    destruct (n_parent n) as [q|]; [|exact I]. destruct (_ || _); exact I.
Qed.
Lemma iterate_unstuck : forall w c rs n k s, unstuck (fst (fst (w_iterate w c rs n k s))).
Proof.
  induction rs as [|r rs IH]; intros; cbn; [exact I|]. pose proof (link_unstuck w c r n k s) as Q.
  destruct (w_link_next w c r n k s) as [[[[[] [e|]]| |] n1] s1]; try exact I; [apply IH|destruct Q].
Qed.
Lemma invoke_unstuck : forall w c n k s, unstuck (fst (fst (w_invoke w c n k s))).
Proof. intros. unfold w_invoke. pose proof (iterate_unstuck w c (s_items s) n k s) as Q. destruct (w_iterate w c (s_items s) n k s) as [[o n1] s1]. exact Q. Qed.

(** the file system object of a node does not change *)
Lemma nanny_scheme_src : forall w m n k s, n_src (snd (fst (w_nanny_scheme_next w m n k s))) = n_src n.
Proof. intros. unfold w_nanny_scheme_next. destruct k as [[fs ds]|]; [|reflexivity]. destruct (w_sort _ _ _); [|reflexivity]. destruct (m _); reflexivity. Qed.
Lemma primary_src : forall p n k s, n_src (snd (fst (primary_next p n k s))) = n_src n.
Proof.
  intros. unfold primary_next, match_next, sampler_next.
  repeat match goal with |- context [match ?x with _ => _ end] => destruct x end; reflexivity.
Qed.
Lemma link_src : forall w c r n k s, n_src (snd (fst (w_link_next w c r n k s))) = n_src n.
Proof.
  intros. destruct r; cbn [w_link_next]; try reflexivity.
  - unfold anchor_next. repeat match goal with |- context [match ?x with _ => _ end] => destruct x end; reflexivity.
  - unfold w_filter_next. destruct (c_scheme c) as [sc|]; [|reflexivity]. destruct (sc_primary sc) as [p|], (sc_child sc) as [m|]; try reflexivity.
    + pose proof (primary_src p n k s) as Q. destruct (primary_next p n k s) as [[[[[] e]| |] n1] s1]; try exact Q.
      pose proof (nanny_scheme_src w m n1 k s1) as Q2. cbn in Q. destruct (w_nanny_scheme_next w m n1 k s1) as [[[[b e2]| |] n2] s2]; cbn in *; congruence.
    + apply primary_src.
    + apply nanny_scheme_src.
  - unfold w_hib_next. destruct (c_hib c); [|reflexivity]. destruct (s_hib s); [destruct (hb_wake _ _) as [[]|]|destruct (hb_sleep _ _) as [[]|]|]; try reflexivity.
    + destruct (tell _ _ _ _) as [[]]; reflexivity.
    + destruct (tell _ _ _ _) as [[]]; reflexivity.
  - unfold w_nanny_next. destruct k as [[fs ds]|]; [|reflexivity]. destruct (w_sort _ _ _); reflexivity.
  - unfold fast_next, fast_match. repeat match goal with |- context [match ?x with _ => _ end] => destruct x end; reflexivity.
Qed.
Lemma iterate_src : forall w c rs n k s, n_src (snd (fst (w_iterate w c rs n k s))) = n_src n.
Proof.
  induction rs as [|r rs IH]; intros; cbn; [reflexivity|]. pose proof (link_src w c r n k s) as Q.
  destruct (w_link_next w c r n k s) as [[[[[] [e|]]| |] n1] s1]; try exact Q. cbn in Q. rewrite IH. exact Q.
Qed.
Lemma invoke_src : forall w c n k s, n_src (snd (fst (w_invoke w c n k s))) = n_src n.
Proof. intros. unfold w_invoke. pose proof (iterate_src w c (s_items s) n k s) as Q. destruct (w_iterate w c (s_items s) n k s) as [[o n1] s1]. exact Q. Qed.

(** a list of entries all of which can be traversed; the depth never falls *)
Definition climbs (f : node -> st -> tres) : Prop := forall n s, higher s (snd (f n s)).
Lemma loop_climbs : forall f, climbs f -> forall parent es i s, higher s (snd (travel_loop f parent i es s)).
Proof.
  intros f F parent. unfold higher in *. induction es as [|e es IH]; intros i s; cbn; [lia|].
  pose proof (F (child_node parent i e) s) as Q. unfold higher in Q.
  destruct (f (child_node parent i e) s) as [[[[] [er|]]| |] s1]; cbn [snd] in *; try exact Q.
  - destruct (errors_is SkipDir er); [specialize (IH (S i) s1); lia|]. destruct (errors_is SkipAll er); [specialize (IH (S i) s1); lia|exact Q].
  - specialize (IH (S i) s1); lia.
  - destruct (errors_is SkipDir er); exact Q.
  - specialize (IH (S i) s1); lia.
Qed.
Lemma loop_unstuck : forall f parent es, climbs f -> forall i s,
  (forall j e s1, In e es -> higher s s1 -> unstuck (fst (f (child_node parent j e) s1))) ->
  unstuck (fst (travel_loop f parent i es s)).
Proof.
  intros f parent es F. induction es as [|e es IH]; intros i s U; cbn; [exact I|].
  pose proof (U i e s (or_introl eq_refl) (Z.le_refl _)) as Q. pose proof (F (child_node parent i e) s) as G.
  destruct (f (child_node parent i e) s) as [[[[] [er|]]| |] s1]; cbn [fst snd] in *; try exact I; try exact Q.
  - assert (R : unstuck (fst (travel_loop f parent (S i) es s1))) by (apply IH; intros; apply U; [right; assumption|unfold higher in *; lia]).
    destruct (errors_is SkipDir er); [exact R|]. destruct (errors_is SkipAll er); [exact R|exact I].
  - apply IH; intros; apply U; [right; assumption|unfold higher in *; lia].
  - destruct (errors_is SkipDir er); exact I.
  - apply IH; intros; apply U; [right; assumption|unfold higher in *; lia].
Qed.

Section Term.
Context (w : world) (c : cfg) (tree : string).
Lemma travel_climbs : forall f, climbs f -> forall n es s, higher s (snd (w_travel w c f n es s)).
Proof.
  intros f F n es s. unfold w_travel. pose proof (loop_climbs f F n es 0 s) as Q.
  destruct (travel_loop f n 0 es s) as [[r|p|] s1]; try exact Q. destruct (w_rescue _ _ _ _); exact Q.
Qed.
Lemma after_climbs : forall f, climbs f -> forall n k es err s, higher s (snd (w_after w c f n k es err s)).
Proof.
  intros f F n k es err s. unfold w_after. pose proof (travel_climbs f F n es s) as Q.
  destruct (w_ask _ _ _ _ _) as [[skip e]|]; [|apply Z.le_refl].
  destruct (c_sub c), skip, err; try apply Z.le_refl; exact Q.
Qed.
Lemma body_climbs : forall f, climbs f -> forall n s, higher s (snd (w_body w c f tree n s)).
Proof.
  intros f F n s. unfold w_body. destruct (w_inspect _ _ _ _) as [[[k es] err]|]; [|apply Z.le_refl].
  destruct (w_extend w c tree n k s) as [[p|] n']; [apply Z.le_refl|].
  destruct (w_invoke w c n' k s) as [[o n1] s1] eqn:IV. destruct (invoke_stage _ _ _ _ _ _ _ _ IV) as (_ & D & _).
  assert (H1 : higher s s1) by (unfold higher; rewrite D; apply Z.le_refl).
  assert (A : forall n0 s0, higher s s0 -> higher s (snd (w_after w c f n0 k es err s0))).
  { intros n0 s0 H0. pose proof (after_climbs f F n0 k es err s0). unfold higher in *. lia. }
  destruct (c_sub c); [destruct (n_isdir n'); [apply A, Z.le_refl|destruct o; exact H1]| | |];
    (destruct o as [[e|]| |]; [exact H1|apply A, H1|exact H1|exact H1]).
Qed.
Lemma traverse_climbs : forall f, climbs (w_traverse f w c tree).
Proof.
  induction f as [|f IH]; intros n s; [apply Z.le_refl|]. cbn [w_traverse].
  destruct (per_descend (c_depth c) (s_depth s)) as [ok d] eqn:PD. destruct ok; [|apply Z.le_refl].
  assert (DD : d = (s_depth s + 1)%Z) by (unfold per_descend in PD; destruct (_ && _); inversion PD; reflexivity).
  destruct (tell w (mu_descend (s_mutes s)) (EvDescend n) (set_depth d s)) as [h s1] eqn:TD.
  assert (D1 : s_depth s1 = d) by (unfold tell in TD; destruct (mu_descend (s_mutes s)); inversion TD; reflexivity).
  destruct h as [p|]; [unfold higher; cbn; lia|].
  pose proof (body_climbs _ IH n s1) as B. destruct (w_body w c (w_traverse f w c tree) tree n s1) as [[o n1] s2]. cbn [snd] in B.
  destruct (tell w (mu_ascend (s_mutes s2)) (EvAscend n1) (set_depth (per_ascend (s_depth s2)) s2)) as [ha s3] eqn:TA.
  assert (D3 : s_depth s3 = (s_depth s2 - 1)%Z) by (unfold tell in TA; destruct (mu_ascend (s_mutes s2)); inversion TA; reflexivity).
  unfold higher in *. destruct ha; cbn; lia.
Qed.

(** if each entry which is found can be traversed then so can the node *)
Lemma travel_unstuck : forall f n es s, climbs f ->
  (forall j e s1, In e es -> higher s s1 -> unstuck (fst (f (child_node n j e) s1))) ->
  unstuck (fst (w_travel w c f n es s)).
Proof.
  intros f n es s F U. unfold w_travel. pose proof (loop_unstuck f n es F 0 s U) as Q.
  destruct (travel_loop f n 0 es s) as [[r|p|] s1]; try exact I; [|destruct Q]. destruct (w_rescue _ _ _ _); exact I.
Qed.
Lemma body_unstuck : forall f n s, climbs f ->
  (forall k es err, w_inspect w c n (s_trace s) = inl (k, es, err) ->
     forall n1 j e s1, n_src n1 = n_src n -> In e es -> higher s s1 -> unstuck (fst (f (child_node n1 j e) s1))) ->
  unstuck (fst (fst (w_body w c f tree n s))).
Proof.
  intros f n s F U. unfold w_body. destruct (w_inspect w c n (s_trace s)) as [[[k es] err]|] eqn:IN; [|exact I]. specialize (U _ _ _ eq_refl).
  destruct (w_extend w c tree n k s) as [[p|] n'] eqn:EX; [exact I|].
  pose proof (invoke_unstuck w c n' k s) as QI.
  assert (SRC : n_src n' = n_src n).
  { clear -EX. unfold w_extend in EX. destruct (split_path _). destruct (w_subpath _ _ _ _ _); inversion EX; reflexivity. }
  assert (A : forall n0 s0, n_src n0 = n_src n -> higher s s0 -> unstuck (fst (fst (w_after w c f n0 k es err s0)))).
  { intros n0 s0 S0 H0. unfold w_after. destruct (w_ask _ _ _ _ _) as [[skip e]|]; [|exact I].
    assert (T : unstuck (fst (fst (with_node n0 (w_travel w c f n0 es s0))))).
    { apply travel_unstuck; [exact F|]. intros j e0 s1 J H1. apply U; try assumption. unfold higher in *. lia. }
    destruct (c_sub c), skip, err; try exact I; exact T. }
  destruct (w_invoke w c n' k s) as [[o n1] s1] eqn:IV. destruct (invoke_stage _ _ _ _ _ _ _ _ IV) as (_ & D & _).
  pose proof (invoke_src w c n' k s) as S1. rewrite IV in S1. cbn in S1. rewrite SRC in S1.
  assert (H1 : higher s s1) by (unfold higher; rewrite D; apply Z.le_refl).
  destruct (c_sub c); [destruct (n_isdir n'); [apply A; [exact SRC|apply Z.le_refl]|destruct o; exact QI]| | |];
    (destruct o as [[e|]| |]; [exact I|apply A; [exact S1|exact H1]|exact I|exact QI]).
Qed.
Lemma step_unstuck : forall f n s,
  (forall s0 k es err, w_inspect w c n (s_trace s0) = inl (k, es, err) -> s_depth s0 = (s_depth s + 1)%Z ->
     fst (per_descend (c_depth c) (s_depth s)) = true ->
     forall n1 j e s1, n_src n1 = n_src n -> In e es -> higher s0 s1 -> unstuck (fst (w_traverse f w c tree (child_node n1 j e) s1))) ->
  unstuck (fst (w_traverse (S f) w c tree n s)).
Proof.
  intros f n s U. cbn [w_traverse].
  destruct (per_descend (c_depth c) (s_depth s)) as [ok d] eqn:PD. destruct ok; [|exact I].
  assert (DD : d = (s_depth s + 1)%Z) by (unfold per_descend in PD; destruct (_ && _); inversion PD; reflexivity).
  destruct (tell w (mu_descend (s_mutes s)) (EvDescend n) (set_depth d s)) as [h s1] eqn:TD.
  assert (D1 : s_depth s1 = d) by (unfold tell in TD; destruct (mu_descend (s_mutes s)); inversion TD; reflexivity).
  destruct h as [p|]; [exact I|].
  assert (B : unstuck (fst (fst (w_body w c (w_traverse f w c tree) tree n s1)))).
  { apply body_unstuck; [apply traverse_climbs|]. intros k es err E. apply (U s1 k es err E); [congruence|reflexivity]. }
  destruct (w_body w c (w_traverse f w c tree) tree n s1) as [[o n1] s2]. cbn in B.
  destruct (tell w (mu_ascend (s_mutes s2)) (EvAscend n1) (set_depth (per_ascend (s_depth s2)) s2)) as [[q|] s3]; [|exact B].
  destruct o; try exact I. destruct B.
Qed.
(** the depth is limited: any tree *)
Lemma limited_unstuck : forall f n s, (0 < c_depth c)%N ->
  (int_of_uint (c_depth c) + 2 - s_depth s <= Z.of_nat f)%Z -> 0 < f -> unstuck (fst (w_traverse f w c tree n s)).
Proof.
  induction f as [|f IH]; intros n s C B P; [lia|]. apply step_unstuck.
  intros s0 k es err _ D PD n1 j e s1 _ _ H. apply IH; [exact C| |].
  - unfold higher in H. lia.
  - unfold per_descend in PD. replace (0 <? c_depth c)%N with true in PD by (symmetry; apply N.ltb_lt; exact C). cbn in PD.
    destruct (int_of_uint (c_depth c) <? s_depth s)%Z eqn:L; [discriminate|]. apply Z.ltb_ge in L. lia.
Qed.
End Term.

(** entries of a directory are smaller *)
Lemma honest_inspect : forall w c n tr k es err e, honest w -> w_inspect w c n tr = inl (k, es, err) -> In e es -> In e (fkids (n_src n)).
Proof.
  intros w c n tr k es err e [HR HS] I J. unfold w_inspect in I.
  assert (RD : forall es0 err0, w_read w tr (n_path n) (n_src n) = inl (es0, err0) ->
    forall l1, (w_sort w tr (dirs_of es0) = inl l1 \/ w_sort w tr (files_of es0) = inl l1) -> In e l1 -> In e (fkids (n_src n))).
  { intros es0 err0 R l1 [S|S] Q; apply (HS _ _ _ _ S) in Q; apply filter_In in Q; destruct Q as [Q _]; eapply HR; eassumption. }
  assert (ALL : forall b fs ds, In e (all_of b fs ds) -> In e fs \/ In e ds).
  { intros b fs ds Q. unfold all_of in Q. destruct b; apply in_app_or in Q; tauto. }
  destruct (c_sub c), (n_isdir n);
    try (inversion I; subst; contradiction);
    (destruct (w_read w tr (n_path n) (n_src n)) as [[es0 err0]|]; [|discriminate]; specialize (RD _ _ eq_refl);
     destruct (w_sort w tr (dirs_of es0)) as [ds|]; [|discriminate];
     try (destruct (w_sort w tr (files_of es0)) as [fs|]; [|discriminate]);
     inversion I; subst).
  all: try (apply (RD es); [left; reflexivity|exact J]).
  all: destruct (ALL _ _ _ J); [apply (RD fs); [right; reflexivity|assumption]|apply (RD ds); [left; reflexivity|assumption]].
Qed.
Lemma honest_unstuck : forall w c tree, honest w -> forall f n s, height (n_src n) < f -> unstuck (fst (w_traverse f w c tree n s)).
Proof.
  intros w c tree HW. induction f as [|f IH]; intros n s B; [lia|]. apply step_unstuck.
  intros s0 k es err E _ _ n1 j e s1 SRC J _. apply IH. cbn.
  pose proof (height_kid _ _ (honest_inspect _ _ _ _ _ _ _ _ HW E J)). lia.
Qed.
Lemma top_unstuck : forall f w c tree t s,
  (forall n, n_src n = t -> unstuck (fst (w_traverse f w c tree n s))) -> unstuck (fst (w_top f w c tree t s)).
Proof.
  intros f w c tree t s U. unfold w_top. destruct (w_stat _ _ _) as [[ie|]|]; [destruct (w_fault _ _ _); exact I| |exact I].
  specialize (U (new_node tree t None None []) eq_refl). destruct (w_traverse _ _ _ _ _ _) as [[[b e]| |] s1]; try exact I. exact U.
Qed.
Lemma session_unstuck : forall f w c sampling t,
  (forall n s, n_src n = t -> s_depth s = 0%Z -> unstuck (fst (w_traverse f w c (c_tree c) n s))) -> fst (w_session f w c sampling t) <> Stuck.
Proof.
  intros f w c sampling t U. rewrite session_unfold. destruct (w_handlers _ _ _); [discriminate|].
  set (s1 := emit (EvBegin (c_tree c)) (start_st c sampling)).
  pose proof (top_unstuck f w c (c_tree c) t s1 (fun n E => U n s1 E eq_refl)) as Q.
  destruct (w_top f w c (c_tree c) t s1) as [[e|p|] s2]; [|discriminate|destruct Q].
  destruct (tell _ _ _ _) as [[p|] s3]; discriminate.
Qed.
Lemma session_limited : forall w c sampling t, (0 < c_depth c)%N ->
  fst (w_session (S (S (Z.to_nat (int_of_uint (c_depth c))))) w c sampling t) <> Stuck.
Proof.
  intros w c sampling t C. apply session_unstuck. intros n s _ D. apply limited_unstuck; [exact C| |lia]. rewrite D. lia.
Qed.
Lemma session_honest : forall w c sampling t f, honest w -> height t < f -> fst (w_session f w c sampling t) <> Stuck.
Proof. intros w c sampling t f H B. apply session_unstuck. intros n s <- _. apply honest_unstuck; assumption. Qed.

(** ** More steps change nothing *)
Definition agrees (f g : node -> st -> tres) : Prop := forall n s, unstuck (fst (f n s)) -> g n s = f n s.
Lemma loop_agrees : forall f g, agrees f g -> forall parent es i s,
  unstuck (fst (travel_loop f parent i es s)) -> travel_loop g parent i es s = travel_loop f parent i es s.
Proof.
  intros f g A parent. induction es as [|e es IH]; intros i s U; cbn in *; [reflexivity|].
  pose proof (A (child_node parent i e) s) as Q.
  destruct (f (child_node parent i e) s) as [[[[] [er|]]| |] s1]; cbn [fst] in Q; try (rewrite (Q I)); try reflexivity; try (apply IH, U).
  - destruct (errors_is SkipDir er); [apply IH, U|]. destruct (errors_is SkipAll er); [apply IH, U|reflexivity].
  - destruct U.
Qed.
Lemma travel_agrees : forall w c f g, agrees f g -> forall n es s,
  unstuck (fst (w_travel w c f n es s)) -> w_travel w c g n es s = w_travel w c f n es s.
Proof.
  intros w c f g A n es s U. unfold w_travel in *. rewrite (loop_agrees f g A); [reflexivity|].
  destruct (travel_loop f n 0 es s) as [[r|p|] s1]; [exact I|exact I|exact U].
Qed.
Lemma after_agrees : forall w c f g, agrees f g -> forall n k es err s,
  unstuck (fst (fst (w_after w c f n k es err s))) -> w_after w c g n k es err s = w_after w c f n k es err s.
Proof.
  intros w c f g A n k es err s U. unfold w_after in *. destruct (w_ask _ _ _ _ _) as [[skip e]|]; [|reflexivity].
  destruct (c_sub c), skip, err; try reflexivity; rewrite (travel_agrees w c f g A); try reflexivity; exact U.
Qed.
Lemma body_agrees : forall w c tree f g, agrees f g -> forall n s,
  unstuck (fst (fst (w_body w c f tree n s))) -> w_body w c g tree n s = w_body w c f tree n s.
Proof.
  intros w c tree f g A n s U. unfold w_body in *. destruct (w_inspect _ _ _ _) as [[[k es] err]|]; [|reflexivity].
  destruct (w_extend w c tree n k s) as [[p|] n']; [reflexivity|].
  destruct (w_invoke w c n' k s) as [[o n1] s1].
  destruct (c_sub c); [destruct (n_isdir n'); [apply after_agrees; assumption|reflexivity]| | |];
    (destruct o as [[e|]| |]; [reflexivity|apply after_agrees; assumption|reflexivity|reflexivity]).
Qed.
Lemma traverse_agrees : forall w c tree f, agrees (w_traverse f w c tree) (w_traverse (S f) w c tree).
Proof.
  intros w c tree. induction f as [|f IH]; intros n s U; [destruct U|].
  cbn [w_traverse] in U. change (w_traverse (S (S f)) w c tree n s = w_traverse (S f) w c tree n s).
  remember (S f) as g eqn:G. cbn [w_traverse]. subst g.
  change (w_traverse (S f) w c tree n s) with
    (let '(ok, d) := per_descend (c_depth c) (s_depth s) in
      if ok then
        match tell w (mu_descend (s_mutes s)) (EvDescend n) (set_depth d s) with
        | (Some p, s1) => (Pan p, s1)
        | (None, s1) =>
            let '(o, n1, s2) := w_body w c (w_traverse f w c tree) tree n s1 in
            match tell w (mu_ascend (s_mutes s2)) (EvAscend n1) (set_depth (per_ascend (s_depth s2)) s2) with
            | (Some q, s3) => (match o with Stuck => Stuck | _ => Pan q end, s3)
            | (None, s3) => (o, s3)
            end
        end
      else (Ret (true, None), s)).
  destruct (per_descend (c_depth c) (s_depth s)) as [[] d]; [|reflexivity].
  destruct (tell w (mu_descend (s_mutes s)) (EvDescend n) (set_depth d s)) as [[p|] s1]; [reflexivity|].
  rewrite (body_agrees w c tree _ _ IH); [reflexivity|].
  destruct (w_body w c (w_traverse f w c tree) tree n s1) as [[o n1] s2].
  destruct (tell w (mu_ascend (s_mutes s2)) (EvAscend n1) (set_depth (per_ascend (s_depth s2)) s2)) as [[q|] s3]; [|exact U].
  destruct o; [exact I|exact I|exact U].
Qed.
Lemma session_agrees : forall f w c sampling t, fst (w_session f w c sampling t) <> Stuck ->
  w_session (S f) w c sampling t = w_session f w c sampling t.
Proof.
  intros f w c sampling t U. rewrite !session_unfold in *. destruct (w_handlers _ _ _); [reflexivity|]. unfold w_top in *.
  set (s1 := emit (EvBegin (c_tree c)) (start_st c sampling)) in *.
  destruct (w_stat _ _ _) as [[ie|]|]; [reflexivity| |reflexivity].
  rewrite (traverse_agrees w c (c_tree c) f); [reflexivity|].
  destruct (w_traverse f w c (c_tree c) (new_node (c_tree c) t None None []) s1) as [[[b e]| |] s2]; try exact I. destruct (U eq_refl).
Qed.
Lemma session_steps : forall f g w c sampling t, f <= g -> fst (w_session f w c sampling t) <> Stuck ->
  w_session g w c sampling t = w_session f w c sampling t.
Proof.
  intros f g w c sampling t L U. induction L as [|g L IH]; [reflexivity|]. rewrite <- IH. apply session_agrees. rewrite IH. exact U.
Qed.
