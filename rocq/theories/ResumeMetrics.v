(** Metrics of resumed sessions. *)
From Verif Require Import Base Paths Level Lo Kernel Session Spec KernelRel KernelFacts
  JournalFacts SessionFacts WalkCor PathFacts WalkProps Simulate Feature Resume SpecResume SpawnFacts.
Local Open Scope list_scope.

(** ** Invocations are counted, whatever the features *)

Definition counted (s s1 : st) : Prop := exists tr, s_trace s1 = s_trace s ++ tr /\
  m_files (s_metrics s1) = m_files (s_metrics s) + file_calls tr /\
  m_dirs (s_metrics s1) = m_dirs (s_metrics s) + dir_calls tr.

Lemma counted_refl : forall s, counted s s.
Proof. intro s. exists []. rewrite app_nil_r. cbn. auto. Qed.
Lemma counted_trans : forall a b d, counted a b -> counted b d -> counted a d.
Proof.
  intros a b d (t1 & T1 & F1 & D1) (t2 & T2 & F2 & D2). exists (t1 ++ t2).
  rewrite T2, T1, app_assoc. unfold file_calls, dir_calls in *. rewrite calls_app, !filter_app, !app_length.
  split; [reflexivity|]. split; lia.
Qed.
Lemma counted_silent : forall s s1, s_trace s1 = s_trace s ->
  m_files (s_metrics s1) = m_files (s_metrics s) -> m_dirs (s_metrics s1) = m_dirs (s_metrics s) -> counted s s1.
Proof. intros s s1 T F D. exists []. rewrite app_nil_r. cbn. split; [exact T|]. split; lia. Qed.
Lemma counted_emit : forall e s, calls [e] = [] -> counted s (emit e s).
Proof. intros e s E. exists [e]. unfold file_calls, dir_calls. rewrite E. cbn. auto. Qed.
Lemma counted_dispatch : forall b e s, calls [e] = [] -> counted s (dispatch b e s).
Proof. intros [|] e s E; [apply counted_refl|apply counted_emit; exact E]. Qed.
Lemma counted_after : forall s s1 s2, s_trace s2 = s_trace s1 -> s_metrics s2 = s_metrics s1 -> counted s s1 -> counted s s2.
Proof. intros s s1 s2 T M (tr & A & B & D). exists tr. rewrite T, M. auto. Qed.

Lemma link_counted : forall c r n k s o n1 s1, link_next c r n k s = (o, n1, s1) -> counted s s1.
Proof.
  intros c r n k s o n1 s1 H. destruct r; cbn [link_next] in H.
  - inversion H; subst; apply counted_refl.
  - unfold anchor_next in H.
    assert (A : forall x, counted s (emit (EvCall n x) (tick_by (if n_isdir n then DirectoriesInvoked else FilesInvoked) 1 s))).
    { intro x. exists [EvCall n x]. split; [reflexivity|]. unfold file_calls, dir_calls. cbn [calls filter fst].
      destruct (n_isdir n); cbn; lia. }
    destruct (c_client c _ n); inversion H; subst; apply A.
  - assert (PR : forall p n' s' o' n2 s2, primary_next p n' k s' = (o', n2, s2) -> counted s' s2).
    { intros p n' s' o' n2 s2 P. destruct p as [f|m]; cbn in P.
      - unfold match_next in P. destruct (f n') as [[|]|]; inversion P; subst; try apply counted_refl.
        apply counted_silent; destruct (n_isdir n2); reflexivity.
      - unfold sampler_next in P. destruct (scope_is_tree _); [destruct k as [[fs ds]|]|]; inversion P; subst;
          try apply counted_refl. apply counted_silent; destruct (m [n_src n2]); reflexivity. }
    assert (NN : forall m n' s' o' n2 s2, nanny_scheme_next c m n' k s' = (o', n2, s2) -> counted s' s2).
    { intros m n' s' o' n2 s2 P. unfold nanny_scheme_next in P.
      destruct k as [[fs ds]|]; [destruct (m (c_sort c fs))|]; inversion P; subst; try apply counted_refl.
      apply counted_silent; reflexivity. }
    unfold filter_next in H. destruct (c_scheme c) as [[[p|] [m|]]|]; cbn in H.
    + destruct (primary_next p n k s) as [[po pn] ps] eqn:P. apply PR in P.
      destruct po as [[[|] e]|q|]; try (inversion H; subst; exact P).
      destruct (nanny_scheme_next c m pn k ps) as [[no nn] ns] eqn:N. apply NN in N.
      destruct no as [[b e2]|q|]; inversion H; subst; eapply counted_trans; eassumption.
    + eapply PR; eassumption.
    + eapply NN; eassumption.
    + inversion H; subst; apply counted_refl.
    + inversion H; subst; apply counted_refl.
  - unfold hib_next in H. destruct (c_hib c) as [h|]; [|inversion H; subst; apply counted_refl].
    assert (SD : forall b e x, calls [e] = [] -> counted s (set_hib x (dispatch b e s))).
    { intros b e x E. eapply counted_after; [| |apply (counted_dispatch b e s E)]; reflexivity. }
    destruct (s_hib s).
    + destruct (hb_wake h n) as [[|]|]; [destruct (hb_incl_wake h)| |]; inversion H; subst; auto using counted_refl.
    + destruct (hb_sleep h n) as [[|]|]; [destruct (hb_incl_sleep h)| |]; inversion H; subst; auto using counted_refl.
    + inversion H; subst; apply counted_refl.
  - inversion H; subst; apply counted_refl.
  - unfold nanny_next in H. destruct k as [[fs ds]|]; inversion H; subst; try apply counted_refl.
    apply counted_silent; reflexivity.
  - unfold fast_next in H. destruct (c_fast c) as [f|]; [|inversion H; subst; apply counted_refl].
    destruct (fast_match f n) as [[|]|p|]; inversion H; subst; apply counted_silent; reflexivity.
Qed.

Lemma traverse_counted : forall c tree f n s o s1, traverse f c tree n s = (o, s1) -> counted s s1.
Proof.
  intros c tree. apply (keep_traverse c tree counted counted_refl counted_trans).
  - intros n s ok s1 D. unfold descend in D. destruct (per_descend (c_depth c) (s_depth s)) as [[|] d]; inversion D; subst;
      [|apply counted_refl]. apply (counted_trans _ (set_depth d s)); [apply counted_silent; reflexivity|].
    apply counted_dispatch. reflexivity.
  - intros n s. unfold ascend. apply (counted_trans _ (set_depth (per_ascend (s_depth s)) s)); [apply counted_silent; reflexivity|].
    apply counted_dispatch. reflexivity.
  - intros n s. apply counted_emit. reflexivity.
  - intros n k s o n1 s1 H. unfold invoke in H.
    destruct (iterate c (s_items s) n k s) as [[io inn] is_] eqn:IT.
    assert (X : forall rs n k s o n1 s1, iterate c rs n k s = (o, n1, s1) -> counted s s1).
    { clear. induction rs as [|r rs IH]; cbn [iterate]; intros n k s o n1 s1 H.
      - inversion H; subst; apply counted_refl.
      - destruct (link_next c r n k s) as [[lo ln] ls] eqn:L. apply link_counted in L.
        destruct lo as [[[|] [er|]]|p|]; try (inversion H; subst; exact L).
        eapply counted_trans; [exact L|eapply IH; eassumption]. }
    apply X in IT. inversion H; subst. eapply counted_trans; [exact IT|]. apply counted_emit. reflexivity.
Qed.
Lemma top_counted : forall c tree t s o s1, top c tree t s = (o, s1) -> counted s s1.
Proof.
  intros c tree t s o s1 H. unfold top in H. destruct (c_stat c t); [inversion H; subst; apply counted_refl|].
  destruct (traverse (S (height t)) c tree (new_node tree t None None []) s) as [to ts] eqn:T.
  apply traverse_counted in T. destruct to as [[b e]|p|]; inversion H; subst; exact T.
Qed.
Lemma seed_counted : forall c pc dk d es s o s1, seed c pc dk d es s = (o, s1) -> counted s s1.
Proof.
  induction es as [|e es IH]; cbn [seed]; intros s o s1 H.
  - inversion H; subst; apply counted_refl.
  - destruct (top c (pc_join pc d (fname e)) (dk (pc_join pc d (fname e))) s) as [to ts] eqn:T.
    apply top_counted in T. destruct to as [[er|]|p|]; try (inversion H; subst; exact T).
    eapply counted_trans; [exact T|eapply IH; eassumption].
Qed.
Lemma crown_counted : forall c pc dk tree fuel p own s o ok s1,
  crown fuel c pc dk tree p own s = (o, ok, s1) -> counted s s1 /\ (ok = true <-> o = Ret None).
Proof.
  induction fuel as [|fuel IH]; cbn [crown]; intros p own s o ok s1 H.
  - inversion H; subst. split; [apply counted_refl|]. split; discriminate.
  - destruct (String.eqb p tree); [inversion H; subst; split; [apply counted_refl|]; split; reflexivity|].
    destruct (pc_split pc p) as [d b]. destruct (following c dk d b own) as [es [er|]].
    { inversion H; subst. split; [apply counted_refl|]. split; discriminate. }
    destruct (seed c pc dk d es s) as [so ss] eqn:SE. apply seed_counted in SE.
    destruct so as [[er|]|q|].
    + inversion H; subst. split; [exact SE|]. split; discriminate.
    + apply IH in H. destruct H as [H1 H2]. split; [eapply counted_trans; eassumption|exact H2].
    + inversion H; subst. split; [exact SE|]. split; discriminate.
    + inversion H; subst. split; [exact SE|]. split; discriminate.
Qed.

(** The result of a spawn resume: invocations of both sessions; complete exactly
    when Navigate returns nil. *)
Theorem spawn_counts : forall c sampling pc dk sv o ok s,
  spawn_session c sampling pc dk sv = (o, ok, s) ->
  m_files (s_metrics s) = m_files (sv_metrics sv) + file_calls (s_trace s) /\
  m_dirs (s_metrics s) = m_dirs (sv_metrics sv) + dir_calls (s_trace s) /\
  (ok = true <-> o = Ret None).
Proof.
  intros c sampling pc dk sv o ok s H. unfold spawn_session in H.
  set (s0 := bridge c sv _) in H.
  assert (T0 : s_trace s0 = [EvBegin (c_tree c)]) by reflexivity.
  assert (M0 : m_files (s_metrics s0) = m_files (sv_metrics sv) /\ m_dirs (s_metrics s0) = m_dirs (sv_metrics sv)).
  { unfold s0, bridge, merged. cbn [registered]. destruct (c_scheme c); cbn; split; reflexivity. }
  clearbody s0. destruct (crown _ c pc dk (sv_tree sv) (sv_path sv) true s0) as [[co ck] s1] eqn:CR.
  apply crown_counted in CR. destruct CR as [(tr & T & F & D) OK].
  assert (E : exists tr', s_trace s = s_trace s0 ++ tr' /\ calls tr' = calls tr /\ s_metrics s = s_metrics s1 /\ (ok = true <-> o = Ret None)).
  { destruct co as [e|q|]; inversion H; subst.
    - unfold dispatch. destruct (mu_end (s_mutes s1)); [exists tr; auto|].
      exists (tr ++ [EvEnd (s_metrics s1)]). cbn [emit s_trace s_metrics]. rewrite T, app_assoc, calls_app. cbn [calls].
      rewrite app_nil_r. auto.
    - exists tr. auto.
    - exists tr. auto. }
  destruct E as (tr' & T' & C' & M' & OK'). rewrite M', T', T0. destruct M0 as [M1 M2].
  unfold file_calls, dir_calls in *. cbn [app calls]. rewrite C'. split; [lia|]. split; [lia|]. exact OK'.
Qed.

(** The result of a fastward (or undefined) resume: its own invocations only. *)
Theorem fastward_counts : forall linked c sampling pc dk sv o s,
  fastward_session linked c sampling pc dk sv = (o, s) ->
  m_files (s_metrics s) = file_calls (s_trace s) /\ m_dirs (s_metrics s) = dir_calls (s_trace s).
Proof.
  intros linked c sampling pc dk sv o s H. unfold fastward_session in H.
  set (c1 := set_fast _ c) in H. set (s0 := dispatch _ _ (set_mutes _ _)) in H.
  assert (T0 : s_trace s0 = []) by reflexivity.
  assert (M0 : s_metrics s0 = metrics0) by reflexivity. clearbody s0.
  destruct (top c1 (sv_tree sv) (dk (sv_tree sv)) s0) as [to ts] eqn:T. apply top_counted in T.
  assert (X : counted s0 s).
  { destruct to as [e|p|]; inversion H; subst; try exact T.
    eapply counted_trans; [exact T|]. apply counted_dispatch. reflexivity. }
  destruct X as (tr & E & F & D). rewrite T0 in E. rewrite M0 in F, D. cbn [app] in E. subst tr. exact (conj F D).
Qed.
