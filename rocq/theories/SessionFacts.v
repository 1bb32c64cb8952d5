(** Whole sessions: shape of the trace, journal, walk. *)
From Verif Require Import Base Paths Level Lo Collections Kernel Session Spec KernelRel KernelFacts
  KernelInv WalkFacts StandsFacts JournalFacts.
From Coq Require Import Permutation.

(** ** Pre-order listings *)
Lemma preorder_ext : forall es es', (forall p t, es p t = es' p t) ->
  (forall pos path t l, preorder es pos path t l -> preorder es' pos path t l) /\
  (forall pos path i ts l, preorders es pos path i ts l -> preorders es' pos path i ts l).
Proof.
  intros es es' E. apply preorder_both.
  - intros pos path t l H IH. constructor. rewrite <- E. exact IH.
  - intros; constructor.
  - intros; constructor; assumption.
Qed.

Lemma entries_universal : forall c, c_sub c = SubUniversal -> forall p t, entries_all c p t = entries c p t.
Proof. intros c H p t. unfold entries. rewrite H. reflexivity. Qed.
Lemma entries_files_all : forall c, c_sub c = SubFiles -> forall p t, entries_all c p t = entries c p t.
Proof. intros c H p t. unfold entries. rewrite H. reflexivity. Qed.
Lemma entries_directories : forall c, c_sub c = SubDirectories \/ c_sub c = SubDirectoriesWithFiles ->
  forall p t, entries_dirs c p t = entries c p t.
Proof. intros c H p t. unfold entries. destruct H as [-> | ->]; reflexivity. Qed.

(** ** What never changes without the fastward link *)
Definition static (s s1 : st) : Prop := s_items s1 = s_items s /\ s_mutes s1 = s_mutes s.

Lemma static_refl : forall s, static s s. Proof. split; reflexivity. Qed.
Lemma static_trans : forall a b d, static a b -> static b d -> static a d.
Proof. intros a b d [] []. split; congruence. Qed.
Lemma static_dispatch : forall b e s, static s (dispatch b e s).
Proof. intros [|] e s; split; reflexivity. Qed.

Lemma link_static : forall c r n k s o n1 s1, r <> RoleFastward ->
  link_next c r n k s = (o, n1, s1) -> static s s1.
Proof.
  intros c r n k s o n1 s1 NF H. destruct r; cbn [link_next] in H; try contradiction.
  - inversion H; subst; apply static_refl.
  - unfold anchor_next in H. destruct (c_client c _ n); inversion H; subst; split; reflexivity.
  - unfold filter_next in H.
    assert (PR : forall p n' s' o' n2 s2, primary_next p n' k s' = (o', n2, s2) -> static s' s2).
    { intros p n' s' o' n2 s2 P. destruct p as [f|m]; cbn in P.
      - unfold match_next in P. destruct (f n') as [[|]|]; inversion P; subst; split; reflexivity.
      - unfold sampler_next in P. destruct (scope_is_tree _); [destruct k as [[fs ds]|]|];
          inversion P; subst; split; reflexivity. }
    assert (NN : forall m n' s' o' n2 s2, nanny_scheme_next c m n' k s' = (o', n2, s2) -> static s' s2).
    { intros m n' s' o' n2 s2 P. unfold nanny_scheme_next in P.
      destruct k as [[fs ds]|]; [destruct (m (c_sort c fs))|]; inversion P; subst; split; reflexivity. }
    destruct (c_scheme c) as [[[p|] [m|]]|]; cbn in H.
    + destruct (primary_next p n k s) as [[po pn] ps] eqn:P. apply PR in P.
      destruct po as [[[|] e]|q|]; try (inversion H; subst; exact P).
      destruct (nanny_scheme_next c m pn k ps) as [[no nn] ns] eqn:N. apply NN in N.
      destruct no as [[b e2]|q|]; inversion H; subst; eapply static_trans; eassumption.
    + eapply PR; eassumption.
    + eapply NN; eassumption.
    + inversion H; subst; apply static_refl.
    + inversion H; subst; apply static_refl.
  - unfold hib_next in H. destruct (c_hib c) as [h|]; [|inversion H; subst; apply static_refl].
    assert (SD : forall b e x, static s (set_hib x (dispatch b e s)))
      by (intros [|] e x; split; reflexivity).
    destruct (s_hib s).
    + destruct (hb_wake h n) as [[|]|]; [destruct (hb_incl_wake h)| |]; inversion H; subst; auto using static_refl.
    + destruct (hb_sleep h n) as [[|]|]; [destruct (hb_incl_sleep h)| |]; inversion H; subst; auto using static_refl.
    + inversion H; subst; apply static_refl.
  - inversion H; subst; apply static_refl.
  - unfold nanny_next in H. destruct k as [[fs ds]|]; inversion H; subst; split; reflexivity.
Qed.

Lemma iterate_static : forall c rs n k s o n1 s1, ~ In RoleFastward rs ->
  iterate c rs n k s = (o, n1, s1) -> static s s1.
Proof.
  induction rs as [|r rs IH]; cbn [iterate]; intros n k s o n1 s1 NF H.
  - inversion H; subst; apply static_refl.
  - destruct (link_next c r n k s) as [[lo ln] ls] eqn:L.
    apply link_static in L; [|intro X; apply NF; left; exact X].
    destruct lo as [[[|] [er|]]|p|]; try (inversion H; subst; exact L).
    eapply static_trans; [exact L|]. eapply IH; [|eassumption]. intro X; apply NF; right; exact X.
Qed.

Lemma run_static : forall c tree n s o s1, run c tree n s o s1 ->
  ~ In RoleFastward (s_items s) -> static s s1.
Proof.
  intros c tree n s o s1 HR NF.
  refine (proj1 (kernel_inv c tree static (fun _ s => ~ In RoleFastward (s_items s))
            (fun _ s => ~ In RoleFastward (s_items s)) (fun _ _ s => ~ In RoleFastward (s_items s))
            static_refl static_trans _ _ _ _ _ _ _) n s o s1 HR NF); clear n s o s1 HR NF.
  - intros n es s s' A [B _]. rewrite B. exact A.
  - intros n s s1 A E. destruct (descend_true _ _ _ _ E) as (_ & _ & _ & _ & I & _). rewrite I. exact A.
  - intros n nn s s1 s2 A E _ [I2 M2].
    destruct (descend_true _ _ _ _ E) as (_ & _ & _ & _ & I & M).
    destruct (ascend_fields nn s2) as (_ & _ & _ & _ & I3 & M3). split; congruence.
  - intros n s o n1 s1 A _ H. unfold invoke in H.
    destruct (iterate c (s_items s) _ _ s) as [[io inn] is_] eqn:IT.
    apply iterate_static in IT; [|exact A]. inversion H; subst.
    split; [exact IT|]. intros _. cbn. destruct IT as [-> _]. exact A.
  - auto.
  - auto.
  - intros; split; reflexivity.
Qed.

Lemma chain_no_fast : forall c sampling, ~ In RoleFastward (chain c sampling false).
Proof.
  intros c sampling H. unfold chain, role_if in H.
  destruct (has (c_hib c)), (has_nanny c), (has (c_scheme c)), sampling; cbn in H;
    repeat (destruct H as [H|H]; [discriminate|]); contradiction.
Qed.

(** ** Sessions *)
Definition ending (o : outcome (option error)) (m : metrics) : list event :=
  match o with Ret _ => [EvEnd m] | _ => [] end.

Definition of_run (ro : outcome (bool * option error)) : outcome (option error) :=
  match ro with Ret (_, e) => Ret e | Pan p => Pan p | Stuck => Stuck end.

Definition began (c : cfg) (sampling : bool) : st := emit (EvBegin (c_tree c)) (start_st c sampling).

Theorem session_shape : forall c sampling t o s,
  hooks_ok c -> root_ok c t -> session c sampling t = (o, s) ->
  exists ro s2 tr,
    run c (c_tree c) (new_node (c_tree c) t None None []) (began c sampling) ro s2 /\
    o = of_run ro /\ ro <> Stuck /\
    s_trace s2 = EvBegin (c_tree c) :: tr /\
    s_trace s = EvBegin (c_tree c) :: tr ++ ending o (s_metrics s) /\
    s_metrics s = s_metrics s2 /\ s_hib s = s_hib s2 /\ s_depth s = s_depth s2.
Proof.
  intros c sampling t o s HK RO H. unfold session in H.
  change (dispatch (mu_begin (s_mutes (start_st c sampling))) (EvBegin (c_tree c)) (start_st c sampling))
    with (began c sampling) in H.
  destruct (navigate c t (began c sampling)) as [no ns] eqn:N. unfold navigate in N.
  destruct (top_adequate _ _ _ _ _ _ HK RO N) as (ro & HR & CASE).
  assert (NF : ~ In RoleFastward (s_items (began c sampling))).
  { cbn. rewrite session_items_chain. apply chain_no_fast. }
  destruct (run_static _ _ _ _ _ _ HR NF) as [_ MU].
  destruct (proj1 (kernel_grows c (c_tree c)) _ _ _ _ HR) as [_ [tr T]].
  exists ro, ns, tr. split; [exact HR|].
  destruct CASE as [(b & e & -> & ->)|(p & -> & ->)]; inversion H; subst; cbn [of_run ending].
  - rewrite MU. cbn [mu_end began emit s_mutes start_st init_st mutes_none dispatch].
    repeat split; try discriminate; try exact T.
    cbn. rewrite T. reflexivity.
  - repeat split; try discriminate; try exact T. rewrite app_nil_r. exact T.
Qed.

Lemma calls_ending : forall o m, calls (ending o m) = [] /\ offers (ending o m) = [] /\
  rescues (ending o m) = [] /\ filter hib_event (ending o m) = [].
Proof. intros [e|p|] m; repeat split. Qed.

Lemma plain_filter_ok : forall c, plain c -> filter_ok c.
Proof. intros c [P Q]. split; intros x H; congruence. Qed.

Theorem session_journal : forall c sampling t o s,
  hooks_ok c -> root_ok c t -> filter_ok c -> session c sampling t = (o, s) ->
  exists J, offers (s_trace s) = map fst J /\
    calls (s_trace s) = map fst (filter e_called J) /\
    s_metrics s = gains c J metrics0 /\
    journal c (start_hib c) J (s_hib s) (filter hib_event (s_trace s)) /\ announced (c_hib c) (s_trace s).
Proof.
  intros c sampling t o s HK RO FO H.
  destruct (session_shape _ _ _ _ _ HK RO H) as (ro & s2 & tr & HR & EO & _ & T2 & TS & M & HH & _).
  assert (Q : quiet_state c sampling (began c sampling)).
  { split; [|reflexivity]. cbn. apply session_items_chain. }
  destruct (run_journaled c sampling HK FO (c_tree c) _ _ _ _ HR Q eq_refl)
    as (_ & _ & _ & tr' & J & T & O & CC & G & JJ & AN).
  cbn in T. rewrite T2 in T. inversion T; subst tr'.
  exists J. destruct (calls_ending o (s_metrics s)) as (E1 & E2 & _ & E4).
  rewrite TS, HH, M. cbn [offers calls filter hib_event].
  rewrite offers_app, calls_app, filter_app, <- M, E1, E2, E4, !app_nil_r.
  repeat split; try assumption; [rewrite M; exact G|].
  apply (announced_app (c_hib c) [EvBegin (c_tree c)]); [apply announced_none; reflexivity|].
  apply announced_app; [exact AN|]. apply announced_none. apply calls_ending.
Qed.

Lemma plain_all_called : forall c, plain c -> forall h J h' evs, journal c h J h' evs ->
  filter e_called J = J /\ evs = [].
Proof.
  intros c [P1 P2] h J h' evs H. induction H as [h|h n r sg r0 h1 J h2 evs V R CH H IH]; [auto|].
  destruct IH as [IH IE].
  unfold verdict, hib_verdict, primary_match in V. rewrite P1, P2 in V. inversion V; subst sg r0 h1.
  cbn [filter e_called snd is_called]. rewrite IH, IE. split; [reflexivity|].
  unfold hib_events_at. rewrite P2. reflexivity.
Qed.

Corollary plain_calls_offers : forall c sampling t o s,
  hooks_ok c -> root_ok c t -> plain c -> session c sampling t = (o, s) ->
  calls (s_trace s) = offers (s_trace s).
Proof.
  intros c sampling t o s HK RO PL H.
  destruct (session_journal _ _ _ _ _ HK RO (plain_filter_ok _ PL) H) as (J & O & C & _ & JJ & _).
  destruct (plain_all_called _ PL _ _ _ _ JJ) as [E _]. rewrite O, C, E. reflexivity.
Qed.

(** The walk of the Universal and Directories subscriptions. *)
Theorem session_walk : forall c sampling t o s P,
  hooks_ok c -> root_ok c t -> default_skip c -> c_sub c <> SubFiles ->
  preorder (entries c) [] (c_tree c) t P ->
  session c sampling t = (o, s) ->
  exists ro, o = of_run ro /\ ro <> Stuck /\
    good (c_depth c) 0 P (offers (s_trace s)) (stops ro) /\ run_out [] ro (offers (s_trace s)).
Proof.
  intros c sampling t o s P HK RO DS NF HP H.
  destruct (session_shape _ _ _ _ _ HK RO H) as (ro & s2 & tr & HR & EO & NS & T2 & TS & _).
  exists ro. split; [exact EO|]. split; [exact NS|].
  assert (E : offers (s_trace s) = offers tr).
  { rewrite TS. cbn [offers]. rewrite offers_app. destruct (calls_ending o (s_metrics s)) as (_ & E & _).
    rewrite E, app_nil_r. reflexivity. }
  rewrite E.
  apply (proj1 (walk_main c (c_tree c) 0 NF DS) _ _ _ _ HR); try reflexivity; try exact HP.
  unfold grown. rewrite T2. reflexivity.
Qed.

Lemma session_total : forall c sampling t, exists o s, session c sampling t = (o, s).
Proof. intros. destruct (session c sampling t) as [o s]. eauto. Qed.
