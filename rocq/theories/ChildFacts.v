(** Children, hibernation notifications, the decorator chain. *)
From Verif Require Import Base Paths Level Lo Collections Kernel Session Spec KernelRel KernelFacts
  KernelInv WalkFacts StandsFacts JournalFacts SessionFacts WalkCor PathFacts WalkProps.

(** ** Children *)
Lemma journal_children : forall c h J h' evs, journal c h J h' evs ->
  Forall (fun x => n_children (fst (fst x)) = expected_children c (fst (fst x)) (snd x)) J.
Proof. intros c h J h' evs H. induction H; constructor; auto. Qed.

Lemma journal_stage : forall c h J h' evs, journal c h J h' evs -> c_scheme c = None ->
  Forall (fun x => snd x <> Rejected) J.
Proof.
  intros c h J h' evs H SC. induction H as [|h n r sg r0 h1 J h2 evs V R CH H IH]; constructor; auto.
  cbn. intro E. subst sg. unfold verdict, primary_match in V. rewrite SC in V.
  destruct (hib_verdict c h (clear n)) as [[[|] ?] ?]; discriminate.
Qed.

Lemma called_in : forall (J : list entry) n r, In (n, r) (map fst (filter e_called J)) -> In ((n, r), Called) J.
Proof.
  intros J n r H. apply in_map_iff in H. destruct H as ([x sg] & E & I). cbn in E. subst x.
  apply filter_In in I. destruct I as [I C]. unfold e_called in C. cbn in C. destruct sg; try discriminate. exact I.
Qed.

Lemma visited_children : forall c sampling t o s, hooks_ok c -> root_ok c t -> filter_ok c ->
  session c sampling t = (o, s) -> Forall (fun n => n_children n = expected_children c n Called) (visited s).
Proof.
  intros c sampling t o s HK RO FO H. destruct (session_journal _ _ _ _ _ HK RO FO H) as (J & O & C & _ & JJ & _).
  pose proof (journal_children _ _ _ _ _ JJ) as F. rewrite Forall_forall in F.
  apply Forall_forall. intros n I. unfold visited in I. apply in_map_iff in I. destruct I as ([m r] & <- & I).
  rewrite C in I. apply called_in in I. apply (F _ I).
Qed.

Lemma plain_children : forall c sampling t o s, hooks_ok c -> root_ok c t -> filter_ok c ->
  c_sub c = SubDirectoriesWithFiles -> c_scheme c = None ->
  session c sampling t = (o, s) -> Forall (fun n => n_children n = c_sort c (files_listed c n)) (visited s).
Proof.
  intros c sampling t o s HK RO FO SB SC H.
  eapply Forall_impl; [|apply (visited_children _ _ _ _ _ HK RO FO H)].
  intros n E. rewrite E. unfold expected_children. rewrite SC, SB. reflexivity.
Qed.

Lemma filter_children : forall c m p sampling t o s, hooks_ok c -> root_ok c t -> filter_ok c ->
  c_scheme c = Some (mkScheme p (Some (fun l => inl (m l)))) ->
  session c sampling t = (o, s) -> Forall (fun n => n_children n = m (c_sort c (files_listed c n))) (visited s).
Proof.
  intros c m p sampling t o s HK RO FO SC H.
  eapply Forall_impl; [|apply (visited_children _ _ _ _ _ HK RO FO H)].
  intros n E. rewrite E. unfold expected_children. rewrite SC. reflexivity.
Qed.

Lemma gains_sum : forall c (g : metrics -> nat) (w : entry -> nat),
  (forall x m, g (gain c (fst (fst x)) (snd x) m) = g m + w x) ->
  forall J m, g (gains c J m) = g m + total w J.
Proof.
  intros c g w HG J. unfold gains. induction J as [|x J IH]; intro m; cbn; [lia|].
  rewrite IH, HG. unfold total. lia.
Qed.
Lemma gains_sum_on : forall c (g : metrics -> nat) (w : entry -> nat) J,
  (forall x m, In x J -> g (gain c (fst (fst x)) (snd x) m) = g m + w x) ->
  forall m, g (gains c J m) = g m + total w J.
Proof.
  intros c g w J. unfold gains. induction J as [|x J IH]; intros HG m; cbn; [lia|].
  rewrite IH by (intros; apply HG; right; assumption). rewrite HG by (left; reflexivity). unfold total. lia.
Qed.

Lemma total_called : forall (f : node -> nat) (J : list entry),
  total (fun x => if e_called x then f (fst (fst x)) else 0) J = total f (map fst (map fst (filter e_called J))).
Proof.
  intros f J. unfold total. induction J as [|x J IH]; [reflexivity|]. cbn [fold_right filter].
  rewrite IH. destruct (e_called x); reflexivity.
Qed.

Lemma total_ext : forall (A : Type) (f g : A -> nat) l, (forall x, In x l -> f x = g x) -> total f l = total g l.
Proof.
  intros A f g l H. unfold total in *. induction l as [|x l IH]; [reflexivity|]. cbn [fold_right]. rewrite H by (left; reflexivity).
  rewrite IH; [reflexivity|]. intros; apply H; right; assumption.
Qed.

Lemma plain_child_metric : forall c sampling t o s, hooks_ok c -> root_ok c t -> filter_ok c ->
  c_sub c = SubDirectoriesWithFiles -> c_scheme c = None ->
  session c sampling t = (o, s) ->
  m_child (s_metrics s) = total (fun n => length (files_listed c n)) (visited s) /\ m_child_out (s_metrics s) = 0.
Proof.
  intros c sampling t o s HK RO FO SB SC H.
  destruct (session_journal _ _ _ _ _ HK RO FO H) as (J & O & C & G & JJ & _).
  pose proof (journal_stage _ _ _ _ _ JJ SC) as ST. rewrite Forall_forall in ST.
  assert (NN : has_nanny c = true) by (unfold has_nanny; rewrite SB, SC; reflexivity).
  unfold visited. rewrite G, C, <- total_called. split.
  - rewrite (gains_sum_on c m_child (fun x => if e_called x then length (files_listed c (fst (fst x))) else 0) J); [reflexivity|].
    intros [[n r] sg] m I. specialize (ST _ I). cbn in ST. cbn [fst snd e_called]. unfold e_called, gain. cbn [snd is_called].
    rewrite NN, SC. destruct sg; [cbn; lia|contradiction|]. cbn.
    unfold nfiles, listed_files, files_listed. destruct (n_isdir n); cbn; lia.
  - rewrite (gains_sum_on c m_child_out (fun _ => 0) J).
    + cbn. clear. induction J; cbn; auto.
    + intros [[n r] sg] m I. cbn [fst snd]. unfold gain. rewrite NN, SC. destruct sg; cbn; try lia; destruct (n_isdir n); cbn; lia.
Qed.

Lemma child_filter_metric : forall c m p sampling t o s, hooks_ok c -> root_ok c t -> filter_ok c ->
  c_scheme c = Some (mkScheme p (Some (fun l => inl (m l)))) -> (forall f, p <> Some (PrimarySampler f)) ->
  (forall l, length (m l) <= length l) ->
  session c sampling t = (o, s) ->
  m_child (s_metrics s) = total (fun n => length (n_children n)) (visited s) /\
  m_child (s_metrics s) + m_child_out (s_metrics s) = total (fun n => length (files_listed c n)) (visited s).
Proof.
  intros c m p sampling t o s HK RO FO SC NS ML H.
  pose proof (filter_children _ _ _ _ _ _ _ HK RO FO SC H) as FC. rewrite Forall_forall in FC.
  destruct (session_journal _ _ _ _ _ HK RO FO H) as (J & O & C & G & JJ & _).
  assert (NN : has_nanny c = false) by (unfold has_nanny; rewrite SC; apply andb_false_r).
  assert (LS : forall l, length (c_sort c l) = length l).
  { intro l. apply Permutation.Permutation_length. apply HK. }
  rewrite (total_ext _ (fun n => length (n_children n)) (fun n => length (m (c_sort c (files_listed c n)))) (visited s))
    by (intros x I; rewrite (FC x I); reflexivity).
  unfold visited. rewrite G, C, <- !total_called. split.
  - rewrite (gains_sum c m_child (fun x => if e_called x then length (m (c_sort c (files_listed c (fst (fst x))))) else 0)); [reflexivity|].
    intros [[n r] sg] m0. cbn [fst snd]. unfold e_called, gain. cbn [snd is_called]. rewrite NN, SC.
    destruct sg; cbn; [lia| |].
    + destruct p as [[f|f]|]; [|exfalso; apply (NS f); reflexivity|]; cbn; destruct (n_isdir n); cbn; lia.
    + destruct p as [[f|f]|]; [|exfalso; apply (NS f); reflexivity|]; cbn; destruct (n_isdir n); cbn;
        unfold listed_files, files_listed; lia.
  - rewrite (gains_sum c (fun mm => m_child mm + m_child_out mm) (fun x => if e_called x then length (files_listed c (fst (fst x))) else 0)); [reflexivity|].
    intros [[n r] sg] m0. cbn [fst snd]. unfold e_called, gain. cbn [snd is_called]. rewrite NN, SC.
    assert (L := ML (c_sort c (files_listed c n))). rewrite LS in L. unfold files_listed in *.
    unfold nfiles, listed_files.
    destruct sg; cbn; [lia| |].
    + destruct p as [[f|f]|]; [|exfalso; apply (NS f); reflexivity|]; cbn; destruct (n_isdir n); cbn; lia.
    + destruct p as [[f|f]|]; [|exfalso; apply (NS f); reflexivity|]; cbn; destruct (n_isdir n); cbn; lia.
Qed.

(** ** Notifications *)
Lemma journal_events : forall c hb h J h' evs, c_hib c = Some hb -> journal c h J h' evs ->
  match h with
  | HibPending => evs = [] \/ evs = [EvWake] \/ evs = [EvWake; EvSleep]
  | HibActive => evs = [] \/ evs = [EvSleep]
  | HibRetired => evs = []
  end.
Proof.
  intros c hb h J h' evs HB H. induction H as [h|h n r sg r0 h1 J h2 evs V R CH H IH].
  - destruct h; auto.
  - unfold verdict, hib_verdict in V. unfold hib_events_at. rewrite HB in V |- *. destruct h.
    + destruct (yes (hb_wake hb (clear n))).
      * assert (h1 = HibActive) by (destruct (hb_incl_wake hb); inversion V; reflexivity). subst h1.
        destruct IH as [-> | ->]; cbn; auto.
      * inversion V; subst. cbn. exact IH.
    + destruct (yes (hb_sleep hb (clear n))).
      * assert (h1 = HibRetired) by (destruct (hb_incl_sleep hb); inversion V; reflexivity). subst h1.
        rewrite IH. cbn; auto.
      * inversion V; subst. cbn. exact IH.
    + inversion V; subst. cbn. exact IH.
Qed.


Lemma wake_sleep : forall c hb sampling t o s, hooks_ok c -> root_ok c t -> filter_ok c -> c_hib c = Some hb ->
  session c sampling t = (o, s) ->
  (exists post, (match hb_wake_at hb with Some _ => [EvWake; EvSleep] | None => [EvSleep] end) =
    (filter (fun e => is_wake e || is_sleep e) (s_trace s) ++ post)%list) /\
  announced (Some hb) (s_trace s).
Proof.
  intros c hb sampling t o s HK RO FO HB H.
  destruct (session_journal _ _ _ _ _ HK RO FO H) as (J & O & C & G & JJ & AN). rewrite HB in AN. split; [|exact AN].
  pose proof (journal_events _ _ _ _ _ _ HB JJ) as E. unfold start_hib, hb_launch in E. rewrite HB in E.
  assert (EF : filter (fun e => is_wake e || is_sleep e) (s_trace s) = filter hib_event (s_trace s)).
  { apply filter_ext. intros []; reflexivity. }
  rewrite EF. destruct (hb_wake_at hb).
  - destruct E as [-> |[-> | ->]]; [exists [EvWake; EvSleep]|exists [EvSleep]|exists []]; reflexivity.
  - destruct E as [-> | ->]; [exists [EvSleep]|exists []]; reflexivity.
Qed.

(** ** The chain *)
Lemma iterate_consults : forall c k rs n s o n1 s1, iterate c rs n k s = (o, n1, s1) -> o <> Stuck ->
  exists pre post, rs = pre ++ post /\ consult c k rs n s pre o n1 s1.
Proof.
  intros c k. induction rs as [|r rs IH]; cbn [iterate]; intros n s o n1 s1 H NS.
  - inversion H; subst. exists [], []. split; [reflexivity|constructor].
  - destruct (link_next c r n k s) as [[lo ln] ls] eqn:L. destruct lo as [[b e]|p|].
    + destruct b; [destruct e as [e|]|].
      * inversion H; subst. exists [r], rs. split; [reflexivity|]. eapply consult_stop; [exact L|]. right. discriminate.
      * destruct (IH _ _ _ _ _ H NS) as (pre & post & E & C). exists (r :: pre), post. split; [cbn; congruence|].
        eapply consult_go; eassumption.
      * assert (X : (Ret e, ln, ls) = (o, n1, s1)) by (destruct e; exact H). inversion X; subst.
        exists [r], rs. split; [reflexivity|]. eapply consult_stop; [exact L|]. left. reflexivity.
    + inversion H; subst. exists [r], rs. split; [reflexivity|]. eapply consult_panic. exact L.
    + inversion H; subst. contradiction.
Qed.

Lemma link_calls : forall c r n k s o n1 s1, link_next c r n k s = (o, n1, s1) ->
  if role_eqb r RoleAnchor then exists x, calls (s_trace s1) = calls (s_trace s) ++ [x] else calls (s_trace s1) = calls (s_trace s).
Proof.
  intros c r n k s o n1 s1 H.
  assert (PR : forall p n' s' o' n2 s2, primary_next p n' k s' = (o', n2, s2) -> calls (s_trace s2) = calls (s_trace s')).
  { intros p n' s' o' n2 s2 P. destruct p as [f|m]; cbn in P.
    - unfold match_next in P. destruct (f n') as [[|]|]; inversion P; subst; reflexivity.
    - unfold sampler_next in P. destruct (scope_is_tree _); [destruct k as [[fs ds]|]|]; inversion P; subst; reflexivity. }
  assert (NN : forall m n' s' o' n2 s2, nanny_scheme_next c m n' k s' = (o', n2, s2) -> calls (s_trace s2) = calls (s_trace s')).
  { intros m n' s' o' n2 s2 P. unfold nanny_scheme_next in P. destruct k as [[fs ds]|]; [destruct (m (c_sort c fs))|]; inversion P; subst; reflexivity. }
  destruct r; cbn [role_eqb]; cbn [link_next] in H.
  - inversion H; subst; reflexivity.
  - unfold anchor_next in H. exists (n, c_client c (s_trace s) n).
    destruct (c_client c (s_trace (tick_by (if n_isdir n then DirectoriesInvoked else FilesInvoked) 1 s)) n) eqn:E;
      inversion H; subst; cbn [emit s_trace tick_by set_metrics]; cbn in E; rewrite calls_app, E; reflexivity.
  - unfold filter_next in H. destruct (c_scheme c) as [[[p|] [m|]]|]; cbn in H.
    + destruct (primary_next p n k s) as [[po pn] ps] eqn:P. apply PR in P.
      destruct po as [[[|] e]|q|]; try (inversion H; subst; exact P).
      destruct (nanny_scheme_next c m pn k ps) as [[no nn] ns] eqn:N. apply NN in N.
      destruct no as [[b e2]|q|]; inversion H; subst; congruence.
    + eapply PR; eassumption.
    + eapply NN; eassumption.
    + inversion H; subst; reflexivity.
    + inversion H; subst; reflexivity.
  - unfold hib_next in H. destruct (c_hib c) as [h|]; [|inversion H; subst; reflexivity].
    assert (SD : forall b e x, calls [e] = [] -> calls (s_trace (set_hib x (dispatch b e s))) = calls (s_trace s)).
    { intros [|] e x E; [reflexivity|]. cbn [dispatch set_hib emit s_trace]. rewrite calls_app, E, app_nil_r. reflexivity. }
    destruct (s_hib s).
    + destruct (hb_wake h n) as [[|]|]; [destruct (hb_incl_wake h)| |]; inversion H; subst; auto.
    + destruct (hb_sleep h n) as [[|]|]; [destruct (hb_incl_sleep h)| |]; inversion H; subst; auto.
    + inversion H; subst; reflexivity.
  - inversion H; subst; reflexivity.
  - unfold nanny_next in H. destruct k as [[fs ds]|]; inversion H; subst; reflexivity.
  - unfold fast_next in H. destruct (c_fast c) as [fc|]; [|inversion H; subst; reflexivity].
    destruct (fast_match fc n) as [[|]|p|]; inversion H; subst; reflexivity.
Qed.

Lemma consult_calls : forall c k rs n s pre o n1 s1, consult c k rs n s pre o n1 s1 -> NoDup rs ->
  (In RoleAnchor pre <-> calls (s_trace s1) <> calls (s_trace s)) /\
  exists l, calls (s_trace s1) = calls (s_trace s) ++ l /\ length l <= 1.
Proof.
  intros c k rs n s pre o n1 s1 H.
  assert (APP : forall (A : Type) (a b : list A), a = a ++ b -> b = []).
  { intros A a b E. rewrite <- (app_nil_r a) in E at 1. apply app_inv_head in E. auto. }
  assert (ONE : forall r n s lo n1 s1, link_next c r n k s = (lo, n1, s1) ->
     (In RoleAnchor [r] <-> calls (s_trace s1) <> calls (s_trace s)) /\
     exists l, calls (s_trace s1) = calls (s_trace s) ++ l /\ length l <= 1).
  { intros r n0 s0 lo n2 s2 L. apply link_calls in L. destruct (role_eqb r RoleAnchor) eqn:E.
    - destruct L as [x L]. rewrite L. split; [|exists [x]; split; [reflexivity|cbn; lia]].
      split; [|intros _; left; destruct r; try discriminate; reflexivity].
      intros _ X. symmetry in X. apply APP in X. discriminate.
    - rewrite L. split; [|exists []; split; [rewrite app_nil_r; reflexivity|cbn; lia]].
      split; [intros [->|[]]; discriminate|intro X; exfalso; apply X; reflexivity]. }
  assert (SUB : forall rs n s pre o n1 s1, consult c k rs n s pre o n1 s1 -> forall r, In r pre -> In r rs).
  { intros rs0 n0 s0 pre0 o0 n2 s2 C. induction C; intros x I; cbn in *; intuition. }
  induction H as [n s|r rs n s n1 s1 pre o n2 s2 L C IH|r rs n s b e n1 s1 L B|r rs n s p n1 s1 L]; intro ND.
  - split; [split; [intros []|intro X; exfalso; apply X; reflexivity]|]. exists []. rewrite app_nil_r. cbn. auto.
  - inversion ND as [|? ? NI ND']; subst. destruct (IH ND') as [A (l & B & LE)]. clear IH.
    pose proof (SUB _ _ _ _ _ _ _ C) as SP.
    pose proof (link_calls _ _ _ _ _ _ _ _ L) as LC. destruct (role_eqb r RoleAnchor) eqn:E.
    + assert (r = RoleAnchor) by (destruct r; try discriminate; reflexivity). subst r.
      assert (NP : ~ In RoleAnchor pre) by (intro X; apply NI; apply SP; exact X).
      destruct l as [|y l].
      * rewrite app_nil_r in B. destruct LC as [x LC]. rewrite B, LC. split; [|exists [x]; split; [reflexivity|cbn; lia]].
        split; [|intros _; left; reflexivity]. intros _ X. symmetry in X. apply APP in X. discriminate.
      * exfalso. apply NP. apply A. rewrite B. intro X. symmetry in X. apply APP in X. discriminate.
    + rewrite LC in A, B. split; [|exists l; split; assumption].
      split.
      * intros [X|X]; [subst r; discriminate|]. apply A. exact X.
      * intro X. right. apply A. exact X.
  - eapply ONE; exact L.
  - eapply ONE; exact L.
Qed.

Lemma chain_NoDup : forall c sampling fast, NoDup (chain c sampling fast).
Proof.
  intros c sampling fast. unfold chain.
  destruct (has (c_hib c)), (has_nanny c), (has (c_scheme c)), sampling, fast; cbn;
    repeat (constructor; [cbn; intuition discriminate|]); constructor.
Qed.

Lemma chain_declared : forall c sampling rp, rp <> FastwardPlugin ->
  session_items c sampling rp = declared_links c sampling false.
Proof.
  intros c sampling rp N. rewrite session_items_chain. unfold chain, declared_links, has_nanny, is_dwf, has.
  destruct rp; try contradiction; destruct (c_hib c), (c_sub c), (c_scheme c), sampling; reflexivity.
Qed.
Lemma chain_fast_last : forall c sampling,
  exists pre, session_items c sampling FastwardPlugin = (pre ++ [RoleFastward; RoleAnchor])%list /\
    session_items c sampling NoResume = (pre ++ [RoleAnchor])%list.
Proof.
  intros c sampling. rewrite !session_items_chain. unfold chain. cbn [role_if app].
  eexists (role_if _ _ ++ role_if _ _ ++ role_if _ _ ++ role_if _ _). rewrite <- !app_assoc. split; reflexivity.
Qed.

(** Every invocation of a session's chain. *)
Lemma invocation : forall c sampling rp n k s o n1 s1, s_items s = session_items c sampling rp ->
  invoke c n k s = (o, n1, s1) -> o <> Stuck ->
  exists pre post s', session_items c sampling rp = (pre ++ post)%list /\
    consult c k (session_items c sampling rp) n s pre o n1 s' /\ s1 = emit (EvOffer n1 (res_of o)) s' /\
    (In RoleAnchor pre <-> exists x, calls (s_trace s1) = (calls (s_trace s) ++ [x])%list) /\
    (~ In RoleAnchor pre <-> calls (s_trace s1) = calls (s_trace s)).
Proof.
  intros c sampling rp n k s o n1 s1 I H NS. unfold invoke in H. rewrite I in H.
  destruct (iterate c (session_items c sampling rp) n k s) as [[io inn] is_] eqn:IT. inversion H; subst.
  destruct (iterate_consults _ _ _ _ _ _ _ _ IT NS) as (pre & post & E & C).
  exists pre, post, is_. split; [exact E|]. split; [exact C|]. split; [reflexivity|].
  assert (ND : NoDup (session_items c sampling rp)) by (rewrite session_items_chain; apply chain_NoDup).
  destruct (consult_calls _ _ _ _ _ _ _ _ _ C ND) as [A (l & B & LE)].
  cbn [emit s_trace]. rewrite calls_app. cbn. rewrite app_nil_r.
  assert (APP : forall (T : Type) (a b : list T), a = a ++ b -> b = []).
  { intros T a b Q. rewrite <- (app_nil_r a) in Q at 1. apply app_inv_head in Q. auto. }
  destruct l as [|x [|y l]]; [| |cbn in LE; lia].
  - rewrite app_nil_r in B. split; split.
    + intro X. exfalso. apply A in X. contradiction.
    + intros [x X]. rewrite B in X. apply APP in X. discriminate.
    + auto.
    + intros _ X. apply A in X. contradiction.
  - split; split.
    + intros _. exists x. exact B.
    + intros _. apply A. rewrite B. intro X. symmetry in X. apply APP in X. discriminate.
    + intro X. exfalso. apply X. apply A. rewrite B. intro Y. symmetry in Y. apply APP in Y. discriminate.
    + rewrite B. intro X. symmetry in X. apply APP in X. discriminate.
Qed.
