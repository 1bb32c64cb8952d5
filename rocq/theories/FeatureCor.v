(** Corollaries and witnesses for PropFeature.v. *)
From Verif Require Import Base Paths Level Lo Collections SpecCollections CollectionsFacts Kernel Session Defaults Spec
  KernelRel KernelFacts KernelInv WalkFacts StandsFacts JournalFacts SessionFacts RescueFacts WalkCor PathFacts WalkProps
  Simulate Feature HibFacts ChildFacts Cases CasesFacts.
Local Open Scope string_scope.

(** ** The segment is contiguous *)
Lemma until_sleep_prefix : forall hb l, exists post, l = (until_sleep hb l ++ post)%list.
Proof.
  intros hb l. induction l as [|n l [post E]]; [exists []; reflexivity|]. cbn.
  destruct (match hb_sleep_at hb with Some f => yes (f n) | None => false end).
  - destruct (hb_incl_sleep hb); [exists l|exists (n :: l)]; reflexivity.
  - exists post. cbn. congruence.
Qed.
Lemma from_wake_infix : forall hb w l, exists pre post, l = (pre ++ from_wake hb w l ++ post)%list.
Proof.
  intros hb w l. induction l as [|n l (pre & post & E)]; [exists [], []; reflexivity|]. cbn.
  destruct (yes (w n)).
  - destruct (until_sleep_prefix hb l) as [post' E']. destruct (hb_incl_wake hb).
    + exists [], post'. cbn. congruence.
    + exists [n], post'. cbn. congruence.
  - exists (n :: pre), post. cbn. congruence.
Qed.
Lemma segment_infix : forall hb l, exists pre post, l = (pre ++ segment hb l ++ post)%list.
Proof.
  intros hb l. unfold segment. destruct (hb_wake_at hb); [apply from_wake_infix|].
  destruct (until_sleep_prefix hb l) as [post E]. exists [], post. exact E.
Qed.

(** Where the segment starts and where it ends, said without recursion. *)
Lemma segment_meaning : forall hb l, 
  match hb_wake_at hb with
  | None => segment hb l = until_sleep hb l
  | Some w =>
      (Forall (fun n => yes (w n) = false) l /\ segment hb l = []) \/
      exists pre n post, l = (pre ++ n :: post)%list /\ Forall (fun m => yes (w m) = false) pre /\ yes (w n) = true /\
        segment hb l = ((if hb_incl_wake hb then [n] else []) ++ until_sleep hb post)%list
  end.
Proof.
  intros hb l. unfold segment. destruct (hb_wake_at hb) as [w|]; [|reflexivity].
  induction l as [|n l IH]; [left; split; constructor|]. cbn. destruct (yes (w n)) eqn:W.
  - right. exists [], n, l. repeat split; auto.
  - destruct IH as [[F E]|(pre & m & post & -> & F & WM & E)].
    + left. split; [constructor; assumption|exact E].
    + right. exists (n :: pre), m, post. repeat split; auto.
Qed.
Lemma until_sleep_meaning : forall hb l,
  let sl n := match hb_sleep_at hb with Some f => yes (f n) | None => false end in
  (Forall (fun n => sl n = false) l /\ until_sleep hb l = l) \/
  exists pre n post, l = (pre ++ n :: post)%list /\ Forall (fun m => sl m = false) pre /\ sl n = true /\
    until_sleep hb l = (pre ++ (if hb_incl_sleep hb then [n] else []))%list.
Proof.
  intros hb l. cbn zeta. induction l as [|n l IH]; [left; split; constructor|]. cbn.
  destruct (match hb_sleep_at hb with Some f => yes (f n) | None => false end) eqn:W.
  - right. exists [], n, l. repeat split; auto.
  - destruct IH as [[F E]|(pre & m & post & -> & F & WM & E)].
    + left. split; [constructor; assumption|congruence].
    + right. exists (n :: pre), m, post. cbn. repeat split; auto. congruence.
Qed.

Lemma default_subpath_blind : forall sub, hook_blind (base_cfg sub).
Proof. intros sub tree keep n. destruct n. reflexivity. Qed.

(** ** Sleep: what Navigate returns *)
Definition hib_at (wake : option string) (sleep : option string) : hibcfg :=
  mkHib (match wake with Some p => Some (fun n => inl (String.eqb (n_path n) p)) | None => None end)
        (match sleep with Some p => Some (fun n => inl (String.eqb (n_path n) p)) | None => None end) true false.

Lemma sleep_returns_skip_all : exists c t s hb,
  c_sub c = SubFiles /\ hooks_ok c /\ root_ok c t /\ default_skip c /\ c_scheme c = None /\ c_hib c = Some hb /\
  nil_callback c /\ session c false t = (Ret (Some (Err SkipAll)), s).
Proof.
  set (hb := hib_at None (Some "/r/A/x")).
  set (c := with_hib (Some hb) (base_cfg SubFiles)).
  exists c, tree1, (snd (session c false tree1)), hb.
  split; [reflexivity|]. split; [exact (base_hooks _)|]. split; [reflexivity|]. split; [intros ? ? ?; reflexivity|].
  split; [reflexivity|]. split; [reflexivity|]. split; [intros ? ?; reflexivity|]. vm_compute. reflexivity.
Qed.

(** ** The fastward link is not where it is declared to be *)
Lemma fast_misplaced : exists c sampling, session_items c sampling FastwardPlugin <> declared_links c sampling true.
Proof. exists (with_hib (Some (hib_at None None)) (base_cfg SubUniversal)), false. vm_compute. discriminate. Qed.

(** ** Unwinding *)
Lemma listing_delete : forall (A : Type) (eqb : A -> A -> bool), (forall x y, reflect (x = y) (eqb x y)) ->
  forall order pin s x, x <> pin ->
  listing eqb order pin (fun y => s y && negb (eqb x y)) =
  filter (fun y => negb (eqb x y)) (listing eqb order pin s).
Proof.
  intros A eqb E order pin s x N. unfold listing. generalize (ranking eqb order pin). intro l.
  induction l as [|y l IH]; [reflexivity|]. cbn [filter].
  destruct (E x y) as [->|NE]; cbn [negb]; [rewrite andb_false_r|rewrite andb_true_r].
  - destruct (E y pin) as [->|_]; [contradiction|]. cbn [orb]. rewrite orb_false_r.
    destruct (s y); cbn [filter]; [destruct (E y y); [|contradiction]|]; cbn [negb]; exact IH.
  - destruct (s y || eqb y pin); cbn [filter]; [|exact IH].
    destruct (E x y) as [X|_]; [contradiction|]. cbn [negb]. rewrite IH. reflexivity.
Qed.

Lemma unwind_exact : forall (A : Type) (eqb : A -> A -> bool), (forall x y, reflect (x = y) (eqb x y)) ->
  forall order anchor ops x, x <> anchor ->
  let ps := snd (ps_run eqb ops (ps_new eqb order anchor)) in
  fst (ps_list eqb (ps_delete eqb x ps)) = filter (fun y => negb (eqb x y)) (fst (ps_list eqb ps)).
Proof.
  intros A eqb E order anchor ops x N. cbn zeta.
  assert (RP : forall ops ps s, rep eqb order anchor ps s -> exists s', rep eqb order anchor (snd (ps_run eqb ops ps)) s').
  { clear - E. induction ops as [|op ops IH]; intros ps s R; [exists s; exact R|]. cbn.
    destruct (ps_step eqb op ps) as [o ps1] eqn:S. destruct (rep_step _ E _ _ _ _ _ _ _ R S) as (s1 & _ & R1).
    destruct (IH _ _ R1) as [s2 R2]. exists s2. destruct (ps_run eqb ops ps1). exact R2. }
  destruct (RP ops _ _ (rep_new _ E order anchor)) as [s R].
  set (ps := snd (ps_run eqb ops (ps_new eqb order anchor))) in *.
  pose proof (rep_delete _ E _ _ x _ _ R) as RD.
  destruct (ps_list eqb ps) as [l ps1] eqn:L1. destruct (ps_list eqb (ps_delete eqb x ps)) as [l2 ps2] eqn:L2.
  destruct (rep_list _ _ _ _ _ _ _ R L1) as [-> _]. destruct (rep_list _ _ _ _ _ _ _ RD L2) as [-> _].
  apply listing_delete; assumption.
Qed.

(** ** A child filter on files *)
Lemma child_filter_panics : forall sub, sub = SubUniversal \/ sub = SubFiles ->
  exists c t s, c_sub c = sub /\ hooks_ok c /\ root_ok c t /\ default_skip c /\ nil_callback c /\
    c_scheme c = Some (mkScheme None (Some (fun l => inl l))) /\ c_hib c = None /\
    session c false t = (Ret (Some (TraversalSaved "saved")), s) /\ rescues (s_trace s) <> [].
Proof.
  intros sub S.
  set (c := with_scheme (Some (mkScheme None (Some (fun l => inl l)))) (base_cfg sub)).
  exists c, tree1, (snd (session c false tree1)).
  split; [reflexivity|]. split; [exact (base_hooks _)|]. split; [reflexivity|]. split; [intros ? ? ?; reflexivity|].
  split; [intros ? ?; reflexivity|]. split; [reflexivity|]. split; [reflexivity|].
  destruct S as [-> | ->]; (split; [vm_compute; reflexivity|vm_compute; discriminate]).
Qed.

Lemma nil_no_rescue : forall c sampling t o s,
  hooks_ok c -> root_ok c t -> filter_ok c -> nil_callback c -> session c sampling t = (o, s) ->
  rescues (s_trace s) = [] /\ exists e, o = Ret e.
Proof.
  intros c sampling t o s HK RO FO NC H. eapply no_panic_no_rescue; try eassumption.
  apply (session_results c sampling t o s (fun r => is_panic r = false) HK RO); [|exact H].
  intros tr n. rewrite NC. reflexivity.
Qed.
Lemma dwf_visits : forall c sampling t o1 s1 o2 s2, hooks_ok c -> root_ok c t -> default_skip c ->
  plain c -> nil_callback c ->
  session (with_sub SubDirectoriesWithFiles c) sampling t = (o1, s1) ->
  session (with_sub SubDirectories c) sampling t = (o2, s2) ->
  o1 = o2 /\ map place_of (visited s1) = map place_of (visited s2).
Proof.
  intros c sampling t o1 s1 o2 s2 HK RO DS PL NC H1 H2.
  destruct (preorder_exists (with_sub SubDirectories c) HK [] (c_tree c) t) as [P HP].
  destruct (plain_nil (with_sub SubDirectoriesWithFiles c) _ _ _ _ HK RO PL NC H1) as [E1 F1].
  destruct (plain_nil (with_sub SubDirectories c) _ _ _ _ HK RO PL NC H2) as [E2 F2].
  destruct (walk_nil (with_sub SubDirectoriesWithFiles c) sampling t _ _ P HK RO DS ltac:(discriminate) HP H1 F1) as [-> M1].
  destruct (walk_nil (with_sub SubDirectories c) sampling t _ _ P HK RO DS ltac:(discriminate) HP H2 F2) as [-> M2].
  split; [reflexivity|]. unfold visited. rewrite E1, E2, !map_map, M1, M2. reflexivity.
Qed.

Lemma first_result : forall c h J h' evs x L, journal c h J h' evs -> h <> HibRetired ->
  map fst J = x :: L -> Forall (fun x => snd x = CNil) (map fst (filter e_called J)) -> snd x = CNil.
Proof.
  intros c h J h' evs x L H NR E F. destruct H as [h|h n r sg r0 h1 J h2 evs V R CH H]; [discriminate|].
  cbn [map fst] in E. inversion E; subst. cbn [snd]. destruct sg.
  - rewrite R by discriminate. unfold verdict in V. destruct (hib_verdict c h (clear n)) as [[b r'] h''] eqn:HV.
    destruct b; inversion V; subst.
    + destruct (primary_match c (clear n)); discriminate.
    + unfold hib_verdict in HV. destruct (c_hib c) as [hb|]; [|discriminate]. destruct h.
      * destruct (yes (hb_wake hb (clear n))); inversion HV; subst; reflexivity.
      * destruct (yes (hb_sleep hb (clear n))); inversion HV; subst; reflexivity.
      * contradiction.
  - rewrite R by discriminate. unfold verdict in V. destruct (hib_verdict c h (clear n)) as [[b r'] h''] eqn:HV.
    destruct b; inversion V; subst. reflexivity.
  - cbn in F. inversion F; subst. assumption.
Qed.

Lemma sleep_nil : forall c sampling t o s,
  hooks_ok c -> root_ok c t -> default_skip c -> filter_ok c -> c_sub c <> SubFiles -> nil_callback c ->
  session c sampling t = (o, s) -> o = Ret None.
Proof.
  intros c sampling t o s HK RO DS FO NF NC H.
  destruct (preorder_exists c HK [] (c_tree c) t) as [P HP].
  destruct (session_journal _ _ _ _ _ HK RO FO H) as (J & O & C & _ & JJ & _).
  pose proof (session_results c sampling t o s (fun r => r = CNil) HK RO NC H) as F. rewrite C in F.
  assert (FE : Forall (fun x => is_end (snd x) = false) (offers (s_trace s))).
  { rewrite O. eapply (journal_results c _ _ _ _ (fun r => is_end r = false)); [exact JJ|reflexivity|reflexivity|].
    eapply Forall_impl; [|exact F]. intros x E. cbn in E. rewrite E. reflexivity. }
  destruct (session_walk _ _ _ _ _ _ HK RO DS NF HP H) as (ro & EO & NS & [[rest [K Z]] ST] & OUT).
  assert (SF : stops ro = false).
  { destruct (stops ro) eqn:SR; [|reflexivity]. exfalso. destruct ST as (L0 & x & EL & EE & _).
    pose proof (last_Forall _ _ _ _ _ EL FE) as X. cbn in X. congruence. }
  destruct ro as [[b [e|]]|p|]; cbn in SF; try discriminate; [|exact EO]. exfalso. cbn in OUT.
  assert (OUT' : (b = true /\ is_skip_error e = true /\
             (exists m : node, offers (s_trace s) = [(m, CErr e)] /\ n_pos m = [])) \/
             failed b e (offers (s_trace s))) by (destruct b; exact OUT).
  destruct OUT' as [(_ & IS & m & EL & PM)|FL].
  - rewrite O in EL. assert (X : snd (m, CErr e) = CNil); [|discriminate].
    eapply first_result; try eassumption. unfold start_hib, hb_launch.
    destruct (c_hib c) as [hb|]; [destruct (hb_wake_at hb)|]; discriminate.
  - rewrite (failed_not_skip _ _ _ FL) in SF. discriminate.
Qed.
