(** What the decorator chain does at each offered node, in one journal per
    traversal: which nodes reach the client, how the hibernation state evolves,
    what the metrics count. For sessions without the fastward link. *)
From Verif Require Import Base Paths Level Lo Collections Kernel Session KernelRel Spec KernelFacts
  KernelInv WalkFacts StandsFacts.
From Coq Require Import Permutation.

(** ** The chain of a session *)
Definition role_if (b : bool) (r : role) : list role := if b then [r] else [].
Definition has {A} (o : option A) : bool := match o with Some _ => true | None => false end.
Definition is_dwf (s : subscription) : bool :=
  match s with SubDirectoriesWithFiles => true | _ => false end.
Definition has_nanny (c : cfg) : bool := is_dwf (c_sub c) && negb (has (c_scheme c)).

Definition chain (c : cfg) (sampling fast : bool) : list role :=
  role_if (has (c_hib c)) RoleHibernate ++ role_if (has_nanny c) RoleNanny ++
  role_if (has (c_scheme c)) RoleClientFilter ++ role_if sampling RoleSampler ++
  role_if fast RoleFastward ++ [RoleAnchor].

Lemma session_items_chain : forall c sampling rp,
  session_items c sampling rp =
  chain c sampling (match rp with FastwardPlugin => true | _ => false end).
Proof.
  intros c sampling rp. unfold session_items, active_roles, chain, has_nanny.
  destruct (c_hib c), (c_sub c), (c_scheme c), sampling, rp; reflexivity.
Qed.

(** ** Journal *)
Inductive stage := Slept | Rejected | Called.
Definition is_called (s : stage) : bool := match s with Called => true | _ => false end.

Definition hib_verdict (c : cfg) (h : hibstate) (n : node) : bool * cbres * hibstate :=
  match c_hib c with
  | None => (true, CNil, h)
  | Some hb =>
      match h with
      | HibPending => if yes (hb_wake hb n) then (hb_incl_wake hb, CNil, HibActive) else (false, CNil, HibPending)
      | HibActive => if yes (hb_sleep hb n) then (hb_incl_sleep hb, CNil, HibRetired) else (true, CNil, HibActive)
      | HibRetired => (false, CErr (Err SkipAll), HibRetired)
      end
  end.

Definition primary_match (c : cfg) (n : node) : bool :=
  match c_scheme c with
  | Some (mkScheme (Some (PrimaryNode f)) _) => yes (f n)
  | Some (mkScheme (Some (PrimarySampler m)) _) =>
      if scope_is_tree (n_scope n) then match m [n_src n] with [] => false | _ => true end else true
  | _ => true
  end.

Definition verdict (c : cfg) (h : hibstate) (n : node) : stage * cbres * hibstate :=
  match hib_verdict c h n with
  | (false, r, h') => (Slept, r, h')
  | (true, r, h') => (if primary_match c n then Called else Rejected, CNil, h')
  end.

Definition listed_files (c : cfg) (n : node) : list fsnode :=
  filter (fun e => negb (fisdir e)) (fst (c_read c (n_path n) (n_src n))).

Definition expected_children (c : cfg) (n : node) (sg : stage) : list fsnode :=
  match sg, c_scheme c with
  | Slept, _ => []
  | _, None => if is_dwf (c_sub c) then c_sort c (listed_files c n) else []
  | Called, Some (mkScheme _ (Some m)) => got (m (c_sort c (listed_files c n)))
  | _, _ => []
  end.

Definition nfiles (c : cfg) (n : node) : nat := length (listed_files c n).

(** What the metrics gain at a node. *)
Definition gain (c : cfg) (n : node) (sg : stage) (m : metrics) : metrics :=
  match sg with
  | Slept => m
  | _ =>
    let m := if has_nanny c then times ChildFilesFound (nfiles c n) m else m in
    let m := match c_scheme c with
             | Some (mkScheme (Some (PrimaryNode _)) _) =>
                 if is_called sg then m
                 else times (if n_isdir n then DirectoriesFilteredOut else FilesFilteredOut) 1 m
             | Some (mkScheme (Some (PrimarySampler _)) _) =>
                 if scope_is_tree (n_scope n) then
                   times (if is_called sg then ChildFilesFound else ChildFilesFilteredOut) (nfiles c n) m
                 else m
             | _ => m
             end in
    let m := match sg, c_scheme c with
             | Called, Some (mkScheme _ (Some mt)) =>
                 times ChildFilesFilteredOut (nfiles c n - length (got (mt (c_sort c (listed_files c n)))))
                   (times ChildFilesFound (length (got (mt (c_sort c (listed_files c n))))) m)
             | _, _ => m
             end in
    if is_called sg then times (if n_isdir n then DirectoriesInvoked else FilesInvoked) 1 m else m
  end.

Definition hib_event (e : event) : bool :=
  match e with EvWake | EvSleep => true | _ => false end.

Definition hib_events_at (c : cfg) (h : hibstate) (n : node) : list event :=
  match c_hib c with
  | None => []
  | Some hb =>
      match h with
      | HibPending => if yes (hb_wake hb n) then [EvWake] else []
      | HibActive => if yes (hb_sleep hb n) then [EvSleep] else []
      | HibRetired => []
      end
  end.

Definition entry : Type := (node * cbres) * stage.
Definition e_called (x : entry) : bool := is_called (snd x).
Definition clear (n : node) : node := with_children [] n.

(** [journal c h J h' evs]: the entries of [J] follow each other from state [h]
    to [h'], with hibernation notifications [evs]. *)
Inductive journal (c : cfg) : hibstate -> list entry -> hibstate -> list event -> Prop :=
| j_nil : forall h, journal c h [] h []
| j_cons : forall h n r sg r0 h1 J h2 evs,
    verdict c h (clear n) = (sg, r0, h1) ->
    (sg <> Called -> r = r0) ->
    n_children n = expected_children c n sg ->
    journal c h1 J h2 evs ->
    journal c h (((n, r), sg) :: J) h2 (hib_events_at c h (clear n) ++ evs).

Lemma journal_app : forall c h1 J1 h2 e1 J2 h3 e2,
  journal c h1 J1 h2 e1 -> journal c h2 J2 h3 e2 -> journal c h1 (J1 ++ J2) h3 (e1 ++ e2).
Proof.
  intros c h1 J1 h2 e1 J2 h3 e2 H. revert J2 h3 e2. induction H; intros J2 h3 e2 HB; cbn; [exact HB|].
  rewrite <- app_assoc. econstructor; eauto.
Qed.

Definition gains (c : cfg) (J : list entry) (m : metrics) : metrics :=
  fold_left (fun m x => gain c (fst (fst x)) (snd x) m) J m.

(** One node. *)
Section One.
Variable c : cfg.
Variable sampling : bool.
Hypothesis HK : hooks_ok c.
Hypothesis Hok : filter_ok c.

Lemma sort_length : forall l, length (c_sort c l) = length l.
Proof. intro l. apply Permutation_length. apply HK. Qed.

Lemma cargo_dirs : forall n,
  c_sub c = SubDirectories \/ c_sub c = SubDirectoriesWithFiles ->
  exists ds, cargo_of c n = Some (listed_files c n, ds).
Proof.
  intros n S. unfold cargo_of, inspect, listed_files, read_contents, files_of, dirs_of.
  destruct (c_read c (n_path n) (n_src n)) as [es er]. destruct S as [-> | ->]; cbn; eauto.
Qed.
Lemma cargo_dir : forall n, n_isdir n = true ->
  exists fs ds, cargo_of c n = Some (fs, ds) /\ length fs = nfiles c n.
Proof.
  intros n S. unfold cargo_of, inspect, nfiles, listed_files, read_contents, files_of, dirs_of.
  destruct (c_read c (n_path n) (n_src n)) as [es er]. rewrite S.
  destruct (c_sub c); cbn; eexists _, _; split; try reflexivity; rewrite ?sort_length; reflexivity.
Qed.

Lemma tree_scope_dir : forall n k s, scope_is_tree (n_scope (extend c "" n k s)) = true -> n_isdir n = true.
Proof.
  intros n k s. unfold extend. destruct (split_path (n_path n)). cbn.
  destruct (n_isdir n); [reflexivity|]. cbn. discriminate.
Qed.

Definition quiet_state (s : st) : Prop := s_items s = chain c sampling false /\ s_mutes s = mutes_none.


(** [k] is the cargo of the node: as the navigator of the subscription makes it *)
Definition cargo_ok (n : node) (k : contents) : Prop :=
  ((c_sub c = SubDirectories \/ c_sub c = SubDirectoriesWithFiles) ->
     exists ds, k = Some (listed_files c n, ds)) /\
  (scope_is_tree (n_scope n) = true -> exists fs ds, k = Some (fs, ds) /\ length fs = nfiles c n).

Definition after_call (n : node) (s : st) : st :=
  emit (EvCall n (c_client c (s_trace s) n))
    (tick_by (if n_isdir n then DirectoriesInvoked else FilesInvoked) 1 s).
Definition call_out (n : node) (s : st) : outcome (option error) :=
  match c_client c (s_trace s) n with
  | CNil => Ret None | CErr e => Ret (Some e) | CPanic p => Pan p end.
Lemma call_out_res : forall n s, res_of (call_out n s) = c_client c (s_trace s) n.
Proof. intros n s. unfold call_out. destruct (c_client c (s_trace s) n); reflexivity. Qed.

Lemma iterate_anchor : forall n k s,
  iterate c [RoleAnchor] n k s = (call_out n s, n, after_call n s).
Proof.
  intros n k s. cbn [iterate link_next]. unfold anchor_next, after_call, call_out.
  cbn [s_trace tick_by set_metrics].
  destruct (c_client c (s_trace s) n); reflexivity.
Qed.
Lemma iterate_tail : forall n k s,
  iterate c (role_if sampling RoleSampler ++ [RoleAnchor]) n k s = (call_out n s, n, after_call n s).
Proof. intros n k s. destruct sampling; cbn [role_if app]; [|apply iterate_anchor].
  change (iterate c [RoleSampler; RoleAnchor] n k s) with (iterate c [RoleAnchor] n k s). apply iterate_anchor. Qed.

Definition rest : list role :=
  role_if (has_nanny c) RoleNanny ++ role_if (has (c_scheme c)) RoleClientFilter ++
  role_if sampling RoleSampler ++ [RoleAnchor].

Definition outcome_at (n : node) (s : st) (o : outcome (option error)) (n1 : node) (s1 : st)
    (sg : stage) (r0 : cbres) (evs : list event) : Prop :=
  (sg <> Called -> res_of o = r0) /\
  n_children n1 = expected_children c n1 sg /\ clear n1 = n /\
  s_metrics s1 = gain c n1 sg (s_metrics s) /\
  s_items s1 = s_items s /\ s_mutes s1 = s_mutes s /\ s_depth s1 = s_depth s /\
  s_trace s1 = s_trace s ++ evs ++ (if is_called sg then [EvCall n1 (res_of o)] else []).

Lemma clear_clear : forall n cs, n_children n = [] -> clear (with_children cs n) = n.
Proof. intros [] cs H. cbn in *. subst. reflexivity. Qed.

Ltac solve_out :=
  unfold outcome_at;
  repeat match goal with |- _ /\ _ => split end;
  try reflexivity; try congruence; try (apply clear_clear; assumption);
  try (rewrite app_nil_r; reflexivity); try (rewrite call_out_res; reflexivity).

Lemma iterate_rest : forall n k s o n1 s1,
  n_children n = [] -> cargo_ok n k ->
  iterate c rest n k s = (o, n1, s1) ->
  s_hib s1 = s_hib s /\
  outcome_at n s o n1 s1 (if primary_match c n then Called else Rejected) CNil [].
Proof.
  intros n k s o n1 s1 CH [K1 K2] H. unfold rest in H.
  destruct (c_scheme c) as [sc|] eqn:SC.
  - assert (NN : has_nanny c = false) by (unfold has_nanny; rewrite SC; apply andb_false_r).
    rewrite NN in H. cbn [role_if app has iterate link_next] in H.
    destruct (proj1 Hok sc SC) as (Hc & Hp & Hf & Hm).
    unfold filter_next in H. rewrite SC in H.
    destruct sc as [[p|] [m|]]; cbn [sc_primary sc_child] in *.
    + (* hybrid *)
      destruct (K1 (Hc ltac:(discriminate))) as [ds ->].
      destruct p as [f|mt].
      * cbn [primary_next] in H. unfold match_next in H.
        assert (PM : primary_match c n = yes (f n)) by (unfold primary_match; rewrite SC; reflexivity).
        rewrite PM. destruct (Hf f eq_refl n) as [fb F]. rewrite F in H |- *. cbn [yes]. destruct fb.
        -- unfold nanny_scheme_next in H. destruct (Hm m eq_refl (c_sort c (listed_files c n))) as [cs CS]. rewrite CS in H. rewrite iterate_tail in H. inversion H; subst o n1 s1.
           split; [reflexivity|]. solve_out.
           ++ unfold expected_children. rewrite SC. change (listed_files c (with_children cs n)) with (listed_files c n). rewrite CS. reflexivity.
           ++ cbn. unfold gain. rewrite SC, NN. cbn [is_called]. change (listed_files c (with_children cs n)) with (listed_files c n). rewrite CS. cbn. unfold nfiles. change (listed_files c (with_children cs n)) with (listed_files c n). rewrite sort_length. reflexivity.
        -- inversion H; subst o n1 s1. split; [reflexivity|]. solve_out.
           ++ unfold expected_children. rewrite SC. exact CH.
           ++ apply (clear_clear n [] CH).
           ++ cbn. unfold gain. rewrite SC, NN. reflexivity.
      * cbn [primary_next] in H. unfold sampler_next in H.
        assert (PM : primary_match c n = if scope_is_tree (n_scope n) then match mt [n_src n] with [] => false | _ => true end else true)
          by (unfold primary_match; rewrite SC; reflexivity).
        rewrite PM. clear PM.
        destruct (scope_is_tree (n_scope n)) eqn:TS.
        -- destruct (match mt [n_src n] with [] => false | _ => true end) eqn:MM.
           ++ unfold nanny_scheme_next in H. destruct (Hm m eq_refl (c_sort c (listed_files c n))) as [cs CS]. rewrite CS in H. rewrite iterate_tail in H. inversion H; subst o n1 s1.
              split; [reflexivity|]. solve_out.
              ** unfold expected_children. rewrite SC. change (listed_files c (with_children cs n)) with (listed_files c n). rewrite CS. reflexivity.
              ** cbn. unfold gain. rewrite SC, NN. cbn [is_called]. change (listed_files c (with_children cs n)) with (listed_files c n). rewrite CS. cbn. rewrite TS. unfold nfiles. change (listed_files c (with_children cs n)) with (listed_files c n). rewrite sort_length. reflexivity.
           ++ inversion H; subst o n1 s1. split; [reflexivity|]. solve_out.
              ** unfold expected_children. rewrite SC. exact CH.
              ** apply (clear_clear n [] CH).
              ** cbn. unfold gain. rewrite SC, NN. cbn. rewrite TS. reflexivity.
        -- unfold nanny_scheme_next in H. destruct (Hm m eq_refl (c_sort c (listed_files c n))) as [cs CS]. rewrite CS in H. rewrite iterate_tail in H. inversion H; subst o n1 s1.
           split; [reflexivity|]. solve_out.
           ++ unfold expected_children. rewrite SC. change (listed_files c (with_children cs n)) with (listed_files c n). rewrite CS. reflexivity.
           ++ cbn. unfold gain. rewrite SC, NN. cbn [is_called]. change (listed_files c (with_children cs n)) with (listed_files c n). rewrite CS. cbn. rewrite TS. unfold nfiles. change (listed_files c (with_children cs n)) with (listed_files c n). rewrite sort_length. reflexivity.
    + (* primary *)
      destruct p as [f|mt].
      * cbn [primary_next] in H. unfold match_next in H.
        assert (PM : primary_match c n = yes (f n)) by (unfold primary_match; rewrite SC; reflexivity).
        rewrite PM. destruct (Hf f eq_refl n) as [fb F]. rewrite F in H |- *. cbn [yes]. destruct fb.
        -- rewrite iterate_tail in H. inversion H; subst o n1 s1.
           split; [reflexivity|]. solve_out.
           ++ unfold expected_children. rewrite SC. exact CH.
           ++ apply (clear_clear n [] CH).
           ++ cbn. unfold gain. rewrite SC, NN. reflexivity.
        -- inversion H; subst o n1 s1. split; [reflexivity|]. solve_out.
           ++ unfold expected_children. rewrite SC. exact CH.
           ++ apply (clear_clear n [] CH).
           ++ cbn. unfold gain. rewrite SC, NN. reflexivity.
      * cbn [primary_next] in H. unfold sampler_next in H.
        assert (PM : primary_match c n = if scope_is_tree (n_scope n) then match mt [n_src n] with [] => false | _ => true end else true)
          by (unfold primary_match; rewrite SC; reflexivity).
        rewrite PM. clear PM.
        destruct (scope_is_tree (n_scope n)) eqn:TS.
        -- destruct (K2 eq_refl) as (fs & ds & -> & LF).
           destruct (match mt [n_src n] with [] => false | _ => true end) eqn:MM.
           ++ rewrite iterate_tail in H. inversion H; subst o n1 s1.
              split; [reflexivity|]. solve_out.
              ** unfold expected_children. rewrite SC. exact CH.
              ** apply (clear_clear n [] CH).
              ** cbn. unfold gain. rewrite SC, NN. cbn. rewrite TS, LF. reflexivity.
           ++ inversion H; subst o n1 s1. split; [reflexivity|]. solve_out.
              ** unfold expected_children. rewrite SC. exact CH.
              ** apply (clear_clear n [] CH).
              ** cbn. unfold gain. rewrite SC, NN. cbn. rewrite TS, LF. reflexivity.
        -- rewrite iterate_tail in H. inversion H; subst o n1 s1.
           split; [reflexivity|]. solve_out.
           ++ unfold expected_children. rewrite SC. exact CH.
           ++ apply (clear_clear n [] CH).
           ++ cbn. unfold gain. rewrite SC, NN. cbn. rewrite TS. reflexivity.
    + (* child only *)
      destruct (K1 (Hc ltac:(discriminate))) as [ds ->].
      assert (PM : primary_match c n = true) by (unfold primary_match; rewrite SC; reflexivity).
      rewrite PM. unfold nanny_scheme_next in H. destruct (Hm m eq_refl (c_sort c (listed_files c n))) as [cs CS]. rewrite CS in H. rewrite iterate_tail in H. inversion H; subst o n1 s1.
      split; [reflexivity|]. solve_out.
      * unfold expected_children. rewrite SC. change (listed_files c (with_children cs n)) with (listed_files c n). rewrite CS. reflexivity.
      * cbn. unfold gain. rewrite SC, NN. cbn [is_called]. change (listed_files c (with_children cs n)) with (listed_files c n). rewrite CS. cbn. unfold nfiles. change (listed_files c (with_children cs n)) with (listed_files c n). rewrite sort_length. reflexivity.
    + exfalso. apply Hp; reflexivity.
  - assert (PM : primary_match c n = true) by (unfold primary_match; rewrite SC; reflexivity).
    rewrite PM. cbn [has role_if] in H. unfold has_nanny in H. rewrite SC in H. cbn [has negb] in H.
    rewrite andb_true_r in H. destruct (is_dwf (c_sub c)) eqn:DW.
    + destruct (c_sub c) eqn:SB; try discriminate.
      destruct (K1 (or_intror eq_refl)) as [ds ->].
      cbn [role_if app iterate link_next nanny_next] in H. rewrite iterate_tail in H.
      inversion H; subst o n1 s1. split; [reflexivity|]. solve_out.
      * unfold expected_children. rewrite SC, SB. reflexivity.
      * cbn. unfold gain, has_nanny. rewrite SC, SB. cbn. unfold nfiles. rewrite sort_length. reflexivity.
    + cbn [role_if app] in H. rewrite iterate_tail in H. inversion H; subst o n1 s1.
      split; [reflexivity|]. solve_out.
      * unfold expected_children. rewrite SC, DW. exact CH.
      * apply (clear_clear n [] CH).
      * cbn. unfold gain, has_nanny. rewrite SC, DW. reflexivity.
Qed.

Lemma iterate_hib : forall n k s o n1 s1,
  s_mutes s = mutes_none ->
  n_children n = [] -> cargo_ok n k ->
  iterate c (chain c sampling false) n k s = (o, n1, s1) ->
  exists sg r0, verdict c (s_hib s) n = (sg, r0, s_hib s1) /\
    outcome_at n s o n1 s1 sg r0 (hib_events_at c (s_hib s) n).
Proof.
  intros n k s o n1 s1 MU CH CK H.
  assert (EQ : chain c sampling false = role_if (has (c_hib c)) RoleHibernate ++ rest)
    by (unfold chain, rest; reflexivity).
  rewrite EQ in H. clear EQ. unfold verdict, hib_verdict, hib_events_at.
  destruct (c_hib c) as [hb|] eqn:HB.
  - cbn [has role_if app] in H.
    assert (I1 : iterate c (RoleHibernate :: rest) n k s =
              match hib_next c n s with
              | (Ret (true, None), n1, s1) => iterate c rest n1 k s1
              | (Ret (_, err), n1, s1) => (Ret err, n1, s1)
              | (Pan p, n1, s1) => (Pan p, n1, s1)
              | (Stuck, n1, s1) => (Stuck, n1, s1)
              end).
    { cbn [iterate link_next]. destruct (hib_next c n s) as [[[[[|] [e|]]|p|] n'] s']; reflexivity. }
    rewrite I1 in H. clear I1. unfold hib_next in H. rewrite HB, MU in H. cbn [mu_wake mu_sleep mutes_none dispatch] in H.
    destruct (s_hib s) eqn:HS.
    + destruct (proj1 (proj2 Hok hb HB n)) as [wb W]. rewrite W in H |- *. cbn [yes]. destruct wb.
      * destruct (hb_incl_wake hb).
        -- destruct (iterate_rest _ _ _ _ _ _ CH CK H) as [E1 (A1 & A2 & A3 & A4 & A5 & A6 & A7 & A8)].
           cbn in E1, A4, A5, A6, A7, A8.
           exists (if primary_match c n then Called else Rejected), CNil.
           rewrite E1. split; [reflexivity|].
           unfold outcome_at. repeat split; auto. rewrite A8, <- app_assoc. reflexivity.
        -- inversion H; subst. exists Slept, CNil. split; [reflexivity|]. solve_out.
           { exact CH. } { apply (clear_clear n1 [] CH). }
      * inversion H; subst. exists Slept, CNil. rewrite HS. split; [reflexivity|]. solve_out.
        { exact CH. } { apply (clear_clear n1 [] CH). }
    + destruct (proj2 (proj2 Hok hb HB n)) as [wb W]. rewrite W in H |- *. cbn [yes]. destruct wb.
      * destruct (hb_incl_sleep hb).
        -- destruct (iterate_rest _ _ _ _ _ _ CH CK H) as [E1 (A1 & A2 & A3 & A4 & A5 & A6 & A7 & A8)].
           cbn in E1, A4, A5, A6, A7, A8.
           exists (if primary_match c n then Called else Rejected), CNil.
           rewrite E1. split; [reflexivity|].
           unfold outcome_at. repeat split; auto. rewrite A8, <- app_assoc. reflexivity.
        -- inversion H; subst. exists Slept, CNil. split; [reflexivity|]. solve_out.
           { exact CH. } { apply (clear_clear n1 [] CH). }
      * destruct (iterate_rest _ _ _ _ _ _ CH CK H) as [E1 OA].
        exists (if primary_match c n then Called else Rejected), CNil. rewrite E1, HS. auto.
    + inversion H; subst. exists Slept, (CErr (Err SkipAll)). rewrite HS. split; [reflexivity|]. solve_out.
      { exact CH. } { apply (clear_clear n1 [] CH). }
  - cbn [has role_if app] in H.
    destruct (iterate_rest _ _ _ _ _ _ CH CK H) as [E1 OA].
    exists (if primary_match c n then Called else Rejected), CNil. rewrite E1. auto.
Qed.

Variable tree : string.

Lemma cargo_ok_ext : forall n s, cargo_ok (ext_of c tree n s) (cargo_of c n).
Proof.
  intros n s. destruct (extend_fields c tree n (cargo_of c n) s) as (X1 & X2 & X3 & _).
  fold (ext_of c tree n s) in X1, X2, X3.
  assert (LF : listed_files c (ext_of c tree n s) = listed_files c n)
    by (unfold listed_files; rewrite X1, X2; reflexivity).
  split.
  - intro S. rewrite LF. apply cargo_dirs; exact S.
  - intro S. unfold nfiles. rewrite LF. apply cargo_dir.
    unfold ext_of, extend in S. destruct (split_path (n_path n)). cbn in S.
    destruct (n_isdir n); [reflexivity|discriminate].
Qed.

Lemma announced_none : forall hb tr, filter hib_event tr = [] -> announced hb tr.
Proof.
  intros hb tr F a e b E H. exfalso. subst tr. rewrite filter_app in F. apply app_eq_nil in F. destruct F as [_ F].
  cbn in F. destruct H as [-> | ->]; discriminate.
Qed.
Lemma announced_app : forall hb t1 t2, announced hb t1 -> announced hb t2 -> announced hb (t1 ++ t2).
Proof.
  intros hb t1 t2 A1 A2 a e b E H.
  assert (S : (exists b', t1 = a ++ e :: b' /\ b = b' ++ t2) \/ (exists a', t2 = a' ++ e :: b)).
  { clear A1 A2. revert a E. induction t1 as [|x t1 IH]; intros a E.
    - right. exists a. exact E.
    - destruct a as [|y a]; cbn in E; inversion E; subst.
      + left. exists t1. split; reflexivity.
      + match goal with X : t1 ++ t2 = a ++ e :: b |- _ => destruct (IH a X) as [(b' & -> & ->)|(a' & ->)] end.
        * left. exists b'. split; reflexivity.
        * right. exists a'. reflexivity. }
  destruct S as [(b' & E1 & ->)|(a' & E2)].
  - destruct (A1 _ _ _ E1 H) as (h & n & r & l & X & Y & Z). exists h, n, r, (l ++ offers t2).
    rewrite offers_app, Y. auto.
  - apply (A2 _ _ _ E2 H).
Qed.

(** The journal of a stretch of the traversal. *)
Definition journaled (s s1 : st) : Prop :=
  s_items s1 = s_items s /\ s_mutes s1 = s_mutes s /\ s_depth s1 = s_depth s /\
  exists tr J,
    s_trace s1 = s_trace s ++ tr /\
    offers tr = map fst J /\
    calls tr = map fst (filter e_called J) /\
    s_metrics s1 = gains c J (s_metrics s) /\
    journal c (s_hib s) J (s_hib s1) (filter hib_event tr) /\ announced (c_hib c) tr.

Lemma journaled_refl : forall s, journaled s s.
Proof.
  intro s. repeat split. exists [], []. rewrite app_nil_r. repeat split; [constructor|apply announced_none; reflexivity].
Qed.
Lemma journaled_trans : forall a b d, journaled a b -> journaled b d -> journaled a d.
Proof.
  intros a b d (I1 & M1 & D1 & t1 & J1 & T1 & O1 & C1 & G1 & L1 & AN1) (I2 & M2 & D2 & t2 & J2 & T2 & O2 & C2 & G2 & L2 & AN2).
  split; [congruence|]. split; [congruence|]. split; [congruence|].
  exists (t1 ++ t2), (J1 ++ J2). repeat split.
  - rewrite T2, T1, app_assoc. reflexivity.
  - rewrite offers_app, map_app, O1, O2. reflexivity.
  - rewrite calls_app, filter_app, map_app, C1, C2. reflexivity.
  - rewrite G2, G1. unfold gains. rewrite fold_left_app. reflexivity.
  - rewrite filter_app. eapply journal_app; eassumption.
  - apply announced_app; assumption.
Qed.

Lemma invoke_journaled : forall n s o n1 s1, quiet_state s -> n_children n = [] ->
  invoke c (ext_of c tree n s) (cargo_of c n) s = (o, n1, s1) -> journaled s s1.
Proof.
  intros n s o n1 s1 [QI QM] CH H. unfold invoke in H. rewrite QI in H.
  destruct (iterate c (chain c sampling false) (ext_of c tree n s) (cargo_of c n) s) as [[io inn] is_] eqn:IT.
  inversion H; subst o n1 s1. clear H.
  assert (CH' : n_children (ext_of c tree n s) = []).
  { destruct (extend_fields c tree n (cargo_of c n) s) as (_ & _ & _ & _ & _ & _ & X7).
    fold (ext_of c tree n s) in X7. congruence. }
  destruct (iterate_hib _ _ _ _ _ _ QM CH' (cargo_ok_ext n s) IT) as (sg & r0 & V & A1 & A2 & A3 & A4 & A5 & A6 & A7 & A8).
  split; [exact A5|]. split; [exact A6|]. split; [exact A7|].
  exists (hib_events_at c (s_hib s) (clear inn) ++ (if is_called sg then [EvCall inn (res_of io)] else []) ++ [EvOffer inn (res_of io)]),
         [((inn, res_of io), sg)].
  assert (HE : forall h m, filter hib_event (hib_events_at c h m) = hib_events_at c h m /\
            offers (hib_events_at c h m) = [] /\ calls (hib_events_at c h m) = []).
  { intros h m. unfold hib_events_at. destruct (c_hib c) as [hb|]; [|auto].
    destruct h; [destruct (hb_wake hb m) as [[|]|]|destruct (hb_sleep hb m) as [[|]|]|]; auto. }
  destruct (HE (s_hib s) (clear inn)) as (HE1 & HE2 & HE3).
  repeat split.
  - cbn [s_trace emit]. rewrite A8, A3, <- !app_assoc. reflexivity.
  - rewrite !offers_app, HE2. destruct (is_called sg); reflexivity.
  - rewrite !calls_app, HE3. unfold e_called; cbn. destruct (is_called sg); reflexivity.
  - exact A4.
  - rewrite !filter_app, HE1.
    replace (filter hib_event (if is_called sg then [EvCall inn (res_of io)] else [])) with (@nil event)
      by (destruct (is_called sg); reflexivity).
    cbn [filter hib_event app]. econstructor.
    + rewrite A3. exact V.
    + exact A1.
    + exact A2.
    + constructor.
  - intros a e b E HE'. unfold hib_events_at in E.
    assert (NC : forall (d e1 : event) a1 b1, (if is_called sg then [EvCall inn (res_of io)] else []) ++ [EvOffer inn (res_of io)] = a1 ++ e1 :: b1 ->
              e1 <> EvWake /\ e1 <> EvSleep).
    { intros d e1 a1 b1 X.
      assert (IN : In e1 ((if is_called sg then [EvCall inn (res_of io)] else []) ++ [EvOffer inn (res_of io)]))
        by (rewrite X; apply in_or_app; right; left; reflexivity).
      destruct (is_called sg); cbn in IN; repeat (destruct IN as [IN|IN]); try contradiction; subst e1; split; discriminate. }
    assert (OF : offers ((if is_called sg then [EvCall inn (res_of io)] else []) ++ [EvOffer inn (res_of io)]) = [(inn, res_of io)])
      by (destruct (is_called sg); reflexivity).
    destruct (c_hib c) as [hb|] eqn:HB.
    + assert (K : forall x, [x] ++ (if is_called sg then [EvCall inn (res_of io)] else []) ++ [EvOffer inn (res_of io)] = a ++ e :: b ->
                x = e /\ offers b = [(inn, res_of io)]).
      { intros x X. destruct a as [|y a]; cbn in X; inversion X; subst.
        - split; [reflexivity|exact OF].
        - exfalso. destruct (NC EvWake _ _ _ H1). destruct HE'; contradiction. }
      assert (K0 : [] ++ (if is_called sg then [EvCall inn (res_of io)] else []) ++ [EvOffer inn (res_of io)] = a ++ e :: b -> False).
      { intro X. cbn [app] in X. destruct (NC EvWake _ _ _ X). destruct HE'; contradiction. }
      destruct (s_hib s); [destruct (hb_wake hb (clear inn)) as [[|]|] eqn:W|destruct (hb_sleep hb (clear inn)) as [[|]|] eqn:W|];
        try (exfalso; apply K0; exact E).
      * destruct (K _ E) as [<- O]. exists hb, inn, (res_of io), []. repeat split; auto. discriminate.
      * destruct (K _ E) as [<- O]. exists hb, inn, (res_of io), []. repeat split; auto. discriminate.
    + exfalso. cbn [app] in E. destruct (NC EvWake _ _ _ E). destruct HE'; contradiction.
Qed.

Theorem run_journaled : forall n s o s1, run c tree n s o s1 ->
  quiet_state s -> n_children n = [] -> journaled s s1.
Proof.
  assert (Q : forall s s', quiet_state s -> journaled s s' -> quiet_state s').
  { intros s s' [A B] (C & D & _). split; congruence. }
  intros n s o s1 HR QS CH.
  refine (proj1 (kernel_inv c tree journaled (fun n s => quiet_state s /\ n_children n = [])
            (fun n s => quiet_state s /\ n_children n = []) (fun n es s => quiet_state s)
            journaled_refl journaled_trans _ _ _ _ _ _ _) n s o s1 HR (conj QS CH)); clear n s o s1 HR QS CH.
  - intros n es s s' A B. eapply Q; eassumption.
  - intros n s s1 [[A B] C] E. destruct (descend_true _ _ _ _ E) as (_ & _ & _ & _ & I & M).
    split; [split; congruence|exact C].
  - intros n nn s s1 s2 [[A B] C] E _ (I2 & M2 & D2 & tr & J & T & O & CC & G & L & AN).
    destruct (descend_true _ _ _ _ E) as (D1 & T1 & G1 & H1 & I1 & M1).
    destruct (ascend_fields nn s2) as (D3 & T3 & G3 & H3 & I3 & M3).
    split; [congruence|]. split; [congruence|]. split; [lia|].
    assert (MU : s_mutes s2 = mutes_none) by congruence.
    rewrite MU in T3. rewrite B in T1. cbn in T1, T3.
    exists ([EvDescend n] ++ tr ++ [EvAscend nn]), J. repeat split.
    + rewrite T3, T, T1, <- !app_assoc. reflexivity.
    + rewrite !offers_app. cbn. rewrite app_nil_r. exact O.
    + rewrite !calls_app. cbn. rewrite app_nil_r. exact CC.
    + rewrite G3, G, G1. reflexivity.
    + rewrite !filter_app. cbn. rewrite app_nil_r, H3, <- H1. exact L.
    + repeat apply announced_app; try exact AN; apply announced_none; reflexivity.
  - intros n s o n1 s1 [A B] _ I. pose proof (invoke_journaled _ _ _ _ _ A B I) as JJ.
    split; [exact JJ|]. intros _. eapply Q; eassumption.
  - intros n s [A B] _ _. exact A.
  - intros n es s i e A _. split; [exact A|reflexivity].
  - intros n es s A. repeat split. exists [EvRescue (saved_of c n s)], []. repeat split; [constructor|]. apply announced_none. reflexivity.
Qed.
End One.
