(** Sessions built from a facade and options. *)
From Verif Require Import Base Paths Level Lo Kernel Session Defaults Spec Filters SpecFilter FiltersFacts Hooks Life SpecHooks HooksFacts
  Options Build SpecBuild WalkFacts WalkCor WalkProps PathFacts ReadFacts Cases CasesFacts BuildFacts.
From Coq Require Import Sorted.

(** ** The configuration of a session which is ready *)
Definition same_but_read (k k' : hooks) : Prop :=
  hk_file_sub k = hk_file_sub k' /\ hk_dir_sub k = hk_dir_sub k' /\ hk_stat k = hk_stat k' /\ hk_sort k = hk_sort k'.
Lemma ready_cfg : forall mt o sub tree cl c smp,
  fst (build_plugins mt o sub tree cl) = BuildReady c smp ->
  smp = sampling_active (op_sampling o) /\
  exists o2 sc hb, c = cfg_of o2 sub tree cl sc hb /\ op_behaviours o2 = op_behaviours o /\
    op_defects o2 = op_defects o /\ same_but_read (op_hooks o2) (op_hooks o).
Proof.
  intros mt o sub tree cl c smp E. unfold build_plugins in E.
  destruct (if filtering_active (op_filter o) then _ else _) as [[made err]|q|] in E; try discriminate.
  set (o1 := match made with Some (Some (CrSampler m), _) => chain_read (filter_listener m) o | _ => o end) in *.
  assert (O1 : op_behaviours o1 = op_behaviours o /\ op_defects o1 = op_defects o /\ op_hib o1 = op_hib o /\
               same_but_read (op_hooks o1) (op_hooks o)).
  { subst o1. destruct made as [[[[f|m|m]|] ch]|]; repeat split; reflexivity. }
  destruct err as [e|]; [discriminate|].
  destruct O1 as (B1 & D1 & H1 & K1).
  set (o2 := if sampling_active (op_sampling o) then chain_read (sample_listener (op_sampling o)) o1 else o1) in *.
  assert (O2 : op_behaviours o2 = op_behaviours o /\ op_defects o2 = op_defects o /\ same_but_read (op_hooks o2) (op_hooks o)).
  { subst o2. destruct (sampling_active (op_sampling o)); [|auto]. cbn. repeat split; try assumption; apply K1. }
  destruct (if hib_active (op_hib o1) then _ else _) as [hb|x] in E; [|destruct x; discriminate].
  destruct made as [[p ch]|].
  - cbn in E. inversion E; subst c smp. split; [reflexivity|]. eexists o2, _, hb. split; [reflexivity|tauto].
  - cbn in E. inversion E; subst c smp. split; [reflexivity|]. exists o2, None, hb. tauto.
Qed.

Lemma ready_prime : forall env mt u settings c smp, us_options u = None ->
  fst (build_prime env mt (FacUsing u) settings) = BuildReady c smp ->
  exists o sub cl, complete_facade u /\ get_options env settings = (o, None) /\
    us_sub u = Some sub /\ us_handler u = Some cl /\
    fst (build_plugins mt (afterwards o) sub (us_tree u) cl) = BuildReady c smp.
Proof.
  intros env mt u settings c smp N E. cbn in E. unfold prime_options in E. rewrite N in E.
  destruct (get_options env settings) as [o err] eqn:G.
  destruct (using_validate u) as [ve|] eqn:V; [discriminate|]. destruct err as [er|]; [discriminate|].
  destruct (us_sub u) as [sub|] eqn:S; [|discriminate]. destruct (us_handler u) as [cl|] eqn:H; [|discriminate].
  exists o, sub, cl. split; [apply using_valid; exact V|]. split; [reflexivity|]. split; [reflexivity|]. split; [reflexivity|exact E].
Qed.

(** ** NoRecurse *)
Lemma no_recurse_depth : forall env mt u ws c smp, us_options u = None ->
  latest sets_no_recurse ws false = true ->
  fst (build_prime env mt (FacUsing u) (options_of env ws)) = BuildReady c smp -> c_depth c = 1%N.
Proof.
  intros env mt u ws c smp N L E. apply ready_prime in E; [|assumption].
  destruct E as (o & sub & cl & _ & G & _ & _ & E). apply with_effective in G. destruct G as [_ G].
  destruct G as (_ & _ & _ & NR & _). rewrite L in NR.
  apply ready_cfg in E. destruct E as (_ & o2 & sc & hb & -> & B & _). cbn [cfg_of c_depth]. rewrite B.
  unfold afterwards. rewrite NR. reflexivity.
Qed.

Fixpoint number_from {A} (i : nat) (l : list A) : list (nat * A) :=
  match l with [] => [] | x :: r => (i, x) :: number_from (S i) r end.
Definition entry_place (path : string) (x : nat * fsnode) : place :=
  mkPlace [fst x] (join path (fname (snd x))) (snd x).

Lemma preorder_longer : forall es,
  (forall pos path t P, preorder es pos path t P -> forall p, In p P -> length pos <= length (pl_pos p)) /\
  (forall pos path i l P, preorders es pos path i l P -> forall p, In p P -> S (length pos) <= length (pl_pos p)).
Proof.
  intro es. apply preorder_both.
  - intros pos path t l H IH p [<-|I]; [cbn; lia|]. specialize (IH p I). lia.
  - intros pos path i p [].
  - intros pos path i e rest l1 l2 H1 IH1 H2 IH2 p I. apply in_app_or in I. destruct I as [I|I]; [|auto].
    specialize (IH1 p I). rewrite app_length in IH1. cbn in IH1. lia.
Qed.
Lemma within_one : forall p, within 1 0 p = Nat.leb (length (pl_pos p)) 1.
Proof.
  intro p. unfold within. change (1 =? 0)%N with false. change (int_of_uint 1) with 1%Z. cbn [orb].
  destruct (Nat.leb_spec (length (pl_pos p)) 1); [apply Z.leb_le|apply Z.leb_gt]; lia.
Qed.
Lemma filter_none : forall (A : Type) (f : A -> bool) l, (forall x, In x l -> f x = false) -> filter f l = [].
Proof.
  intros A f l H. induction l as [|x r IH]; [reflexivity|]. cbn. rewrite H by (left; reflexivity).
  apply IH. intros y I. apply H. right. exact I.
Qed.
Lemma one_level : forall es path i l P, preorders es [] path i l P ->
  filter (within 1 0) P = map (entry_place path) (number_from i l).
Proof.
  intros es path i l P H. remember (@nil nat) as pos eqn:EP.
  induction H as [pos path i|pos path i e rest l1 l2 H1 H2 IH]; [reflexivity|]. subst pos.
  rewrite filter_app, IH by reflexivity. cbn [number_from map]. 
  inversion H1 as [pos' path' t' l' K]; subst. cbn [filter app]. rewrite within_one. cbn [pl_pos length app Nat.leb].
  f_equal. rewrite filter_none; [reflexivity|]. intros p I. rewrite within_one.
  apply (proj2 (preorder_longer es)) with (p := p) in K; [|exact I]. cbn in K. apply Nat.leb_gt. lia.
Qed.

Lemma no_recurse_visits : forall env mt u ws c smp t, us_options u = None ->
  latest sets_no_recurse ws false = true ->
  fst (build_prime env mt (FacUsing u) (options_of env ws)) = BuildReady c smp ->
  hooks_ok c -> root_ok c t -> default_skip c -> plain c -> nil_callback c -> c_sub c = SubUniversal ->
  exists tr m, walk_prime env mt (FacUsing u) (options_of env ws) t = mkReport (Ret None) tr m /\
    map place_of (map fst (calls tr)) =
      mkPlace [] (us_tree u) t :: map (entry_place (us_tree u)) (number_from 0 (entries_all c (us_tree u) t)).
Proof.
  intros env mt u ws c smp t N L E HO RO DS PL NC SU.
  assert (D := no_recurse_depth _ _ _ _ _ _ N L E).
  destruct (listing_exact c HO t) as (P & HP & _).
  destruct (universal_nil c smp t P HO RO DS PL NC SU HP) as (s & S & V).
  assert (T : c_tree c = us_tree u).
  { apply ready_prime in E; [|assumption]. destruct E as (o & sub & cl & _ & _ & _ & _ & E).
    apply ready_cfg in E. destruct E as (_ & o2 & sc & hb & -> & _). reflexivity. }
  exists (s_trace s), (Some (s_metrics s)). split.
  - unfold walk_prime. rewrite E. cbn [run_built]. rewrite S. reflexivity.
  - unfold visited in V. rewrite V, D. inversion HP as [pos path t' l K]; subst. rewrite <- T.
    cbn [filter]. rewrite within_one. cbn [pl_pos length Nat.leb]. f_equal.
    apply one_level with (es := entries_all c). exact K.
Qed.

(** ** The case sensitivity setting is ignored *)
Lemma plugins_case : forall mt o b sub tree cl,
  fst (build_plugins mt (set_behaviours (mkBehaviours (bh_keep_sep (op_behaviours o)) b
    (bh_files_first (op_behaviours o)) (bh_depth (op_behaviours o)) (bh_no_recurse (op_behaviours o))) o) sub tree cl) =
  fst (build_plugins mt o sub tree cl).
Proof.
  intros mt o b sub tree cl. unfold build_plugins.
  destruct o as [bh so fo ho co ev hk df]. cbn [op_filter op_sampling set_behaviours].
  destruct (if filtering_active fo then _ else _) as [[made err]|q|]; [|reflexivity|reflexivity].
  destruct made as [[[[f|m|m]|] ch]|]; cbn [op_hib chain_read set_hooks set_behaviours];
    (destruct err as [e|]; [reflexivity|]);
    (destruct (if hib_active ho then _ else _) as [hb|x]; [|destruct x; reflexivity]);
    destruct (sampling_active so); reflexivity.
Qed.

Lemma case_ignored : forall env mt u settings x y z t, us_options u = None ->
  walk_prime env mt (FacUsing u) (settings ++ [Some (with_setting env (WithSortBehaviour x z))]) t =
  walk_prime env mt (FacUsing u) (settings ++ [Some (with_setting env (WithSortBehaviour y z))]) t.
Proof.
  intros env mt u settings x y z t N. unfold walk_prime. f_equal. cbn. unfold prime_options. rewrite N.
  unfold get_options. rewrite !apply_app. destruct (apply settings (default_options env)) as [o [e|]].
  - destruct (using_validate u); reflexivity.
  - cbn. destruct (using_validate u); [reflexivity|].
    destruct (us_sub u) as [sub|]; [|reflexivity]. destruct (us_handler u) as [cl|]; [|reflexivity].
    destruct o as [bh so fo ho co ev hk df]. destruct bh as [b1 b2 b3 b4 b5].
    set (mk v := afterwards (set_behaviours (mkBehaviours b1 v z b4 b5) (mkOptions (mkBehaviours b1 b2 b3 b4 b5) so fo ho co ev hk df))).
    change (fst (build_plugins mt (mk x) sub (us_tree u) cl) = fst (build_plugins mt (mk y) sub (us_tree u) cl)).
    rewrite <- (plugins_case mt (mk x) y). f_equal. f_equal.
    subst mk. unfold afterwards. cbn. destruct b5; reflexivity.
Qed.

Lemma case_hook_order : forall env mt u ws c smp t r n m, us_options u = None ->
  latest sets_sort ws default_sort = case_sensitive_sort ->
  fst (build_prime env mt (FacUsing u) (options_of env ws)) = BuildReady c smp ->
  hooks_ok c -> root_ok c t -> default_skip c -> filter_ok c ->
  walk_prime env mt (FacUsing u) (options_of env ws) t = r ->
  (exists a b d, map fst (calls (rp_trace r)) = a ++ n :: b ++ m :: d) -> siblings n m ->
  fisdir (n_src n) = fisdir (n_src m) -> (fname (n_src n) <=? fname (n_src m))%string = true.
Proof.
  intros env mt u ws c smp t r n m N L E HO RO DS FK W EA SI SK.
  unfold walk_prime in W. rewrite E in W. cbn in W. destruct (session c smp t) as [o s] eqn:S. inversion W; subst r. cbn in EA.
  change (key_le (fun s => s) (n_src n) (n_src m)).
  eapply (group_sorted c smp t o s n m); eauto.
  intro l. apply ready_prime in E; [|assumption]. destruct E as (o1 & sub & cl & _ & G & _ & _ & E).
  apply with_effective in G. destruct G as [_ G]. unfold effective in G.
  assert (SO : hook_invoke broadcast_sort (hk_sort (op_hooks o1)) = latest sets_sort ws default_sort) by tauto.
  apply ready_cfg in E. destruct E as (_ & o2 & sc & hb & -> & _ & _ & K). cbn [cfg_of c_sort].
  destruct K as (_ & _ & _ & K). rewrite K.
  assert (X : hk_sort (op_hooks (afterwards o1)) = hk_sort (op_hooks o1)) by (unfold afterwards; destruct (bh_no_recurse _); reflexivity).
  rewrite X, SO, L. apply sort_by_sorted.
Qed.
