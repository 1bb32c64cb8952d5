(** Using the same options for a second session (Using.O). *)
From Verif Require Import Base Paths Level Lo Kernel Session Defaults Spec Filters SpecFilter FiltersFacts Hooks Life SpecHooks HooksFacts
  Options Build SpecBuild ReadFacts BuildFacts BuildProps.

(** ** A read hook which answers the same makes the same session *)
Section Ext.
Variable c : cfg.
Variable rd : read_fn.
Hypothesis RD : forall p t, rd p t = c_read c p t.
Notation c' := (with_read rd c).
Lemma iterate_ext : forall rs n k s, iterate c' rs n k s = iterate c rs n k s.
Proof.
  induction rs as [|r rs IH]; intros n k s; [reflexivity|]. cbn [iterate].
  change (link_next c' r n k s) with (link_next c r n k s).
  destruct (link_next c r n k s) as [[[[[|] [e|]]|p|] n1] s1]; try reflexivity. apply IH.
Qed.
Lemma inspect_ext : forall n, inspect c' n = inspect c n.
Proof.
  intro n. unfold inspect, read_contents. cbn [c_read with_read c_sub]. rewrite RD. reflexivity.
Qed.
Lemma traverse_ext : forall f tree n s, traverse f c' tree n s = traverse f c tree n s.
Proof.
  induction f as [|f IH]; intros tree n s; [reflexivity|]. cbn [traverse].
  change (descend c' n s) with (descend c n s). destruct (descend c n s) as [ok s1]. destruct ok; [|reflexivity].
  assert (E : traverse_body c' (traverse f c' tree) tree n s1 = traverse_body c (traverse f c tree) tree n s1);
    [|rewrite E; reflexivity].
  assert (TE : forall p es s, travel c' (traverse f c' tree) p es s = travel c (traverse f c tree) p es s).
  { intros p es s0. unfold travel. rewrite (travel_loop_ext _ (traverse f c tree)) by (intros; apply IH).
    destruct (travel_loop (traverse f c tree) p 0 es s0) as [[r|pv|] s2]; reflexivity. }
  unfold traverse_body. rewrite inspect_ext. destruct (inspect c n) as [[k es] err].
  change (extend c' tree n k s1) with (extend c tree n k s1). set (n1 := extend c tree n k s1).
  change (c_sub c') with (c_sub c). change (c_ask c') with (c_ask c).
  assert (IN : forall m k s, invoke c' m k s = invoke c m k s) by (intros; unfold invoke; rewrite iterate_ext; reflexivity).
  destruct (c_sub c); rewrite ?IN.
  - destruct (n_isdir n1); [|reflexivity].
    destruct err as [e|]; (destruct (c_ask c n1 k _) as [[] [?|]]; try reflexivity; try (unfold with_node; rewrite TE; reflexivity)).
  - destruct (invoke c n1 k s1) as [[[[e|]|p|] n2] s2]; try reflexivity.
    destruct (c_ask c n2 k err) as [[] [?|]]; try reflexivity; try (unfold with_node; rewrite TE; reflexivity).
  - destruct (invoke c n1 k s1) as [[[[e|]|p|] n2] s2]; try reflexivity.
    destruct (c_ask c n2 k err) as [[] [?|]]; try reflexivity; try (unfold with_node; rewrite TE; reflexivity).
  - destruct (invoke c n1 k s1) as [[[[e|]|p|] n2] s2]; try reflexivity.
    destruct (c_ask c n2 k err) as [[] [?|]]; try reflexivity; try (unfold with_node; rewrite TE; reflexivity).
Qed.
Lemma session_ext : forall sampling t, session c' sampling t = session c sampling t.
Proof.
  intros sampling t. unfold session, navigate, top.
  change (start_st c' sampling) with (start_st c sampling).
  change (c_stat c') with (c_stat c). change (c_fault c') with (c_fault c). change (c_tree c') with (c_tree c).
  destruct (c_stat c t); [reflexivity|]. rewrite traverse_ext. reflexivity.
Qed.
End Ext.

(** ** What the plugins add to the options *)
Definition chain_all (ls : list read_listener) (o : options) : options := fold_left (fun o l => chain_read l o) ls o.
Definition chains (ls : list read_listener) (h : hook read_fn read_listener) := fold_left (fun h l => hook_chain l h) ls h.
Definition plan (mt : matchers) (fo : filter_options) (so : sampling_options) (ho : hib_options)
    : option (option scheme * option hibcfg * list read_listener) :=
  let finish made :=
    let l1 := match made with Some (Some (CrSampler m), _) => [filter_listener m] | _ => [] end in
    let l2 := if sampling_active so then [sample_listener so] else [] in
    let hib := if hib_active ho then match hib_of mt ho fo with HcOk h => Some (Some h) | _ => None end else Some None in
    match hib with
    | None => None
    | Some hb =>
        match made with
        | None => Some (None, hb, l1 ++ l2)
        | Some (p, ch) => Some (Some (kernel_scheme mt p ch), hb, l1 ++ l2)
        end
    end in
  if filtering_active fo then
    match create_scheme mt fo so with
    | Ret (p, ch, None) => finish (Some (p, ch))
    | _ => None
    end
  else finish None.
Lemma plugins_plan : forall mt o sub tree cl,
  match plan mt (op_filter o) (op_sampling o) (op_hib o) with
  | Some (sc, hb, ls) => build_plugins mt o sub tree cl =
      (BuildReady (cfg_of (chain_all ls o) sub tree cl sc hb) (sampling_active (op_sampling o)), chain_all ls o)
  | None => forall c smp, fst (build_plugins mt o sub tree cl) <> BuildReady c smp
  end.
Proof.
  intros mt o sub tree cl. unfold plan, build_plugins.
  destruct (filtering_active (op_filter o)).
  - destruct (create_scheme mt (op_filter o) (op_sampling o)) as [[[p ch] [e|]]|q|]; [intros c smp; discriminate| |intros c smp; discriminate..].
    destruct p as [[f|m|m]|]; cbn [op_hib chain_read set_hooks].
    all: destruct (hib_active (op_hib o)).
    all: try (destruct (hib_of mt (op_hib o) (op_filter o)) as [h|e|q]; try (intros c smp; discriminate)).
    all: destruct (sampling_active (op_sampling o)); reflexivity.
  - destruct (hib_active (op_hib o)); [destruct (hib_of mt (op_hib o) (op_filter o)) as [h|e|q];
       [|intros c smp; discriminate..] |];
     destruct (sampling_active (op_sampling o)); reflexivity.
Qed.
Lemma chain_all_rest : forall ls o, op_behaviours (chain_all ls o) = op_behaviours o /\ op_sampling (chain_all ls o) = op_sampling o /\
  op_filter (chain_all ls o) = op_filter o /\ op_hib (chain_all ls o) = op_hib o /\ op_conc (chain_all ls o) = op_conc o /\
  op_defects (chain_all ls o) = op_defects o /\ op_events (chain_all ls o) = op_events o /\
  hk_read (op_hooks (chain_all ls o)) = chains ls (hk_read (op_hooks o)) /\
  same_but_read (op_hooks (chain_all ls o)) (op_hooks o).
Proof.
  induction ls as [|l ls IH]; intro o; [cbn; unfold same_but_read; tauto|].
  cbn [chain_all fold_left]. destruct (IH (chain_read l o)) as (A & B & C & D & E & F & G & H & K & L & M & N).
  unfold chain_all in *. rewrite A, B, C, D, E, F, G, H.
  unfold same_but_read. rewrite K, L, M, N. cbn. tauto.
Qed.

(** What the hook answers after chaining. *)
Definition run_listeners (ls : list read_listener) (p : string) (t : fsnode) (r : list fsnode * option error) :=
  fold_left (fun r l => l (fst r) (snd r) p t) ls r.
Lemma chains_invoke : forall ls (h : hook read_fn read_listener), ls <> [] ->
  (forall p t, hook_invoke broadcast_read (chains ls h) p t =
     match hk_handler h, hk_listeners h with
     | Direct f, _ :: _ => f p t
     | Direct f, [] | Attached f, _ => run_listeners ls p t (run_listeners (hk_listeners h) p t (f p t))
     end).
Proof.
  assert (G : forall ls (h : hook read_fn read_listener), hk_listeners h <> [] ->
     chains ls h = mkHook (hk_handler h) (hk_default h) (hk_listeners h ++ ls)).
  { induction ls as [|l ls IH]; intros h N; [destruct h; cbn; rewrite app_nil_r; reflexivity|]. cbn [chains fold_left].
    change (fold_left (fun h l => hook_chain l h) ls (hook_chain l h)) with (chains ls (hook_chain l h)).
    destruct h as [hd df [|x lst]]; [contradiction|]. rewrite IH; cbn; [rewrite <- app_assoc; reflexivity|discriminate]. }
  intros [|l ls] h N p t; [contradiction|]. cbn [chains fold_left].
  change (fold_left (fun h l => hook_chain l h) ls (hook_chain l h)) with (chains ls (hook_chain l h)).
  destruct h as [hd df [|x lst]]; rewrite G; cbn; try discriminate.
  - destruct hd; reflexivity.
  - destruct hd; [reflexivity|]. unfold hook_invoke, broadcast_read, run_listeners. cbn.
    rewrite <- app_assoc. rewrite fold_left_app. reflexivity.
Qed.

(** ** Filtering and sampling twice is the same as once *)
Definition idle (m : list fsnode -> list fsnode) : Prop :=
  exists sc keep, forall es, m es = sample_matching sc keep es.
Lemma matching_twice : forall sc keep es,
  sample_matching sc keep (sample_matching sc keep es) = sample_matching sc keep es.
Proof.
  intros sc keep es. unfold sample_matching at 1 3, fetch.
  assert (FF : forall l, filter keep (filter keep l) = filter keep l).
  { intro l. induction l as [|x l IH]; [reflexivity|]. cbn. destruct (keep x) eqn:K; cbn; rewrite ?K, IH; reflexivity. }
  destruct (scope_is_directory sc) eqn:D.
  - destruct (sample_dirs sc keep es D) as [-> ->]. rewrite !lo_filter_filter, FF. reflexivity.
  - destruct (scope_is_file sc) eqn:F.
    + unfold sample_matching, fetch. rewrite D, F. rewrite !lo_filter_filter, files_of_app, dirs_of_app.
      destruct (only_files _ (forall_filter _ keep _ (files_are es))) as [-> ->].
      destruct (only_dirs _ (dirs_are es)) as [-> ->]. rewrite app_nil_r. cbn [app]. rewrite FF. reflexivity.
    + unfold sample_matching, fetch. rewrite D, F. rewrite !lo_filter_filter, !app_nil_r, FF. reflexivity.
Qed.
Lemma take_twice : forall (rev : bool) n (l : list fsnode),
  let take k l := (if rev then last_n else first_n) (if Nat.eqb k 0 then length l else k) l in take n (take n l) = take n l.
Proof.
  intros rev n l. cbv zeta. unfold last_n, first_n. destruct rev.
  - set (k := Nat.min (if Nat.eqb n 0 then length l else n) (length l)).
    assert (L : length (skipn (length l - k) l) = k) by (rewrite skipn_length; lia).
    rewrite L. replace (k - Nat.min (if Nat.eqb n 0 then k else n) k) with 0; [reflexivity|].
    destruct (Nat.eqb_spec n 0); subst k; cbn; lia.
  - set (k := Nat.min (if Nat.eqb n 0 then length l else n) (length l)).
    assert (L : length (firstn k l) = k) by (rewrite firstn_length; lia).
    rewrite L, firstn_firstn. f_equal. destruct (Nat.eqb_spec n 0); subst k; cbn; lia.
Qed.
Lemma union_twice : forall so fs ds, Forall (fun e => fisdir e = false) fs -> Forall (fun e => fisdir e = true) ds ->
  union so (files_of (union so fs ds)) (dirs_of (union so fs ds)) = union so fs ds.
Proof.
  intros so fs ds F D. unfold union at 2 3.
  set (tf := if so_reverse so then last_n else first_n).
  assert (TF : forall k l, Forall (fun e => fisdir e = false) l -> Forall (fun e => fisdir e = false) (tf k l)).
  { intros k l H. unfold tf, last_n, first_n. destruct (so_reverse so); [apply forall_skipn|apply forall_firstn]; exact H. }
  assert (TD : forall k l, Forall (fun e => fisdir e = true) l -> Forall (fun e => fisdir e = true) (tf k l)).
  { intros k l H. unfold tf, last_n, first_n. destruct (so_reverse so); [apply forall_skipn|apply forall_firstn]; exact H. }
  rewrite files_of_app, dirs_of_app.
  destruct (only_files _ (TF (if Nat.eqb (so_files so) 0 then length fs else so_files so) fs F)) as [-> ->].
  destruct (only_dirs _ (TD (if Nat.eqb (so_dirs so) 0 then length ds else so_dirs so) ds D)) as [-> ->].
  rewrite app_nil_r. cbn [app]. unfold union. fold tf.
  pose proof (take_twice (so_reverse so) (so_files so) fs) as A. cbv zeta in A. fold tf in A. rewrite A.
  pose proof (take_twice (so_reverse so) (so_dirs so) ds) as B. cbv zeta in B. fold tf in B. rewrite B. reflexivity.
Qed.
Lemma matching_union : forall sc keep so es,
  let es1 := sample_matching sc keep es in
  let u := union so (files_of es1) (dirs_of es1) in
  files_of (sample_matching sc keep u) = files_of u /\ dirs_of (sample_matching sc keep u) = dirs_of u.
Proof.
  intros sc keep so es es1 u.
  assert (K : forall l, Forall (fun e => keep e = true) l -> filter keep l = l) by (intros; apply filter_all; assumption).
  assert (KF : forall l, Forall (fun e => keep e = true) (filter keep l)).
  { intro l. apply Forall_forall. intros x I. apply filter_In in I. apply I. }
  assert (TK : forall (l r : list fsnode) reverse n, taken reverse n l r -> Forall (fun e => keep e = true) l -> Forall (fun e => keep e = true) r).
  { intros l r reverse n [_ [rest E]] F. destruct reverse; rewrite E in F; apply Forall_app in F; apply F. }
  destruct (union_parts so (files_of es1) (dirs_of es1) (files_are _) (dirs_are _)) as [UF UD]. fold u in UF, UD.
  destruct (scope_is_directory sc) eqn:D.
  - destruct (sample_dirs sc keep u D) as [-> ->]. split; [reflexivity|].
    apply K. eapply TK; [exact UD|]. subst es1. destruct (sample_dirs sc keep es D) as [_ ->]. apply KF.
  - destruct (scope_is_file sc) eqn:F.
    + unfold sample_matching, fetch. rewrite D, F. rewrite lo_filter_filter, files_of_app, dirs_of_app.
      destruct (only_files _ (forall_filter _ keep _ (files_are u))) as [-> ->].
      destruct (only_dirs _ (dirs_are u)) as [-> ->]. rewrite app_nil_r. split; [|reflexivity].
      apply K. eapply TK; [exact UF|]. subst es1. unfold sample_matching, fetch. rewrite D, F.
      rewrite lo_filter_filter, files_of_app. destruct (only_files _ (forall_filter _ keep _ (files_are es))) as [-> _].
      destruct (only_dirs _ (dirs_are es)) as [-> _]. rewrite app_nil_r. apply KF.
    + unfold sample_matching, fetch. rewrite D, F. rewrite lo_filter_filter, app_nil_r.
      assert (U : filter keep u = u); [|rewrite U; auto].
      apply K. subst u es1. apply Forall_forall. intros x I. apply union_in in I.
      assert (J : In x (sample_matching sc keep es)) by (destruct I as [I|I]; apply filter_In in I; apply I).
      unfold sample_matching, fetch in J. rewrite D, F, lo_filter_filter, app_nil_r in J. apply filter_In in J. apply J.
Qed.

Definition steady_listeners (ls : list read_listener) : Prop :=
  forall p t r, run_listeners ls p t (run_listeners ls p t r) = run_listeners ls p t r.
Lemma listeners_steady : forall (m : option (list fsnode -> list fsnode)) so (smp : bool),
  (forall f, m = Some f -> idle f) ->
  steady_listeners (match m with Some f => [filter_listener f] | None => [] end ++ (if smp then [sample_listener so] else [])).
Proof.
  intros m so smp ID p t [es err]. unfold run_listeners. destruct m as [f|].
  - destruct (ID f eq_refl) as (sc & keep & EQ). destruct smp; cbn [app fold_left fst snd].
    + unfold filter_listener, sample_listener. cbn [fst snd]. rewrite !EQ.
      destruct (matching_union sc keep so es) as [A B]. cbv zeta in A, B. rewrite A, B.
      rewrite union_twice by (apply files_are || apply dirs_are). reflexivity.
    + unfold filter_listener. cbn [fst snd]. rewrite !EQ, matching_twice. reflexivity.
  - destruct smp; cbn [app fold_left fst snd]; [|reflexivity]. unfold sample_listener. cbn [fst snd].
    rewrite union_twice by (apply files_are || apply dirs_are). reflexivity.
Qed.

(** Every sample filter but a client's own keeps by name. *)
Lemma new_sample_idle : forall mt d so m e, sd_type d <> FtCustom -> new_sample mt d so = (Some m, e) -> idle m.
Proof.
  intros mt d so m e T E. unfold new_sample in E.
  destruct (scope_is_file _ && _); [discriminate|]. destruct (scope_is_directory _ && _); [discriminate|].
  destruct (sd_type d); try discriminate; try contradiction.
  - destruct (mt_regex mt (sd_pattern d)); [|discriminate]. inversion E. eexists _, _. intro; reflexivity.
  - inversion E. eexists _, _. intro; reflexivity.
Qed.
Definition own_sample_filter (fo : filter_options) : Prop := exists d, fo_sample fo = Some d /\ sd_type d = FtCustom.
Lemma plan_listeners : forall mt fo so ho sc hb ls, ~ own_sample_filter fo -> plan mt fo so ho = Some (sc, hb, ls) ->
  exists m, ls = (match m with Some f => [filter_listener f] | None => [] end ++ (if sampling_active so then [sample_listener so] else [])) /\
    forall f, m = Some f -> idle f.
Proof.
  intros mt fo so ho sc hb ls NO E. unfold plan in E.
  assert (CP : forall m e, create_primary mt fo so = Ret (Some (CrSampler m), e) -> idle m).
  { intros m e C. unfold create_primary in C. destruct (fo_custom fo); [discriminate|].
    assert (S : forall sd, fo_sample fo = Some sd -> sd_type sd <> FtCustom) by (intros sd S T; apply NO; exists sd; auto).
    destruct (fo_node fo) as [d|].
    - destruct (node_active fo).
      + destruct (new_filter mt d fo) as [[f [er|]]|q|]; discriminate.
      + destruct (fo_sample fo) as [sd|]; [|discriminate]. destruct (new_sample mt sd so) as [[m'|] [er|]] eqn:N; try discriminate.
        inversion C; subst. eapply new_sample_idle; [apply S; reflexivity|exact N].
    - destruct (fo_sample fo) as [sd|]; [|discriminate]. destruct (new_sample mt sd so) as [[m'|] [er|]] eqn:N; try discriminate.
      inversion C; subst. eapply new_sample_idle; [apply S; reflexivity|exact N]. }
  destruct (filtering_active fo).
  - destruct (create_scheme mt fo so) as [[[p ch] [e|]]|q|] eqn:CS; try discriminate.
    destruct (if hib_active ho then _ else _) as [h|] in E; [|discriminate].
    inversion E; subst.
    destruct p as [[f|m|m]|]; try (exists None; split; [reflexivity|discriminate]).
    exists (Some m). split; [reflexivity|]. intros f EF. inversion EF; subst. apply CP with (e := None).
    unfold create_scheme in CS. destruct (create_primary mt fo so) as [[p' [er|]]|q|]; try discriminate.
    destruct (create_child mt fo) as [ch' e']. inversion CS; subst. reflexivity.
  - destruct (if hib_active ho then _ else _) as [h|] in E; [|discriminate]. inversion E; subst.
    exists None. split; [reflexivity|discriminate].
Qed.

(** ** The second session *)
Lemma afterwards_fields : forall o, op_filter (afterwards o) = op_filter o /\ op_sampling (afterwards o) = op_sampling o /\
  op_hib (afterwards o) = op_hib o /\ op_hooks (afterwards o) = op_hooks o /\ op_defects (afterwards o) = op_defects o /\
  op_events (afterwards o) = op_events o.
Proof. intro o. unfold afterwards. destruct (bh_no_recurse (op_behaviours o)); cbn; tauto. Qed.
Lemma afterwards_twice : forall o o1, op_behaviours o1 = op_behaviours (afterwards o) ->
  op_behaviours (afterwards (push_options o1)) = op_behaviours (afterwards o).
Proof.
  intros o o1 E. unfold afterwards in *. cbn [push_options set_events op_behaviours] in *.
  destruct (bh_no_recurse (op_behaviours o)) eqn:N; cbn in E.
  - rewrite E. reflexivity.
  - rewrite E, N. cbn. exact E.
Qed.

Lemma reuse_same : forall env mt u settings settings2 c1 smp1 o1 t,
  build_prime env mt (FacUsing u) settings = (BuildReady c1 smp1, o1) ->
  ~ own_sample_filter (op_filter o1) ->
  walk_prime env mt (FacUsing (mkUsing (us_tree u) (us_sub u) (us_handler u) (Some o1))) settings2 t =
  walk_prime env mt (FacUsing u) settings t.
Proof.
  intros env mt u settings settings2 c1 smp1 o1 t B NO.
  assert (P : exists o sub cl, using_validate u = None /\ us_sub u = Some sub /\ us_handler u = Some cl /\
     build_plugins mt (afterwards o) sub (us_tree u) cl = (BuildReady c1 smp1, o1)).
  { cbn in B. unfold prime_options in B. destruct (us_options u) as [o|].
    - destruct (using_validate u); [discriminate|]. destruct (us_sub u) as [sub|]; [|discriminate].
      destruct (us_handler u) as [cl|]; [|discriminate]. eauto 10.
    - destruct (get_options env settings) as [o [e|]]; destruct (using_validate u); try discriminate.
      destruct (us_sub u) as [sub|]; [|discriminate].
      destruct (us_handler u) as [cl|]; [|discriminate]. eauto 10. }
  destruct P as (o & sub & cl & V & S & H & P).
  unfold walk_prime. rewrite B. cbn [facade_tree us_tree fst].
  pose proof (plugins_plan mt (afterwards o) sub (us_tree u) cl) as PP.
  destruct (plan mt (op_filter (afterwards o)) (op_sampling (afterwards o)) (op_hib (afterwards o))) as [[[sc hb] ls]|] eqn:PL;
    [|exfalso; eapply PP; rewrite P; reflexivity].
  rewrite P in PP. inversion PP; subst c1 smp1 o1. clear PP.
  destruct (chain_all_rest ls (afterwards o)) as (A1 & A2 & A3 & A4 & A5 & A6 & A7 & A8 & A9).
  set (o1 := chain_all ls (afterwards o)) in *. set (o2 := afterwards (push_options o1)).
  destruct (afterwards_fields (push_options o1)) as (B1 & B2 & B3 & B4 & B5 & B6). fold o2 in B1, B2, B3, B4, B5, B6.
  assert (V2 : using_validate (mkUsing (us_tree u) (us_sub u) (us_handler u) (Some o1)) = None) by exact V.
  cbn [build_prime]. unfold prime_options. rewrite V2. cbn [us_options us_sub us_handler us_tree]. rewrite S, H. fold o2.
  pose proof (plugins_plan mt o2 sub (us_tree u) cl) as PP.
  assert (PL2 : plan mt (op_filter o2) (op_sampling o2) (op_hib o2) = Some (sc, hb, ls)).
  { rewrite B1, B2, B3. cbn [push_options set_events op_filter op_sampling op_hib]. rewrite A2, A3, A4. exact PL. }
  rewrite PL2 in PP. rewrite PP. cbn [fst run_built].
  rewrite B2. cbn [push_options set_events op_sampling]. rewrite A2.
  set (c1 := cfg_of o1 sub (us_tree u) cl sc hb).
  destruct (chain_all_rest ls o2) as (C1 & C2 & C3 & C4 & C5 & C6 & C7 & C8 & C9).
  assert (E : cfg_of (chain_all ls o2) sub (us_tree u) cl sc hb =
     with_read (hook_invoke broadcast_read (chains ls (chains ls (hk_read (op_hooks (afterwards o)))))) c1).
  { subst c1. unfold cfg_of, with_read. cbn. rewrite C1, C6.
    assert (EB : op_behaviours o2 = op_behaviours o1) by (subst o2; rewrite (afterwards_twice o o1) by exact A1; symmetry; exact A1).
    rewrite EB, B5. cbn [push_options set_events op_defects].
    destruct C9 as (K1 & K2 & K3 & K4). rewrite K1, K2, K3, K4, C8, B4. cbn [push_options set_events op_hooks].
    rewrite A8. reflexivity. }
  rewrite E. rewrite session_ext; [reflexivity|].
  intros p t0. subst c1. cbn [cfg_of c_read]. rewrite A8.
  assert (NO2 : ~ own_sample_filter (op_filter (afterwards o))) by (rewrite <- A3; exact NO).
  destruct (plan_listeners _ _ _ _ _ _ _ NO2 PL) as (m & LS & ID).
  pose proof (listeners_steady m (op_sampling (afterwards o)) (sampling_active (op_sampling (afterwards o))) ID) as ST. rewrite <- LS in ST.
  clear - ST. set (h := hk_read (op_hooks (afterwards o))).
  destruct ls as [|l ls]; [reflexivity|].
  rewrite (chains_invoke (l :: ls) (chains (l :: ls) h)) by discriminate. rewrite chains_invoke by discriminate.
  assert (G : forall ls (h : hook read_fn read_listener), hk_listeners h <> [] ->
     chains ls h = mkHook (hk_handler h) (hk_default h) (hk_listeners h ++ ls)).
  { clear. induction ls as [|l ls IH]; intros h N; [destruct h; cbn; rewrite app_nil_r; reflexivity|]. cbn [chains fold_left].
    change (fold_left (fun h l => hook_chain l h) ls (hook_chain l h)) with (chains ls (hook_chain l h)).
    destruct h as [hd df [|x lst]]; [contradiction|]. rewrite IH; cbn; [rewrite <- app_assoc; reflexivity|discriminate]. }
  cbn [chains fold_left].
  change (fold_left (fun h l => hook_chain l h) ls (hook_chain l h)) with (chains ls (hook_chain l h)).
  destruct h as [hd df [|x lst]]; rewrite G; cbn [hook_chain hk_listeners hk_handler hk_default]; try discriminate.
  - destruct hd as [f|f]; cbn [app]; apply ST.
  - destruct hd as [f|f]; cbn [app]; [reflexivity|].
    rewrite <- app_assoc. cbn [app]. 
    change (x :: lst ++ l :: ls) with ((x :: lst) ++ (l :: ls)). unfold run_listeners at 2. rewrite fold_left_app. apply ST.
Qed.
Lemma reuse_silent : forall env mt u settings o tr,
  notified (op_events (snd (build_prime env mt (FacUsing (mkUsing (us_tree u) (us_sub u) (us_handler u) (Some o))) settings))) tr = [].
Proof.
  intros env mt u settings o tr.
  assert (E : op_events (snd (build_prime env mt (FacUsing (mkUsing (us_tree u) (us_sub u) (us_handler u) (Some o))) settings)) = new_controls).
  { cbn. unfold prime_options. cbn [us_options].
    destruct (afterwards_fields (push_options o)) as (_ & _ & _ & _ & _ & E). cbn [push_options set_events op_events] in E.
    set (v := using_validate (mkUsing (us_tree u) (us_sub u) (us_handler u) (Some o))). destruct v; [exact E|].
    destruct (us_sub u) as [sub|]; [|exact E]. destruct (us_handler u) as [cl|]; [|exact E].
    set (o2 := afterwards (push_options o)) in *. unfold build_plugins.
    destruct (if filtering_active (op_filter o2) then _ else _) as [[made err]|q|]; [|exact E|exact E].
    assert (X : forall l o, op_events (chain_read l o) = op_events o) by reflexivity.
    destruct made as [[[[f|m|m]|] ch]|]; (destruct err; [exact E|]); rewrite ?X;
      cbn [op_hib chain_read set_hooks];
      (destruct (if hib_active (op_hib o2) then _ else _) as [hb|y]; [|destruct y; exact E]);
      destruct (sampling_active (op_sampling o2)); exact E. }
  rewrite E. unfold notified. induction tr as [|e tr IH]; [reflexivity|]. cbn [flat_map]. rewrite IH. destruct (notice_of e); reflexivity.
Qed.
