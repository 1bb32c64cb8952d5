(** A filtered session stopped by a panic and resumed with the same filter: proofs. *)
From Verif Require Import Base Paths Level Lo Collections Kernel Session Spec KernelRel KernelFacts
  KernelInv WalkFacts StandsFacts JournalFacts SessionFacts RescueFacts WalkCor PathFacts WalkProps Simulate Feature Cases Resume SpecResume SpawnFacts FastFacts FastProps
  RecoverFacts SpawnOrder InterruptFacts FastRelayFacts ResumeFilter.
Local Open Scope list_scope.

Lemma call_cut : forall (tr : list event) x l r, calls tr = l ++ x :: r -> exists a b, tr = a ++ EvCall (fst x) (snd x) :: b /\ calls a = l.
Proof.
  induction tr as [|e tr IH]; intros x l r E; [destruct l; discriminate|].
  assert (D : (exists m q, e = EvCall m q) \/ calls (e :: tr) = calls tr) by (destruct e; [..]; eauto).
  destruct D as [(m & q & ->)|C].
  - cbn in E. destruct l as [|y l].
    + cbn in E. inversion E; subst. exists [], tr. split; reflexivity.
    + cbn in E. inversion E; subst. destruct (IH _ _ _ H1) as (a & b & -> & CA). exists (EvCall m q :: a), b.
      split; [reflexivity|]. cbn. rewrite CA. reflexivity.
  - rewrite C in E. destruct (IH _ _ _ E) as (a & b & -> & CA). exists (e :: a), b. split; [reflexivity|].
    change (e :: a) with ([e] ++ a). change (e :: a ++ EvCall (fst x) (snd x) :: b) with ([e] ++ (a ++ EvCall (fst x) (snd x) :: b)) in C.
    rewrite calls_app in C. rewrite calls_app, CA. destruct (calls [e]) as [|z zs] eqn:Z; [reflexivity|].
    exfalso. apply (f_equal (@length _)) in C. rewrite app_length in C. cbn in C. lia.
Qed.

Section Stopped.
Variable c : cfg.
Variable f : node -> bool.
Variable g : list (node * cbres) -> node -> cbres.
Variable asking : node -> asked bool.
Hypothesis AK : forall n, asking n = inl (f n).
Variable sampling : bool.
Variable t : fsnode.
Variables (o : outcome (option error)) (s : st) (pre : list (node * cbres)) (n : node) (p : panicv).
Hypothesis ND : c_sub c <> SubDirectoriesWithFiles.
Hypothesis HK : hooks_ok c.
Hypothesis RO : root_ok c t.
Notation c1 := (with_features (Some (mkScheme (Some (PrimaryNode asking)) None)) None (on_calls g) c).
Notation c2 := (with_features None None (ignoring f g) c).
Hypothesis H : session c1 sampling t = (o, s).
Hypothesis EC : calls (s_trace s) = pre ++ [(n, CPanic p)].
Hypothesis FN : Forall (fun x => snd x = CNil) pre.

(** The session without the filter, whose callback ignores what is not accepted,
    is stopped at the same node. *)
Lemma ignored_stops : n_pos n <> [] ->
  exists o2 s2 pre2, session c2 sampling t = (o2, s2) /\ calls (s_trace s2) = pre2 ++ [(n, CPanic p)] /\
    Forall (fun x => snd x = CNil) pre2 /\ visited s = filter f (visited s2) /\
    exists sv dn, rescues (s_trace s) = [sv] /\ n_parent n = Some dn /\ sv_tree sv = c_tree c /\ sv_sub sv = c_sub c /\ sv_path sv = n_path dn.
Proof.
  intro NP.
  destruct (session c2 sampling t) as [o2 s2] eqn:H2.
  pose proof (asked_session c f g sampling ND asking AK (ignoring f g) (fun _ _ => eq_refl) t o s o2 s2 H H2) as CF.
  assert (IN1 : In (n, CPanic p) (calls (s_trace s))) by (rewrite EC; apply in_or_app; right; left; reflexivity).
  assert (IN2 := IN1). rewrite CF in IN2. apply filter_In in IN2. destruct IN2 as [IN2 FT]. cbn [fst] in FT.
  assert (O1 : filter_ok c1).
  { split; [|discriminate]. intros sc E. inversion E; subst sc. cbn. split; [intro X; exfalso; apply X; reflexivity|].
    split; [discriminate|]. split; [|discriminate]. intros f0 F m. inversion F; subst. exists (f m). apply AK. }
  assert (O2 : filter_ok c2) by (split; discriminate).
  destruct (panic_rescued c1 sampling t o s n p HK RO O1 H IN1 NP) as (_ & sv & _ & _ & _ & RS & _ & _ & (dn & EN & ST & SS & SP & _)).
  destruct (panic_rescued c2 sampling t o2 s2 n p HK RO O2 H2 IN2 NP) as (pre2 & _ & _ & E2 & _).
  exists o2, s2, pre2. split; [reflexivity|]. split; [exact E2|]. split; [|split].
  - assert (FP : filter (fun x => f (fst x)) pre2 = pre).
    { rewrite E2, filter_app in CF. cbn [filter fst] in CF. rewrite FT in CF. rewrite EC in CF. apply app_inj_tail in CF. symmetry. apply CF. }
    apply Forall_forall. intros x Hx. destruct (f (fst x)) eqn:FX.
    + rewrite Forall_forall in FN. apply FN. rewrite <- FP. apply filter_In. auto.
    + apply in_split in Hx. destruct Hx as (l & r & ->). rewrite <- app_assoc in E2. cbn [app] in E2.
      destruct (call_cut _ _ _ _ E2) as (a & b & TR & _).
      rewrite (session_replies c2 sampling t o2 s2 HK RO H2 _ _ _ _ TR). cbn [with_features c_client]. unfold ignoring. rewrite FX. reflexivity.
  - unfold visited. rewrite CF, map_fst_filter. reflexivity.
  - exists sv, dn. auto 10.
Qed.
End Stopped.

Lemma filter_things : forall (f : node -> bool) h l, (forall n, f n = h (thing (place_of n))) ->
  map thing (map place_of (filter f l)) = filter h (map thing (map place_of l)).
Proof.
  intros f h l E. induction l as [|x l IH]; [reflexivity|]. cbn. rewrite (E x). destruct (h (thing (place_of x))); cbn; rewrite IH; reflexivity.
Qed.
Lemma filter_places : forall (f : node -> bool) h l, (forall n, f n = h (place_of n)) ->
  map place_of (filter f l) = filter h (map place_of l).
Proof.
  intros f h l E. induction l as [|x l IH]; [reflexivity|]. cbn. rewrite (E x). destruct (h (place_of x)); cbn; rewrite IH; reflexivity.
Qed.

Theorem asked_spawn_recovers : forall c f h g asking sampling pc dk o s pre n dn gd p P,
  let t := dk (c_tree c) in
  hooks_ok c -> root_ok c t -> default_skip c -> c_sub c = SubUniversal -> c_depth c = 0%N ->
  stable_sort c -> clean (c_tree c) = c_tree c -> proper_names t ->
  preorder (entries_all c) [] (c_tree c) t P -> tidy c pc dk P ->
  (forall m, f m = h (thing (place_of m))) -> (forall m, asking m = inl (f m)) ->
  session (with_features (Some (mkScheme (Some (PrimaryNode asking)) None)) None (on_calls g) c) sampling t = (o, s) ->
  calls (s_trace s) = pre ++ [(n, CPanic p)] -> Forall (fun x => snd x = CNil) pre ->
  n_parent n = Some dn -> n_parent dn = Some gd ->
  exists sv old again new,
    rescues (s_trace s) = [sv] /\ sv_tree sv = c_tree c /\ sv_sub sv = c_sub c /\ sv_path sv = n_path dn /\
    P = (old ++ place_of dn :: again) ++ new /\
    map place_of (visited s) = filter (fun q => h (thing q)) (old ++ place_of dn :: again) /\
    Forall (fun q => above (n_pos dn) (pl_pos q) = true) again /\
    forall sv', sv_tree sv' = sv_tree sv -> sv_path sv' = sv_path sv ->
    exists s2, spawn_session (with_features (Some (mkScheme (Some (PrimaryNode asking)) None)) None client_nil c) sampling pc dk sv' = (Ret None, true, s2) /\
      map thing (map place_of (visited s2)) = filter h (map thing (place_of dn :: again ++ new)).
Proof.
  intros c f h g asking sampling pc dk o s pre n dn gd p P t HK RO DS SU DZ SS CL PN HP TD FH AK H EC FN EN ED.
  assert (NP : n_pos n <> []).
  { pose proof (visited_stands (with_features (Some (mkScheme (Some (PrimaryNode asking)) None)) None (on_calls g) c) sampling t _ _ HK RO H) as VS. rewrite Forall_forall in VS.
    assert (SN := VS n ltac:(unfold visited; rewrite EC, map_app; apply in_or_app; right; left; reflexivity)).
    inversion SN as [n' E1 E2 E3 E4|q i e n' HPq NT E1 E2 E3 E4]; subst n'; [congruence|].
    rewrite E4. intro X. apply app_eq_nil in X. destruct X. discriminate. }
  assert (ND : c_sub c <> SubDirectoriesWithFiles) by (rewrite SU; discriminate).
  destruct (ignored_stops c f g asking AK sampling t o s pre n p ND HK RO H EC FN NP) as (o2 & s2 & pre2 & H2 & E2 & F2 & V & sv & dn' & RS & EN' & ST & SU2 & SP).
  assert (dn' = dn) by congruence. subst dn'.
  set (c2 := with_features None None (ignoring f g) c) in *.
  destruct (spawn_recovers c2 sampling pc dk o2 s2 pre2 n dn gd p P HK RO DS (conj eq_refl eq_refl) SU DZ SS CL PN HP TD H2 E2 F2 EN ED)
    as (sv2 & old & m & again & new & _ & ST2 & SP2 & EP & EV & EM & FA & REST).
  change (c_tree c2) with (c_tree c) in ST2.
  exists sv, (map place_of old), (map place_of again), new. split; [exact RS|]. split; [exact ST|]. split; [exact SU2|]. split; [exact SP|].
  assert (MV : map place_of (visited s2) = map place_of old ++ place_of dn :: map place_of again) by (rewrite EV, map_app, <- EM; reflexivity).
  split; [rewrite <- MV; exact EP|]. split; [rewrite <- MV, V; apply filter_places; exact FH|].
  split; [rewrite Forall_map; exact FA|].
  intros sv' T' P'. destruct (REST sv') as (x & RX & VX); [congruence|congruence|].
  destruct (spawn_session (with_features (Some (mkScheme (Some (PrimaryNode asking)) None)) None client_nil c) sampling pc dk sv') as [[o3 ok3] s3] eqn:H3.
  destruct (asked_spawn c f (fun _ _ => CNil) sampling ND asking AK client_nil) with (3 := RX) (o1 := o3) (ok1 := ok3) (s1 := s3)
    as (A & B & C); [|exact H3|].
  - intros tr k. unfold ignoring. rewrite if_same. reflexivity.
  - exists s3. apply never_raises in A. subst o3 ok3. split; [reflexivity|].
    assert (V3 : visited s3 = filter f (visited x)) by (unfold visited; rewrite C, map_fst_filter; reflexivity).
    rewrite V3, (filter_things f h _ FH), VX. cbn [map app]. rewrite <- EM. reflexivity.
Qed.

Theorem filtered_spawn_recovers : forall c f h g sampling pc dk o s pre n dn gd p P,
  let t := dk (c_tree c) in
  hooks_ok c -> root_ok c t -> default_skip c -> c_sub c = SubUniversal -> c_depth c = 0%N ->
  stable_sort c -> clean (c_tree c) = c_tree c -> proper_names t ->
  preorder (entries_all c) [] (c_tree c) t P -> tidy c pc dk P ->
  (forall m, f m = h (thing (place_of m))) ->
  session (with_features (node_filter f) None (on_calls g) c) sampling t = (o, s) ->
  calls (s_trace s) = pre ++ [(n, CPanic p)] -> Forall (fun x => snd x = CNil) pre ->
  n_parent n = Some dn -> n_parent dn = Some gd ->
  exists sv old again new,
    rescues (s_trace s) = [sv] /\ sv_tree sv = c_tree c /\ sv_path sv = n_path dn /\
    P = (old ++ place_of dn :: again) ++ new /\
    map place_of (visited s) = filter (fun q => h (thing q)) (old ++ place_of dn :: again) /\
    Forall (fun q => above (n_pos dn) (pl_pos q) = true) again /\
    forall sv', sv_tree sv' = sv_tree sv -> sv_path sv' = sv_path sv ->
    exists s2, spawn_session (with_features (node_filter f) None client_nil c) sampling pc dk sv' = (Ret None, true, s2) /\
      map thing (map place_of (visited s2)) = filter h (map thing (place_of dn :: again ++ new)).
Proof.
  intros c f h g sampling pc dk o s pre n dn gd p P t HK RO DS SU DZ SS CL PN HP TD FH H EC FN EN ED.
  destruct (asked_spawn_recovers c f h g (fun m => inl (f m)) sampling pc dk o s pre n dn gd p P HK RO DS SU DZ SS CL PN HP TD FH
    (fun _ => eq_refl) H EC FN EN ED) as (sv & old & again & new & A & B & _ & D). exists sv, old, again, new. auto.
Qed.

Theorem filtered_fastward_recovers_sub : forall c f h g sampling pc dk o s pre n dn gd p P,
  let t := dk (c_tree c) in
  hooks_ok c -> root_ok c t -> default_skip c -> c_sub c = SubUniversal \/ c_sub c = SubDirectories ->
  clean (c_tree c) = c_tree c -> proper_names t ->
  preorder (entries c) [] (c_tree c) t P -> distinct_names c (c_tree c) t ->
  (forall m, f m = h (place_of m)) ->
  session (with_features (node_filter f) None (on_calls g) c) sampling t = (o, s) ->
  calls (s_trace s) = pre ++ [(n, CPanic p)] -> Forall (fun x => snd x = CNil) pre ->
  n_parent n = Some dn -> n_parent dn = Some gd ->
  n_name dn <> snd (split_path (c_tree c)) -> n_path gd <> "."%string -> sound_at pc (n_path gd) ->
  f dn = true ->
  exists sv old again new,
    rescues (s_trace s) = [sv] /\ sv_tree sv = c_tree c /\ sv_sub sv = c_sub c /\ sv_path sv = n_path dn /\
    filter (within (c_depth c) 0) P = (old ++ place_of dn :: again) ++ new /\
    map place_of (visited s) = filter h (old ++ place_of dn :: again) /\
    Forall (fun q => above (n_pos dn) (pl_pos q) = true) again /\
    forall sv', sv_tree sv' = sv_tree sv -> sv_path sv' = sv_path sv ->
    exists s2, fastward_session true (with_features (node_filter f) None client_nil c) sampling pc dk sv' = (Ret None, s2) /\
      map place_of (visited s2) = filter h (place_of dn :: again ++ new).
Proof.
  intros c f h g sampling pc dk o s pre n dn gd p P t HK RO DS SU CL PN HP UN FH H EC FN EN ED NB NDT SA FD.
  assert (NP : n_pos n <> []).
  { pose proof (visited_stands (with_features (node_filter f) None (on_calls g) c) sampling t _ _ HK RO H) as VS. rewrite Forall_forall in VS.
    assert (SN := VS n ltac:(unfold visited; rewrite EC, map_app; apply in_or_app; right; left; reflexivity)).
    inversion SN as [n' E1 E2 E3 E4|q i e n' HPq NT E1 E2 E3 E4]; subst n'; [congruence|].
    rewrite E4. intro X. apply app_eq_nil in X. destruct X. discriminate. }
  assert (ND : c_sub c <> SubDirectoriesWithFiles) by (destruct SU as [-> | ->]; discriminate).
  assert (NF : c_sub c <> SubFiles) by (destruct SU as [-> | ->]; discriminate).
  destruct (ignored_stops c f g (fun m => inl (f m)) (fun _ => eq_refl) sampling t o s pre n p ND HK RO H EC FN NP) as (o2 & s2 & pre2 & H2 & E2 & F2 & V & sv & dn' & RS & EN' & ST & SU2 & SP).
  assert (dn' = dn) by congruence. subst dn'.
  set (c2 := with_features None None (ignoring f g) c) in *.
  destruct (fastward_recovers c2 sampling pc dk o2 s2 pre2 n dn gd p P HK RO DS (conj eq_refl eq_refl) NF CL PN HP H2 E2 F2 EN ED NB NDT SA UN)
    as (sv2 & old & m & again & new & _ & ST2 & SP2 & EP & EV & EM & FA & REST).
  change (c_tree c2) with (c_tree c) in ST2.
  exists sv, (map place_of old), (map place_of again), new. split; [exact RS|]. split; [exact ST|]. split; [exact SU2|]. split; [exact SP|].
  assert (MV : map place_of (visited s2) = map place_of old ++ place_of dn :: map place_of again) by (rewrite EV, map_app, <- EM; reflexivity).
  split; [rewrite <- MV; exact EP|]. split; [rewrite <- MV, V; apply filter_places; exact FH|].
  split; [rewrite Forall_map; exact FA|].
  intros sv' T' P'. destruct (REST sv') as (x & RX & VX); [congruence|congruence|].
  destruct (fastward_session true (with_features (node_filter f) None client_nil c) sampling pc dk sv') as [o3 s3] eqn:H3.
  assert (X : exists b, proper b /\ n_path dn = join (n_path gd) b /\ n_name dn = b).
  { pose proof (visited_stands c2 sampling t _ _ HK RO H2) as VS. rewrite Forall_forall in VS.
    assert (SM : stands c2 (entries c2) (c_tree c2) (c_tree c2) t 0 n).
    { apply VS. unfold visited. rewrite E2, map_app. apply in_or_app. right. left. reflexivity. }
    assert (SDN : stands c2 (entries c2) (c_tree c2) (c_tree c2) t 0 dn).
    { inversion SM as [n' X1 X2 X3 X4|q i e n' HPq NT X1 X2 X3 X4]; subst n'; [congruence|].
      assert (q = dn) by congruence. subst q. exact HPq. }
    inversion SDN as [n' X1 X2 X3 X4|q i e n' HPq NT X1 X2 X3 X4]; subst n'; [congruence|].
    assert (q = gd) by congruence. subst q. exists (fname e).
    destruct (stands_paths c2 (c_tree c) (c_tree c) t 0 HK CL PN gd HPq) as (_ & PP & _).
    destruct (stands_paths c2 (c_tree c) (c_tree c) t 0 HK CL PN dn SDN) as (_ & _ & SPX).
    destruct (SPX gd ED) as [_ NM]. rewrite NM, X2. split; [|split; [exact X1|reflexivity]].
    inversion PP as [u Y]; subst u. apply Y. eapply entries_in_kids; [exact HK|]. eapply nth_error_In. exact NT. }
  destruct X as (b & PB & EJ & NM).
  destruct (proj2 SA b PB) as (_ & _ & S2 & S3).
  assert (PX : sv_path sv' = join (n_path gd) b) by congruence.
  assert (TX : sv_tree sv' = c_tree c) by congruence.
  destruct (selected_fastward c f sampling pc dk sv' o3 s3 (Ret None) x ND) as (A & _ & B).
  - symmetry. exact TX.
  - rewrite PX, S2. exact NDT.
  - rewrite PX, S3. destruct PB as (PB & _). exact PB.
  - rewrite PX, S3, TX, <- NM. exact NB.
  - exact H3.
  - exact RX.
  - destruct (visited x) as [|y rest] eqn:VE; [discriminate VX|].
    destruct (B y rest eq_refl) as (_ & B2 & _).
    assert (FY : f y = true).
    { rewrite FH. pose proof VX as E0. cbn [map app] in E0. apply (f_equal (hd (place_of y))) in E0. cbn [hd] in E0. rewrite E0, EM, <- FH. exact FD. }
    exists s3. assert (O3 : o3 = Ret None).
    { destruct A as [A|(e1 & e2 & _ & A & _)]; [exact A|discriminate A]. }
    subst o3. split; [reflexivity|]. rewrite (B2 FY), (filter_places f h _ FH). rewrite VX. cbn [map app]. rewrite <- EM. reflexivity.
Qed.

Theorem filtered_fastward_recovers : forall c f h g sampling pc dk o s pre n dn gd p P,
  let t := dk (c_tree c) in
  hooks_ok c -> root_ok c t -> default_skip c -> c_sub c = SubUniversal \/ c_sub c = SubDirectories ->
  clean (c_tree c) = c_tree c -> proper_names t ->
  preorder (entries c) [] (c_tree c) t P -> distinct_names c (c_tree c) t ->
  (forall m, f m = h (place_of m)) ->
  session (with_features (node_filter f) None (on_calls g) c) sampling t = (o, s) ->
  calls (s_trace s) = pre ++ [(n, CPanic p)] -> Forall (fun x => snd x = CNil) pre ->
  n_parent n = Some dn -> n_parent dn = Some gd ->
  n_name dn <> snd (split_path (c_tree c)) -> n_path gd <> "."%string -> sound_at pc (n_path gd) ->
  f dn = true ->
  exists sv old again new,
    rescues (s_trace s) = [sv] /\ sv_tree sv = c_tree c /\ sv_path sv = n_path dn /\
    filter (within (c_depth c) 0) P = (old ++ place_of dn :: again) ++ new /\
    map place_of (visited s) = filter h (old ++ place_of dn :: again) /\
    Forall (fun q => above (n_pos dn) (pl_pos q) = true) again /\
    forall sv', sv_tree sv' = sv_tree sv -> sv_path sv' = sv_path sv ->
    exists s2, fastward_session true (with_features (node_filter f) None client_nil c) sampling pc dk sv' = (Ret None, s2) /\
      map place_of (visited s2) = filter h (place_of dn :: again ++ new).
Proof.
  intros c f h g sampling pc dk o s pre n dn gd p P t HK RO DS SU CL PN HP UN FH H EC FN EN ED NB NDT SA FD.
  destruct (filtered_fastward_recovers_sub c f h g sampling pc dk o s pre n dn gd p P HK RO DS SU CL PN HP UN FH H EC FN EN ED NB NDT SA FD)
    as (sv & old & again & new & A & B & _ & D). exists sv, old, again, new. auto.
Qed.
