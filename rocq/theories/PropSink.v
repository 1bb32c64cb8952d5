(** Properties C110 and C111: the filtering sink (pref/options-filter.go) and the
    client's filter definitions. Vocabulary: SpecSink.v, SpecFilter.v, SpecBuild.v,
    SpecChild.v; [prime_replies]: the replies the sink is called with, in order,
    while Extent(Prime(facade, settings...)) is called, that is before any
    node is visited; [walk_prime]: what Navigate then does. *)
From Verif Require Import Base Paths Level Kernel Defaults Session Spec Filters SpecFilter FiltersFacts Hooks Life Options Build SpecBuild
  FilterProps SpecChild ChildProps OwnProps Cases CasesFacts BuildFacts BuildCases FilterCases Sink SpecSink SinkFacts.
Local Open Scope string_scope.

(** *** C110 *)
(** A node filter definition (glob, regex or extended glob): either the session is refused and
    nothing is delivered, or exactly one filter is, which has the definition's
    description, pattern and scope, and for exactly the nodes it accepts is the callback
    invoked. *)
Theorem c110_node_filter : forall env mt u ws t sub d, ordinary u ws sub -> sub <> SubDirectoriesWithFiles ->
  simple d -> fd_pattern d <> "" ->
  let ss := options_of env (ws ++ [WithFilter (only_node d)]) in
  (exists e, prime_replies env mt (FacUsing u) ss = [] /\
     walk_prime env mt (FacUsing u) ss t = mkReport (Ret (Some e)) [] None) \/
  (exists f, prime_replies env mt (FacUsing u) ss = [RpNode (Some f)] /\
     (forall cd cs cn, nf_description cd f = fd_desc d /\ nf_source cs f = fd_pattern d /\ nf_scope cn f = scope_used d) /\
     selected (matches mt f) (fun n => n) (walk_prime env mt (FacUsing u) ss t)
       (walk_prime env mt (FacUsing u) (options_of env (ws ++ [WithFilter no_filter])) t)).
Proof. exact node_reported. Qed.
Print Assumptions c110_node_filter.
(** A child filter, perhaps with a node filter: the node filter first; the
    directories visited have the children which the child filter delivered
    keeps. *)
Theorem c110_child_filter : forall env mt u ws t sub, ordinary u ws sub -> undisturbed env ws t ->
  sub = SubDirectories \/ sub = SubDirectoriesWithFiles -> subpath_blind ws ->
  forall od cd, node_part_ok mt od -> child_compiles mt cd -> cd_pattern cd <> "" ->
  let ss := options_of env (ws ++ [WithFilter (with_child od cd)]) in
  let r := walk_prime env mt (FacUsing u) ss t in
  let so := latest sets_sampling ws no_sampling in
  exists rs m, prime_replies env mt (FacUsing u) ss = (rs ++ [RpChild (Some m)])%list /\
    (forall l, m l = filter (fun e => child_keeps mt cd (fname e)) l) /\
    Forall (fun n => exists fs, sampled_part so (so_files so) (files_read ws (n_path n) (n_src n)) fs /\
      n_children n = m (latest sets_sort ws default_sort fs)) (nodes_of r) /\
    match od with
    | None => rs = []
    | Some d => exists f, rs = [RpNode (Some f)] /\ forall n, scope_ok n -> matches mt f n = accepts mt d n
    end.
Proof.
  intros env mt u ws t sub OR UD SB HB od cd NP CC PA ss r so.
  destruct (child_reported env mt u ws t sub OR UD SB HB od cd NP CC PA) as (rs & m & R & M & O).
  exists rs, m. split; [exact R|]. split; [exact M|]. split; [|exact O].
  destruct (child_session env mt u ws t sub OR UD SB od cd NP CC PA HB) as (_ & _ & F & _).
  eapply Forall_impl; [|exact F]. intros n (fs & S & E). exists fs. split; [exact S|]. rewrite M. exact E.
Qed.
Print Assumptions c110_child_filter.
(** Whatever the settings: at most one filter of each kind is delivered, the node
    filter first; *)
Theorem c110_at_most_one_each : forall env mt fac ss, exists a b, prime_replies env mt fac ss = (a ++ b)%list /\
  (a = [] \/ exists f, a = [RpNode f]) /\ (b = [] \/ exists m, b = [RpChild m]).
Proof.
  intros env mt [u|r] ss; cbn [prime_replies]; [|exists [], []; auto].
  destruct (prime_options env u ss) as [o [e|]]; [exists [], []; auto|].
  destruct (us_sub u); [|exists [], []; auto]. destruct (us_handler u); [|exists [], []; auto].
  unfold replies_of. destruct (filtering_active (op_filter o)); [apply replies_shape|exists [], []; auto].
Qed.
Print Assumptions c110_at_most_one_each.
(** if the session is ready, what was delivered is what the traversal asks; *)
Theorem c110_delivered_is_asked : forall mt o sub tree cl c smp, fst (build_plugins mt o sub tree cl) = BuildReady c smp ->
  (forall f, In (RpNode f) (replies_of mt o) -> exists sc, c_scheme c = Some sc /\ sc_primary sc = Some (PrimaryNode (answer_of mt f))) /\
  (forall m, In (RpChild (Some m)) (replies_of mt o) -> exists sc, c_scheme c = Some sc /\ exists g, sc_child sc = Some g /\ forall l, g l = inl (m l)).
Proof. exact delivered_is_asked. Qed.
Print Assumptions c110_delivered_is_asked.
(** and without an active filter nothing is delivered. *)
Theorem c110_nothing_without_filter : forall mt o, filtering_active (op_filter o) = false -> replies_of mt o = [].
Proof. intros mt o F. unfold replies_of. rewrite F. reflexivity. Qed.
Print Assumptions c110_nothing_without_filter.
(** Refuted: the client's own filter is not delivered, nor is a sample filter; *)
Theorem c110_own_and_sample_not_delivered_refuted : forall env mt u ws sub, ordinary u ws sub ->
  (forall cu, prime_replies env mt (FacUsing u) (options_of env (ws ++ [WithFilter (own_filter cu)])) = []) /\
  (forall sd, prime_replies env mt (FacUsing u) (options_of env (ws ++ [WithFilter (only_sample sd)])) = []).
Proof. exact not_delivered. Qed.
Print Assumptions c110_own_and_sample_not_delivered_refuted.
(** a session refused because of its child filter has delivered its node filter; *)
Theorem c110_delivered_although_refused_refuted : forall env mt u ws t sub, ordinary u ws sub ->
  forall d cd, compiles mt d -> fd_pattern d <> "" -> cd_type cd = FtGlobEx -> cd_pattern cd <> "" ->
  let ss := options_of env (ws ++ [WithFilter (with_child (Some d) cd)]) in
  (exists f, prime_replies env mt (FacUsing u) ss = [RpNode (Some f)]) /\
  walk_prime env mt (FacUsing u) ss t = mkReport (Ret (Some err_child_globex)) [] None.
Proof. exact delivered_although_refused. Qed.
Print Assumptions c110_delivered_although_refused_refuted.
(** and what is delivered may be nil. *)
Theorem c110_nil_delivered_refuted : forall env mt u ws sub, ordinary u ws sub ->
  forall d, fd_type d = FtCustom -> fd_pattern d <> "" ->
  prime_replies env mt (FacUsing u) (options_of env (ws ++ [WithFilter (only_node d)])) = [RpNode None].
Proof. exact nil_delivered. Qed.
Print Assumptions c110_nil_delivered_refuted.
(** A poly filter describes itself by its two parts; its scope has the file bit (4)
    and the directory bit (5), yet it says that it applies to no directory. *)
Theorem c110_poly_says : forall mt fd dd f cd cs cn, compiles mt fd -> compiles mt dd ->
  new_filter mt (poly_def fd dd) (only_node (poly_def fd dd)) = Ret (Some f, None) ->
  nf_description cd f = "Poly - FILE: '" ++ fd_desc fd ++ "', DIRECTORY: '" ++ fd_desc dd ++ "'" /\
  nf_source cs f = fd_pattern fd ++ "##" ++ fd_pattern dd /\
  N.testbit (nf_scope cn f) 4 = true /\ N.testbit (nf_scope cn f) 5 = true /\
  forall cu n, n_isdir n = true -> nf_applicable mt cu f n = false.
Proof.
  intros mt fd dd f cd cs cn CF CD NF. destruct (poly_says mt fd dd f cd cs cn CF CD NF) as ((A & B) & C & D & E). repeat split; assumption.
Qed.
Print Assumptions c110_poly_says.
(** A glob or regex filter is applicable exactly to the nodes in its scope. *)
Theorem c110_applicable : forall mt d f cu n, compiles mt d -> scope_ok n ->
  new_filter mt d (only_node d) = Ret (Some f, None) -> nf_applicable mt cu f n = true <-> in_scope (fd_scope d) n.
Proof. exact applicable_in_scope. Qed.
Print Assumptions c110_applicable.

Definition said (r : reply) : string * string :=
  match r with
  | RpNode (Some f) => (nf_description (fun _ => "") f, nf_source (fun _ => "") f)
  | RpNode None => ("nil", "")
  | RpChild (Some m) => ("child", String.concat "," (map fname (m [File "x"; File "y"])))
  | RpChild None => ("nil child", "")
  end.
Example c110_case :
  let run fo := map said (prime_replies env0 mt0 (FacUsing (using_ SubDirectories None)) (options_of env0 [WithFilter fo])) in
  let d ty := mkFilterDef ty "only r" "r" ScopeDirectory false TriUndefined None in
  let cd ty := mkChildDef ty "not x" "x" true in
  ordinary (using_ SubDirectories None) [] SubDirectories /\ simple (d FtRegex) /\ compiles mt0 (d FtRegex) /\
  run (only_node (d FtRegex)) = [("only r", "r")] /\
  run (with_child (Some (d FtRegex)) (cd FtGlob)) = [("only r", "r"); ("child", "y")] /\
  run (with_child (Some (d FtRegex)) (cd FtGlobEx)) = [("only r", "r")] /\
  run (only_node (d FtGlobEx)) = [] /\ run (only_node (d FtCustom)) = [("nil", "")] /\
  run (only_node (poly_def (d FtGlob) (d FtRegex))) = [("Poly - FILE: 'only r', DIRECTORY: 'only r'", "r##r")] /\
  run (own_filter accept_all) = [] /\ run no_filter = [].
Proof.
  split; [apply ordinary_default|]. split; [right; left; reflexivity|]. split; [right; split; [reflexivity|eexists; reflexivity]|].
  repeat split; vm_compute; reflexivity.
Qed.

(** *** C111 *)
(** Refuted: the definitions a client gives are not left as they were. *)
Theorem c111_definition_changed_refuted : forall mt, exists fo fo', options_settle mt fo = fo' /\ fo' <> fo /\
  fo_node fo = Some (mkFilterDef FtGlobEx "" "*|*.flac" ScopeDirectory false TriUndefined None) /\
  fo_node fo' = Some (mkFilterDef FtGlobEx "" "*|*.flac" ScopeFile false TriUndefined None).
Proof.
  intro mt. exists (only_node (mkFilterDef FtGlobEx "" "*|*.flac" ScopeDirectory false TriUndefined None)).
  eexists. split; [reflexivity|]. split; [|split; reflexivity]. vm_compute. discriminate.
Qed.
Print Assumptions c111_definition_changed_refuted.
(** What changes are scopes only, *)
Theorem c111_only_scopes_change : forall mt fo,
  fo_child (options_settle mt fo) = fo_child fo /\ fo_sample (options_settle mt fo) = fo_sample fo /\
  fo_custom (options_settle mt fo) = fo_custom fo /\
  match fo_node fo, fo_node (options_settle mt fo) with
  | Some d, Some d' => but_scopes d d'
  | None, None => True
  | _, _ => False
  end.
Proof. exact only_scopes_change. Qed.
Print Assumptions c111_only_scopes_change.
(** only of an extended glob and of the parts of a poly filter; *)
Theorem c111_others_unchanged : forall mt fo d, fo_node fo = Some d ->
  fd_type d <> FtGlobEx -> fd_type d <> FtPoly -> options_settle mt fo = fo.
Proof. exact others_unchanged. Qed.
Print Assumptions c111_others_unchanged.
(** after which they are settled; *)
Theorem c111_settled_once : forall mt fo, options_settle mt (options_settle mt fo) = options_settle mt fo.
Proof. exact settled_once. Qed.
Print Assumptions c111_settled_once.
(** and a session with the changed definitions is the same as the first: every
    tree, facade and place among the options; also when the options are given
    as Using.O; and what the sink is given. *)
Theorem c111_used_again : forall env mt u pre fo post t,
  walk_prime env mt (FacUsing u) (options_of env (pre ++ WithFilter (options_settle mt fo) :: post)) t =
  walk_prime env mt (FacUsing u) (options_of env (pre ++ WithFilter fo :: post)) t.
Proof. exact walk_again. Qed.
Print Assumptions c111_used_again.
Theorem c111_used_again_as_options : forall env mt u o ss t, us_options u = Some o ->
  walk_prime env mt (FacUsing (mkUsing (us_tree u) (us_sub u) (us_handler u)
    (Some (set_filter (options_settle mt (op_filter o)) o)))) ss t =
  walk_prime env mt (FacUsing u) ss t.
Proof. exact walk_again_given. Qed.
Print Assumptions c111_used_again_as_options.
Theorem c111_same_replies : forall mt o, replies_of mt (set_filter (options_settle mt (op_filter o)) o) = replies_of mt o.
Proof.
  intros mt o. unfold replies_of. cbn [op_filter op_sampling set_filter]. rewrite settle_active, settle_scheme. reflexivity.
Qed.
Print Assumptions c111_same_replies.
Example c111_case :
  let part ty := mkFilterDef ty "" "*|x" (N.lor ScopeDirectory ScopeLeaf) false TriUndefined None in
  let scopes fo := match fo_node fo with
    | Some d => match fd_poly d with Some (f, g) => [fd_scope d; fd_scope f; fd_scope g] | None => [fd_scope d] end
    | None => [] end in
  let fo := only_node (poly_def (part FtGlob) (part FtGlobEx)) in
  scopes fo = [0; 36; 36]%N /\ scopes (options_settle mt0 fo) = [0; 20; 16]%N.
Proof. split; vm_compute; reflexivity. Qed.
